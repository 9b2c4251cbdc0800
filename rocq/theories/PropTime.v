(** Properties C94 and C95: what the time matters for. *)

From Coq Require Import Strings.String ZifyBool ZifyNat ZifyN.
From Verif Require Import TpDemoLaws DemoLaws TpRequest PropVotes Timeless PropLocal.
From Verif Require PropRounds.
Open Scope Z_scope.
Open Scope list_scope.
Ltac Zify.zify_post_hook ::= Z.div_mod_to_equations.

(** * C95: time enters through the clock account only *)

(** The outcome of every call of the round loader is the same at all times: refused with the same error, or the same
    accounts and the same log afterwards. *)
Theorem C95_loader : forall e ext ms d s n,
  exec e ext (Job Loader ms d) (at_time s n) = match exec e ext (Job Loader ms d) s with Ok s' => Ok (at_time s' n) | Err x => Err x end.
Proof. intros e ext ms d s n. unfold exec. cbn [j_prog j_metas j_data]. cbv zeta. apply tl_run, tl_rl_process. Qed.

(** In the token proxy the time matters for requests, payouts and approvals only. *)
Theorem C95_proxy : forall e ext ms d i s n, try_from_slice c_tp_ix d = Some i -> is_payload i = false ->
  match i with
  | TpWithdrawEverRequest _ _ _ _ _ _ _ _ _ _ _ | TpWithdrawSolRequest _ _ _ _ _ _ _ | TpWithdrawEver | TpWithdrawSol | TpApproveEver | TpApproveSol => False
  | _ => True
  end ->
  exec e ext (Job Proxy ms d) (at_time s n) = match exec e ext (Job Proxy ms d) s with Ok s' => Ok (at_time s' n) | Err x => Err x end.
Proof.
  intros e ext ms d i s n D P A. unfold exec. cbn [j_prog j_metas j_data]. cbv zeta. apply tl_run. unfold tp_process. rewrite D.
  assert (A' : asks_time i = false) by (destruct i; first [reflexivity|contradiction]).
  exact (tl_tp_other e ext (ctx_of tp_id ms) i A' P).
Qed.

(** For payouts and approvals only the day matters. *)
Theorem C95_day : forall e ext ms d i s n n', try_from_slice c_tp_ix d = Some i ->
  (i = TpWithdrawEver \/ i = TpWithdrawSol \/ i = TpApproveEver \/ i = TpApproveSol) -> 0 <= n -> 0 <= n' -> n / 86400 = n' / 86400 ->
  exec e ext (Job Proxy ms d) (at_time s n') = match exec e ext (Job Proxy ms d) (at_time s n) with Ok s' => Ok (at_time s' n') | Err x => Err x end.
Proof.
  intros e ext ms d i s n n' D B N N' Q. unfold exec. cbn [j_prog j_metas j_data]. cbv zeta. apply daily_run.
  - unfold tp_process. rewrite D. exact (daily_tp_exec e ext (ctx_of tp_id ms) i B).
  - unfold epoch_of. rewrite !Z.quot_div_nonneg by lia. exact Q.
Qed.

(** Whatever a call does, if the clock is not in its account list then it does the same at all times. *)
Theorem C95_clock : forall e ext j s n, ext_clock ext -> (forall m, In m (j_metas j) -> m_key m <> clock_id) ->
  exec e ext j (at_time s n) = match exec e ext j s with Ok s' => Ok (at_time s' n) | Err x => Err x end.
Proof.
  intros e ext j s n X H. assert (N : forall p, hides (ctx_of p (j_metas j))).
  { intros p I. cbn [c_keys ctx_of] in I. apply in_map_iff in I as (m & E & I). exact (H m I E). }
  unfold exec. destruct j as [[] ms d]; cbn [j_prog j_metas j_data] in *; cbv zeta; apply tl_run.
  - apply tl_rl_process.
  - apply tl_tp_process; [exact X|apply N].
  - apply tl_np_process; [exact X|apply N].
Qed.
(** Payloads that call the bridge are like that. *)
Theorem C95_payloads : forall e n, ext_clock (bridge_ext e n).
Proof.
  intros e n. induction n as [|n IH]; intros c d H; cbn [bridge_ext]; [apply tl_fail|].
  repeat match goal with |- timeless (if ?b then _ else _) => destruct b end; try apply tl_nested.
  - apply tl_tp_process; assumption.
  - apply tl_rl_process.
  - apply tl_np_process; assumption.
  - apply tl_fail.
Qed.

(** * C94: a relay round that is over *)

(** No withdrawal is requested from a round that is over. *)
Theorem C94_partial : forall e ext c i s s' p rrk rr, tp_call e ext c i s s' ->
  match i with TpWithdrawEverRequest _ _ _ _ _ _ _ _ _ _ _ => p = 4%nat | TpWithdrawSolRequest _ _ _ _ _ _ _ => p = 5%nat | _ => False end ->
  nth_error (c_keys c) p = Some rrk -> unpack c_relay_round RELAY_ROUND_LEN rr_init (dat (accs s rrk)) = Ok rr ->
  now s mod 2 ^ 32 < rr_end rr.
Proof.
  intros e ext c i s s' p rrk rr C P N U. apply tp_call_exec in C as (_ & _ & _ & H). destruct i; try contradiction; subst p; cbn [tp_exec] in H.
  - apply tp_withdraw_ever_request_ok in H as (f & a & w & rls & rrk' & x & y & z & rest & K & H). rewrite K in N. cbn [nth_error] in N. injection N as <-.
    destruct H as (r1 & r2 & rr' & r4 & s1 & _ & _ & _ & _ & (U' & _) & L & _). rewrite U in U'. injection U' as <-. exact L.
  - apply tp_withdraw_sol_request_ok in H as (f & a & w & tsk & rls & rrk' & x & y & z & rest & K & H). rewrite K in N. cbn [nth_error] in N. injection N as <-.
    destruct H as (r1 & r2 & r3 & r4 & r5 & r6 & rr' & r7 & s1 & _ & _ & _ & _ & (U' & _) & L & _). rewrite U in U'. injection U' as <-. exact L.
Qed.

(** The votes of a round that is over count in the token proxy: the relays vote 200 000 000 seconds after the end of
    their round, and the withdrawal is paid. *)
Definition late_votes : list job := map proxy_job (tvotes tw1 tround).
Definition late_pay : job := proxy_job (texecS tw1 trecvS tmintS).
Theorem C94_refuted : exists s s1 s' rr,
  round_stands te s (p_round (the_req s tw1)) tround rr /\ rr_end rr + 200000000 <= now s mod 2 ^ 32 /\ is_req s tw1 = true /\
  p_signers (the_req s tw1) = [VNone; VNone; VNone] /\
  exec_all te no_ext late_votes s = Ok s1 /\ p_signers (the_req s1 tw1) = [VConfirm; VConfirm; VConfirm] /\
  exec te no_ext late_pay s1 = Ok s' /\ wm_status (the_meta s1 tw1) = WNew /\ wm_status (the_meta s' tw1) = WProcessed.
Proof.
  exists (at_time ts3 2000000000), (unres (exec_all te no_ext late_votes (at_time ts3 2000000000))).
  exists (unres (exec te no_ext late_pay (unres (exec_all te no_ext late_votes (at_time ts3 2000000000))))).
  exists (RelayRound true (KRelayRound 255) 10 1800000000 [trelay1; trelay2; trelay3]).
  split; [exists 255; split; [vm_compute; reflexivity|]; split; vm_compute; reflexivity|].
  split; [vm_compute; discriminate|]. split; [vm_compute; reflexivity|]. split; [vm_compute; reflexivity|].
  split; [apply ok_unres; vm_compute; reflexivity|]. split; [vm_compute; reflexivity|].
  split; [apply ok_unres; vm_compute; reflexivity|]. split; vm_compute; reflexivity.
Qed.

(** So do they in the round loader: relays of rounds that are over for long appoint the next round. *)
Definition loader_job (x : list meta * rl_ix) : job := Job Loader (fst x) (enc c_rl_ix (snd x)).
Definition late_handover : list job := map loader_job [de_vote de_r10 (knum 21); de_vote de_r11 (knum 21); de_vote de_r11 (knum 31); de_exec].
Definition end_of (s : state) (k : key) : res Z := rbind (unpack c_relay_round RELAY_ROUND_LEN rr_init (dat (accs s k))) (fun rr => Ok (rr_end rr)).
Theorem C94_refuted_rounds : exists s s' rr,
  (forall k z, In k [de_r10; de_r11; de_r12] -> end_of s k = Ok z -> z + 1000000 <= now s mod 2 ^ 32) /\ dat (accs s de_r5) = [] /\
  exec_all de no_ext late_handover s = Ok s' /\ unpack c_relay_round RELAY_ROUND_LEN rr_init (dat (accs s' de_r5)) = Ok rr /\ rr_relays rr = re_relays de_ev.
Proof.
  exists (at_time ds7 2000000000), (unres (exec_all de no_ext late_handover (at_time ds7 2000000000))). eexists.
  split; [intros k z I; cbn [In] in I; repeat destruct I as [I|I]; try contradiction; subst k; intros E; vm_compute in E; injection E as <-; vm_compute; discriminate|].
  split; [vm_compute; reflexivity|]. split; [apply ok_unres; vm_compute; reflexivity|]. split; vm_compute; reflexivity.
Qed.

(** * Concrete cases *)

(** A request from the round before and after its end. *)
Definition ask_job := proxy_job (treqS trecv tw1 tround 7 tev1 []).
Example C94_ex : is_ok (exec te no_ext ask_job (at_time ts2 1799999999)) = true /\ exec te no_ext ask_job (at_time ts2 1800000000) = Err (Custom 2).
Proof. split; vm_compute; reflexivity. Qed.
(** The clock is in the list of a request, not in the list of a vote. *)
Example C95_ex : (forall m, In m (j_metas vote_job) -> m_key m <> clock_id) /\ is_ok (exec te no_ext vote_job (at_time ts3 5)) = true /\
  ~ (forall m, In m (j_metas ask_job) -> m_key m <> clock_id).
Proof.
  split; [intros m M; cbn [In j_metas vote_job proxy_job fst tvote] in M; repeat destruct M as [M|M]; try contradiction; subst m; discriminate|].
  split; [vm_compute; reflexivity|]. intros H. apply (H (ro clock_id)); [do 8 right; left; reflexivity|reflexivity].
Qed.
(** The payout of a confirmed request on one day, in the morning and in the evening. *)
Example C95_day_ex : is_ok (exec te no_ext late_pay (at_time ts4 1700006400)) = true /\ is_ok (exec te no_ext late_pay (at_time ts4 1700092799)) = true /\
  1700006400 / 86400 = 1700092799 / 86400.
Proof. repeat split; vm_compute; reflexivity. Qed.

Print Assumptions C94_partial.
Print Assumptions C94_refuted.
Print Assumptions C94_refuted_rounds.
Print Assumptions C95_loader.
Print Assumptions C95_proxy.
Print Assumptions C95_day.
Print Assumptions C95_clock.
Print Assumptions C95_payloads.
