(** Property C97: accounts handed over beyond those an instruction needs do not matter. *)

From Coq Require Import Strings.String.
From Verif Require Import TpDemoLaws BindLaws Extra PropClient PropLocal.
Open Scope Z_scope.
Open Scope list_scope.

(** The instruction is none of the two that look whether there are further accounts: filling withdrawals with a deposit
    (token-proxy/src/processor.rs:4096), and executing an Ever withdrawal of a token that is not registered
    (token-proxy/src/processor.rs:1544-1548), where only the tenth account counts. *)
Definition settled (p : program) (n : nat) (d : bytes) : Prop :=
  p = Proxy -> forall i, try_from_slice c_tp_ix d = Some i ->
  (forall a b x y z w, i <> TpFill a b x y z w) /\ (i = TpWithdrawEver -> (10 <= n)%nat).

Lemma settled_bounded n d i : settled Proxy n d -> try_from_slice c_tp_ix d = Some i -> bounded i n.
Proof.
  intros S D. destruct (S eq_refl _ D) as [F W]. destruct i; cbn [bounded]; try exact I; [specialize (W eq_refl); lia|].
  eapply F. reflexivity.
Qed.
Lemma up_ctx p ms xs : up (ctx_of p ms) (ctx_of p (ms ++ xs)) /\ c_keys (ctx_of p (ms ++ xs)) = c_keys (ctx_of p ms) ++ map m_key xs.
Proof.
  unfold ctx_of, up. cbn [c_pid c_keys c_sg c_wr]. rewrite map_app. repeat split; auto.
  - intros k I. apply in_or_app. auto.
  - intros k E. rewrite existsb_app, E. reflexivity.
  - intros k E. rewrite existsb_app, E. reflexivity.
Qed.
Lemma run_up p ms xs (m m' : M unit) s s' : grow m m' -> rel (roR (c_wr (ctx_of p ms))) m -> rel (roR (c_wr (ctx_of p (ms ++ xs)))) m' ->
  run (ctx_of p ms) m s = Ok s' -> run (ctx_of p (ms ++ xs)) m' s = Ok s'.
Proof. intros G R R'. apply run_mim; try assumption; try apply ctx_wr_in. intros r. apply G. Qed.

(** An instruction that succeeds also succeeds, with the same ledger afterwards, if further accounts are handed over behind
    its own, whatever they are and whatever their privileges. *)
Theorem C97_partial : forall e ext p ms xs d s s', ext_ro ext -> settled p (length ms) d ->
  exec e ext (Job p ms d) s = Ok s' -> exec e ext (Job p (ms ++ xs) d) s = Ok s'.
Proof.
  intros e ext p ms xs d s s' X N. unfold exec. destruct p; cbn [j_prog j_metas j_data]; cbv zeta.
  - destruct (up_ctx rl_id ms xs) as [U B]. apply run_up; [eapply up_rl_process; eassumption| |]; apply ro_rl_process; intros k K; exact K.
  - destruct (up_ctx tp_id ms xs) as [U B]. apply run_up; [|apply ro_tp_process; [exact X|intros k K; exact K]..].
    unfold tp_process. destruct (try_from_slice c_tp_ix d) as [i|] eqn:D; [|intros z r H; discriminate H].
    change (grow (tp_exec e ext (ctx_of tp_id ms) i) (tp_exec e ext (ctx_of tp_id (ms ++ xs)) i)). eapply up_tp_exec; [exact U|exact B|].
    eapply settled_bounded; [|exact D]. unfold ctx_of. cbn [c_keys]. rewrite map_length. exact N.
  - destruct (up_ctx np_id ms xs) as [U B]. apply run_up; [eapply up_np_process; eassumption| |];
      (intros z a z' H; unfold np_process in H; apply bind_ok in H as (i & s1 & E & H); apply lift_ok in E as [_ ->];
       eapply ro_np_exec; [exact X| |exact H]; intros k K; exact K).
Qed.

Lemma bind_go {A B} (m m' : M A) (f : A -> M B) s a s1 r : m s = Ok (a, s1) -> grow m m' -> f a s1 = r -> bind m' f s = r.
Proof. intros E G H. unfold bind. rewrite (G _ _ E). exact H. Qed.
Lemma ever_live e c c' xs s tsk r : up c c' -> c_keys c' = c_keys c ++ xs -> nth_error (c_keys c) 3 = Some tsk -> lam (accs s tsk) <> 0 ->
  tp_withdraw_ever e c s = Ok r -> tp_withdraw_ever e c' s = Ok r.
Proof.
  intros U B T L H. unfold tp_withdraw_ever in *. rewrite B. revert T H.
  destruct (c_keys c) as [|k0 [|k1 [|k2 [|k3 [|k4 [|k5 [|k6 [|k7 [|k8 l]]]]]]]]] eqn:K; intros T H; try discriminate H. cbn [app]. injection T as ->.
  apply bind_ok in H as (a0 & s1 & E & H). pose proof (check_rent_ok _ _ _ _ E) as (_ & ->). eapply bind_go; [exact E|apply grow_refl|]. clear E.
  apply bind_ok in H as (t & s1 & E & H). pose proof (check_clock_ok _ _ _ _ E) as (_ & _ & ->). eapply bind_go; [exact E|apply grow_refl|]. clear E.
  apply bind_ok in H as (g & s1 & E & H). pose proof (tp_live_settings_ok _ _ _ _ _ _ E) as (-> & _). eapply bind_go; [exact E|repeat up_step U B|]. clear E.
  apply bind_ok in H as ([w wk] & s1 & E & H). pose proof (valid_wever_ok _ _ _ _ _ _ _ E) as (-> & _). eapply bind_go; [exact E|repeat up_step U B|]. clear E.
  apply bind_ok in H as (a & s1 & E & H). pose proof (get_ok _ _ _ _ E) as (-> & ->). eapply bind_go; [exact E|apply grow_refl|]. clear E. revert H.
  apply Z.eqb_neq in L. rewrite L. assert (G : grow (withdraw_ever_exec e c w wk k0 k1 k2 tsk t) (withdraw_ever_exec e c' w wk k0 k1 k2 tsk t)) by (repeat up_step U B).
  apply G.
Qed.

(** So does the execution of an Ever withdrawal if the token is registered, that is, if its settings account (the fourth)
    holds lamports. *)
Theorem C97_ever : forall e ext ms xs tsk s s', ext_ro ext -> nth_error (map m_key ms) 3 = Some tsk -> lam (accs s tsk) <> 0 ->
  exec e ext (Job Proxy ms (enc c_tp_ix TpWithdrawEver)) s = Ok s' -> exec e ext (Job Proxy (ms ++ xs) (enc c_tp_ix TpWithdrawEver)) s = Ok s'.
Proof.
  intros e ext ms xs tsk s s' X T L. unfold exec. cbn [j_prog j_metas j_data]. cbv zeta. destruct (up_ctx tp_id ms xs) as [U B].
  apply run_mim; try apply ctx_wr_in; [|apply ro_tp_process; [exact X|intros k K; exact K]..].
  intros r. unfold tp_process. assert (D : try_from_slice c_tp_ix (enc c_tp_ix TpWithdrawEver) = Some TpWithdrawEver) by (vm_compute; reflexivity).
  rewrite D. exact (ever_live e _ _ _ s tsk r U B T L).
Qed.

(** The first nine accounts of the execution of an Ever withdrawal of a token that is not registered: it succeeds and does
    nothing.  With further accounts behind them it registers the token and pays. *)
Definition short_job : job := Job Proxy (firstn 9 (fst texecX)) (enc c_tp_ix TpWithdrawEver).
Definition long_job : job := Job Proxy (firstn 9 (fst texecX) ++ skipn 9 (fst texecX)) (enc c_tp_ix TpWithdrawEver).
Theorem C97_refuted : exists s s1 s2,
  exec te no_ext short_job s = Ok s1 /\ exec te no_ext long_job s = Ok s2 /\ j_metas long_job = j_metas short_job ++ skipn 9 (fst texecX) /\
  p_required (the_req s tw8) <= confirms (p_signers (the_req s tw8)) /\ lam (accs s1 ttsX) = 0 /\ 0 < lam (accs s2 ttsX) /\
  wm_status (the_meta s1 tw8) = WNew /\ wm_status (the_meta s2 tw8) = WProcessed.
Proof.
  exists ts31, (unres (exec te no_ext short_job ts31)), (unres (exec te no_ext long_job ts31)).
  split; [apply ok_unres; vm_compute; reflexivity|]. split; [apply ok_unres; vm_compute; reflexivity|]. split; [reflexivity|].
  split; [vm_compute; discriminate|]. split; [vm_compute; reflexivity|]. split; [vm_compute; reflexivity|]. split; vm_compute; reflexivity.
Qed.

(** The vote of a relay with two more accounts behind its own, one of them the relay again. *)
Example C97_ex : settled Proxy (length (j_metas vote_job)) (j_data vote_job) /\ is_ok (exec te no_ext vote_job ts3) = true /\
  is_ok (exec te no_ext (Job Proxy (j_metas vote_job ++ [sw tfunder; ww trelay1]) (j_data vote_job)) ts3) = true /\
  beqb (dat (accs (unres (exec te no_ext (Job Proxy (j_metas vote_job ++ [sw tfunder; ww trelay1]) (j_data vote_job)) ts3)) tw1)) (dat (accs ts3 tw1)) = false.
Proof.
  split; [|split; [vm_compute; reflexivity|split; vm_compute; reflexivity]].
  intros _ i D. vm_compute in D. injection D as <-. split; [intros; discriminate|discriminate].
Qed.

Print Assumptions C97_partial.
(** The Ever withdrawal of a registered token with the accounts of a registration behind the nine. *)
Example C97_ever_ex : nth_error (map m_key (fst (texecE tw7 trecvE []))) 3 = Some ttsE /\ (lam (accs ts25 ttsE) =? 0) = false /\
  is_ok (exec te no_ext (proxy_job (texecE tw7 trecvE [])) ts25) = true /\
  is_ok (exec te no_ext (proxy_job (texecE tw7 trecvE [sw tfunder; ro trecv; ww trecvX])) ts25) = true.
Proof. split; [reflexivity|]. split; [vm_compute; reflexivity|]. split; vm_compute; reflexivity. Qed.

Print Assumptions C97_ever.
Print Assumptions C97_refuted.
