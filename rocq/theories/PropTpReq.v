(** Properties C26, C27, C28, C36, C43, C47, C50 and C62: the life of a withdrawal request. *)

From Coq Require Import Strings.String ZifyBool ZifyNat ZifyN.
From Verif Require Import TpDemoLaws.
Open Scope Z_scope.
Open Scope list_scope.
Ltac Zify.zify_post_hook ::= Z.div_mod_to_equations.

(** Number of confirmations among the recorded votes. *)
Definition confirmations (l : list vote) : Z := Z.of_nat (List.length (filter (fun v => match v with VConfirm => true | _ => false end) l)).
Lemma confirmations_is l : confirms l = confirmations l.
Proof.
  reflexivity.
Qed.

(** * C26 No withdrawal is executed without a two-thirds quorum *)

(** No instruction makes a request leave its first status unless the required number of positions
    confirmed before. *)
Theorem C26_leave_new : forall e ext c i s s' k g m g' m', tp_call e ext c i s s' -> ext_outside ext -> no_collision e k ->
  request_at e s k g m -> request_at e s' k g' m' -> wm_status m = WNew -> wm_status m' <> WNew ->
  p_required g <= confirmations (p_signers g) /\ (i = TpWithdrawEver \/ i = TpWithdrawSol) /\ hd_error (c_keys c) = Some k.
Proof.
  intros e ext c i s s' k g m g' m' C X NC R R' ST ST'.
  destruct (req_status _ _ _ _ _ _ _ _ _ _ _ C X NC R R') as (_ & _ & _ & _ & _ & [E|(MV & WP & QU)]); [congruence|].
  rewrite ST in MV. rewrite <- confirmations_is. destruct i; try discriminate; (split; [apply QU; reflexivity|]); (split; [auto|]);
    specialize (WP eq_refl); cbn [wpos] in WP; destruct (c_keys c); (discriminate || exact WP).
Qed.

(** Every request of a history that starts without one: the required number exceeds two thirds of the
    vote positions, and once the first status is left that many positions confirmed.  Partial: what
    payloads call does not call back into the token proxy, and payload execution is applied to requests
    only (see [payload_checked]). *)
Theorem C26_history_partial : forall e k s s', no_collision e k -> req_hist e any_instr s s' -> nonneg s -> no_request s k ->
  no_request s' k \/ exists g m, request_at e s' k g m /\
    2 * Z.of_nat (List.length (p_signers g)) < 3 * p_required g /\
    (wm_status m = WNew \/ p_required g <= confirmations (p_signers g)).
Proof.
  intros e k s s' NC H N I. destruct (requests_sound _ _ _ _ NC H N (or_introl I)) as [_ [Q|(g & m & R & SR)]]; [left; exact Q|right].
  exists g, m. split; [exact R|]. destruct SR as [S1 S2 _]. rewrite <- confirmations_is. split; [exact S1|exact S2].
Qed.

(** The record of a relay round, at the address that the round loader uses for round [n]. *)
Definition round_record (e : env) (s : state) (n : Z) (k : key) (rr : relay_round) : Prop :=
  (exists b, find_pda e (str "relay_round" ++ le 4 n) rl_id = Ok (k, b)) /\
  unpack c_relay_round RELAY_ROUND_LEN rr_init (dat (accs s k)) = Ok rr.

(** The required number and the vote positions come from the round named in the request and the settings, as
    recorded by the round loader when the request is made. *)
Theorem C26_required : forall e ext c i s s' k g m, tp_call e ext c i s s' -> tp_ext e 0 ext -> payload_checked e c i s ->
  no_request s k -> request_at e s' k g m ->
  wm_status m = WNew /\
  exists rrk rr, round_record e s (p_round g) rrk rr /\ wrap32 (now s) < rr_end rr /\
    p_signers g = repeat VNone (List.length (rr_relays rr)) /\
    2 * Z.of_nat (List.length (rr_relays rr)) < 3 * p_required g /\
    exists sk st, (exists b, find_pda e (str "settings") rl_id = Ok (sk, b)) /\
      unpack c_rl_settings RL_SETTINGS_LEN rs_init (dat (accs s sk)) = Ok st /\ rs_min_votes st <= p_required g /\
      (3 * p_required g <= 2 * Z.of_nat (List.length (rr_relays rr)) + 3 \/ p_required g = rs_min_votes st).
Proof.
  intros e ext c i s s' k g m C X PC NR R. destruct (request_born _ _ _ _ _ _ _ C X PC NR) as [NR'|(g0 & m0 & rls & rr & B)].
  - destruct (request_kind _ _ _ _ _ R) as (n & pn & K). destruct (NR' (proj1 R) n pn K).
  - destruct (request_fun _ _ _ _ _ _ _ (bo_req _ _ _ _ _ _ _ _ _ _ B) R) as [-> ->]. split; [rewrite (bo_meta _ _ _ _ _ _ _ _ _ _ B); reflexivity|].
    destruct (bo_round _ _ _ _ _ _ _ _ _ _ B) as (rrk & U & b & _ & F). exists rrk, rr.
    split; [split; [exists b; rewrite (bo_number _ _ _ _ _ _ _ _ _ _ B); exact F|exact U]|].
    split; [apply B|]. split; [apply B|]. pose proof (sr_thirds _ _ _ _ (born_sound _ _ _ _ _ _ _ _ _ _ B)) as T.
    rewrite (bo_signers _ _ _ _ _ _ _ _ _ _ B) in T. unfold blen in T. rewrite repeat_length in T. split; [exact T|].
    destruct (bo_settings _ _ _ _ _ _ _ _ _ _ B) as (sk & pn & US & n & _ & P). exists sk, rls. split; [exists n; exact P|].
    split; [exact US|]. rewrite (bo_required _ _ _ _ _ _ _ _ _ _ B). unfold required_votes. split; [lia|].
    assert (TU : 3 * two_thirds (blen (rr_relays rr)) <= 2 * blen (rr_relays rr) + 3).
    { unfold two_thirds, wrap32, u32max. pose proof (blen_nonneg (rr_relays rr)). lia. }
    unfold blen in *. lia.
Qed.

Example C26_leave_new_ex :
  let x := texecS tw1 trecvS tmintS in
  tp_call te no_ext (ctx_of tp_id (fst x)) (snd x) ts4 ts5 /\ no_collision te tw1 /\
  request_at te ts4 tw1 (the_req ts4 tw1) (the_meta ts4 tw1) /\ request_at te ts5 tw1 (the_req ts5 tw1) (the_meta ts5 tw1) /\
  wm_status (the_meta ts4 tw1) = WNew /\ wm_status (the_meta ts5 tw1) = WProcessed /\
  p_required (the_req ts4 tw1) = 3 /\ p_signers (the_req ts4 tw1) = [VConfirm; VConfirm; VConfirm].
Proof.
  cbv zeta. split; [demo_call|]. split; [exact tw1_sole|]. split; [demo_req|]. split; [demo_req|]. vm_compute. repeat split; reflexivity.
Qed.
Example C26_required_ex :
  let x := treqS trecv tw1 tround 7 tev1 [] in
  tp_call te no_ext (ctx_of tp_id (fst x)) (snd x) ts2 ts3 /\ no_request ts2 tw1 /\
  request_at te ts3 tw1 (the_req ts3 tw1) (the_meta ts3 tw1) /\ p_required (the_req ts3 tw1) = 3.
Proof.
  cbv zeta. split; [demo_call|]. split; [|split; [demo_req|vm_compute; reflexivity]].
  intros O. apply (f_equal (fun k => keqb k tp_id)) in O. vm_compute in O. discriminate O.
Qed.
Definition tlife1 : list (list meta * tp_ix) :=
  [tinit; tdep tuser tuserS tvault td1 tmintS 1 100000; treqS trecv tw1 tround 7 tev1 []] ++ tvotes tw1 tround ++ [texecS tw1 trecvS tmintS].
Example C26_history_ex : no_collision te tw1 /\ req_hist te any_instr ts0 (unres (tstps ts0 tlife1)) /\ nonneg ts0 /\ no_request ts0 tw1 /\
  wm_status (the_meta (unres (tstps ts0 tlife1)) tw1) = WProcessed.
Proof.
  split; [exact tw1_sole|]. split.
  - apply (tstps_req _ (fun _ => true)); [intros; exact Logic.I|apply h_refl|vm_compute; reflexivity|vm_compute; repeat split; discriminate|vm_compute; reflexivity].
  - split; [apply demo_nonneg; vm_compute; reflexivity|]. split; [|vm_compute; reflexivity].
    intros O. apply (f_equal (fun k => keqb k tp_id)) in O. vm_compute in O. discriminate O.
Qed.

(** * C27 Votes are cast by the relays of the request's round, once each, and never change *)

(** A vote either changes nothing, or fills the empty position of the relay that signed in the round of
    the request, and pays that relay exactly the reparation. *)
Theorem C27_vote : forall e ext c v s s', tp_call e ext c (TpVote v) s s' ->
  exists relay k rrk rest g rr j,
    c_keys c = relay :: k :: rrk :: rest /\ c_sg c relay = true /\ v <> VNone /\
    unpack_from_slice c_gprop (dat (accs s k)) = Ok g /\ round_record e s (p_round g) rrk rr /\
    nth_error (rr_relays rr) j = Some relay /\
    (s' = s \/
     (nth_error (p_signers g) j = Some VNone /\ own (accs s k) = tp_id /\ own (accs s' k) = tp_id /\
      (exists l, unpack_from_slice c_gprop (dat (accs s' k)) = Ok (p_with_signers g l) /\
         nth_error l j = Some v /\ List.length l = List.length (p_signers g) /\
         forall n, n <> j -> nth_error l n = nth_error (p_signers g) n) /\
      (forall x, x <> k -> own (accs s' x) = own (accs s x) /\ dat (accs s' x) = dat (accs s x)) /\
      (forall x, lam (accs s' x) = lam (accs s x) + (if keqb x relay then 20000 else 0) - (if keqb x k then 20000 else 0)))).
Proof.
  intros e ext c v s s' C. apply tp_call_exec in C as (Hp & _ & _ & H). cbn [tp_exec] in H.
  apply tp_vote_ok in H as (relay & k & rrk & rest & KS & g & rr & j & old & SG & NV & U & RA & RR & (n & KR & F) & PO & NE & V).
  exists relay, k, rrk, rest, g, rr, j. split; [exact KS|]. split; [exact SG|]. split; [exact NV|]. split; [exact U|].
  split; [split; [exists n; exact F|exact RR]|]. split; [apply (proj1 (position_ok _ _ _ PO))|].
  destruct V as [[_ ->]|(-> & d' & PK & DD & OO & _ & SO & _ & LE & DL & OK & _)]; [left; reflexivity|right].
  rewrite Hp in OK. split; [exact NE|]. split; [exact OK|]. split; [congruence|]. split; [|split; [exact SO|]].
  - exists (set_nth j v (p_signers g)). apply unpack_from_slice_ok in U as (r & D & O); [|typeclasses eauto].
    apply pack_into_slice_ok in PK as [E1 E2]. split; [rewrite DD, E1; apply unpack_from_slice_enc; [typeclasses eauto|apply okb_with_signers; exact O]|].
    split; [apply set_nth_same, nth_error_Some; congruence|]. split; [apply set_nth_length|]. intros m M. apply set_nth_other. congruence.
  - intros x. rewrite (DL x). unfold at_key, RELAY_REPARATION. lia.
Qed.

(** Recorded votes stay, the number of positions stays, and new votes come from vote instructions only,
    as long as the request is not closed.  Partial as above; see [C27_refuted]. *)
Theorem C27_history_partial : forall e k s s' g m, no_collision e k -> req_hist e (not_closing k) s s' ->
  request_at e s k g m -> nonneg s -> funded s k g ->
  exists g' m', request_at e s' k g' m' /\ List.length (p_signers g') = List.length (p_signers g) /\
    forall j v, nth_error (p_signers g) j = Some v -> v <> VNone -> nth_error (p_signers g') j = Some v.
Proof.
  intros e k s s' g m NC H R N F. destruct (req_evolves _ _ _ _ NC H g m R N F) as (g' & m' & R' & E & _).
  exists g', m'. split; [exact R'|]. split; [apply E|apply E].
Qed.
(** One instruction: a recorded vote changes in no instruction except through payload execution of an
    account that is no request of the kind executed. *)
Theorem C27_votes : forall e ext c i s s' k g m g' m', tp_call e ext c i s s' -> ext_outside ext -> payload_checked e c i s -> no_collision e k ->
  request_at e s k g m -> request_at e s' k g' m' ->
  p_signers g' = p_signers g \/
  exists v j, i = TpVote v /\ nth_error (p_signers g) j = Some VNone /\ p_signers g' = set_nth j v (p_signers g).
Proof.
  intros e ext c i s s' k g m g' m' C X PC NC R R'.
  destruct (req_call _ _ _ _ _ _ _ _ _ C X PC NC R) as [SO|v relay rrk rr j n Ei NV SG _ _ _ PO NO LR DL SO R2|b a ev Ei SG _ AU ST R2|st' MV WP QU R2|Ei HD _ D].
  - destruct (request_fun _ _ _ _ _ _ _ (request_same _ _ _ _ _ _ SO R) R') as [-> ->]. left. reflexivity.
  - destruct (request_fun _ _ _ _ _ _ _ R2 R') as [-> ->]. right. exists v, j. auto.
  - destruct (request_fun _ _ _ _ _ _ _ R2 R') as [-> ->]. left. reflexivity.
  - destruct (request_fun _ _ _ _ _ _ _ R2 R') as [-> ->]. left. reflexivity.
  - exfalso. destruct D as (_ & O & _). destruct R' as (O' & _). rewrite O in O'. discriminate.
Qed.

Example C27_vote_ex :
  let x := tvote trelay2 tw1 tround in let s := unres (tstp ts3 (tvote trelay1 tw1 tround)) in
  tp_call te no_ext (ctx_of tp_id (fst x)) (snd x) s (unres (tstp s x)) /\
  p_signers (the_req s tw1) = [VConfirm; VNone; VNone] /\ p_signers (the_req (unres (tstp s x)) tw1) = [VConfirm; VConfirm; VNone] /\
  lam (accs (unres (tstp s x)) trelay2) = lam (accs s trelay2) + 20000 /\ lam (accs (unres (tstp s x)) tw1) = lam (accs s tw1) - 20000.
Proof. cbv zeta. split; [demo_call|]. vm_compute. repeat split; reflexivity. Qed.
Example C27_history_ex : no_collision te tw1 /\ req_hist te (not_closing tw1) ts3 ts4 /\
  request_at te ts3 tw1 (the_req ts3 tw1) (the_meta ts3 tw1) /\ funded ts3 tw1 (the_req ts3 tw1) /\ nonneg ts0.
Proof.
  split; [exact tw1_sole|]. split.
  - demo_ts4. apply h_refl.
  - split; [demo_req|]. split; [vm_compute; discriminate|apply demo_nonneg; vm_compute; reflexivity].
Qed.

(** * C28 Requests only move along the documented status graph *)

(** The documented graph. *)
Definition edge (a b : wstatus) : Prop :=
  match a with
  | WNew => b = WProcessed \/ b = WPending \/ b = WWaitApprove \/ b = WWaitExecute
  | WWaitApprove => b = WProcessed \/ b = WPending \/ b = WWaitExecute
  | WPending => b = WProcessed \/ b = WCancelled \/ b = WWaitExecute
  | WWaitExecute => b = WProcessed
  | WProcessed | WCancelled => False
  end.
Inductive along : wstatus -> wstatus -> Prop :=
| al_refl a : along a a
| al_step a b c : along a b -> edge b c -> along a c.

(** One instruction, whatever the accounts it is given: the status stays or takes one edge, and the
    request stays the same otherwise apart from votes and bounty. *)
Theorem C28_step : forall e ext c i s s' k g m g' m', tp_call e ext c i s s' -> ext_outside ext -> no_collision e k ->
  request_at e s k g m -> request_at e s' k g' m' ->
  wm_status m' = wm_status m \/ edge (wm_status m) (wm_status m').
Proof.
  intros e ext c i s s' k g m g' m' C X NC R R'.
  destruct (req_status _ _ _ _ _ _ _ _ _ _ _ C X NC R R') as (_ & _ & _ & _ & _ & [E|(MV & _)]); [left; exact E|right].
  apply wmove_next in MV. unfold next_status in MV. unfold edge. destruct (wm_status m); exact MV.
Qed.
(** Which instruction takes which edge. *)
Theorem C28_who : forall e ext c i s s' k g m g' m', tp_call e ext c i s s' -> ext_outside ext -> no_collision e k ->
  request_at e s k g m -> request_at e s' k g' m' -> wm_status m' <> wm_status m ->
  match i with
  | TpWithdrawEver => wm_status m = WNew /\ wm_status m' <> WPending /\ wm_status m' <> WCancelled
  | TpWithdrawSol => (wm_status m = WNew \/ wm_status m = WPending) /\ wm_status m' <> WCancelled
  | TpApproveEver | TpApproveSol => wm_status m = WWaitApprove
  | TpCancel _ _ _ _ _ => wm_status m = WPending /\ wm_status m' = WCancelled
  | TpFill _ _ _ _ _ _ => wm_status m = WPending /\ wm_status m' = WProcessed
  | TpExecutePayloadEver | TpExecutePayloadSol => wm_status m = WWaitExecute /\ wm_status m' = WProcessed
  | _ => False
  end.
Proof.
  intros e ext c i s s' k g m g' m' C X NC R R' NE.
  destruct (req_status _ _ _ _ _ _ _ _ _ _ _ C X NC R R') as (_ & _ & _ & _ & _ & [E|(MV & _)]); [contradiction|].
  destruct i, (wm_status m), (wm_status m'); try discriminate MV; repeat split; try discriminate; auto.
Qed.

Lemma along_path a b : status_path a b -> along a b.
Proof. induction 1 as [|a b c _ IH N]; [apply al_refl|]. eapply al_step; [exact IH|]. unfold edge. unfold next_status in N. destruct b; exact N. Qed.
(** Histories.  Partial: no payload calls back into the token proxy and payload execution is applied
    to requests of its kind only. *)
Theorem C28_history_partial : forall e k s s' g m, no_collision e k -> req_hist e (not_closing k) s s' ->
  request_at e s k g m -> nonneg s -> funded s k g ->
  exists g' m', request_at e s' k g' m' /\ along (wm_status m) (wm_status m') /\
    (wm_status m = WProcessed \/ wm_status m = WCancelled -> wm_status m' = wm_status m).
Proof.
  intros e k s s' g m NC H R N F. destruct (req_evolves _ _ _ _ NC H g m R N F) as (g' & m' & R' & E & _).
  exists g', m'. split; [exact R'|]. pose proof (along_path _ _ (ev_status _ _ _ _ E)) as A. split; [exact A|].
  intros FN. clear - A FN. induction A as [|a b c _ IH N]; [reflexivity|]. rewrite (IH FN) in N. destruct FN as [-> | ->]; destruct N.
Qed.
Example C28_history_ex : no_collision te tw2 /\ req_hist te (not_closing tw2) ts9 (unres (tstps ts9 (tvotes tw2 tround ++ [texecS tw2 trecvS tmintS; tcancel trecv tw2]))) /\
  request_at te ts9 tw2 (the_req ts9 tw2) (the_meta ts9 tw2) /\ funded ts9 tw2 (the_req ts9 tw2) /\
  wm_status (the_meta ts9 tw2) = WNew /\ wm_status (the_meta ts11 tw2) = WPending /\
  wm_status (the_meta (unres (tstps ts9 (tvotes tw2 tround ++ [texecS tw2 trecvS tmintS; tcancel trecv tw2]))) tw2) = WCancelled.
Proof.
  split; [exact tw2_sole|]. split.
  - apply (tstps_req _ (fun x => match snd x with TpCloseWithdrawal => false | _ => true end));
      [intros [ms i] B [E _]; cbn [snd] in *; rewrite E in B; discriminate|apply h_refl|vm_compute; reflexivity|vm_compute; repeat split; discriminate|vm_compute; reflexivity].
  - split; [demo_req|]. split; [vm_compute; discriminate|]. vm_compute. repeat split; reflexivity.
Qed.

(** * C36 Parked withdrawals are released by the withdrawal manager or the upgrade authority only *)

Theorem C36_released : forall e ext c i s s' k g m g' m', tp_call e ext c i s s' -> ext_outside ext -> no_collision e k ->
  request_at e s k g m -> request_at e s' k g' m' -> wm_status m = WWaitApprove -> wm_status m' <> WWaitApprove ->
  exists sk st, settings_at e s sk st /\ signed_for e c s (gs_wmanager st) /\ gs_emergency st = false.
Proof.
  intros e ext c i s s' k g m g' m' C X NC R R' ST NE.
  destruct (req_status _ _ _ _ _ _ _ _ _ _ _ C X NC R R') as (_ & _ & _ & _ & _ & [E|(MV & _)]); [congruence|].
  rewrite ST in MV. apply tp_call_exec in C as (Hp & _ & _ & H). destruct i; try discriminate MV; cbn [tp_exec] in H.
  - apply tp_approve_ever_ok in H as (a & mk & wk & rc & tsk & sk & x & y & rest & w & KS & ts & mn & mi & dc & md & st & pn & SG & VS & EM & EN & _).
    rewrite Hp in *. exists sk, st. split; [eapply settings_spec; exact VS|]. split; [eapply entitled_spec; eassumption|exact EM].
  - apply tp_approve_sol_ok in H as (a & mk & wk & rc & tsk & sk & x & y & rest & w & KS & ts & vn & sv & st & pn & SG & VS & EM & EN & _).
    rewrite Hp in *. exists sk, st. split; [eapply settings_spec; exact VS|]. split; [eapply entitled_spec; eassumption|exact EM].
Qed.
(** The approval instructions themselves. *)
Theorem C36_approve : forall e ext c i s s', tp_call e ext c i s s' -> i = TpApproveEver \/ i = TpApproveSol ->
  exists sk st, settings_at e s sk st /\ signed_for e c s (gs_wmanager st).
Proof.
  intros e ext c i s s' C HI. apply tp_call_exec in C as (Hp & _ & _ & H). destruct HI as [-> | ->]; cbn [tp_exec] in H.
  - apply tp_approve_ever_ok in H as (a & mk & wk & rc & tsk & sk & x & y & rest & w & KS & ts & mn & mi & dc & md & st & pn & SG & VS & EM & EN & _).
    rewrite Hp in *. exists sk, st. split; [eapply settings_spec; exact VS|eapply entitled_spec; eassumption].
  - apply tp_approve_sol_ok in H as (a & mk & wk & rc & tsk & sk & x & y & rest & w & KS & ts & vn & sv & st & pn & SG & VS & EM & EN & _).
    rewrite Hp in *. exists sk, st. split; [eapply settings_spec; exact VS|eapply entitled_spec; eassumption].
Qed.
Example C36_ex :
  let x := tapprS twman tw1 trecvS in let s' := unres (tstp ts16 x) in
  tp_call te no_ext (ctx_of tp_id (fst x)) (snd x) ts16 s' /\ no_collision te tw1 /\
  request_at te ts16 tw1 (the_req ts16 tw1) (the_meta ts16 tw1) /\ request_at te s' tw1 (the_req s' tw1) (the_meta s' tw1) /\
  wm_status (the_meta ts16 tw1) = WWaitApprove /\ wm_status (the_meta s' tw1) = WProcessed /\
  is_ok (tstp ts16 (fst (tapprS tauth tw1 trecvS) ++ [ro tpd], TpApproveSol)) = true /\ is_ok (tstp ts16 (tapprS tman tw1 trecvS)) = false.
Proof.
  cbv zeta. split; [demo_call|]. split; [exact tw1_sole|]. split; [demo_req|]. split; [demo_req|]. vm_compute. repeat split; reflexivity.
Qed.

(** * C43 A pending withdrawal can be redirected only with the recipient's consent *)

(** What holds: somebody recorded as author at request time, or for bounties the recipient, signs. *)
Theorem C43_cancel_partial : forall e ext c i s s' k g m g' m', tp_call e ext c i s s' -> ext_outside ext -> no_collision e k ->
  request_at e s k g m -> request_at e s' k g' m' -> wm_status m = WPending -> wm_status m' = WCancelled ->
  c_sg c (p_author g) = true.
Proof.
  intros e ext c i s s' k g m g' m' C X NC R R' ST ST'.
  destruct (req_status _ _ _ _ _ _ _ _ _ _ _ C X NC R R') as (_ & _ & _ & _ & _ & [E|(MV & WP & _)]); [congruence|].
  rewrite ST, ST' in MV. apply tp_call_exec in C as (Hp & _ & _ & H). destruct i; try discriminate MV; cbn [tp_exec] in H.
  apply tp_cancel_ok in H as (f & a & mk & wk & dk & sk & tsk & x & y & mv & rest & KS & st & pn & w & ts & vn & sv & md & dn & fee & amt & s1 & s2 & SG & _ & _ & W & AU & _).
  rewrite Hp in W. specialize (WP eq_refl). cbn [wpos] in WP. rewrite KS in WP. cbn [nth_error] in WP. injection WP as ->.
  destruct (wsol_request _ _ _ _ _ _ NC R W) as (EG & _). rewrite EG. cbn [gen_prop p_author]. rewrite AU. exact SG.
Qed.
Theorem C43_bounty_partial : forall e ext c i s s' k g m g' m', tp_call e ext c i s s' -> ext_outside ext -> payload_checked e c i s -> no_collision e k ->
  request_at e s k g m -> request_at e s' k g' m' -> wm_bounty m' <> wm_bounty m ->
  wm_status m = WPending /\ exists ev, p_event g = enc c_wsol_event ev /\ (c_sg c (p_author g) = true \/ c_sg c (wse_recipient ev) = true).
Proof.
  intros e ext c i s s' k g m g' m' C X PC NC R R' NE.
  destruct (req_call _ _ _ _ _ _ _ _ _ C X PC NC R) as [SO|v relay rrk rr j n Ei NV SG _ _ _ PO NO LR DL SO R2|b a ev Ei SG EV AU ST R2|st' MV WP QU R2|Ei HD _ D].
  - destruct (request_fun _ _ _ _ _ _ _ (request_same _ _ _ _ _ _ SO R) R') as [-> ->]. destruct (NE eq_refl).
  - destruct (request_fun _ _ _ _ _ _ _ R2 R') as [-> ->]. destruct (NE eq_refl).
  - split; [exact ST|]. exists ev. split; [congruence|]. destruct AU as [<-|<-]; auto.
  - destruct (request_fun _ _ _ _ _ _ _ R2 R') as [-> ->]. destruct (NE eq_refl).
  - exfalso. destruct D as (_ & O & _). destruct R' as (O' & _). rewrite O in O'. discriminate.
Qed.

(** The recipient's consent is not needed: whoever submits the request (the data is public on Everscale)
    becomes its author and may redirect it.  Witness: a stranger submits the request for [tev2], which
    names the recipient [trecv]; it becomes pending, and the stranger turns it into a deposit for an
    Everscale address of their choice, or sets a bounty. *)
Definition tsteal : list (list meta * tp_ix) :=
  [tinit; tdep tuser tuserS tvault td1 tmintS 1 100000; treqS tstranger tw2 tround 17 tev2 []] ++ tvotes tw2 tround ++ [texecS tw2 trecvS tmintS].
Definition tstolen := unres (tstps ts0 tsteal).
Definition tbounty (author w : key) (b : Z) : list meta * tp_ix := ([sw author; ww w], TpChangeBounty b).
Theorem C43_refuted : exists e s0 s c i s' k ev g m g' m',
  genesis e tp_id s0 /\ tp_hist e 0 s0 s /\ tp_call e no_ext c i s s' /\ no_collision e k /\
  request_at e s k g m /\ request_at e s' k g' m' /\ p_event g = enc c_wsol_event ev /\
  wm_status m = WPending /\ wm_status m' = WCancelled /\ c_sg c (wse_recipient ev) = false.
Proof.
  exists te, ts0, tstolen, (ctx_of tp_id (fst (tcancel tstranger tw2))), (snd (tcancel tstranger tw2)),
    (unres (tstp tstolen (tcancel tstranger tw2))), tw2, tev2, (the_req tstolen tw2), (the_meta tstolen tw2),
    (the_req (unres (tstp tstolen (tcancel tstranger tw2))) tw2), (the_meta (unres (tstp tstolen (tcancel tstranger tw2))) tw2).
  split; [apply demo_genesis; vm_compute; reflexivity|].
  split; [apply tstps_hist; [apply h_refl|vm_compute; reflexivity|vm_compute; repeat split; discriminate|vm_compute; reflexivity]|].
  split; [demo_call|]. split; [exact tw2_sole|]. split; [demo_req|]. split; [demo_req|]. vm_compute. repeat split; reflexivity.
Qed.
Theorem C43_bounty_refuted : exists e s0 s c i s' k ev g m g' m',
  genesis e tp_id s0 /\ tp_hist e 0 s0 s /\ tp_call e no_ext c i s s' /\ no_collision e k /\
  request_at e s k g m /\ request_at e s' k g' m' /\ p_event g = enc c_wsol_event ev /\
  wm_bounty m = 0 /\ wm_bounty m' = wse_amount ev - 1000 /\ c_sg c (wse_recipient ev) = false.
Proof.
  pose (x := tbounty tstranger tw2 699000).
  exists te, ts0, tstolen, (ctx_of tp_id (fst x)), (snd x),
    (unres (tstp tstolen x)), tw2, tev2, (the_req tstolen tw2), (the_meta tstolen tw2),
    (the_req (unres (tstp tstolen x)) tw2), (the_meta (unres (tstp tstolen x)) tw2).
  split; [apply demo_genesis; vm_compute; reflexivity|].
  split; [apply tstps_hist; [apply h_refl|vm_compute; reflexivity|vm_compute; repeat split; discriminate|vm_compute; reflexivity]|].
  split; [demo_call|]. split; [exact tw2_sole|]. split; [demo_req|]. split; [demo_req|]. vm_compute. repeat split; reflexivity.
Qed.
Example C43_partial_ex :
  let s := ts11 in let s' := unres (tstp ts11 (tcancel trecv tw2)) in let s2 := unres (tstp ts11 (tbounty trecv tw2 500)) in
  tp_call te no_ext (ctx_of tp_id (fst (tcancel trecv tw2))) (snd (tcancel trecv tw2)) s s' /\
  tp_call te no_ext (ctx_of tp_id (fst (tbounty trecv tw2 500))) (snd (tbounty trecv tw2 500)) s s2 /\
  no_collision te tw2 /\ request_at te s tw2 (the_req s tw2) (the_meta s tw2) /\ request_at te s' tw2 (the_req s' tw2) (the_meta s' tw2) /\
  wm_status (the_meta s tw2) = WPending /\ wm_status (the_meta s' tw2) = WCancelled /\ wm_bounty (the_meta s2 tw2) = 500 /\
  is_ok (tstp ts11 (tcancel tstranger tw2)) = false /\ is_ok (tstp ts11 (tbounty tstranger tw2 500)) = false.
Proof.
  cbv zeta. split; [demo_call|]. split; [demo_call|]. split; [exact tw2_sole|]. split; [demo_req|]. split; [demo_req|]. vm_compute. repeat split; reflexivity.
Qed.

(** * C47 Closing returns the rent to the author, and only finished requests can be closed *)

(** [k] is wiped and all its lamports go to [author]; nothing else changes. *)
Definition wiped (s s' : state) (k author : key) : Prop :=
  own (accs s k) = tp_id /\ own (accs s' k) = sys_id /\
  dat (accs s' k) = repeat x00 (List.length (dat (accs s k))) /\ lam (accs s' k) = 0 /\
  (author <> k -> lam (accs s' author) = lam (accs s author) + lam (accs s k)) /\
  (forall j, j <> k -> own (accs s' j) = own (accs s j) /\ dat (accs s' j) = dat (accs s j)) /\
  (forall j, j <> k -> j <> author -> lam (accs s' j) = lam (accs s j)) /\ logs s' = logs s.

Lemma repeat_zero n : all0 (repeat x00 n) = true.
Proof. induction n as [|n IH]; [reflexivity|exact IH]. Qed.
Lemma deleted_wiped c s s' k author kd : c_pid c = tp_id -> deleted c s s' k author -> kind_at (dat (accs s k)) = Some kd ->
  (forall d, all0 d = true -> kind_at d <> Some kd) -> wiped s s' k author.
Proof.
  intros Hp (EV & O & D & SO & L0 & LA & LO & W) K Z. split.
  - destruct W as [[W _]|W]; [congruence|]. destruct (Z (dat (accs s k))); [rewrite W; apply repeat_zero|exact K].
  - split; [exact O|]. split; [exact D|]. split; [exact L0|]. split; [exact LA|]. split; [exact SO|]. split; [exact LO|apply EV].
Qed.

Theorem C47_close_withdrawal : forall e ext c s s', tp_call e ext c TpCloseWithdrawal s s' ->
  exists k rest g m, c_keys c = k :: p_author g :: rest /\ unpack_from_slice c_gprop (dat (accs s k)) = Ok g /\
    try_from_slice c_wmeta (p_meta g) = Some m /\ (wm_status m = WProcessed \/ wm_status m = WCancelled) /\
    wiped s s' k (p_author g).
Proof.
  intros e ext c s s' C. apply tp_call_exec in C as (Hp & _ & _ & H). cbn [tp_exec] in H.
  apply tp_close_withdrawal_ok in H as (k & a & rest & g & m & KS & U & (n & pn & KD & _) & -> & M & ST & D).
  exists k, rest, g, m. split; [exact KS|]. split; [exact U|]. split; [exact M|]. split; [exact ST|].
  eapply deleted_wiped; [exact Hp|exact D| |intros d; apply (all0_kind d n pn)].
  rewrite <- KD. exact (kind_gprop _ _ U).
Qed.
Theorem C47_close_deposit : forall e ext c s s', tp_call e ext c TpCloseDeposit s s' ->
  exists k rest g n, c_keys c = d_author g :: k :: rest /\ unpack_from_slice c_gdep (dat (accs s k)) = Ok g /\
    d_kind g = KDeposit n /\ c_sg c (d_author g) = true /\ wiped s s' k (d_author g).
Proof.
  intros e ext c s s' C. apply tp_call_exec in C as (Hp & _ & _ & H). cbn [tp_exec] in H.
  apply tp_close_deposit_ok in H as (a & k & rest & g & seed & n & KS & SG & U & _ & KD & _ & -> & D).
  exists k, rest, g, n. split; [exact KS|]. split; [exact U|]. split; [exact KD|]. split; [exact SG|].
  eapply deleted_wiped; [exact Hp|exact D| |intros d; apply (all0_kind_dep d n)].
  rewrite <- KD. exact (kind_gdep _ _ U).
Qed.
Definition tclosed : list meta * tp_ix := ([sw tuser; ww td1], TpCloseDeposit).
Example C47_ex :
  tp_call te no_ext (ctx_of tp_id (fst (tclose tw1 trecv))) TpCloseWithdrawal ts5 (unres (tstp ts5 (tclose tw1 trecv))) /\
  tp_call te no_ext (ctx_of tp_id (fst tclosed)) TpCloseDeposit ts2 (unres (tstp ts2 tclosed)) /\
  lam (accs (unres (tstp ts5 (tclose tw1 trecv))) trecv) = lam (accs ts5 trecv) + lam (accs ts5 tw1) /\ 0 < lam (accs ts5 tw1) /\
  is_ok (tstp ts4 (tclose tw1 trecv)) = false /\ is_ok (tstp ts5 (tclose tw1 tstranger)) = false /\
  is_ok (tstp ts2 ([sw tstranger; ww td1], TpCloseDeposit)) = false.
Proof.
  split; [exact (tstp_call ts5 (tclose tw1 trecv) ltac:(vm_compute; reflexivity) ltac:(vm_compute; repeat split; discriminate) ltac:(vm_compute; reflexivity))|].
  split; [exact (tstp_call ts2 tclosed ltac:(vm_compute; reflexivity) ltac:(vm_compute; repeat split; discriminate) ltac:(vm_compute; reflexivity))|].
  vm_compute. repeat split; reflexivity.
Qed.

(** * C50 Requests are created faithfully and never overwritten *)

Definition requests_ever (i : tp_ix) : Prop := exists ts lt conf token name symbol decimals recipient amount payload att,
  i = TpWithdrawEverRequest ts lt conf token name symbol decimals recipient amount payload att.
Definition requests_sol (i : tp_ix) : Prop := exists ts lt conf recipient amount payload att,
  i = TpWithdrawSolRequest ts lt conf recipient amount payload att.

(** A request instruction touches owner and data of no account in use. *)
Theorem C50_untouched : forall e ext c i s s' k, tp_call e ext c i s s' -> requests_ever i \/ requests_sol i ->
  own (accs s k) <> sys_id \/ dat (accs s k) <> [] ->
  own (accs s' k) = own (accs s k) /\ dat (accs s' k) = dat (accs s k).
Proof.
  intros e ext c i s s' k C HI US. apply tp_call_exec in C as (Hp & _ & _ & H).
  assert (PX : forall p m r f a l pn s1, proxy_eff e c p m r f a l pn s s1 -> same_od s s1 k).
  { intros p m r f a l pn s1 [(_ & _ & ->)|(_ & px & mk & tk & r0 & n & s2 & _ & _ & _ & _ & OP & PM & LP)]; [apply same_od_refl|].
    assert (Q : same_od s s2 k).
    { destruct PM as [(D0 & _ & _ & SO & _)|[_ ->]]; [|apply same_od_refl]. apply SO. intros ->. destruct US as [US|US]; contradiction. }
    destruct LP as (_ & _ & _ & SD & _). exact (same_od_trans _ _ _ _ Q (SD k)). }
  assert (TL : forall E (ce : codec E) f a w rls rr ts lt conf ev evb pn ep tok rcp amt s1, same_od s s1 k ->
    tail_eff e c ce f a w rls rr ts lt conf ev evb pn ep tok rcp amt s1 s' -> same_od s s' k).
  { intros E ce f a w rls rr ts lt conf ev evb pn ep tok rcp amt s1 SO (wn & _ & [[_ ->]|(_ & s2 & R & LP)]); [exact SO|].
    destruct R as ((N1 & N2 & _) & _ & SO2 & _). destruct LP as (_ & _ & _ & SD & _).
    refine (same_od_trans _ _ _ _ SO (same_od_trans _ _ _ _ (SO2 k _) (SD k))).
    intros ->. destruct SO as [SO1 SO3]. destruct US as [US|US]; [apply US|apply US]; congruence. }
  destruct HI as [(ts & lt & conf & token & name & symbol & decimals & recipient & amount & payload & att & ->)|(ts & lt & conf & recipient & amount & payload & att & ->)]; cbn [tp_exec] in H.
  - apply tp_withdraw_ever_request_ok in H as (f & a & w & rlsk & rrk & x & y & z & rest & _ & rls & rpn & rr & pn & s1 & _ & _ & _ & _ & _ & _ & P & T).
    eapply TL; [eapply PX; exact P|exact T].
  - apply tp_withdraw_sol_request_ok in H as (f & a & w & tsk & rlsk & rrk & x & y & z & rest & _ & tks & vn & sv & mint & rls & rpn & rr & pn & s1 & _ & _ & _ & _ & _ & _ & P & T).
    cbv zeta in T. eapply TL; [eapply PX; exact P|exact T].
Qed.

(** A request appears only through a request instruction, at an unused address, with what was asked
    for, the signing author, the round presented and one empty position per relay of it.  (No
    instruction other than payload execution on a foreign account can forge one, see F11.) *)
Theorem C50_created : forall e ext c i s s' k g m, tp_call e ext c i s s' -> tp_ext e 0 ext -> payload_checked e c i s ->
  no_request s k -> request_at e s' k g m ->
  own (accs s k) = sys_id /\ dat (accs s k) = [] /\
  nth_error (c_keys c) 2 = Some k /\ nth_error (c_keys c) 1 = Some (p_author g) /\ c_sg c (p_author g) = true /\
  (exists rrk rr, round_record e s (p_round g) rrk rr /\ p_signers g = repeat VNone (List.length (rr_relays rr))) /\
  wm_status m = WNew /\ wm_bounty m = 0 /\
  match i with
  | TpWithdrawEverRequest ts lt conf token name symbol decimals recipient amount payload _ =>
      p_pda g = Pda ts lt conf /\
      p_event g = enc c_wever_event (WEverEvent token name symbol decimals amount recipient payload)
  | TpWithdrawSolRequest ts lt conf recipient amount payload _ =>
      p_pda g = Pda ts lt conf /\ exists tsk tks mint vault,
        nth_error (c_keys c) 3 = Some tsk /\ token_at e s tsk tks /\ tk_kind tks = TKSol mint vault /\
        p_event g = enc c_wsol_event (WSolEvent mint amount recipient payload)
  | _ => False
  end.
Proof.
  intros e ext c i s s' k g m C X PC NR R. destruct (request_born _ _ _ _ _ _ _ C X PC NR) as [NR'|(g0 & m0 & rls & rr & B)].
  - destruct (request_kind _ _ _ _ _ R) as (n & pn & K). destruct (NR' (proj1 R) n pn K).
  - destruct (request_fun _ _ _ _ _ _ _ (bo_req _ _ _ _ _ _ _ _ _ _ B) R) as [-> ->].
    destruct (bo_unused _ _ _ _ _ _ _ _ _ _ B) as [U1 U2]. split; [exact U1|]. split; [exact U2|]. split; [apply B|]. split; [apply B|]. split; [apply B|].
    split.
    { destruct (bo_round _ _ _ _ _ _ _ _ _ _ B) as (rrk & U & b & _ & F). exists rrk, rr. split; [|apply B].
      split; [exists b; rewrite (bo_number _ _ _ _ _ _ _ _ _ _ B); exact F|exact U]. }
    rewrite (bo_meta _ _ _ _ _ _ _ _ _ _ B). split; [reflexivity|]. split; [reflexivity|]. exact (bo_asked _ _ _ _ _ _ _ _ _ _ B).
Qed.
Example C50_ex :
  let x := treqS trecv tw1 tround 7 tev1 [] in
  tp_call te no_ext (ctx_of tp_id (fst x)) (snd x) ts2 ts3 /\ no_request ts2 tw1 /\
  request_at te ts3 tw1 (the_req ts3 tw1) (the_meta ts3 tw1) /\ p_author (the_req ts3 tw1) = trecv /\
  (* asking again changes nothing *)
  is_ok (tstp ts4 x) = true /\ dat (accs (unres (tstp ts4 x)) tw1) = dat (accs ts4 tw1).
Proof.
  cbv zeta. split; [demo_call|]. split; [|split; [demo_req|vm_compute; repeat split; reflexivity]].
  intros O. apply (f_equal (fun k => keqb k tp_id)) in O. vm_compute in O. discriminate O.
Qed.

(** * C62 Replacing relays does not affect running requests *)

(** The round loader changes nothing of the token proxy's accounts. *)
Theorem C62_rounds : forall e c d s s' k, c_pid c = rl_id -> run c (rl_process e c d) s = Ok s' -> own (accs s k) = tp_id ->
  own (accs s' k) = own (accs s k) /\ dat (accs s' k) = dat (accs s k).
Proof.
  intros e c d s s' k Hp H O. apply rl_process_ok in H as (i & _ & _ & H).
  assert (NR : own (accs s k) <> c_pid c) by (rewrite O, Hp; discriminate).
  assert (NS : own (accs s k) <> sys_id) by (rewrite O; discriminate).
  destruct (rl_exec_effect _ _ _ _ _ H k); try assumption; try contradiction;
    repeat match goal with X : fresh_record _ _ _ _ _ _ k |- _ => destruct X as ((X & _) & _); contradiction
      | X : rl_voted _ _ _ _ _ _ _ _ _ |- _ => destruct X as (_ & _ & X & _); contradiction end.
Qed.

(** Instructions that change settings of the token proxy. *)
Definition changes_settings (i : tp_ix) : bool :=
  match i with
  | TpInitialize _ _ _ | TpChangeGuardian _ | TpChangeManager _ | TpChangeWithdrawalManager _ | TpChangeDepositLimit _
  | TpChangeWithdrawalLimits _ _ | TpEnableEmergency | TpDisableEmergency | TpEnableTokenEmergency | TpDisableTokenEmergency
  | TpUpdateFee _ _ _ | TpUpdateTokenName _ _ => true
  | _ => false
  end.
Theorem C62_settings : forall e ext c i s s' k g m, tp_call e ext c i s s' -> ext_outside ext -> changes_settings i = true ->
  no_collision e k -> request_at e s k g m -> own (accs s' k) = own (accs s k) /\ dat (accs s' k) = dat (accs s k).
Proof.
  intros e ext c i s s' k g m C X CS NC R.
  assert (PC : payload_checked e c i s) by (intros j _; split; intros ->; discriminate).
  destruct (req_call _ _ _ _ _ _ _ _ _ C X PC NC R) as [SO|v relay rrk rr j n Ei NV SG _ _ _ PO NO LR DL SO R2|b a ev Ei SG _ AU ST R2|st' MV WP QU R2|Ei HD _ D];
    try (rewrite Ei in CS; discriminate); [exact SO|]. destruct i; try discriminate.
Qed.
(** No instruction at all changes the round or the number of votes an existing request needs. *)
Theorem C62_required : forall e ext c i s s' k g m g' m', tp_call e ext c i s s' -> ext_outside ext -> no_collision e k ->
  request_at e s k g m -> request_at e s' k g' m' -> p_required g' = p_required g /\ p_round g' = p_round g.
Proof.
  intros e ext c i s s' k g m g' m' C X NC R R'. destruct (req_status _ _ _ _ _ _ _ _ _ _ _ C X NC R R') as (_ & A & B & _). auto.
Qed.
(** Along histories, with other programs (the round loader among them) in between. *)
Theorem C62_history_partial : forall e k s s' g m, no_collision e k -> req_hist e (not_closing k) s s' ->
  request_at e s k g m -> nonneg s -> funded s k g ->
  exists g' m', request_at e s' k g' m' /\ p_required g' = p_required g /\ p_round g' = p_round g /\
    List.length (p_signers g') = List.length (p_signers g).
Proof.
  intros e k s s' g m NC H R N F. destruct (req_evolves _ _ _ _ NC H g m R N F) as (g' & m' & R' & E & _).
  exists g', m'. split; [exact R'|]. split; [apply E|]. split; apply E.
Qed.
Example C62_ex :
  let x := tadmS tguard TpEnableEmergency in
  tp_call te no_ext (ctx_of tp_id (fst x)) (snd x) ts3 (unres (tstp ts3 x)) /\ no_collision te tw1 /\
  request_at te ts3 tw1 (the_req ts3 tw1) (the_meta ts3 tw1) /\ p_required (the_req ts3 tw1) = 3.
Proof. cbv zeta. split; [demo_call|]. split; [exact tw1_sole|]. split; [demo_req|vm_compute; reflexivity]. Qed.

Print Assumptions C26_leave_new.
Print Assumptions C26_history_partial.
Print Assumptions C26_required.
Print Assumptions C27_vote.
Print Assumptions C27_history_partial.
Print Assumptions C27_votes.
Print Assumptions C28_step.
Print Assumptions C28_who.
Print Assumptions C28_history_partial.
Print Assumptions C36_released.
Print Assumptions C36_approve.
Print Assumptions C43_cancel_partial.
Print Assumptions C43_bounty_partial.
Print Assumptions C43_refuted.
Print Assumptions C43_bounty_refuted.
Print Assumptions C47_close_withdrawal.
Print Assumptions C47_close_deposit.
Print Assumptions C50_untouched.
Print Assumptions C50_created.
Print Assumptions C62_rounds.
Print Assumptions C62_settings.
Print Assumptions C62_required.
Print Assumptions C62_history_partial.
