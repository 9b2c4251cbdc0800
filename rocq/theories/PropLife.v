(** Properties C26 and C28 over all histories: payloads may call the token proxy again, to any depth, and
    payload execution may be applied to any account. *)

From Coq Require Import Strings.String ZifyBool ZifyNat ZifyN.
From Verif Require Import TpDemoLaws Life PropTpReq PropTpMisc PropNested.
Open Scope Z_scope.
Open Scope list_scope.
Ltac Zify.zify_post_hook ::= Z.div_mod_to_equations.

(** * C26 No withdrawal is executed without a two-thirds quorum *)

(** The call [x] makes the request [g] at [k] as asked: new, without votes, one position for each relay of
    the round it names, and more than two thirds of them required. *)
Definition quorum_request (e : env) (k : key) (g : gprop) (x : call) : Prop := exists m rrk rr,
  asked e (cl_ctx x) (cl_ix x) (cl_pre x) g /\ dat (accs (cl_pre x) k) = [] /\
  request_at e (cl_post x) k g m /\ wm_status m = WNew /\
  round_record e (cl_pre x) (p_round g) rrk rr /\ p_signers g = repeat VNone (List.length (rr_relays rr)) /\
  2 * Z.of_nat (List.length (rr_relays rr)) < 3 * p_required g.
(** The call [y] executes the request [g] at [k], which is still new and has the required confirmations. *)
Definition quorum_execution (e : env) (k : key) (g : gprop) (y : call) : Prop :=
  (cl_ix y = TpWithdrawEver \/ cl_ix y = TpWithdrawSol) /\ hd_error (c_keys (cl_ctx y)) = Some k /\ exists g' m',
  request_at e (cl_pre y) k g' m' /\ wm_status m' = WNew /\
  p_author g' = p_author g /\ p_round g' = p_round g /\ p_pda g' = p_pda g /\ p_event g' = p_event g /\
  p_required g <= confirmations (p_signers g').

Lemma makes_quorum e k g x : makes e k g x -> quorum_request e k g x.
Proof.
  intros (m & rls & rr & B). destruct (bo_round _ _ _ _ _ _ _ _ _ _ B) as (rrk & U & b & _ & F). exists m, rrk, rr.
  split; [apply B|]. split; [apply (bo_unused _ _ _ _ _ _ _ _ _ _ B)|]. split; [apply B|].
  split; [rewrite (bo_meta _ _ _ _ _ _ _ _ _ _ B); reflexivity|].
  split; [split; [exists b; rewrite (bo_number _ _ _ _ _ _ _ _ _ _ B); exact F|exact U]|]. split; [apply B|].
  pose proof (sr_thirds _ _ _ _ (born_sound _ _ _ _ _ _ _ _ _ _ B)) as T.
  rewrite (bo_signers _ _ _ _ _ _ _ _ _ _ B) in T. unfold blen in T. rewrite repeat_length in T. exact T.
Qed.
Lemma executes_quorum e k g y : executes e k (phead g) (p_event g) y -> quorum_execution e k g y.
Proof.
  intros (IX & HD & g' & m' & R & EH & EE & ST & Q). split; [destruct (cl_ix y); try discriminate IX; auto|]. split; [exact HD|].
  exists g', m'. split; [exact R|]. split; [exact ST|]. unfold phead in EH. injection EH as E1 E2 E3 E4 E5 E6.
  split; [exact E3|]. split; [exact E4|]. split; [exact E6|]. split; [exact EE|]. rewrite <- E5, <- confirmations_is. exact Q.
Qed.

(** Whenever there is a request at [k] in a history that starts without one, it was made by a call of that
    history with more than two thirds of the round's relays required; and it is still new, or was executed by
    a later call that found the required number of confirmations.  [filed]: the account holds the head of that
    request, its event (of the same length) and the meta data [m]. *)
Theorem C26 : forall e n k s s', no_collision e k -> request_only e k -> tp_hist e n s s' -> shut s k ->
  shut s' k \/
  exists l1 x l2 g ev m, trace e (l1 ++ x :: l2) s s' /\ quorum_request e k g x /\
    filed s' k (phead g) ev m /\ List.length ev = List.length (p_event g) /\
    (wm_status m = WNew \/ exists y, In y l2 /\ quorum_execution e k g y).
Proof.
  intros e n k s s' NC RO H S. apply hist_trace in H as (l & H). destruct (trace_request _ _ _ _ _ NC RO H S) as [D|(l1 & x & l2 & g & -> & MK & SI)]; [left; exact D|right].
  destruct SI as (st & (ev & m & F & L & ST) & N). exists l1, x, l2, g, ev, m. split; [exact H|]. split; [apply makes_quorum; exact MK|].
  split; [exact F|]. split; [exact L|]. destruct N as [N|N]; [left; congruence|right]. apply Exists_exists in N as (y & IN & X).
  exists y. split; [exact IN|apply executes_quorum; exact X].
Qed.
(** What anybody reads in that account is the same. *)
Lemma filed_reads e s k h ev m g m' : filed s k h ev m -> request_at e s k g m' -> phead g = h /\ p_event g = ev /\ m' = m.
Proof. intros F R. apply request_filed in R. destruct (filed_fun _ _ _ _ _ _ _ _ F R) as (E1 & E2 & E3). auto. Qed.

(** * C28 Requests only move along the documented status graph *)

(** A request keeps author, round, position and required votes, and its status moves along the graph; it stays
    a request until a call closes it or its account has no lamports left. *)
Theorem C28 : forall e n k s s' g m, no_collision e k -> tp_hist e n s s' -> request_at e s k g m ->
  exists l, trace e l s s' /\
  ((exists ev m', filed s' k (phead g) ev m' /\ List.length ev = List.length (p_event g) /\ along (wm_status m) (wm_status m') /\
      (wm_status m = WProcessed \/ wm_status m = WCancelled -> wm_status m' = wm_status m)) \/
   (exists x, In x l /\ cl_ix x = TpCloseWithdrawal /\ hd_error (c_keys (cl_ctx x)) = Some k) \/
   (exists l1 l2 s1, l = l1 ++ l2 /\ trace e l1 s s1 /\ trace e l2 s1 s' /\ lam (accs s1 k) = 0)).
Proof.
  intros e n k s s' g m NC H R. apply hist_trace in H as (l & H). exists l. split; [exact H|].
  destruct (trace_status _ _ _ _ _ _ _ NC H R) as [(st & (ev & m' & F & L & ST) & M & _)|[X|(l1 & l2 & s1 & -> & T1 & T2 & _ & Z)]].
  - left. exists ev, m'. rewrite ST. pose proof (along_path _ _ M) as A. split; [exact F|]. split; [exact L|]. split; [exact A|].
    intros FN. clear - A FN. induction A as [|a b c _ IH N]; [reflexivity|]. rewrite (IH FN) in N. destruct FN as [-> | ->]; destruct N.
  - right. left. apply Exists_exists in X as (x & IN & X). exists x. split; [exact IN|exact X].
  - right. right. exists l1, l2, s1. auto.
Qed.
(** For whoever reads it: the same request with a status further along the graph. *)
Theorem C28_reads : forall e s k (g : gprop) ev m g' m', filed s k (phead g) ev m -> request_at e s k g' m' ->
  p_author g' = p_author g /\ p_round g' = p_round g /\ p_required g' = p_required g /\ p_pda g' = p_pda g /\ m' = m.
Proof.
  intros e s k g ev m g' m' F R. destruct (filed_reads _ _ _ _ _ _ _ _ F R) as (E & _ & ->). unfold phead in E. injection E as E1 E2 E3 E4 E5 E6.
  repeat split; assumption.
Qed.

(** ** The request [tev10], executed by the payload of another request *)

Lemma demo_only t h k sd0 : forallb (fun '(sd, pid, j) => negb (keqb j k) || (keqb pid tp_id && beqb sd sd0)) t = true ->
  (exists r ts lt conf x b, sd0 = with_bump (sd_proposal r ts lt conf x) b) -> pda_lookup t sd0 tp_id = Some k -> request_only (demo_env t h) k.
Proof.
  intros B E P. rewrite forallb_forall in B. split; [exists sd0; exact P|]. split.
  - intros sd F. cbn [demo_env e_pda] in F. apply pda_lookup_full, B in F. rewrite keqb_refl in F. cbn [negb orb] in F.
    apply andb_true_iff in F as [_ F]. apply beqb_eq in F. rewrite F. exact E.
  - intros sd F. cbn [demo_env e_pda] in F. apply pda_lookup_full, B in F. rewrite keqb_refl in F. cbn [negb orb] in F.
    apply andb_true_iff in F as [F _]. discriminate F.
Qed.
Lemma tw16_only : request_only te tw16.
Proof.
  apply (demo_only _ _ _ (with_bump (sd_proposal 10 157 8 tconf (knum 511)) 255)); [vm_compute; reflexivity| |vm_compute; reflexivity].
  do 6 eexists. reflexivity.
Qed.
Lemma tw16_sole : no_collision te tw16.
Proof. apply (demo_no_collision _ _ _ (enc c_wsol_event tev10)). vm_compute. reflexivity. Qed.
Lemma self_tp : tp_ext te 1 self_ext.
Proof.
  intros c d s a s' H. right. unfold self_ext in H. destruct (keqb (c_pid c) tp_id) eqn:P; [|discriminate H]. apply keqb_eq in P.
  split; [exact P|]. exists no_ext. split; [intros c' d' b x b' H'; destruct (no_ext_never _ _ _ _ H')|].
  destruct (run c _ s) as [x|] eqn:R; [|discriminate H]. cbn [rbind] in H. injection H as _ ->. reflexivity.
Qed.
Lemma run2_instr : tp_instr te 1 ts52 ts53.
Proof.
  exists (ctx_of tp_id (fst trun2)), self_ext, (enc c_tp_ix (snd trun2)). split; [reflexivity|]. split; [vm_compute; split; [discriminate|reflexivity]|].
  split; [intros k S; rewrite run2_signs in S; discriminate S|]. split; [apply self_tp|]. unfold ts53. apply ok_unres. vm_compute. reflexivity.
Qed.
Lemma hist53 s : tp_hist te 1 s ts51 -> tp_hist te 1 s ts53.
Proof.
  intros H. eapply h_prog; [|exact run2_instr]. unfold ts52. apply tstps_hist; [exact H|vm_compute; reflexivity|vm_compute; split; [discriminate|reflexivity]|vm_compute; reflexivity].
Qed.

Example C26_ex : no_collision te tw16 /\ request_only te tw16 /\ tp_hist te 1 ts25 ts53 /\ shut ts25 tw16 /\
  own (accs ts53 tw16) = tp_id /\ wm_status (the_meta ts53 tw16) = WProcessed.
Proof.
  split; [exact tw16_sole|]. split; [exact tw16_only|]. split.
  { apply hist53. unfold ts51. apply tstps_hist; [apply h_refl|vm_compute; reflexivity|vm_compute; split; [discriminate|reflexivity]|vm_compute; reflexivity]. }
  split; [split; vm_compute; reflexivity|]. vm_compute. split; reflexivity.
Qed.
Example C28_ex : no_collision te tw16 /\ tp_hist te 1 ts51 ts53 /\ request_at te ts51 tw16 (the_req ts51 tw16) (the_meta ts51 tw16) /\
  wm_status (the_meta ts51 tw16) = WNew /\ wm_status (the_meta ts53 tw16) = WProcessed /\
  filed ts53 tw16 (phead (the_req ts51 tw16)) (p_event (the_req ts51 tw16)) (the_meta ts53 tw16).
Proof.
  split; [exact tw16_sole|]. split; [apply hist53, h_refl|]. split; [demo_req|]. split; [vm_compute; reflexivity|]. split; [vm_compute; reflexivity|].
  assert (R : request_at te ts53 tw16 (the_req ts53 tw16) (the_meta ts53 tw16)) by demo_req. apply request_filed in R.
  replace (phead (the_req ts51 tw16)) with (phead (the_req ts53 tw16)) by (vm_compute; reflexivity).
  replace (p_event (the_req ts51 tw16)) with (p_event (the_req ts53 tw16)) by (vm_compute; reflexivity). exact R.
Qed.

Print Assumptions C26.
Print Assumptions C28.
Print Assumptions C28_reads.
