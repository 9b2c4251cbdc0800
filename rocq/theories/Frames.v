(** Properties of whole instructions proved along the structure of the code: readonly accounts do not
    change, lamports do not become negative, the token proxy's accounts are not debited. *)

From Coq Require Import ZifyBool ZifyNat ZifyN.
From Verif Require Export TpSpec.
Ltac Zify.zify_post_hook ::= Z.div_mod_to_equations.

(** Every successful run of [m] is in [R]. *)
Definition rel (R : state -> state -> Prop) {A} (m : M A) : Prop := forall s a s', m s = Ok (a, s') -> R s s'.

Section Rel.
  Context (R : state -> state -> Prop) (R_refl : forall s, R s s) (R_trans : forall a b c, R a b -> R b c -> R a c)
          (R_log : forall s b, R s (put_log s b)).
  Lemma rel_ret {A} (a : A) : rel R (ret a).
  Proof. intros s x s' H. apply ret_ok in H as [_ ->]. apply R_refl. Qed.
  Lemma rel_fail {A} x : rel R (@fail A x).
  Proof. intros s y s' H. discriminate. Qed.
  Lemma rel_lift {A} (r : res A) : rel R (lift r).
  Proof. intros s y s' H. apply lift_ok in H as [_ ->]. apply R_refl. Qed.
  Lemma rel_guard b x : rel R (guard b x).
  Proof. intros s y s' H. apply guard_ok in H as [_ ->]. apply R_refl. Qed.
  Lemma rel_get k : rel R (get k).
  Proof. intros s y s' H. injection H as _ <-. apply R_refl. Qed.
  Lemma rel_now : rel R (fun s => Ok (now s, s)).
  Proof. intros s y s' H. injection H as _ <-. apply R_refl. Qed.
  Lemma rel_emit b : rel R (emit b).
  Proof. intros s y s' H. injection H as _ <-. apply R_log. Qed.
  Lemma rel_bind {A B} (m : M A) (f : A -> M B) : rel R m -> (forall a, rel R (f a)) -> rel R (bind m f).
  Proof. intros Hm Hf s y s' H. apply bind_ok in H as (a & s1 & H1 & H2). eapply R_trans; [apply (Hm _ _ _ H1)|apply (Hf _ _ _ _ H2)]. Qed.
End Rel.

(** ** Readonly accounts *)

Definition roR (w : key -> bool) (s s' : state) : Prop := forall k, w k = false -> accs s' k = accs s k.
Definition sub (c : ctx) (w : key -> bool) : Prop := forall k, c_wr c k = true -> w k = true.
Lemma roR_refl w s : roR w s s. Proof. intros k _. reflexivity. Qed.
Lemma roR_trans w a b c : roR w a b -> roR w b c -> roR w a c.
Proof. intros H1 H2 k K. rewrite (H2 k K). apply H1. exact K. Qed.
Lemma roR_log w s b : roR w s (put_log s b). Proof. intros k _. reflexivity. Qed.

Lemma acct_eta a : Acct (lam a) (own a) (dat a) = a. Proof. destruct a. reflexivity. Qed.
Lemma ro_set_data w c k d : sub c w -> rel (roR w) (set_data c k d).
Proof.
  intros S s x s' H j J. apply set_data_ok in H as [-> H]. destruct (key_dec j k) as [->|N].
  - destruct H as [<-|[_ H]]; [|apply S in H; congruence]. unfold put_dat. rewrite accs_put_same. apply acct_eta.
  - unfold put_dat. apply accs_put_other. exact N.
Qed.
Lemma ro_set_lam w c k z : sub c w -> rel (roR w) (set_lam c k z).
Proof.
  intros S s x s' H j J. apply set_lam_ok in H as [-> H]. destruct (key_dec j k) as [->|N].
  - destruct H as [->|[H _]]; [|apply S in H; congruence]. unfold put_lam. rewrite accs_put_same. apply acct_eta.
  - unfold put_lam. apply accs_put_other. exact N.
Qed.
Lemma ro_set_own w c k o : sub c w -> rel (roR w) (set_own c k o).
Proof.
  intros S s x s' H j J. apply set_own_ok in H as [-> H]. destruct (key_dec j k) as [->|N].
  - destruct H as [<-|(_ & H & _)]; [|apply S in H; congruence]. unfold put_own. rewrite accs_put_same. apply acct_eta.
  - unfold put_own. apply accs_put_other. exact N.
Qed.
Lemma ro_cpi w c infos pid ms pdas f : sub c w -> (forall c', sub c' w -> rel (roR w) (f c')) ->
  rel (roR w) (cpi c infos pid ms pdas f).
Proof.
  intros S F s x s' H. apply cpi_inv in H as [H P]. apply (F (ctx_of pid ms)) in H; [exact H|].
  intros k K. apply S. eapply cpi_wr; eassumption.
Qed.

Ltac rel_head m := match m with ?f _ => rel_head f | ?f => f end.
Ltac rel_core refl trans log :=
  match goal with
  | |- rel _ (ret _) => apply (rel_ret _ refl)
  | |- rel _ (fail _) => apply rel_fail
  | |- rel _ (lift _) => apply (rel_lift _ refl)
  | |- rel _ (guard _ _) => apply (rel_guard _ refl)
  | |- rel _ (get _) => apply (rel_get _ refl)
  | |- rel _ (fun s => Ok (now s, s)) => apply (rel_now _ refl)
  | |- rel _ (emit _) => apply (rel_emit _ log)
  | |- rel _ (bind _ _) => apply (rel_bind _ trans); [|intros ?]
  | |- rel _ (match ?x with _ => _ end) => destruct x
  | |- rel _ (let _ := _ in _) => cbv zeta
  | |- rel _ ?m => let f := rel_head m in unfold f
  end.
Ltac ro_step :=
  match goal with
  | |- rel _ (set_data _ _ _) => apply ro_set_data; assumption
  | |- rel _ (set_lam _ _ _) => apply ro_set_lam; assumption
  | |- rel _ (set_own _ _ _) => apply ro_set_own; assumption
  | |- rel _ (cpi _ _ _ _ _ _) => apply ro_cpi; [assumption|intros ? ?]
  | |- rel (roR ?w) _ => rel_core (roR_refl w) (roR_trans w) (roR_log w)
  end.

(** The runtime holds every called program to the rule. *)
Definition ext_ro (ext : extern) : Prop := forall c d s a s', ext c d s = Ok (a, s') -> roR (c_wr c) s s'.

Lemma roR_mono w c s s' : sub c w -> roR (c_wr c) s s' -> roR w s s'.
Proof. intros S H k K. apply H. destruct (c_wr c k) eqn:E; [apply S in E; congruence|reflexivity]. Qed.
Lemma ro_ext w ext c d : ext_ro ext -> sub c w -> rel (roR w) (ext c d).
Proof. intros X S s a s' H. eapply roR_mono; [exact S|]. eapply X. exact H. Qed.
Lemma ro_invoke_all w e ext c sd l : ext_ro ext -> sub c w -> rel (roR w) (invoke_all e ext c sd l).
Proof.
  intros X S. induction l as [|i l IH]; cbn [invoke_all]; repeat match goal with
    | |- rel _ (ext _ _) => apply ro_ext; assumption
    | |- rel _ (invoke_all _ _ _ _ _) => exact IH
    | _ => ro_step end.
Qed.
Lemma ro_fill_loop w e c a b m d f : sub c w -> forall l x y, rel (roR w) (fill_loop e c a b m d f x y l).
Proof.
  intros S. fix IH 1. intros [|k [|j l]] x y; cbn [fill_loop].
  - repeat ro_step.
  - repeat ro_step.
  - apply (rel_bind _ (roR_trans w)).
    + repeat ro_step.
    + intros [fee net]. apply IH.
Qed.
Lemma ro_tp_exec w e ext c i : ext_ro ext -> sub c w -> rel (roR w) (tp_exec e ext c i).
Proof.
  intros X S. destruct i; cbn [tp_exec];
    repeat match goal with
    | |- rel _ (invoke_all _ _ _ _ _) => apply ro_invoke_all; assumption
    | |- rel _ (fill_loop _ _ _ _ _ _ _ _ _ _) => apply ro_fill_loop; assumption
    | _ => ro_step end.
Qed.
Lemma ro_tp_process w e ext c d : ext_ro ext -> sub c w -> rel (roR w) (tp_process e ext c d).
Proof.
  intros X S. unfold tp_process. apply (rel_bind _ (roR_trans w)); [repeat ro_step|intros i; apply ro_tp_exec; assumption].
Qed.
Lemma ro_rl_process w e c d : sub c w -> rel (roR w) (rl_process e c d).
Proof.
  intros S. unfold rl_process. apply (rel_bind _ (roR_trans w)); [repeat ro_step|intros i]. unfold rl_exec. destruct i; repeat ro_step.
Qed.

(** ** Lamports *)

(** No account has a negative balance (lamports are a u64). *)
Definition nonneg (s : state) : Prop := forall k, 0 <= lam (accs s k).
(** The token proxy's accounts stay its own and are not debited; accounts that become its own hold
    lamports. *)
Definition lamR (s s' : state) : Prop := nonneg s -> nonneg s' /\ forall k,
  (own (accs s k) = tp_id -> own (accs s' k) = tp_id /\ lam (accs s k) <= lam (accs s' k)) /\
  (own (accs s k) <> tp_id -> own (accs s' k) = tp_id -> 1 <= lam (accs s' k)).
Lemma lamR_refl s : lamR s s.
Proof. intros N. split; [exact N|]. intros k. split; [intros O; split; [exact O|lia]|intros A B; contradiction]. Qed.
Lemma lamR_trans a b c : lamR a b -> lamR b c -> lamR a c.
Proof.
  intros H1 H2 N. destruct (H1 N) as [N1 K1]. destruct (H2 N1) as [N2 K2]. split; [exact N2|]. intros k.
  destruct (K1 k) as [A1 B1], (K2 k) as [A2 B2]. split.
  - intros O. destruct (A1 O) as [O1 L1]. destruct (A2 O1) as [O2 L2]. split; [exact O2|lia].
  - intros O O2. destruct (key_dec (own (accs b k)) tp_id) as [E|E].
    + specialize (B1 O E). destruct (A2 E). lia.
    + apply B2; assumption.
Qed.
Lemma lamR_log s b : lamR s (put_log s b).
Proof. apply (lamR_refl s). Qed.

(** Same lamports and owners. *)
Lemma lamR_same s s' : (forall k, own (accs s' k) = own (accs s k) /\ lam (accs s' k) = lam (accs s k)) -> lamR s s'.
Proof.
  intros H N. split.
  - intros k. destruct (H k) as [_ ->]. apply N.
  - intros k. destruct (H k) as [-> ->]. split; [intros O; split; [exact O|lia]|intros A B; contradiction].
Qed.
Lemma lam_set_data c k d : rel lamR (set_data c k d).
Proof.
  intros s x s' H. apply set_data_ok in H as [-> _]. apply lamR_same. intros j. split; [apply own_put_dat|apply lam_put_dat].
Qed.
Lemma lam_set_lam c k z : c_pid c <> tp_id -> rel lamR (set_lam c k z).
Proof.
  intros P s x s' H. pose proof (set_lam_nn _ _ _ _ _ _ H) as Z0. apply set_lam_ok in H as [-> H]. intros N. split.
  - intros j. destruct (key_dec j k) as [->|D]; [rewrite lam_put_lam; exact Z0|rewrite lam_put_lam_other by exact D; apply N].
  - intros j. rewrite own_put_lam. split; [|intros A B; contradiction]. intros O. split; [exact O|].
    destruct (key_dec j k) as [->|D]; [|rewrite lam_put_lam_other by exact D; lia].
    rewrite lam_put_lam. destruct H as [->|[_ [H|H]]]; [lia|lia|]. congruence.
Qed.
Lemma lam_create e c from to z n o sd : 1 <= z -> rel lamR (invoke_create e c from to z n o sd).
Proof.
  intros Z1 s x s' H. apply invoke_create_ok in H as ((C1 & C2 & C3 & C4 & C5 & C6) & _ & D & L & _ & _ & _ & OF & _).
  assert (NE : from <> to) by (intros ->; lia). intros N. split.
  - intros k. rewrite (D k). pose proof (N k). destruct (key_dec k to) as [->|K1].
    + rewrite at_same, (at_other from) by (intros X; apply NE; symmetry; exact X). lia.
    + rewrite (at_other to) by exact K1. destruct (key_dec k from) as [->|K2]; [rewrite at_same; lia|rewrite at_other by exact K2; lia].
  - intros k. rewrite (D k). pose proof (N k). destruct (key_dec k to) as [->|K1].
    + rewrite at_same, (at_other from) by (intros X; apply NE; symmetry; exact X). split; [intros O; rewrite C1 in O; discriminate|lia].
    + destruct (C6 k K1) as [-> _]. split; [|intros A B; contradiction]. intros O. split; [exact O|].
      rewrite (at_other to) by exact K1. destruct (key_dec k from) as [->|K2]; [|rewrite at_other by exact K2; lia].
      rewrite OF in O by lia. discriminate.
Qed.
Lemma lam_pda_account e c payer n o si k sd : rel lamR (create_pda_account e c payer n o si k sd).
Proof.
  intros s x s' H. pose proof H as H0. apply create_pda_account_ok in H as ((M1 & M2 & M3 & M4 & M5) & _ & (p & P0 & D & PV & _ & PO) & _).
  assert (LP : 0 < p -> payer <> k -> p <= lam (accs s payer)).
  { intros Hp NE. unfold create_pda_account in H0. mstep H0. destruct (0 <? lam (accs s k)) eqn:El.
    - cbv zeta in H0. apply bind_ok in H0 as (u & s1 & Ht & H0).
      destruct (0 <? Z.max (rent_min e n) 1 - lam (accs s k)) eqn:Er; [|lia].
      apply cpi_inv in Ht as [Ht _]. apply sys_transfer_ok in Ht as (_ & _ & T & _). rewrite PV in * by lia. lia.
    - mstep H0. apply cpi_inv in H0 as [H0 _]. apply sys_create_ok in H0 as (_ & _ & _ & T & _ & T6 & _).
      pose proof (T6 k) as Q1. rewrite (D k) in Q1. rewrite !at_same, !(at_other payer) in Q1 by (intros X; apply NE; symmetry; exact X). lia. }
  intros N. pose proof (N k) as Nk. specialize (PV Nk).
  assert (NN : nonneg s').
  { intros j. rewrite (D j). pose proof (N j). destruct (key_dec j k) as [->|K1].
    - rewrite at_same. destruct (key_dec k payer) as [->|K2]; [rewrite at_same; lia|rewrite at_other by exact K2; lia].
    - rewrite (at_other k) by exact K1. destruct (key_dec j payer) as [->|K2]; [|rewrite at_other by exact K2; lia].
      rewrite at_same. destruct (Z.eq_dec p 0); [lia|]. specialize (LP ltac:(lia) K1). lia. }
  split; [exact NN|]. intros j. destruct (key_dec j k) as [->|K1].
  - split; [intros O; rewrite M1 in O; discriminate|]. intros _ _. rewrite (D k), at_same.
    destruct (key_dec k payer) as [->|K2]; [rewrite at_same|rewrite at_other by exact K2; lia].
    destruct (Z.eq_dec p 0) as [->|Hp]; [lia|].
    (* paying for itself needs lamports *)
    unfold create_pda_account in H0. mstep H0. destruct (0 <? lam (accs s payer)) eqn:El; [lia|].
    mstep H0. apply cpi_inv in H0 as [H0 _]. apply sys_create_ok in H0 as (_ & _ & _ & T & _). lia.
  - destruct (M5 j K1) as [-> _]. split; [|intros A B; contradiction]. intros O. split; [exact O|].
    rewrite (D j), (at_other k) by exact K1. destruct (key_dec j payer) as [->|K2]; [|rewrite at_other by exact K2; lia].
    rewrite at_same. destruct (Z.eq_dec p 0); [lia|]. rewrite PO in O by lia. discriminate.
Qed.
Lemma lam_cpi c infos pid ms pdas f : pid <> tp_id -> (forall c', c_pid c' <> tp_id -> rel lamR (f c')) ->
  rel lamR (cpi c infos pid ms pdas f).
Proof. intros S F s x s' H. apply cpi_inv in H as [H _]. apply (F (ctx_of pid ms)) in H; [exact H|exact S]. Qed.

Ltac lam_step :=
  match goal with
  | |- rel _ (set_data _ _ _) => apply lam_set_data
  | |- rel _ (set_lam _ _ _) => apply lam_set_lam; assumption
  | |- rel _ (invoke_create _ _ _ _ _ _ _ _) => apply lam_create; lia
  | |- rel _ (create_pda_account _ _ _ _ _ _ _ _) => apply lam_pda_account
  | |- rel _ (cpi _ _ _ _ _ _) => apply lam_cpi; [discriminate|intros ? ?]
  | |- rel _ _ => rel_core lamR_refl lamR_trans lamR_log
  end.

(** The instructions that do not pay lamports out of the token proxy's own accounts. *)
Definition debits (i : tp_ix) : bool :=
  match i with
  | TpVote _ | TpCloseDeposit | TpCloseWithdrawal | TpWithdrawMultiVault _
  | TpExecutePayloadEver | TpExecutePayloadSol => true
  | _ => false end.

Lemma lam_fill_loop e c a b m d f : forall l x y, rel lamR (fill_loop e c a b m d f x y l).
Proof.
  fix IH 1. intros [|k [|j l]] x y; cbn [fill_loop].
  - repeat lam_step.
  - repeat lam_step.
  - apply (rel_bind _ lamR_trans).
    + repeat lam_step.
    + intros [fee net]. apply IH.
Qed.
Lemma lam_tp_exec e ext c i : debits i = false -> rel lamR (tp_exec e ext c i).
Proof.
  intros D. destruct i; try discriminate; cbn [tp_exec];
    repeat match goal with
    | |- rel _ (fill_loop _ _ _ _ _ _ _ _ _ _) => apply lam_fill_loop
    | _ => lam_step end.
Qed.

(** Nothing makes a balance negative, nothing changes the clock. *)
Definition nnR (s s' : state) : Prop := now s' = now s /\ (nonneg s -> nonneg s').
Lemma nnR_refl s : nnR s s. Proof. split; [reflexivity|auto]. Qed.
Lemma nnR_trans a b c : nnR a b -> nnR b c -> nnR a c.
Proof. intros [A1 B1] [A2 B2]. split; [congruence|auto]. Qed.
Lemma nnR_log s b : nnR s (put_log s b). Proof. apply (nnR_refl s). Qed.
Lemma nn_set_data c k d : rel nnR (set_data c k d).
Proof.
  intros s x s' H. apply set_data_ok in H as [-> _]. split; [reflexivity|]. intros N j. rewrite lam_put_dat. apply N.
Qed.
Lemma nn_set_own c k d : rel nnR (set_own c k d).
Proof.
  intros s x s' H. apply set_own_ok in H as [-> _]. split; [reflexivity|]. intros N j. rewrite lam_put_own. apply N.
Qed.
Lemma nn_set_lam c k z : rel nnR (set_lam c k z).
Proof.
  intros s x s' H. pose proof (set_lam_nn _ _ _ _ _ _ H) as Z0. apply set_lam_ok in H as [-> _]. split; [reflexivity|].
  intros N j. destruct (key_dec j k) as [->|D]; [rewrite lam_put_lam; exact Z0|rewrite lam_put_lam_other by exact D; apply N].
Qed.
Lemma nn_cpi c infos pid ms pdas f : (forall c', rel nnR (f c')) -> rel nnR (cpi c infos pid ms pdas f).
Proof. intros F s x s' H. apply cpi_inv in H as [H _]. apply F in H. exact H. Qed.
Ltac nn_step :=
  match goal with
  | |- rel _ (set_data _ _ _) => apply nn_set_data
  | |- rel _ (set_lam _ _ _) => apply nn_set_lam
  | |- rel _ (set_own _ _ _) => apply nn_set_own
  | |- rel _ (cpi _ _ _ _ _ _) => apply nn_cpi; intros ?
  | |- rel _ _ => rel_core nnR_refl nnR_trans nnR_log
  end.
Lemma nn_fill_loop e c a b m d f : forall l x y, rel nnR (fill_loop e c a b m d f x y l).
Proof.
  fix IH 1. intros [|k [|j l]] x y; cbn [fill_loop].
  - repeat nn_step.
  - repeat nn_step.
  - apply (rel_bind _ nnR_trans).
    + repeat nn_step.
    + intros [fee net]. apply IH.
Qed.
Lemma nn_tp_exec e ext c i : is_payload i = false -> rel nnR (tp_exec e ext c i).
Proof.
  intros D. destruct i; try discriminate; cbn [tp_exec];
    repeat match goal with
    | |- rel _ (fill_loop _ _ _ _ _ _ _ _ _ _) => apply nn_fill_loop
    | _ => nn_step end.
Qed.
