(** Which accounts of a program an instruction writes: a frame for whole instructions, proved along the
    structure of the code.  No code of /repo is modelled here. *)

From Coq Require Import ZifyBool ZifyNat ZifyN.
From Verif Require Export TpWorld.
Ltac Zify.zify_post_hook ::= Z.div_mod_to_equations.
Open Scope Z_scope.

(** Every account of [pid] outside [P] stays an account of [pid], keeps its data and is not debited; an account
    that becomes one of [pid]'s is in [P], or - if [free] - has zero data. *)
Definition touchR (pid : key) (free : bool) (P : key -> Prop) (s s' : state) : Prop := forall k,
  (own (accs s k) = pid -> P k \/ own (accs s' k) = pid /\ dat (accs s' k) = dat (accs s k) /\ lam (accs s k) <= lam (accs s' k)) /\
  (own (accs s k) <> pid -> own (accs s' k) = pid -> P k \/ free = true /\ all0 (dat (accs s' k)) = true).

Section Touch.
  Context (pid : key) (free : bool) (P : key -> Prop).
  Definition tchR (s s' : state) : Prop := nonneg s -> nonneg s' /\ touchR pid free P s s'.
  Notation R := tchR.
  Lemma touchR_refl s : touchR pid free P s s.
  Proof. intros k. split; [intros O; right; auto using Z.le_refl|intros N O; contradiction]. Qed.
  Lemma touchR_trans a b c : touchR pid free P a b -> touchR pid free P b c -> touchR pid free P a c.
  Proof.
    intros H1 H2 k. destruct (H1 k) as [A1 B1], (H2 k) as [A2 B2]. split.
    - intros O. destruct (A1 O) as [?|(O1 & D1 & L1)]; [auto|]. destruct (A2 O1) as [?|(O2 & D2 & L2)]; [auto|].
      right. split; [exact O2|]. split; [congruence|lia].
    - intros N O. destruct (key_dec (own (accs b k)) pid) as [E|E]; [|auto].
      destruct (B1 N E) as [?|[F Z1]]; [auto|]. destruct (A2 E) as [?|(_ & D2 & _)]; [auto|]. right. rewrite D2. auto.
  Qed.
  Lemma tch_refl s : R s s. Proof. intros N. split; [exact N|apply touchR_refl]. Qed.
  Lemma tch_trans a b c : R a b -> R b c -> R a c.
  Proof. intros H1 H2 N. destruct (H1 N) as [N1 T1]. destruct (H2 N1) as [N2 T2]. split; [exact N2|]. eapply touchR_trans; eassumption. Qed.
  Lemma tch_log s b : R s (put_log s b). Proof. apply (tch_refl s). Qed.

  Lemma touch_set_data c k d : (c_pid c = pid -> P k) -> rel R (set_data c k d).
  Proof.
    intros W s x s' H N0. apply set_data_ok in H as [-> H]. split; [intros j; rewrite lam_put_dat; apply N0|].
    intros j. rewrite own_put_dat, lam_put_dat. split; [|intros N O; contradiction].
    intros O. destruct (key_dec j k) as [->|N].
    - destruct H as [<-|[E _]]; [right|left; apply W; congruence].
      split; [exact O|]. split; [|lia]. unfold put_dat. rewrite accs_put_same. reflexivity.
    - right. split; [exact O|]. split; [|lia]. unfold put_dat. rewrite accs_put_other by exact N. reflexivity.
  Qed.
  Lemma nonneg_put_lam s k z : nonneg s -> 0 <= z -> nonneg (put_lam s k z).
  Proof. intros N Z0 j. destruct (key_dec j k) as [->|D]; [rewrite lam_put_lam; exact Z0|rewrite lam_put_lam_other by exact D; apply N]. Qed.
  Lemma touch_set_lam c k z : (c_pid c = pid -> P k) -> rel R (set_lam c k z).
  Proof.
    intros W s x s' H N0. pose proof (set_lam_nn _ _ _ _ _ _ H) as Z0. apply set_lam_ok in H as [-> H].
    split; [apply nonneg_put_lam; assumption|]. intros j. rewrite own_put_lam, dat_put_lam. split; [|intros N O; contradiction].
    intros O. destruct (key_dec j k) as [->|N].
    - rewrite lam_put_lam. destruct H as [->|[_ [H|E]]]; [right; auto using Z.le_refl|right; split; [exact O|split; [reflexivity|lia]]|left; apply W; congruence].
    - rewrite lam_put_lam_other by exact N. right. auto using Z.le_refl.
  Qed.
  (** An account that is only given lamports. *)
  Lemma touch_credit c k z s x s' : set_lam c k z s = Ok (x, s') -> lam (accs s k) <= z -> R s s'.
  Proof.
    intros H L N0. pose proof (set_lam_nn _ _ _ _ _ _ H) as Z0. apply set_lam_ok in H as [-> H].
    split; [apply nonneg_put_lam; assumption|]. intros j. rewrite own_put_lam, dat_put_lam. split; [|intros N O; contradiction].
    intros O. right. split; [exact O|]. split; [reflexivity|]. destruct (key_dec j k) as [->|N]; [rewrite lam_put_lam; exact L|rewrite lam_put_lam_other by exact N; lia].
  Qed.
  Lemma touch_move_lam c a b n : 0 <= n -> (c_pid c = pid -> P a) -> rel R (move_lam c a b n).
  Proof.
    intros N0 W s x s' H. unfold move_lam in H. apply bind_ok in H as (x0 & s1 & B1 & H). cbv beta in H.
    injection B1 as <- <-. apply bind_ok in H as (u & s1 & B1 & H). apply guard_ok in B1 as [_ ->].
    apply bind_ok in H as (u1 & s2 & B1 & H). apply bind_ok in H as (y & s3 & B3 & H). injection B3 as <- <-.
    apply bind_ok in H as (u2 & s3 & B3 & H). apply guard_ok in B3 as [_ ->].
    eapply tch_trans; [apply (touch_set_lam _ _ _ W _ _ _ B1)|]. eapply touch_credit; [exact H|lia].
  Qed.
  Lemma touch_set_own c k o : c_pid c <> pid \/ P k -> (o = pid -> P k) -> rel R (set_own c k o).
  Proof.
    intros NP W s x s' H N0. apply set_own_ok in H as [-> H]. split; [intros j; rewrite lam_put_own; apply N0|].
    intros j. rewrite dat_put_own, lam_put_own. destruct (key_dec j k) as [->|N].
    - unfold put_own. rewrite accs_put_same. cbn [own]. split.
      + intros O. destruct NP as [NP|NP]; [|auto]. destruct H as [<-|(E & _)]; [right; split; [exact O|]; split; [reflexivity|lia]|congruence].
      + intros O E. left. apply W. exact E.
    - unfold put_own. rewrite accs_put_other by exact N. split; [intros O; right; auto using Z.le_refl|intros O E; contradiction].
  Qed.
  Lemma touch_delete c k a : P k -> pid <> sys_id -> rel R (delete_account c k a).
  Proof.
    intros W NS s x s' H. unfold delete_account in H. apply bind_ok in H as (x0 & s1 & B1 & H). cbv beta in H.
    injection B1 as <- <-. apply bind_ok in H as (y0 & s1 & B1 & H). cbv beta in H. injection B1 as <- <-.
    apply bind_ok in H as (u & s1 & B1 & H). apply guard_ok in B1 as [_ ->]. apply bind_ok in H as (u1 & s2 & B1 & H).
    apply bind_ok in H as (u2 & s3 & B2 & H). apply bind_ok in H as (u3 & s4 & B3 & H). intros N0. revert N0.
    change (R s s'). intros N0. apply (tch_trans s s2); [|apply (tch_trans s2 s3); [|apply (tch_trans s3 s4)]|exact N0].
    - eapply touch_credit; [exact B1|]. specialize (N0 k). lia.
    - apply (touch_set_lam _ _ _ (fun _ => W) _ _ _ B2).
    - apply (touch_set_data _ _ _ (fun _ => W) _ _ _ B3).
    - apply (touch_set_own _ _ _ (or_intror W) (fun E => match NS (eq_sym E) with end) _ _ _ H).
  Qed.
  Lemma touch_cpi c infos q ms pdas f : q <> pid -> (forall c', c_pid c' <> pid -> rel R (f c')) -> rel R (cpi c infos q ms pdas f).
  Proof. intros S F s x s' H. apply cpi_inv in H as [H _]. apply (F (ctx_of q ms)) in H; [exact H|exact S]. Qed.
End Touch.

(** The key at one of the places of the account list. *)
Definition at_places (l : nat -> Prop) (c : ctx) (k : key) : Prop := exists n, l n /\ nth_error (c_keys c) n = Some k.

(** Places of the token proxy's own accounts that instructions write to or take lamports from. *)
Definition tp_place (i : tp_ix) (n : nat) : Prop :=
  match i with
  | TpVote _ => n = 1%nat
  | TpWithdrawEver | TpWithdrawSol => n = 0%nat \/ n = 3%nat
  | TpExecutePayloadEver | TpExecutePayloadSol => n = 0%nat
  | TpInitialize _ _ _ => n = 2%nat \/ n = 3%nat
  | TpDepositEver _ _ _ _ _ _ => n = 3%nat \/ n = 6%nat
  | TpDepositSol _ _ _ _ _ _ _ _ => n = 4%nat \/ n = 7%nat
  | TpWithdrawEverRequest _ _ _ _ _ _ _ _ _ _ _ | TpWithdrawSolRequest _ _ _ _ _ _ _ => n = 2%nat
  | TpChangeGuardian _ | TpChangeManager _ | TpChangeWithdrawalManager _ => n = 1%nat
  | TpChangeDepositLimit _ | TpChangeWithdrawalLimits _ _ => n = 1%nat
  | TpEnableEmergency | TpDisableEmergency | TpEnableTokenEmergency | TpDisableTokenEmergency => n = 1%nat
  | TpApproveEver | TpApproveSol => n = 2%nat \/ n = 4%nat
  | TpUpdateFee _ _ _ | TpUpdateTokenName _ _ => n = 1%nat
  | TpWithdrawEverFee _ => n = 3%nat
  | TpWithdrawSolFee _ => n = 2%nat
  | TpChangeBounty _ => n = 1%nat
  | TpCancel _ _ _ _ _ => n = 3%nat \/ n = 4%nat
  | TpFill _ _ _ _ _ _ => n = 4%nat \/ exists m, n = (11 + 2 * m)%nat
  | TpWithdrawProxy _ => False
  | TpCloseDeposit => n = 1%nat
  | TpCloseWithdrawal => n = 0%nat
  | TpWithdrawMultiVault _ => n = 2%nat
  end.

(** Places of the round loader's own accounts that instructions write to or take lamports from. *)
Definition rl_place (i : rl_ix) (n : nat) : Prop :=
  match i with
  | RlVote _ => n = 1%nat
  | RlInitialize _ _ _ _ => n = 2%nat
  | RlUpdateSettings _ _ _ _ => n = 1%nat
  | RlCreateRelayRound _ _ _ => n = 2%nat \/ n = 3%nat
  | RlCreateProposal _ _ _ _ _ => n = 2%nat
  | RlWriteProposal _ _ => n = 0%nat
  | RlFinalize => n = 1%nat
  | RlExecute => n = 1%nat \/ n = 2%nat \/ n = 3%nat
  | RlExecuteByAdmin => n = 2%nat \/ n = 3%nat \/ n = 4%nat
  end.

Ltac place :=
  subst; match goal with E : c_keys ?c = _ |- at_places _ ?c _ =>
    first [exists 0%nat; split; [cbn [tp_place rl_place]; tauto|rewrite E; reflexivity]
          |exists 1%nat; split; [cbn [tp_place rl_place]; tauto|rewrite E; reflexivity]
          |exists 2%nat; split; [cbn [tp_place rl_place]; tauto|rewrite E; reflexivity]
          |exists 3%nat; split; [cbn [tp_place rl_place]; tauto|rewrite E; reflexivity]
          |exists 4%nat; split; [cbn [tp_place rl_place]; tauto|rewrite E; reflexivity]
          |exists 6%nat; split; [cbn [tp_place rl_place]; tauto|rewrite E; reflexivity]
          |exists 7%nat; split; [cbn [tp_place rl_place]; tauto|rewrite E; reflexivity]] end.
Ltac touch_side := first [assumption|let E := fresh in intros E; first [contradiction|discriminate E|place]].
Ltac touch_core refl trans log :=
  match goal with
  | |- rel _ (ret _) => apply (rel_ret _ refl)
  | |- rel _ (fail _) => apply rel_fail
  | |- rel _ (lift _) => apply (rel_lift _ refl)
  | |- rel _ (guard _ _) => apply (rel_guard _ refl)
  | |- rel _ (get _) => apply (rel_get _ refl)
  | |- rel _ (fun s => Ok (now s, s)) => apply (rel_now _ refl)
  | |- rel _ (emit _) => apply (rel_emit _ log)
  | |- rel _ (bind _ _) => apply (rel_bind _ trans); [|intros ?]
  | |- rel _ (match ?x with _ => _ end) => destruct x eqn:?
  | |- rel _ (let _ := _ in _) => cbv zeta
  | |- rel _ ?m => let f := rel_head m in unfold f
  end.
Ltac touch_step :=
  match goal with
  | |- rel _ (set_data _ _ _) => apply touch_set_data; touch_side
  | |- rel _ (move_lam _ _ _ _) => apply touch_move_lam; [first [assumption|vm_compute; discriminate]|touch_side]
  | |- rel _ (delete_account _ _ _) => apply touch_delete; [place|discriminate]
  | |- rel _ (set_lam _ _ _) => apply touch_set_lam; touch_side
  | |- rel _ (set_own _ _ _) => apply touch_set_own; [left; assumption|touch_side]
  | |- rel _ (cpi _ _ _ _ _ _) => apply touch_cpi; [discriminate|intros ? ?]
  | |- rel (tchR ?p ?f ?w) _ => touch_core (tch_refl p f w) (tch_trans p f w) (tch_log p f w)
  end.

Lemma touch_fill_loop free (P : key -> Prop) e c a b m d f : c_pid c = tp_id -> forall l x y,
  (forall n k r, nth_error l (2 * n) = Some k -> nth_error l (1 + 2 * n) = Some r -> P k) ->
  rel (tchR tp_id free P) (fill_loop e c a b m d f x y l).
Proof.
  intros Hp. fix IH 1. intros [|k [|j l]] x y W; cbn [fill_loop].
  - repeat touch_step.
  - repeat touch_step.
  - assert (WK : P k) by exact (W 0%nat k j eq_refl eq_refl).
    apply (rel_bind _ (tch_trans tp_id free P)).
    + repeat match goal with
      | |- rel _ (set_data _ k _) => apply touch_set_data; intros _; exact WK
      | _ => touch_step end.
    + intros [fee net]. apply IH. intros n k' r A B. apply (W (S n) k' r).
      * replace (2 * S n)%nat with (S (S (2 * n))) by lia. exact A.
      * replace (1 + 2 * S n)%nat with (S (S (1 + 2 * n))) by lia. exact B.
Qed.

(** What payloads call leaves the token proxy's accounts outside [P] alone. *)
Definition ext_touch (P : key -> Prop) (ext : extern) : Prop := forall c d s a s', ext c d s = Ok (a, s') -> tchR tp_id true P s s'.
Lemma touch_invoke_all P e ext c sd l : ext_touch P ext -> rel (tchR tp_id true P) (invoke_all e ext c sd l).
Proof.
  intros X. induction l as [|i l IH]; cbn [invoke_all]; repeat match goal with
    | |- rel _ (cpi _ _ _ _ _ _) => let H := fresh in intros ? ? ? H; apply cpi_inv in H as [H _]; eapply X; exact H
    | |- rel _ (invoke_all _ _ _ _ _) => exact IH
    | _ => touch_step end.
Qed.
Lemma tch_weaken free (P Q : key -> Prop) s s' : (forall k, P k -> Q k) -> tchR tp_id false P s s' -> tchR tp_id free Q s s'.
Proof.
  intros W T N. destruct (T N) as [N' K]. split; [exact N'|]. intros k. destruct (K k) as [A B]. split.
  - intros O. destruct (A O) as [?|?]; auto.
  - intros O O'. destruct (B O O') as [?|[? _]]; [auto|discriminate].
Qed.

Lemma touch_proxy_account free (P : key -> Prop) e c r f p m sk tk : c_pid c = tp_id -> rel (tchR tp_id free P) (create_proxy_account e c r f p m sk tk).
Proof.
  intros Hp. unfold create_proxy_account. apply (rel_bind _ (tch_trans tp_id free P)); [repeat touch_step|]. intros [pk n].
  apply (rel_bind _ (tch_trans tp_id free P)); [repeat touch_step|]. intros _.
  apply (rel_bind _ (tch_trans tp_id free P)); [repeat touch_step|]. intros a.
  apply (rel_bind _ (tch_trans tp_id free P)); [repeat touch_step|]. intros _.
  destruct (nil_b (dat a)); [|repeat touch_step].
  intros s x s' H. assert (E : tk = spl_id).
  { apply bind_ok in H as (u & s1 & _ & H). apply bind_ok in H as (u1 & s2 & G & _). apply guard_ok in G as [G _]. apply keqb_eq. exact G. }
  subst tk. revert s x s' H.
  match goal with |- forall s x s', ?m s = _ -> _ => change (rel (tchR tp_id free P) m) end. repeat touch_step.
Qed.

(** Instructions other than payload executions. *)
Lemma touch_tp_exec e ext c i : c_pid c = tp_id -> okb c_tp_ix i = true -> is_payload i = false ->
  rel (tchR tp_id false (at_places (tp_place i) c)) (tp_exec e ext c i).
Proof.
  intros Hp OI IP. assert (NP : forall n, i = TpWithdrawMultiVault n -> 0 <= n).
  { intros n ->. change (okb c_u64 n = true) in OI. apply okb_u64 in OI. lia. }
  destruct i; try discriminate IP; cbn [tp_exec]; try (specialize (NP _ eq_refl));
    repeat match goal with
    | |- rel _ (create_proxy_account _ _ _ _ _ _ _ _) => apply touch_proxy_account; exact Hp
    | |- rel _ (fill_loop _ _ _ _ _ _ _ _ _ _) => apply touch_fill_loop; [exact Hp|subst; match goal with E : c_keys c = _ |- _ => intros n ? ? A _; exists (11 + 2 * n)%nat;
        split; [cbn [tp_place]; right; exists n; reflexivity|rewrite E; exact A] end]
    | _ => touch_step end.
Qed.

(** Payload executions, given what the called programs leave alone. *)
Lemma touch_tp_payload (P : key -> Prop) e ext c i : c_pid c = tp_id -> is_payload i = true -> ext_touch P ext ->
  (forall k, at_places (tp_place i) c k -> P k) -> rel (tchR tp_id true P) (tp_exec e ext c i).
Proof.
  intros Hp IP X W. destruct i; try discriminate IP; cbn [tp_exec];
    repeat match goal with
    | |- rel _ (invoke_all _ _ _ _ _) => apply touch_invoke_all; assumption
    | |- rel _ (set_data _ _ _) => apply touch_set_data; intros _; apply W; place
    | _ => touch_step end.
Qed.
Lemma foreign_touch e sg s s' : foreign_with e sg s s' -> tchR tp_id true (fun _ => False) s s'.
Proof.
  intros [_ F] N. split; [intros k; apply (F k); apply N|]. intros k. destruct (F k) as (_ & A & B & _). split.
  - intros O. right. destruct (A O) as [[O1 D] L]. split; [congruence|]. split; assumption.
  - intros O O'. right. auto.
Qed.
Lemma tch_ext0 e ext (P : key -> Prop) : tp_ext e 0 ext -> ext_touch P ext.
Proof.
  intros X c d s a s' H. apply X in H as [[_ F]|[]]. apply foreign_touch in F. intros N. destruct (F N) as [N' K].
  split; [exact N'|]. intros k. destruct (K k) as [A B]. split.
  - intros O. destruct (A O) as [[]|Q]. right. exact Q.
  - intros O O'. destruct (B O O') as [[]|Q]. right. exact Q.
Qed.

Lemma touch_rl_exec e c i : c_pid c = rl_id -> rel (tchR rl_id false (at_places (rl_place i) c)) (rl_exec e c i).
Proof. intros Hp. unfold rl_exec. destruct i; repeat touch_step. Qed.
