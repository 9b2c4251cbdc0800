(** Inversion lemmas for the helpers of bridge-utils and for account packing. *)

From Coq Require Import ZifyBool ZifyNat ZifyN.
From Verif Require Export CodecFacts RuntimeLaws.
Ltac Zify.zify_post_hook ::= Z.div_mod_to_equations.

Lemma validate_pda_ok e pid sd n k a : validate_pda e pid sd n k = Ok a ->
  a = k /\ find_pda e sd pid = Ok (k, n).
Proof.
  unfold validate_pda. destruct (find_pda e sd pid) as [[a' n']|]; cbn [rbind]; [|discriminate].
  destruct (keqb a' k) eqn:E; cbn [negb]; [|discriminate]. apply keqb_eq in E as ->.
  destruct (Z.eqb_spec n' n) as [->|]; cbn [negb]; [|discriminate].
  intros H; injection H as <-. auto.
Qed.
Lemma validate_programdata_ok e pid n k a : validate_programdata e pid n k = Ok a ->
  find_pda e (sd_programdata pid) loader_id = Ok (k, n).
Proof.
  unfold validate_programdata. destruct (find_pda e _ loader_id) as [[a' n']|]; cbn [rbind]; [|discriminate].
  destruct (keqb a' k) eqn:E; cbn [negb]; [|discriminate]. apply keqb_eq in E as ->.
  destruct (Z.eqb_spec n' n) as [->|]; cbn [negb]; [|discriminate]. reflexivity.
Qed.
Lemma validate_initializer_ok d k a : validate_initializer d k = Ok a -> upgrade_authority d = Some k.
Proof.
  unfold validate_initializer. destruct (upgrade_authority d) as [a'|]; [|discriminate].
  destruct (keqb a' k) eqn:E; [|discriminate]. apply keqb_eq in E as ->. reflexivity.
Qed.

Lemma into_settings_ok k a b : into_settings k = Ok (a, b) -> k = KSettings a b.
Proof. destruct k; cbn; intros H; try discriminate. injection H as <- <-. reflexivity. Qed.
Lemma into_deposit_ok k a : into_deposit k = Ok a -> k = KDeposit a.
Proof. destruct k; cbn; intros H; try discriminate. injection H as <-. reflexivity. Qed.
Lemma into_proposal_ok k a b : into_proposal k = Ok (a, b) -> k = KProposal a b.
Proof. destruct k; cbn; intros H; try discriminate. injection H as <- <-. reflexivity. Qed.
Lemma into_relay_round_ok k a : into_relay_round k = Ok a -> k = KRelayRound a.
Proof. destruct k; cbn; intros H; try discriminate. injection H as <-. reflexivity. Qed.
Lemma into_multi_vault_ok k a : into_multi_vault k = Ok a -> k = KMultiVault a.
Proof. destruct k; cbn; intros H; try discriminate. injection H as <-. reflexivity. Qed.
Lemma into_token_settings_ok k a b : into_token_settings k = Ok (a, b) -> k = KTokenSettings a b.
Proof. destruct k; cbn; intros H; try discriminate. injection H as <- <-. reflexivity. Qed.
Lemma into_ever_ok k a b d : into_ever k = Ok (a, b, d) -> k = TKEver a b d.
Proof. destruct k; cbn; intros H; try discriminate. injection H as <- <- <-. reflexivity. Qed.
Lemma into_solana_ok k a b : into_solana k = Ok (a, b) -> k = TKSol a b.
Proof. destruct k; cbn; intros H; try discriminate. injection H as <- <-. reflexivity. Qed.

Lemma vote_eqb_eq a b : vote_eqb a b = true <-> a = b.
Proof. destruct a, b; cbn; split; intros; congruence. Qed.
Lemma pstatus_eqb_eq a b : pstatus_eqb a b = true <-> a = b.
Proof. destruct a, b; cbn; split; intros; congruence. Qed.
Lemma wstatus_eqb_eq a b : wstatus_eqb a b = true <-> a = b.
Proof. destruct a, b; cbn; split; intros; congruence. Qed.
Lemma vote_eqb_neq a b : vote_eqb a b = false <-> a <> b.
Proof. destruct a, b; cbn; split; intros; congruence. Qed.
Lemma wstatus_eqb_neq a b : wstatus_eqb a b = false <-> a <> b.
Proof. destruct a, b; cbn; split; intros; congruence. Qed.

Lemma position_ok k l i : position k l = Some i ->
  nth_error l i = Some k /\ forall j, (j < i)%nat -> nth_error l j <> Some k.
Proof.
  revert i. induction l as [|x l IH]; intros i; cbn [position]; [discriminate|].
  destruct (keqb x k) eqn:E.
  - intros H; injection H as <-. apply keqb_eq in E as ->. split; [reflexivity|]. intros j Hj. lia.
  - destruct (position k l) as [j|]; [|discriminate]. cbn [option_map]. intros H; injection H as <-.
    destruct (IH j eq_refl) as [H1 H2]. split; [exact H1|]. intros [|n] Hn; cbn [nth_error].
    + apply keqb_neq in E. congruence.
    + apply H2. lia.
Qed.

(** Direct lamport moves. *)
Lemma move_lam_ok c from to amt s a s' : move_lam c from to amt s = Ok (a, s') ->
  sod s s' /\ same_env s s' /\ amt <= lam (accs s from) /\
  dlam s s' (fun k => at_key to amt k - at_key from amt k) /\
  (amt <= 0 \/ own (accs s from) = c_pid c /\ c_wr c from = true /\ (c_wr c to = true)).
Proof.
  unfold move_lam. intros H. minv H.
  match goal with X : set_lam c from _ _ = _ |- _ => apply set_lam_ok in X as [-> Hf] end.
  apply set_lam_ok in H as [-> Ht].
  split; [eapply sod_trans; apply sod_put_lam|]. split; [split; reflexivity|]. split; [lia|]. split.
  - intros k. destruct (key_dec k to) as [->|Hk].
    + rewrite lam_put_lam, at_same. destruct (key_dec to from) as [->|Hn].
      * rewrite lam_put_lam, at_same. lia.
      * rewrite lam_put_lam_other, at_other by assumption. lia.
    + rewrite lam_put_lam_other, (at_other to) by assumption. destruct (key_dec k from) as [->|Hn].
      * rewrite lam_put_lam, at_same. lia.
      * rewrite lam_put_lam_other, at_other by assumption. lia.
  - destruct Hf as [Hf|[Hw Hf]]; [left; lia|]. destruct Hf as [Hf|Hf]; [left; lia|].
    destruct Ht as [Ht|[Ht _]]; [left; lia|]. right. auto.
Qed.

(** What [delete_account] leaves behind. *)
Lemma delete_account_ok c k author s a s' : delete_account c k author s = Ok (a, s') ->
  same_env s s' /\ own (accs s' k) = sys_id /\ dat (accs s' k) = repeat x00 (length (dat (accs s k))) /\
  (forall j, j <> k -> same_od s s' j) /\ lam (accs s' k) = 0 /\
  (author <> k -> lam (accs s' author) = lam (accs s author) + lam (accs s k)) /\
  (forall j, j <> k -> j <> author -> lam (accs s' j) = lam (accs s j)) /\
  (own (accs s k) = c_pid c /\ c_wr c k = true \/
   dat (accs s k) = repeat x00 (length (dat (accs s k)))).
Proof.
  unfold delete_account. intros H. do 3 mstep H.
  apply bind_ok in H as (x1 & s1 & H1 & H). apply bind_ok in H as (x2 & s2 & H2 & H).
  apply bind_ok in H as (x3 & s3 & H3 & H).
  apply set_lam_ok in H1 as [-> H1]. apply set_lam_ok in H2 as [-> H2].
  apply set_data_ok in H3 as [-> H3]. apply set_own_ok in H as [-> H].
  split; [split; reflexivity|]. split; [apply own_put_own|]. split; [rewrite dat_put_own; apply dat_put_dat|].
  split.
  { intros j Hj. split.
    - rewrite own_put_own_other by assumption. rewrite own_put_dat, !own_put_lam. reflexivity.
    - rewrite dat_put_own, dat_put_dat_other by assumption. rewrite !dat_put_lam. reflexivity. }
  split; [rewrite lam_put_own, lam_put_dat; apply lam_put_lam|].
  split.
  { intros Hn. rewrite lam_put_own, lam_put_dat, lam_put_lam_other by assumption. apply lam_put_lam. }
  split.
  { intros j Hj Hn. rewrite lam_put_own, lam_put_dat, !lam_put_lam_other by assumption. reflexivity. }
  rewrite !dat_put_lam, !own_put_lam in H3. destruct H3 as [H3|H3]; [right; exact H3|left; exact H3].
Qed.

(** ** Packing *)

(** [k] gets the record [x]; nothing else changes. *)
Lemma pack_at_eff {A} cx (c : codec A) LEN k x s a s' : pack_at cx c LEN k x s = Ok (a, s') ->
  let d' := enc c x ++ skipn (length (enc c x)) (dat (accs s k)) in
  s' = put_dat s k d' /\ blen (dat (accs s k)) = LEN /\ blen d' = LEN /\ blen (enc c x) <= LEN /\
  (dat (accs s k) = d' \/ own (accs s k) = c_pid cx /\ c_wr cx k = true).
Proof.
  intros H. apply pack_at_ok in H as (d' & P & -> & W). pose proof (pack_ok _ _ _ _ _ P) as (-> & L & B).
  cbv zeta. split; [reflexivity|]. split; [exact B|].
  assert (B' : blen (enc c x ++ skipn (length (enc c x)) (dat (accs s k))) = LEN)
    by (unfold blen in *; rewrite L; exact B).
  split; [exact B'|]. split; [|exact W].
  rewrite blen_app in B'. pose proof (blen_nonneg (skipn (length (enc c x)) (dat (accs s k)))). lia.
Qed.

Lemma unpack_unchecked_init {A} (c : codec A) LEN ini d x :
  unpack c LEN ini d = Ok x -> unpack_unchecked c LEN d = Ok x /\ ini x = true.
Proof.
  unfold unpack. destruct (unpack_unchecked c LEN d) as [y|]; cbn [rbind]; [|discriminate].
  destruct (ini y) eqn:E; [|discriminate]. intros H; injection H as <-. auto.
Qed.
Lemma unpack_init {A} (c : codec A) LEN ini d x :
  unpack_unchecked c LEN d = Ok x -> ini x = true -> unpack c LEN ini d = Ok x.
Proof. intros H I. unfold unpack. rewrite H. cbn [rbind]. rewrite I. reflexivity. Qed.

(** Packing an unmodified record changes nothing. *)
Lemma pack_same {A} (c : codec A) (L : Lawful c) LEN d x :
  unpack_unchecked c LEN d = Ok x -> enc c x ++ skipn (length (enc c x)) d = d.
Proof.
  intros H. apply unpack_unchecked_ok in H as (r & -> & O & B); [|exact L].
  rewrite skipn_app, skipn_all, Nat.sub_diag. reflexivity.
Qed.

(** The first byte of each record is its [is_initialized] flag: a zeroed account holds no record. *)
Lemma repeat_len {A} (x : A) n : blen (repeat x n) = Z.of_nat n.
Proof. unfold blen. rewrite repeat_length. reflexivity. Qed.

(** ** A new account holding a record *)

(** [k] was unused before and is afterwards an account of [owner] with [LEN] bytes that hold [x]
    followed by zeros. *)
Definition fresh_record {A} (cd : codec A) (LEN : Z) (x : A) (owner : key) (s s' : state) (k : key)
  : Prop :=
  (own (accs s k) = sys_id /\ dat (accs s k) = [] /\ lam (accs s k) <= 0) /\
  own (accs s' k) = owner /\
  exists r, dat (accs s' k) = enc cd x ++ r /\ all0 r = true /\ blen (dat (accs s' k)) = LEN.

Lemma skipn_repeat {A} (x : A) m n : skipn m (repeat x n) = repeat x (n - m).
Proof.
  revert n. induction m as [|m IH]; intros n; [rewrite Nat.sub_0_r; reflexivity|].
  destruct n; [reflexivity|]. cbn [repeat skipn Nat.sub]. apply IH.
Qed.

Lemma created_pack {A} (cd : codec A) LEN x c s s0 s1 k owner a s' :
  created s s0 k owner LEN -> same_od s0 s1 k -> pack_at c cd LEN k x s1 = Ok (a, s') ->
  fresh_record cd LEN x owner s s' k /\ s' = put_dat s1 k (dat (accs s' k)).
Proof.
  intros (C1 & C2 & C3 & C4 & C5 & C6) [O1 O2] P. apply pack_at_eff in P as (-> & B1 & B2 & B3 & W).
  rewrite dat_put_dat. split; [|reflexivity]. split; [auto|]. split.
  - rewrite own_put_dat, O1. exact C4.
  - rewrite dat_put_dat. eexists. split; [reflexivity|]. split; [|exact B2].
    rewrite O2, C5, skipn_repeat. apply all0_repeat.
Qed.

Lemma fresh_unpack {A} (cd : codec A) (L : Lawful cd) LEN x owner s s' k :
  fresh_record cd LEN x owner s s' k -> okb cd x = true ->
  unpack_unchecked cd LEN (dat (accs s' k)) = Ok x.
Proof.
  intros (_ & _ & r & E & _ & B) O. rewrite E in *. apply unpack_unchecked_enc; assumption.
Qed.

(** ** Turning boolean checks into facts *)
Ltac mfact H :=
  lazymatch type of H with
  | keqb _ _ = true => apply keqb_eq in H
  | negb _ = true => apply negb_true_iff in H
  | vote_eqb _ _ = true => apply vote_eqb_eq in H
  | vote_eqb _ _ = false => apply vote_eqb_neq in H
  | wstatus_eqb _ _ = true => apply wstatus_eqb_eq in H
  | pstatus_eqb _ _ = true => apply pstatus_eqb_eq in H
  | (_ && _) = true => apply andb_true_iff in H; destruct H
  | validate_initializer _ _ = Ok _ => apply validate_initializer_ok in H
  | validate_programdata _ _ _ _ = Ok _ => apply validate_programdata_ok in H
  | validate_pda _ _ _ _ _ = Ok _ =>
      let E := fresh "E" in apply validate_pda_ok in H; destruct H as [E H]; try subst
  | into_settings _ = Ok _ => apply into_settings_ok in H
  | into_deposit _ = Ok _ => apply into_deposit_ok in H
  | into_proposal _ = Ok _ => apply into_proposal_ok in H
  | into_relay_round _ = Ok _ => apply into_relay_round_ok in H
  | into_multi_vault _ = Ok _ => apply into_multi_vault_ok in H
  | into_token_settings _ = Ok _ => apply into_token_settings_ok in H
  | into_ever _ = Ok _ => apply into_ever_ok in H
  | into_solana _ = Ok _ => apply into_solana_ok in H
  | ok_or _ _ = Ok _ => apply ok_or_ok in H
  end.
Ltac mfacts := repeat match goal with H : _ = _ |- _ => mfact H end.

(** Keep conversion from unfolding the search for a bump seed and the packing functions. *)
Global Opaque find_pda unpack unpack_unchecked unpack_from_slice pack pack_into_slice.

(** Find the hypothesis about a derived address / a decoded account without trying conversion. *)
Ltac pdaok :=
  lazymatch goal with
  | |- find_pda ?e ?sd ?p = _ => match goal with H : find_pda e sd p = _ |- _ => exact H end
  | |- upgrade_authority ?d = _ => match goal with H : upgrade_authority d = _ |- _ => exact H end
  | |- c_sg ?c ?k = true => match goal with H : c_sg c k = true |- _ => exact H end
  | |- unpack ?c ?l ?i ?d = _ => match goal with H : unpack c l i d = _ |- _ => exact H end
  end.
