(** Forward reasoning about the token program: when transfers and minting succeed.  No code of /repo is modelled
    here. *)

From Coq Require Import ZifyBool ZifyNat ZifyN.
From Verif Require Export Progress TpFlow.
Open Scope Z_scope.
Open Scope list_scope.
Ltac Zify.zify_post_hook ::= Z.div_mod_to_equations.

(** Nothing but data and lamports of [a] and [b] differs. *)
Definition only_two (a b : key) (s s' : state) : Prop :=
  (forall j, own (accs s' j) = own (accs s j)) /\ (forall j, j <> a -> j <> b -> accs s' j = accs s j) /\ logs s' = logs s /\ now s' = now s.
Lemma only_two_refl a b s : only_two a b s s.
Proof. split; [|split; [|split]]; auto. Qed.

Lemma tacc_go s k t : tacc_in s k t -> tacc_at k s = Ok (t, s).
Proof. intros U. unfold tacc_at. eapply bind_go; [reflexivity|]. apply lift_go. unfold spl_unpack. rewrite U. reflexivity. Qed.
Lemma tmint_go s k t : tmint_in s k t -> tmint_at k s = Ok (t, s).
Proof. intros U. unfold tmint_at. eapply bind_go; [reflexivity|]. apply lift_go. unfold spl_unpack. rewrite U. reflexivity. Qed.
Lemma check_owner_go s k : own (accs s k) = spl_id -> check_owner k s = Ok (tt, s).
Proof. intros O. unfold check_owner. eapply bind_go; [reflexivity|]. cbv beta. apply guard_go. rewrite O. apply keqb_refl. Qed.
Lemma tacc_len s k t : tacc_in s k t -> blen (dat (accs s k)) = TACC_LEN.
Proof. intros U. apply unpack_ok in U as (r & _ & _ & L & _); [exact L|typeclasses eauto]. Qed.
Lemma tmint_len s k t : tmint_in s k t -> blen (dat (accs s k)) = TMINT_LEN.
Proof. intros U. apply unpack_ok in U as (r & _ & _ & L & _); [exact L|typeclasses eauto]. Qed.
Lemma accs_put_dat_other s k d j : j <> k -> accs (put_dat s k d) j = accs s j.
Proof. intros J. unfold put_dat, put, accs, upd. rewrite keqb_ne by exact J. reflexivity. Qed.
Lemma accs_put_lam_other s k d j : j <> k -> accs (put_lam s k d) j = accs s j.
Proof. intros J. unfold put_lam, put, accs, upd. rewrite keqb_ne by exact J. reflexivity. Qed.

Lemma set_lam_go c k z s : 0 <= z -> c_wr c k = true -> lam (accs s k) <= z \/ own (accs s k) = c_pid c -> set_lam c k z s = Ok (tt, put_lam s k z).
Proof.
  intros Z W C. unfold set_lam. rewrite W. apply Z.leb_le in Z. rewrite Z. cbn [andb]. destruct C as [C|C].
  - destruct (z =? lam (accs s k)) eqn:E; [reflexivity|]. replace (lam (accs s k) <? z) with true by lia. reflexivity.
  - rewrite C, keqb_refl, orb_true_r, orb_true_r. reflexivity.
Qed.

(** A transfer by the owner; a native one moves lamports too. *)
Definition native_moves (a : tacc) (src dst : key) (n : Z) : key -> Z :=
  fun j => if fst (ta_native a) then at_key dst n j - at_key src n j else 0.
Lemma transfer_go c src dst auth n s a b : c_pid c = spl_id -> c_wr c src = true -> c_wr c dst = true -> c_sg c auth = true ->
  tok_in s src a -> tok_in s dst b -> ta_frozen a = false -> ta_frozen b = false -> 0 <= n <= ta_amount a -> ta_mint a = ta_mint b ->
  fst (ta_delegate a) = false -> ta_owner a = auth -> src <> dst -> ta_amount b + n < u64max -> nonneg s ->
  (fst (ta_native a) = true -> n <= lam (accs s src) /\ lam (accs s dst) + n < u64max) ->
  exists s', tok_transfer c src dst auth n s = Ok (tt, s') /\ only_two src dst s s' /\ dlam s s' (native_moves a src dst n).
Proof.
  intros P W1 W2 SG [O1 U1] [O2 U2] F1 F2 [N0 N1] MI DE OW NE UP NN NA.
  set (s1 := if fst (ta_native a) then put_lam (put_lam s src (lam (accs s src) - n)) dst (lam (accs s dst) + n) else s).
  assert (D1 : forall j, dat (accs s1 j) = dat (accs s j)) by (intros j; unfold s1; destruct (fst (ta_native a)); rewrite ?dat_put_lam; reflexivity).
  assert (Q1 : forall j, own (accs s1 j) = own (accs s j)) by (intros j; unfold s1; destruct (fst (ta_native a)); rewrite ?own_put_lam; reflexivity).
  assert (L1 : forall j, lam (accs s1 j) = lam (accs s j) + native_moves a src dst n j).
  { intros j. unfold s1, native_moves. destruct (fst (ta_native a)); [|lia]. destruct (key_dec j dst) as [E|E].
    - rewrite E, lam_put_lam, at_same, at_other by congruence. lia.
    - rewrite lam_put_lam_other, (at_other dst) by exact E. destruct (key_dec j src) as [E'|E'].
      + rewrite E', lam_put_lam, at_same. lia.
      + rewrite lam_put_lam_other, at_other by exact E'. lia. }
  assert (R1 : logs s1 = logs s /\ now s1 = now s /\ forall j, j <> src -> j <> dst -> accs s1 j = accs s j).
  { unfold s1. destruct (fst (ta_native a)); [|auto]. split; [reflexivity|]. split; [reflexivity|]. intros j J1 J2.
    rewrite !accs_put_lam_other by assumption. reflexivity. }
  set (a' := ta_with a (ta_amount a - n) (ta_delegate a) (ta_damount a)). set (b' := ta_with b (ta_amount b + n) (ta_delegate b) (ta_damount b)).
  set (s2 := written c_tacc s1 src a'). set (s3 := written c_tacc s2 dst b').
  exists s3. split; [|split].
  - unfold tok_transfer. eapply bind_go; [apply tacc_go; exact U1|]. eapply bind_go; [apply tacc_go; exact U2|]. cbv beta.
    eapply bind_go; [apply guard_go; rewrite F1, F2; reflexivity|]. eapply bind_go; [apply guard_go; apply Z.leb_le; exact N1|].
    eapply bind_go; [apply guard_go; rewrite MI; apply keqb_refl|].
    apply (bind_go _ _ s (ta_delegate a, ta_damount a) s).
    { unfold spend. rewrite DE. cbn [andb]. eapply bind_go; [|reflexivity]. unfold validate_owner.
      eapply bind_go; [apply guard_go; rewrite OW; apply keqb_refl|]. apply guard_go. exact SG. }
    cbv beta iota. apply (bind_go _ _ s tt s).
    { destruct (keqb src dst || (n =? 0)); [|reflexivity]. eapply bind_go; [apply check_owner_go; exact O1|]. apply check_owner_go. exact O2. }
    rewrite keqb_ne by exact NE. apply (bind_go _ _ s tt s); [apply guard_go; apply Z.ltb_lt; exact UP|].
    apply (bind_go _ _ s tt s1).
    { unfold s1. destruct (fst (ta_native a)) eqn:E; [|reflexivity]. destruct (NA eq_refl) as [A1 A2].
      eapply bind_go; [reflexivity|]. cbv beta. eapply bind_go; [apply guard_go; apply Z.leb_le; exact A1|].
      eapply bind_go; [apply set_lam_go; [lia|exact W1|right; congruence]|]. eapply bind_go; [reflexivity|]. cbv beta.
      rewrite lam_put_lam_other by congruence. eapply bind_go; [apply guard_go; apply Z.ltb_lt; exact A2|].
      apply set_lam_go; [pose proof (NN dst); lia|exact W2|left; rewrite lam_put_lam_other by congruence; lia]. }
    apply (bind_go _ _ s1 tt s2).
    { apply pack_at_go; [rewrite Q1, P; exact O1|exact W1|rewrite D1; eapply tacc_len; exact U1|rewrite size_tacc; reflexivity || (unfold TACC_LEN; lia)]. }
    apply pack_at_go; [|exact W2| |rewrite size_tacc; unfold TACC_LEN; lia].
    + unfold s2, written. rewrite own_put_dat, Q1, P. exact O2.
    + unfold s2, written. rewrite accs_put_dat_other by congruence. rewrite D1. eapply tacc_len; exact U2.
  - split; [|split; [|apply R1 || (split; apply R1)]].
    + intros j. unfold s3, s2, written. rewrite !own_put_dat. apply Q1.
    + intros j J1 J2. unfold s3, s2, written. rewrite !accs_put_dat_other by assumption. apply R1; assumption.
  - intros j. unfold s3, s2, written. rewrite !lam_put_dat. apply L1.
Qed.

(** Minting by the mint's authority. *)
Lemma mint_go c mint dst auth n s m b : c_pid c = spl_id -> c_wr c mint = true -> c_wr c dst = true -> c_sg c auth = true ->
  mint_in s mint m -> tok_in s dst b -> ta_frozen b = false -> fst (ta_native b) = false -> ta_mint b = mint -> tm_auth m = (true, auth) ->
  0 <= n -> ta_amount b + n < u64max -> tm_supply m + n < u64max ->
  exists s', tok_mint_to c mint dst auth n s = Ok (tt, s') /\ only_two mint dst s s' /\ (forall j, lam (accs s' j) = lam (accs s j)).
Proof.
  intros P W1 W2 SG [O1 U1] [O2 U2] F2 NA MI AU N0 UP US.
  assert (NE : mint <> dst).
  { intros E. rewrite E in *. apply tmint_len in U1. apply tacc_len in U2. rewrite U1 in U2. discriminate U2. }
  set (b' := ta_with b (ta_amount b + n) (ta_delegate b) (ta_damount b)).
  set (s2 := written c_tacc s dst b'). set (s3 := written c_tmint s2 mint (tm_with_supply m (tm_supply m + n))).
  exists s3. split; [|split].
  - unfold tok_mint_to. eapply bind_go; [apply tacc_go; exact U2|]. cbv beta.
    eapply bind_go; [apply guard_go; rewrite F2; reflexivity|]. eapply bind_go; [apply guard_go; rewrite NA; reflexivity|].
    eapply bind_go; [apply guard_go; rewrite MI; apply keqb_refl|]. eapply bind_go; [apply tmint_go; exact U1|]. cbv beta.
    apply (bind_go _ _ s tt s).
    { rewrite AU. cbn [copt fst snd]. unfold validate_owner. eapply bind_go; [apply guard_go; apply keqb_refl|]. apply guard_go. exact SG. }
    apply (bind_go _ _ s tt s).
    { destruct (n =? 0); [|reflexivity]. eapply bind_go; [apply check_owner_go; exact O1|]. apply check_owner_go. exact O2. }
    eapply bind_go; [apply guard_go; apply Z.ltb_lt; exact UP|]. eapply bind_go; [apply guard_go; apply Z.ltb_lt; exact US|].
    apply (bind_go _ _ s tt s2).
    { apply pack_at_go; [rewrite P; exact O2|exact W2|eapply tacc_len; exact U2|rewrite size_tacc; unfold TACC_LEN; lia]. }
    apply pack_at_go; [|exact W1| |rewrite size_tmint; unfold TMINT_LEN; lia].
    + unfold s2, written. rewrite own_put_dat, P. exact O1.
    + unfold s2, written. rewrite accs_put_dat_other by congruence. eapply tmint_len; exact U1.
  - split; [|split; [|split; reflexivity]].
    + intros j. unfold s3, s2, written. rewrite !own_put_dat. reflexivity.
    + intros j J1 J2. unfold s3, s2, written. rewrite !accs_put_dat_other by assumption. reflexivity.
  - intros j. unfold s3, s2, written. rewrite !lam_put_dat. reflexivity.
Qed.

(** The call of another program. *)
Lemma cpi_go c infos pid ms pdas f s r : In pid (c_keys c) -> Forall (fun m => In (m_key m) infos /\ In (m_key m) (c_keys c) /\
    (m_sg m = true -> c_sg c (m_key m) = true \/ In (m_key m) pdas) /\ (m_wr m = true -> c_wr c (m_key m) = true)) ms ->
  f (ctx_of pid ms) s = r -> cpi c infos pid ms pdas f s = r.
Proof.
  intros I F R. unfold cpi. eapply bind_go; [apply guard_go; apply inb_In; exact I|]. eapply bind_go; [apply guard_go|exact R].
  apply forallb_forall. intros m M. rewrite Forall_forall in F. destruct (F m M) as (A & B & S & W). unfold meta_ok.
  apply inb_In in A, B. rewrite A, B. cbn [andb]. apply andb_true_iff. split.
  - destruct (m_sg m); [|reflexivity]. destruct (S eq_refl) as [X|X]; [rewrite X; reflexivity|]. apply inb_In in X. rewrite X. apply orb_true_r.
  - destruct (m_wr m); [|reflexivity]. rewrite W; reflexivity.
Qed.
