(** Forward reasoning about the system program: when the creation of an account and a payment succeed.  No
    code of /repo is modelled here. *)

From Coq Require Import ZifyBool ZifyNat ZifyN.
From Verif Require Export Progress SplGo.
Open Scope Z_scope.
Open Scope list_scope.
Ltac Zify.zify_post_hook ::= Z.div_mod_to_equations.

(** No account is at [k]. *)
Definition vacant (s : state) (k : key) : Prop := lam (accs s k) = 0 /\ own (accs s k) = sys_id /\ dat (accs s k) = [].
(** [k] is a wallet with [z] lamports or more. *)
Definition has_lamports (s : state) (k : key) (z : Z) : Prop := z <= lam (accs s k) /\ own (accs s k) = sys_id /\ dat (accs s k) = [].

Lemma eta_acct a : a = Acct (lam a) (own a) (dat a). Proof. destruct a; reflexivity. Qed.
Lemma accs_put s k a j : accs (put s k a) j = if keqb j k then a else accs s j.
Proof. unfold put, accs, upd. reflexivity. Qed.

Lemma create_go e c from to z n o sd s : In from (c_keys c) -> In to (c_keys c) -> In sys_id (c_keys c) ->
  c_sg c from = true -> c_wr c from = true -> c_wr c to = true -> e_pda e sd (c_pid c) = Some to ->
  vacant s to -> has_lamports s from z -> from <> to -> 0 < z < u64max -> 0 <= n <= MAX_DATA -> o <> sys_id ->
  exists s', invoke_create e c from to z n o sd s = Ok (tt, s') /\
    accs s' to = Acct z o (repeat x00 (Z.to_nat n)) /\ accs s' from = Acct (lam (accs s from) - z) sys_id [] /\
    (forall j, j <> from -> j <> to -> accs s' j = accs s j) /\ logs s' = logs s /\ now s' = now s.
Proof.
  intros I1 I2 I3 S1 W1 W2 PD (V1 & V2 & V3) (F1 & F2 & F3) NE Z N O.
  set (s1 := put_dat s to (repeat x00 (Z.to_nat n))). set (s2 := put_own s1 to o).
  set (s3 := put_lam s2 from (lam (accs s2 from) - z)). set (s4 := put_lam s3 to (lam (accs s3 to) + z)).
  set (c' := ctx_of sys_id [Meta from true true; Meta to true true]).
  assert (NE' : to <> from) by congruence.
  assert (A1 : accs s1 to = Acct 0 sys_id (repeat x00 (Z.to_nat n))).
  { unfold s1, put_dat. rewrite accs_put, keqb_refl, V1, V2. reflexivity. }
  assert (A2 : accs s2 to = Acct 0 o (repeat x00 (Z.to_nat n))).
  { unfold s2, put_own. rewrite accs_put, keqb_refl, A1. reflexivity. }
  assert (A3 : accs s2 from = accs s from).
  { unfold s2, put_own. rewrite accs_put, keqb_ne by exact NE. unfold s1, put_dat. rewrite accs_put, keqb_ne by exact NE. reflexivity. }
  assert (A4 : accs s3 to = accs s2 to).
  { unfold s3, put_lam. rewrite accs_put, keqb_ne by exact NE'. reflexivity. }
  exists s4. split; [|split; [|split; [|split; [|split; reflexivity]]]].
  - unfold invoke_create. eapply bind_go; [unfold pda_signer; apply lift_go; rewrite PD; reflexivity|]. cbv beta.
    apply cpi_go; [exact I3| |].
    { constructor; [|constructor; [|constructor]]; cbn [m_key m_sg m_wr]; (split; [assumption|split; [assumption|split; [intros _|auto]]]); [left; exact S1|right; left; reflexivity]. }
    fold c'. assert (CT : c_sg c' to = true /\ c_wr c' to = true /\ c_sg c' from = true /\ c_wr c' from = true).
    { unfold c'. cbn [ctx_of c_sg c_wr existsb m_key m_sg m_wr]. rewrite !keqb_refl. rewrite !andb_true_r, !orb_true_r. auto. }
    destruct CT as (T1 & T2 & T3 & T4).
    unfold sys_create. eapply bind_go; [reflexivity|]. cbv beta. eapply bind_go; [apply guard_go; rewrite V1; reflexivity|].
    apply (bind_go _ _ s tt s1).
    { unfold sys_allocate. eapply bind_go; [apply guard_go; exact T1|]. eapply bind_go; [reflexivity|]. cbv beta.
      eapply bind_go; [apply guard_go; rewrite V2, V3, keqb_refl; reflexivity|].
      eapply bind_go; [apply guard_go; apply Z.leb_le; lia|]. unfold set_data. rewrite V2. change (c_pid c') with sys_id.
      rewrite keqb_refl, T2. cbn [andb]. rewrite orb_true_r. reflexivity. }
    apply (bind_go _ _ s1 tt s2).
    { unfold sys_assign. eapply bind_go; [reflexivity|]. cbv beta. rewrite A1. cbn [own]. rewrite keqb_ne by congruence.
      eapply bind_go; [apply guard_go; exact T1|]. unfold set_own. rewrite A1. cbn [own dat]. change (c_pid c') with sys_id. rewrite keqb_refl, T2.
      assert (Q : all0 (repeat x00 (Z.to_nat n)) = true) by (unfold all0; apply forallb_forall; intros x X; apply repeat_spec in X; rewrite X; reflexivity).
      rewrite Q. cbn [andb]. rewrite orb_true_r. reflexivity. }
    unfold sys_transfer. eapply bind_go; [apply guard_go; exact T3|]. eapply bind_go; [reflexivity|]. cbv beta. rewrite A3.
    eapply bind_go; [apply guard_go; rewrite F3; reflexivity|]. eapply bind_go; [apply guard_go; apply Z.leb_le; exact F1|].
    apply (bind_go _ _ s2 tt s3).
    { unfold s3. rewrite A3. apply set_lam_go; [lia|exact T4|right; rewrite A3; exact F2]. }
    eapply bind_go; [reflexivity|]. cbv beta. rewrite A4, A2. cbn [lam].
    eapply bind_go; [apply guard_go; apply Z.ltb_lt; lia|]. unfold s4. rewrite A4, A2. cbn [lam].
    apply set_lam_go; [lia|exact T2|left; rewrite A4, A2; cbn [lam]; lia].
  - unfold s4, put_lam. rewrite accs_put, keqb_refl, A4, A2. reflexivity.
  - unfold s4, put_lam. rewrite accs_put, keqb_ne by exact NE. unfold s3, put_lam. rewrite accs_put, keqb_refl, A3, F2, F3. reflexivity.
  - intros j J1 J2. unfold s4, put_lam. rewrite accs_put, keqb_ne by exact J2. unfold s3, put_lam. rewrite accs_put, keqb_ne by exact J1.
    unfold s2, put_own. rewrite accs_put, keqb_ne by exact J2. unfold s1, put_dat. rewrite accs_put, keqb_ne by exact J2. reflexivity.
Qed.

Lemma pay_go c from to z s : In from (c_keys c) -> In to (c_keys c) -> In sys_id (c_keys c) ->
  c_sg c from = true -> c_wr c from = true -> c_wr c to = true -> has_lamports s from z -> from <> to -> 0 <= z -> 0 <= lam (accs s to) ->
  lam (accs s to) + z < u64max ->
  exists s', invoke_transfer c from to z s = Ok (tt, s') /\
    accs s' to = Acct (lam (accs s to) + z) (own (accs s to)) (dat (accs s to)) /\ accs s' from = Acct (lam (accs s from) - z) sys_id [] /\
    (forall j, j <> from -> j <> to -> accs s' j = accs s j) /\ logs s' = logs s /\ now s' = now s.
Proof.
  intros I1 I2 I3 S1 W1 W2 (F1 & F2 & F3) NE Z N L.
  set (s3 := put_lam s from (lam (accs s from) - z)). set (s4 := put_lam s3 to (lam (accs s3 to) + z)).
  set (c' := ctx_of sys_id [Meta from true true; Meta to false true]).
  assert (NE' : to <> from) by congruence.
  assert (A4 : accs s3 to = accs s to).
  { unfold s3, put_lam. rewrite accs_put, keqb_ne by exact NE'. reflexivity. }
  exists s4. split; [|split; [|split; [|split; [|split; reflexivity]]]].
  - unfold invoke_transfer. apply cpi_go; [exact I3| |].
    { constructor; [|constructor; [|constructor]]; cbn [m_key m_sg m_wr]; (split; [assumption|split; [assumption|split; [|auto]]]); [left; exact S1|discriminate]. }
    fold c'. assert (CT : c_wr c' to = true /\ c_sg c' from = true /\ c_wr c' from = true).
    { unfold c'. cbn [ctx_of c_sg c_wr existsb m_key m_sg m_wr]. rewrite !keqb_refl. rewrite !andb_true_r, !orb_true_r. auto. }
    destruct CT as (T2 & T3 & T4).
    unfold sys_transfer. eapply bind_go; [apply guard_go; exact T3|]. eapply bind_go; [reflexivity|]. cbv beta.
    eapply bind_go; [apply guard_go; rewrite F3; reflexivity|]. eapply bind_go; [apply guard_go; apply Z.leb_le; exact F1|].
    apply (bind_go _ _ s tt s3).
    { unfold s3. apply set_lam_go; [lia|exact T4|right; exact F2]. }
    eapply bind_go; [reflexivity|]. cbv beta. rewrite A4.
    eapply bind_go; [apply guard_go; apply Z.ltb_lt; lia|]. unfold s4. rewrite A4.
    apply set_lam_go; [lia|exact T2|left; rewrite A4; lia].
  - unfold s4, put_lam. rewrite accs_put, keqb_refl, A4. reflexivity.
  - unfold s4, put_lam. rewrite accs_put, keqb_ne by exact NE. unfold s3, put_lam. rewrite accs_put, keqb_refl, F2, F3. reflexivity.
  - intros j J1 J2. unfold s4, put_lam. rewrite accs_put, keqb_ne by exact J2. unfold s3, put_lam. rewrite accs_put, keqb_ne by exact J1. reflexivity.
Qed.

(** The sums of lamports agree if what one account loses another gains. *)
Lemma run_pay c (m : M unit) s s' a b z : m s = Ok (tt, s') -> dlam s s' (fun k => at_key a z k - at_key b z k) -> In a (c_keys c) -> In b (c_keys c) ->
  run c m s = Ok s'.
Proof. intros H D A B. unfold run. rewrite H, (lam_sum_pay s s' a b z _ D A B), Z.eqb_refl. reflexivity. Qed.
