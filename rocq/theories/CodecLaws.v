(** Laws of the codecs: every codec is a bijection between the values of the Rust type and the
    byte strings it accepts. *)

From Coq Require Import ZifyBool ZifyNat ZifyN Eqdep_dec.
From Verif Require Export Codec.
Ltac Zify.zify_post_hook ::= Z.div_mod_to_equations.

(** ** Bytes *)

Lemma bz_range b : 0 <= bz b < 256.
Proof. unfold bz. pose proof (Byte.to_N_bounded b). lia. Qed.

Lemma zb_bz b : zb (bz b) = b.
Proof.
  unfold zb. pose proof (bz_range b). rewrite Z.mod_small by lia.
  unfold bz. rewrite N2Z.id, Byte.of_to_N. reflexivity.
Qed.

Lemma bz_zb z : bz (zb z) = z mod 256.
Proof.
  unfold zb.
  destruct (Byte.of_N (Z.to_N (z mod 256))) as [b|] eqn:E.
  - apply Byte.to_of_N in E. unfold bz. rewrite E. rewrite Z2N.id; [reflexivity|].
    apply Z.mod_pos_bound; lia.
  - apply Byte.of_N_None_iff in E. pose proof (Z.mod_pos_bound z 256). lia.
Qed.

Lemma zb_mod z : zb (z mod 256) = zb z.
Proof. unfold zb. rewrite Z.mod_mod by lia. reflexivity. Qed.

Lemma byte_eqb_eq a b : Byte.eqb a b = true <-> a = b.
Proof.
  split; [|intros ->; apply Byte.byte_dec_lb; reflexivity].
  apply Byte.byte_dec_bl.
Qed.

Lemma beqb_eq a b : beqb a b = true <-> a = b.
Proof.
  revert b; induction a as [|x a IH]; intros [|y b]; cbn [beqb]; try (split; congruence).
  rewrite andb_true_iff, byte_eqb_eq, IH. split; [intros [-> ->]; reflexivity|].
  intros H; injection H; auto.
Qed.

Lemma beqb_refl a : beqb a a = true.
Proof. apply beqb_eq; reflexivity. Qed.

Lemma beqb_neq a b : beqb a b = false <-> a <> b.
Proof.
  rewrite <- beqb_eq. destruct (beqb a b); split; intros; congruence.
Qed.

Lemma key_ext (a b : key) : kb a = kb b -> a = b.
Proof.
  destruct a as [x Hx], b as [y Hy]; cbn [kb]. intros ->. f_equal.
  apply UIP_dec. apply Bool.bool_dec.
Qed.

Lemma keqb_eq a b : keqb a b = true <-> a = b.
Proof.
  unfold keqb. rewrite beqb_eq. split; [apply key_ext|]. intros ->; reflexivity.
Qed.

Lemma keqb_refl a : keqb a a = true.
Proof. apply keqb_eq; reflexivity. Qed.

Lemma keqb_neq a b : keqb a b = false <-> a <> b.
Proof. rewrite <- keqb_eq. destruct (keqb a b); split; intros; congruence. Qed.

Lemma keqb_sym a b : keqb a b = keqb b a.
Proof.
  destruct (keqb a b) eqn:E1, (keqb b a) eqn:E2; try reflexivity.
  - apply keqb_eq in E1; subst. rewrite keqb_refl in E2. congruence.
  - apply keqb_eq in E2; subst. rewrite keqb_refl in E1. congruence.
Qed.

Lemma key_dec (a b : key) : {a = b} + {a <> b}.
Proof.
  destruct (keqb a b) eqn:E; [left; apply keqb_eq | right; apply keqb_neq]; assumption.
Defined.

Lemma kb_length k : length (kb k) = 32%nat.
Proof. destruct k as [b H]. cbn [kb]. apply Nat.eqb_eq. assumption. Qed.

Lemma mkkey_some b k : mkkey b = Some k -> kb k = b.
Proof.
  unfold mkkey. intros H.
  assert (G : forall t (e : Nat.eqb (length b) 32 = t),
    (match t as t return (Nat.eqb (length b) 32 = t -> option key) with
     | true => fun H => Some (Key b H) | false => fun _ => None end) e = Some k -> kb k = b).
  { intros [|] e E; [injection E as <-; reflexivity | discriminate]. }
  eapply G; eassumption.
Qed.

Lemma mkkey_kb k : mkkey (kb k) = Some k.
Proof.
  destruct (mkkey (kb k)) as [k'|] eqn:E.
  - apply mkkey_some in E. f_equal. apply key_ext. assumption.
  - exfalso. unfold mkkey in E.
    assert (G : forall t (e : Nat.eqb (length (kb k)) 32 = t),
      t = true ->
      (match t as t return (Nat.eqb (length (kb k)) 32 = t -> option key) with
       | true => fun H => Some (Key (kb k) H) | false => fun _ => None end) e = None -> False).
    { intros [|] e Ht E'; congruence. }
    eapply G; [|eassumption]. rewrite kb_length. reflexivity.
Qed.

Lemma blen_nonneg {A} (l : list A) : 0 <= blen l.
Proof. unfold blen; lia. Qed.

Lemma blen_app {A} (a b : list A) : blen (a ++ b) = blen a + blen b.
Proof. unfold blen. rewrite app_length. lia. Qed.

Lemma blen_cons {A} (x : A) (b : list A) : blen (x :: b) = 1 + blen b.
Proof. unfold blen. cbn [length]. lia. Qed.

Lemma blen_nil {A} : blen (@nil A) = 0.
Proof. reflexivity. Qed.

(** ** Little-endian integers *)

Lemma blen_le n z : blen (le n z) = Z.of_nat n.
Proof. unfold blen. rewrite le_length. reflexivity. Qed.

Lemma blen_kb k : blen (kb k) = 32.
Proof. unfold blen. rewrite kb_length. reflexivity. Qed.

Lemma pow256_S n : 256 ^ Z.of_nat (S n) = 256 * 256 ^ Z.of_nat n.
Proof. rewrite Nat2Z.inj_succ, Z.pow_succ_r by lia. reflexivity. Qed.

Lemma pow256_pos n : 0 < 256 ^ Z.of_nat n.
Proof. apply Z.pow_pos_nonneg; lia. Qed.

Lemma unle_le n z : 0 <= z < 256 ^ Z.of_nat n -> unle (le n z) = z.
Proof.
  revert z; induction n as [|n IH]; intros z Hz.
  - cbn [le unle]. cbn in Hz. lia.
  - cbn [le unle]. rewrite pow256_S in Hz. rewrite bz_zb, IH.
    + pose proof (Z.div_mod z 256). lia.
    + split; [apply Z.div_pos; lia | apply Z.div_lt_upper_bound; lia].
Qed.

Lemma unle_range b : 0 <= unle b < 256 ^ blen b.
Proof.
  induction b as [|x b IH]; [cbn; lia|].
  cbn [unle]. rewrite blen_cons. rewrite Z.pow_add_r by (pose proof (blen_nonneg b); lia).
  pose proof (bz_range x). change (256 ^ 1) with 256. lia.
Qed.

Lemma le_unle b : le (length b) (unle b) = b.
Proof.
  induction b as [|x b IH]; [reflexivity|].
  cbn [length le unle]. pose proof (bz_range x).
  replace (zb (bz x + 256 * unle b)) with x.
  - f_equal. replace ((bz x + 256 * unle b) / 256) with (unle b); [exact IH|].
    rewrite Z.mul_comm, Z.div_add by lia. rewrite Z.div_small by lia. lia.
  - rewrite <- zb_mod. rewrite Z.mul_comm, Z.mod_add by lia.
    rewrite Z.mod_small by lia. symmetry; apply zb_bz.
Qed.

Lemma le_inj n a b : 0 <= a < 256 ^ Z.of_nat n -> 0 <= b < 256 ^ Z.of_nat n ->
  le n a = le n b -> a = b.
Proof. intros Ha Hb E. rewrite <- (unle_le n a), <- (unle_le n b), E; auto. Qed.

(** ** take_bytes *)

Lemma take_bytes_app h t : take_bytes (length h) (h ++ t) = Some (h, t).
Proof. induction h as [|x h IH]; cbn [length take_bytes app]; [|rewrite IH]; reflexivity. Qed.

Lemma take_bytes_app' n h t : length h = n -> take_bytes n (h ++ t) = Some (h, t).
Proof. intros <-; apply take_bytes_app. Qed.

Lemma take_bytes_some n b h t : take_bytes n b = Some (h, t) -> b = h ++ t /\ length h = n.
Proof.
  revert b h t; induction n as [|n IH]; cbn [take_bytes]; intros b h t H.
  - injection H as <- <-. auto.
  - destruct b as [|x r]; [discriminate|].
    destruct (take_bytes n r) as [[h' t']|] eqn:E; [|discriminate].
    injection H as <- <-. apply IH in E as [-> <-]. auto.
Qed.

(** ** Lawful codecs *)

Class Lawful {A} (c : codec A) : Prop := {
  rt : forall x r, okb c x = true -> dec c (enc c x ++ r) = Some (x, r);
  can : forall b x r, dec c b = Some (x, r) -> b = enc c x ++ r /\ okb c x = true
}.

Class NonEmpty {A} (c : codec A) : Prop := { ne : forall x, (1 <= length (enc c x))%nat }.

#[export] Instance lawful_uint n : Lawful (c_uint n).
Proof.
  split; cbn [c_uint enc dec okb].
  - intros x r H. rewrite take_bytes_app' by apply le_length.
    rewrite unle_le; [reflexivity | lia].
  - intros b x r H. destruct (take_bytes n b) as [[h t]|] eqn:E; [|discriminate].
    injection H as <- <-. apply take_bytes_some in E as [-> <-].
    rewrite le_unle. split; [reflexivity|]. pose proof (unle_range h).
    unfold blen in *. lia.
Qed.

Lemma pow256_even n : (1 <= n)%nat -> 256 ^ Z.of_nat n = 2 * (256 ^ Z.of_nat n / 2).
Proof.
  intros H. destruct n as [|n]; [lia|]. rewrite pow256_S.
  replace (256 * 256 ^ Z.of_nat n) with ((128 * 256 ^ Z.of_nat n) * 2) by lia.
  rewrite Z.div_mul by lia. lia.
Qed.

Lemma lawful_int n : (1 <= n)%nat -> Lawful (c_int n).
Proof.
  intros Hn. pose proof (pow256_even n Hn) as Ev. pose proof (pow256_pos n) as Pos.
  split; cbn [c_int enc dec okb].
  - intros x r H. rewrite take_bytes_app' by apply le_length.
    rewrite unle_le by (apply Z.mod_pos_bound; lia).
    set (P := 256 ^ Z.of_nat n) in *. set (h := P / 2) in *.
    f_equal. f_equal.
    destruct (Z.ltb_spec x 0).
    + rewrite (Z.mod_eq x P) by lia.
      assert (x / P = -1) by (symmetry; apply (Z.div_unique x P (-1) (x + P)); lia).
      destruct (Z.ltb_spec (x - P * (x / P)) h); lia.
    + rewrite Z.mod_small by lia. destruct (Z.ltb_spec x h); lia.
  - intros b x r H. destruct (take_bytes n b) as [[h t]|] eqn:E; [|discriminate].
    injection H as <- <-. apply take_bytes_some in E as [-> El].
    pose proof (unle_range h) as R. unfold blen in R. rewrite El in R.
    set (P := 256 ^ Z.of_nat n) in *. 
    assert (M : (if unle h <? P / 2 then unle h else unle h - P) mod P = unle h).
    { destruct (Z.ltb_spec (unle h) (P / 2)).
      - rewrite Z.mod_small; lia.
      - symmetry. apply (Z.mod_unique _ _ (-1)); lia. }
    rewrite M. rewrite <- El at 1. rewrite le_unle. split; [reflexivity|].
    destruct (Z.ltb_spec (unle h) (P / 2)); lia.
Qed.

#[export] Instance lawful_u8 : Lawful c_u8 := lawful_uint 1.
#[export] Instance lawful_u32 : Lawful c_u32 := lawful_uint 4.
#[export] Instance lawful_u64 : Lawful c_u64 := lawful_uint 8.
#[export] Instance lawful_u128 : Lawful c_u128 := lawful_uint 16.
#[export] Instance lawful_i8 : Lawful c_i8 := lawful_int 1 ltac:(lia).
#[export] Instance lawful_i64 : Lawful c_i64 := lawful_int 8 ltac:(lia).

#[export] Instance lawful_bool : Lawful c_bool.
Proof.
  split; cbn [c_bool enc dec okb].
  - intros [|] r _; reflexivity.
  - intros b x r H. destruct b as [|[] b]; try discriminate; injection H as <- <-; auto.
Qed.

#[export] Instance lawful_key : Lawful c_key.
Proof.
  split; cbn [c_key enc dec okb].
  - intros x r _. rewrite take_bytes_app' by apply kb_length. rewrite mkkey_kb. reflexivity.
  - intros b x r H. destruct (take_bytes 32 b) as [[h t]|] eqn:E; [|discriminate].
    destruct (mkkey h) as [k|] eqn:K; [|discriminate]. injection H as <- <-.
    apply mkkey_some in K. apply take_bytes_some in E as [-> _]. rewrite K. auto.
Qed.

#[export] Instance lawful_unit : Lawful c_unit.
Proof.
  split; cbn [c_unit enc dec okb].
  - intros [] r _; reflexivity.
  - intros b [] r H. injection H as <-. auto.
Qed.

#[export] Instance lawful_pair {A B} (ca : codec A) (cb : codec B) :
  Lawful ca -> Lawful cb -> Lawful (ca ** cb).
Proof.
  intros La Lb. split; cbn [c_pair enc dec okb].
  - intros [a b] r H. cbn [fst snd] in *. apply andb_true_iff in H as [Ha Hb].
    rewrite <- app_assoc, rt by assumption. rewrite rt by assumption. reflexivity.
  - intros b [a y] r H. destruct (dec ca b) as [[a' r1]|] eqn:Ea; [|discriminate].
    destruct (dec cb r1) as [[y' r2]|] eqn:Eb; [|discriminate].
    injection H as <- <- <-. apply can in Ea as [-> Oa]. apply can in Eb as [-> Ob].
    cbn [fst snd]. rewrite <- app_assoc, Oa, Ob. auto.
Qed.

Lemma lawful_iso {A B} (f : A -> B) (g : B -> A) (c : codec A) :
  (forall x, g (f x) = x) -> (forall y, f (g y) = y) -> Lawful c -> Lawful (c_iso f g c).
Proof.
  intros Hgf Hfg L. split; cbn [c_iso enc dec okb].
  - intros x r H. rewrite rt by assumption. rewrite Hfg. reflexivity.
  - intros b x r H. destruct (dec c b) as [[a r1]|] eqn:E; [|discriminate].
    injection H as <- <-. apply can in E as [-> O]. rewrite Hgf. auto.
Qed.

#[export] Instance lawful_option {A} (c : codec A) : Lawful c -> Lawful (c_option c).
Proof.
  intros L. split; cbn [c_option enc dec okb].
  - intros [a|] r H; [|reflexivity]. cbn [app]. rewrite rt by assumption. reflexivity.
  - intros b x r H. destruct b as [|[] b]; try discriminate.
    + injection H as <- <-. auto.
    + destruct (dec c b) as [[a r1]|] eqn:E; [|discriminate]. injection H as <- <-.
      apply can in E as [-> O]. auto.
Qed.

Lemma dec_n_rt {A} (c : codec A) (L : Lawful c) l r :
  forallb (okb c) l = true -> dec_n c (length l) (flat_map (enc c) l ++ r) = Some (l, r).
Proof.
  induction l as [|x l IH]; cbn [length dec_n flat_map forallb app]; intros H; [reflexivity|].
  apply andb_true_iff in H as [Hx Hl]. rewrite <- app_assoc, rt by assumption.
  rewrite IH by assumption. reflexivity.
Qed.

Lemma dec_n_can {A} (c : codec A) (L : Lawful c) n b l r :
  dec_n c n b = Some (l, r) ->
  b = flat_map (enc c) l ++ r /\ length l = n /\ forallb (okb c) l = true.
Proof.
  revert b l r; induction n as [|n IH]; cbn [dec_n]; intros b l r H.
  - injection H as <- <-. auto.
  - destruct (dec c b) as [[a r1]|] eqn:E; [|discriminate].
    destruct (dec_n c n r1) as [[l' r2]|] eqn:E2; [|discriminate].
    injection H as <- <-. apply can in E as [-> O]. apply IH in E2 as [-> [<- O2]].
    cbn [flat_map length forallb]. rewrite O, O2, <- app_assoc. auto.
Qed.

Lemma flat_map_ne {A} (c : codec A) (N : NonEmpty c) l : (length l <= length (flat_map (enc c) l))%nat.
Proof.
  induction l as [|x l IH]; cbn [length flat_map]; [lia|].
  rewrite app_length. pose proof (ne x). lia.
Qed.

Lemma u32_blen_rt {A} (l : list A) r :
  blen l <? u32max = true -> dec c_u32 (le 4 (blen l) ++ r) = Some (blen l, r).
Proof.
  intros H. change (le 4 (blen l)) with (enc c_u32 (blen l)). apply rt.
  cbn [c_u32 c_uint okb]. pose proof (blen_nonneg l). unfold u32max in H.
  change (256 ^ Z.of_nat 4) with (2 ^ 32). lia.
Qed.

Lemma u32_can b n r : dec c_u32 b = Some (n, r) -> b = le 4 n ++ r /\ 0 <= n < u32max.
Proof.
  intros H. apply can in H as [-> O]. split; [reflexivity|].
  cbn [c_u32 c_uint okb] in O. change (256 ^ Z.of_nat 4) with u32max in O. lia.
Qed.

#[export] Instance lawful_vec {A} (c : codec A) : Lawful c -> NonEmpty c -> Lawful (c_vec c).
Proof.
  intros L N. split; cbn [c_vec enc dec okb].
  - intros l r H. apply andb_true_iff in H as [Hl Ho].
    rewrite <- app_assoc, u32_blen_rt by assumption.
    assert (blen l <= blen (flat_map (enc c) l ++ r)).
    { rewrite blen_app. pose proof (flat_map_ne c N l). pose proof (blen_nonneg r).
      unfold blen in *. lia. }
    destruct (Z.leb_spec (blen l) (blen (flat_map (enc c) l ++ r))); [|lia].
    unfold blen at 1. rewrite Nat2Z.id. apply dec_n_rt; assumption.
  - intros b l r H. destruct (dec c_u32 b) as [[n r1]|] eqn:E; [|discriminate].
    apply u32_can in E as [-> Hn].
    destruct (n <=? blen r1); [|discriminate].
    apply dec_n_can in H as [-> [Hlen Ho]]; [|assumption].
    assert (blen l = n) by (unfold blen; lia). subst n.
    rewrite <- app_assoc, Ho. split; [reflexivity|]. apply andb_true_iff. split; [lia|reflexivity].
Qed.

#[export] Instance lawful_bytes : Lawful c_bytes.
Proof.
  split; cbn [c_bytes enc dec okb].
  - intros l r H. rewrite <- app_assoc, u32_blen_rt by assumption.
    assert (blen l <= blen (l ++ r)) by (rewrite blen_app; pose proof (blen_nonneg r); lia).
    destruct (Z.leb_spec (blen l) (blen (l ++ r))); [|lia].
    unfold blen at 1. rewrite Nat2Z.id. apply take_bytes_app.
  - intros b l r H. destruct (dec c_u32 b) as [[n r1]|] eqn:E; [|discriminate].
    apply u32_can in E as [-> Hn].
    destruct (n <=? blen r1); [|discriminate].
    apply take_bytes_some in H as [-> Hlen].
    assert (blen l = n) by (unfold blen; lia). subst n.
    rewrite <- app_assoc. split; [reflexivity|lia].
Qed.

#[export] Instance lawful_string : Lawful c_string.
Proof.
  split; unfold c_string; cbn [enc dec okb].
  - intros l r H. apply andb_true_iff in H as [H U]. rewrite rt by assumption. rewrite U. reflexivity.
  - intros b l r H. destruct (dec c_bytes b) as [[s r1]|] eqn:E; [|discriminate].
    destruct (utf8 s) eqn:U; [|discriminate]. injection H as <- <-.
    apply can in E as [-> O]. rewrite O, U. auto.
Qed.

#[export] Instance ne_key : NonEmpty c_key.
Proof. split. intros x. cbn [c_key enc]. rewrite kb_length. lia. Qed.

#[export] Instance ne_uint n : NonEmpty (c_uint (S n)).
Proof. split. intros x. cbn [c_uint enc]. rewrite le_length. lia. Qed.

#[export] Instance ne_bool : NonEmpty c_bool.
Proof. split. intros [|]; cbn; lia. Qed.

#[export] Instance ne_pair {A B} (ca : codec A) (cb : codec B) : NonEmpty ca -> NonEmpty (ca ** cb).
Proof. intros N. split. intros [a b]. cbn [c_pair enc]. rewrite app_length. pose proof (ne a). cbn [fst]. lia. Qed.

#[export] Instance ne_bytes : NonEmpty c_bytes.
Proof. split. intros x. cbn [c_bytes enc]. rewrite app_length, le_length. lia. Qed.

Lemma ne_iso {A B} (f : A -> B) (g : B -> A) (c : codec A) : NonEmpty c -> NonEmpty (c_iso f g c).
Proof. intros N. split. intros x. cbn [c_iso enc]. apply ne. Qed.

(** ** Enums *)

Lemma alt_some {A B} (c : codec A) (inj : A -> B) b x r (L : Lawful c) :
  alt c inj b = Some (x, r) -> exists a, x = inj a /\ b = enc c a ++ r /\ okb c a = true.
Proof.
  unfold alt. destruct (dec c b) as [[a r1]|] eqn:E; [|discriminate].
  intros H; injection H as <- <-. apply can in E as [-> O]. eauto.
Qed.

Lemma alt_rt {A B} (c : codec A) (inj : A -> B) a r (L : Lawful c) :
  okb c a = true -> alt c inj (enc c a ++ r) = Some (inj a, r).
Proof. intros H. unfold alt. rewrite rt by assumption. reflexivity. Qed.

(** ** Consequences *)

Lemma dec_inj {A} (c : codec A) (L : Lawful c) b1 b2 x r1 r2 :
  dec c b1 = Some (x, r1) -> dec c b2 = Some (x, r2) ->
  firstn (length (enc c x)) b1 = firstn (length (enc c x)) b2.
Proof.
  intros H1 H2. apply can in H1 as [-> _]. apply can in H2 as [-> _].
  rewrite !firstn_app, !firstn_all, !Nat.sub_diag. reflexivity.
Qed.

Lemma enc_inj {A} (c : codec A) (L : Lawful c) x y :
  okb c x = true -> okb c y = true -> enc c x = enc c y -> x = y.
Proof.
  intros Hx Hy E. pose proof (rt x [] Hx) as R1. pose proof (rt y [] Hy) as R2.
  rewrite E in R1. rewrite R1 in R2. injection R2. auto.
Qed.

(** Prefix-freeness: two encodings that agree as prefixes are equal. *)
Lemma enc_prefix {A} (c : codec A) (L : Lawful c) x y r1 r2 :
  okb c x = true -> okb c y = true -> enc c x ++ r1 = enc c y ++ r2 -> x = y /\ r1 = r2.
Proof.
  intros Hx Hy E. pose proof (rt x r1 Hx) as R1. pose proof (rt y r2 Hy) as R2.
  rewrite E, R2 in R1. injection R1. auto.
Qed.

Lemma try_from_slice_rt {A} (c : codec A) (L : Lawful c) x :
  okb c x = true -> try_from_slice c (enc c x) = Some x.
Proof.
  intros H. unfold try_from_slice. rewrite <- (app_nil_r (enc c x)), rt by assumption. reflexivity.
Qed.

Lemma try_from_slice_can {A} (c : codec A) (L : Lawful c) b x :
  try_from_slice c b = Some x -> b = enc c x /\ okb c x = true.
Proof.
  unfold try_from_slice. destruct (dec c b) as [[a [|? ?]]|] eqn:E; try discriminate.
  intros H; injection H as <-. apply can in E as [-> O]. rewrite app_nil_r. auto.
Qed.

(** ** Pack *)

Lemma pack_into_slice_ok {A} (c : codec A) x d d' :
  pack_into_slice c x d = Ok d' ->
  d' = enc c x ++ skipn (length (enc c x)) d /\ length d' = length d.
Proof.
  unfold pack_into_slice. destruct (Z.leb_spec (blen (enc c x)) (blen d)) as [H|]; [|discriminate].
  intros E; injection E as <-. split; [reflexivity|].
  rewrite app_length, skipn_length. unfold blen in H. lia.
Qed.

Lemma pack_ok {A} (c : codec A) LEN x d d' :
  pack c LEN x d = Ok d' ->
  d' = enc c x ++ skipn (length (enc c x)) d /\ length d' = length d /\ blen d = LEN.
Proof.
  unfold pack. destruct (Z.eqb_spec (blen d) LEN) as [H|]; [|discriminate].
  intros E. apply pack_into_slice_ok in E as [-> E]. auto.
Qed.

Lemma unpack_from_slice_enc {A} (c : codec A) (L : Lawful c) x r :
  okb c x = true -> unpack_from_slice c (enc c x ++ r) = Ok x.
Proof. intros H. unfold unpack_from_slice. rewrite rt by assumption. reflexivity. Qed.

Lemma unpack_from_slice_ok {A} (c : codec A) (L : Lawful c) d x :
  unpack_from_slice c d = Ok x -> exists r, d = enc c x ++ r /\ okb c x = true.
Proof.
  unfold unpack_from_slice. destruct (dec c d) as [[a r]|] eqn:E; [|discriminate].
  intros H; injection H as <-. apply can in E as [-> O]. eauto.
Qed.

Lemma unpack_unchecked_ok {A} (c : codec A) (L : Lawful c) LEN d x :
  unpack_unchecked c LEN d = Ok x ->
  exists r, d = enc c x ++ r /\ okb c x = true /\ blen d = LEN.
Proof.
  unfold unpack_unchecked. destruct (Z.eqb_spec (blen d) LEN) as [H|]; [|discriminate].
  intros E. apply unpack_from_slice_ok in E as [r [-> O]]; [|assumption]. eauto.
Qed.

Lemma unpack_ok {A} (c : codec A) (L : Lawful c) LEN ini d x :
  unpack c LEN ini d = Ok x ->
  exists r, d = enc c x ++ r /\ okb c x = true /\ blen d = LEN /\ ini x = true.
Proof.
  unfold unpack, rbind. destruct (unpack_unchecked c LEN d) as [a|e] eqn:E; [|discriminate].
  destruct (ini a) eqn:I; [|discriminate]. intros H; injection H as <-.
  apply unpack_unchecked_ok in E as [r [-> [O B]]]; [|assumption]. eauto 6.
Qed.

Lemma unpack_enc {A} (c : codec A) (L : Lawful c) LEN ini x r :
  okb c x = true -> ini x = true -> blen (enc c x ++ r) = LEN ->
  unpack c LEN ini (enc c x ++ r) = Ok x.
Proof.
  intros O I B. unfold unpack, unpack_unchecked. rewrite B, Z.eqb_refl.
  rewrite unpack_from_slice_enc by assumption. cbn [rbind]. rewrite I. reflexivity.
Qed.

Lemma unpack_unchecked_enc {A} (c : codec A) (L : Lawful c) LEN x r :
  okb c x = true -> blen (enc c x ++ r) = LEN ->
  unpack_unchecked c LEN (enc c x ++ r) = Ok x.
Proof.
  intros O B. unfold unpack_unchecked. rewrite B, Z.eqb_refl.
  apply unpack_from_slice_enc; assumption.
Qed.

(** Writing back an unmodified record changes no byte. *)
Lemma pack_unpack_id {A} (c : codec A) (L : Lawful c) LEN d x :
  unpack_unchecked c LEN d = Ok x -> pack c LEN x d = Ok d.
Proof.
  intros H. apply unpack_unchecked_ok in H as [r [-> [O B]]]; [|assumption].
  unfold pack, pack_into_slice. rewrite B, Z.eqb_refl. rewrite blen_app in B.
  pose proof (blen_nonneg r).
  destruct (Z.leb_spec (blen (enc c x)) LEN); [|lia].
  rewrite skipn_app, skipn_all, Nat.sub_diag. reflexivity.
Qed.
