(** Property C69: the text forms that JavaScript clients exchange with the bindings. *)

From Coq Require Import ZifyBool ZifyNat ZifyN Strings.String.
From Verif Require Import PropBasics PropCodec Wasm CodecLaws TypesLaws Demo.
Import ListNotations.
Open Scope Z_scope.
Ltac Zify.zify_post_hook ::= Z.div_mod_to_equations.

(** ** Digits *)

Definition below (b : Z) (l : list Z) : Prop := Forall (fun d => 0 <= d < b) l.
Definition lead (l : list Z) : Prop := match l with [] => True | d :: _ => d <> 0 end.

Lemma undigits_app b l d : undigits b (l ++ [d]) = b * undigits b l + d.
Proof. unfold undigits. rewrite fold_left_app. reflexivity. Qed.

Lemma undigits_ge b l acc : 2 <= b -> below b l -> 0 <= acc -> acc <= fold_left (fun a d => b * a + d) l acc.
Proof.
  intros B H. revert acc. induction H as [|d l D H IH]; intros acc A; cbn [fold_left]; [lia|].
  eapply Z.le_trans; [|apply IH; nia]. nia.
Qed.
Lemma undigits_nonneg b l : 2 <= b -> below b l -> 0 <= undigits b l.
Proof. intros B H. apply undigits_ge; [exact B|exact H|lia]. Qed.
Lemma undigits_pos b l : 2 <= b -> below b l -> lead l -> l <> [] -> 0 < undigits b l.
Proof.
  intros B H L N. destruct l as [|d l]; [contradiction|]. inversion H; subst. cbn [lead] in L.
  unfold undigits. cbn [fold_left]. eapply Z.lt_le_trans; [|apply undigits_ge; [exact B|assumption|lia]]. lia.
Qed.
Lemma undigits_lt b l : 2 <= b -> below b l -> undigits b l < b ^ Z.of_nat (List.length l).
Proof.
  intros B. induction l as [|d l IH] using rev_ind; intros H; [cbn; lia|].
  apply Forall_app in H as [H D]. inversion D; subst. specialize (IH H). rewrite undigits_app, app_length.
  replace (Z.of_nat (List.length l + List.length [d])) with (Z.succ (Z.of_nat (List.length l))) by (cbn [List.length]; lia).
  rewrite Z.pow_succ_r by lia. nia.
Qed.
Lemma undigits_zeros b n l : undigits b (repeat 0 n ++ l) = undigits b l.
Proof.
  unfold undigits. rewrite fold_left_app. f_equal. induction n as [|n IH]; [reflexivity|].
  cbn [repeat fold_left]. rewrite Z.mul_0_r. exact IH.
Qed.

Lemma digits_below b n z : 2 <= b -> 0 <= z -> below b (digits b n z).
Proof.
  intros B. revert z. induction n as [|n IH]; intros z Z0; cbn [digits]; [constructor|].
  destruct (Z.eqb_spec z 0); [constructor|]. apply Forall_app. split; [apply IH; apply Z.div_pos; lia|].
  constructor; [apply Z.mod_pos_bound; lia|constructor].
Qed.
Lemma digits_value b n z : 2 <= b -> 0 <= z < b ^ Z.of_nat n -> undigits b (digits b n z) = z.
Proof.
  intros B. revert z. induction n as [|n IH]; intros z Z0; [cbn in *; lia|]. cbn [digits].
  destruct (Z.eqb_spec z 0) as [->|NZ]; [reflexivity|]. rewrite undigits_app, IH.
  - symmetry. apply Z.div_mod. lia.
  - replace (Z.of_nat (S n)) with (Z.succ (Z.of_nat n)) in Z0 by lia. rewrite Z.pow_succ_r in Z0 by lia.
    split; [apply Z.div_pos; lia|]. apply Z.div_lt_upper_bound; lia.
Qed.
Lemma digits_len b n k z : 2 <= b -> 0 <= z < b ^ Z.of_nat k -> (List.length (digits b n z) <= k)%nat.
Proof.
  intros B. revert k z. induction n as [|n IH]; intros k z Z0; cbn [digits]; [cbn; lia|].
  destruct (Z.eqb_spec z 0) as [->|NZ]; [cbn; lia|]. destruct k as [|k]; [cbn in Z0; lia|].
  rewrite app_length. cbn [List.length]. specialize (IH k (z / b)).
  replace (Z.of_nat (S k)) with (Z.succ (Z.of_nat k)) in Z0 by lia. rewrite Z.pow_succ_r in Z0 by lia.
  assert (0 <= z / b < b ^ Z.of_nat k) by (split; [apply Z.div_pos; lia|apply Z.div_lt_upper_bound; lia]).
  specialize (IH H). lia.
Qed.
Lemma digits_lead b n z : 2 <= b -> 0 <= z < b ^ Z.of_nat n -> lead (digits b n z).
Proof.
  intros B. revert z. induction n as [|n IH]; intros z Z0; cbn [digits]; [exact Logic.I|].
  destruct (Z.eqb_spec z 0) as [->|NZ]; [exact Logic.I|].
  replace (Z.of_nat (S n)) with (Z.succ (Z.of_nat n)) in Z0 by lia. rewrite Z.pow_succ_r in Z0 by lia.
  assert (R : 0 <= z / b < b ^ Z.of_nat n) by (split; [apply Z.div_pos; lia|apply Z.div_lt_upper_bound; lia]).
  specialize (IH _ R). destruct (digits b n (z / b)) as [|d l] eqn:E; cbn [app lead] in *; [|exact IH].
  pose proof (digits_value b n (z / b) B R) as V. rewrite E in V. cbn in V. intros M.
  pose proof (Z.div_mod z b ltac:(lia)). nia.
Qed.
(** Digits without leading zero are determined by their number. *)
Lemma digits_unique b n l : 2 <= b -> below b l -> lead l -> (List.length l <= n)%nat -> digits b n (undigits b l) = l.
Proof.
  intros B. revert n. induction l as [|d l IH] using rev_ind; intros n H L N.
  - destruct n; [reflexivity|]. reflexivity.
  - destruct n as [|n]; [rewrite app_length in N; cbn in N; lia|].
    assert (P : 0 < undigits b (l ++ [d])) by (apply undigits_pos; [exact B|exact H|exact L|destruct l; discriminate]).
    cbn [digits]. destruct (Z.eqb_spec (undigits b (l ++ [d])) 0); [lia|].
    apply Forall_app in H as [H D]. inversion D; subst. rewrite undigits_app.
    assert (E1 : (b * undigits b l + d) / b = undigits b l).
    { rewrite Z.mul_comm, Z.div_add_l by lia. rewrite Z.div_small by lia. lia. }
    assert (E2 : (b * undigits b l + d) mod b = d).
    { rewrite Z.add_comm, Z.mul_comm, Z.mod_add by lia. apply Z.mod_small. lia. }
    rewrite E1, E2. f_equal. apply IH; [exact H|destruct l; [exact Logic.I|exact L]|rewrite app_length in N; cbn in N; lia].
Qed.

Lemma zeros_split l : l = repeat 0 (zeros l) ++ skipn (zeros l) l /\ lead (skipn (zeros l) l).
Proof.
  induction l as [|d l [IH1 IH2]]; [split; [reflexivity|exact Logic.I]|]. cbn [zeros].
  destruct (Z.eqb_spec d 0) as [->|N]; cbn [repeat skipn app]; [|split; [reflexivity|exact N]].
  split; [f_equal; exact IH1|exact IH2].
Qed.
Lemma zeros_app n l : lead l -> zeros (repeat 0 n ++ l) = n.
Proof.
  intros L. induction n as [|n IH]; cbn [repeat app].
  - destruct l as [|d l]; [reflexivity|]. cbn [zeros]. cbn [lead] in L. destruct (Z.eqb_spec d 0); [contradiction|reflexivity].
  - cbn [zeros]. rewrite Z.eqb_refl, IH. reflexivity.
Qed.

(** ** Alphabets *)

Lemma index_some c l i : index_of c l = Some i -> symbol l i = c /\ 0 <= i < blen l.
Proof.
  unfold symbol, blen. revert i. induction l as [|x l IH]; intros i; cbn [index_of]; [discriminate|].
  destruct (Byte.eqb c x) eqn:E.
  - intros H. injection H as <-. apply byte_eqb_eq in E as ->. split; [reflexivity|]. cbn [List.length]. lia.
  - destruct (index_of c l) as [j|]; [|discriminate]. intros H. injection H as <-. destruct (IH j eq_refl) as [S R].
    split; [|cbn [List.length]; lia]. replace (Z.to_nat (j + 1)) with (Datatypes.S (Z.to_nat j)) by lia. exact S.
Qed.
Definition alphabet (l : bytes) : bool :=
  forallb (fun i => match index_of (symbol l i) l with Some j => j =? i | None => false end) (zrange 0 (List.length l)).
Lemma index_symbol l i : alphabet l = true -> 0 <= i < blen l -> index_of (symbol l i) l = Some i.
Proof.
  unfold alphabet, blen. intros A H. rewrite forallb_forall in A. specialize (A i (zrange_in 0 (List.length l) i ltac:(lia))).
  destruct (index_of (symbol l i) l) as [j|]; [|discriminate]. apply Z.eqb_eq in A as ->. reflexivity.
Qed.
Lemma b58_alphabet : alphabet b58 = true. Proof. vm_compute. reflexivity. Qed.
Lemma b64_alphabet : alphabet b64 = true. Proof. vm_compute. reflexivity. Qed.
Lemma b58_len : blen b58 = 58. Proof. vm_compute. reflexivity. Qed.
Lemma b64_len : blen b64 = 64. Proof. vm_compute. reflexivity. Qed.

Lemma all_index l ds : alphabet l = true -> below (blen l) ds ->
  all_some (map (fun c => index_of c l) (map (symbol l) ds)) = Some ds.
Proof.
  intros A H. induction H as [|d ds D H IH]; [reflexivity|]. cbn [map all_some].
  rewrite (index_symbol l d A D), IH. reflexivity.
Qed.
Lemma all_index_some l s ds : all_some (map (fun c => index_of c l) s) = Some ds ->
  s = map (symbol l) ds /\ below (blen l) ds.
Proof.
  revert ds. induction s as [|c s IH]; intros ds; cbn [map all_some].
  - intros H. injection H as <-. split; [reflexivity|constructor].
  - destruct (index_of c l) as [i|] eqn:E; [|discriminate].
    destruct (all_some _) as [t|]; [|discriminate]. intros H. injection H as <-.
    destruct (IH t eq_refl) as [-> B]. apply index_some in E as [<- R].
    split; [reflexivity|constructor; assumption].
Qed.

(** ** Public keys *)

Lemma map_repeat {A B} (f : A -> B) a n : map f (repeat a n) = repeat (f a) n.
Proof. induction n as [|n IH]; [reflexivity|]. cbn [repeat map]. f_equal. exact IH. Qed.
Lemma bytes_below b : below 256 (map bz b).
Proof. apply Forall_forall. intros z I. apply in_map_iff in I as (x & <- & _). apply bz_range. Qed.
Lemma map_zb_bz b : map zb (map bz b) = b.
Proof. rewrite map_map. rewrite <- (map_id b) at 2. apply map_ext. exact zb_bz. Qed.
Lemma map_bz_zb l : below 256 l -> map bz (map zb l) = l.
Proof.
  induction 1 as [|d l D H IH]; [reflexivity|]. cbn [map]. rewrite IH, bz_zb, Z.mod_small by lia. reflexivity.
Qed.

(** No string of 32 bytes needs more than 44 characters. *)
Lemma b58_room n : (n <= 32)%nat -> 256 ^ Z.of_nat (32 - n) <= 58 ^ Z.of_nat (44 - n).
Proof.
  intros H.
  assert (A : forallb (fun n => 256 ^ Z.of_nat (32 - n) <=? 58 ^ Z.of_nat (44 - n)) (seq 0 33) = true)
    by (vm_compute; reflexivity).
  rewrite forallb_forall in A. apply Z.leb_le, A, in_seq. lia.
Qed.

Lemma key_shown k : key_of_string (string_of_key k) = Some k.
Proof.
  unfold key_of_string, string_of_key, b58_encode. set (zs := map bz (kb k)). set (n := zeros zs).
  destruct (zeros_split zs) as [E L]. fold n in E, L. set (m := skipn n zs) in *.
  assert (BZ : below 256 zs) by apply bytes_below.
  assert (BM : below 256 m) by (rewrite E in BZ; apply Forall_app in BZ as [_ BZ]; exact BZ).
  assert (LZ : (n + List.length m = 32)%nat).
  { apply (f_equal (@List.length Z)) in E. rewrite app_length, repeat_length in E. unfold zs in E at 1.
    rewrite map_length, kb_len32 in E. lia. }
  assert (V : undigits 256 zs = undigits 256 m) by (rewrite E; apply undigits_zeros).
  rewrite V. set (z := undigits 256 m).
  assert (Z0 : 0 <= z < 256 ^ Z.of_nat (32 - n)).
  { split; [apply undigits_nonneg; [lia|exact BM]|]. replace (32 - n)%nat with (List.length m) by lia.
    apply undigits_lt; [lia|exact BM]. }
  pose proof (b58_room n ltac:(lia)) as R.
  assert (Z1 : 0 <= z < 58 ^ Z.of_nat 44).
  { split; [lia|]. eapply Z.lt_le_trans; [apply Z0|]. eapply Z.le_trans; [exact R|]. apply Z.pow_le_mono_r; lia. }
  set (ds := digits 58 44 z).
  assert (DB : below 58 ds) by (apply digits_below; lia).
  assert (DL : (List.length ds <= 44 - n)%nat) by (apply digits_len; lia).
  assert (LD : lead ds) by (apply digits_lead; [lia|exact Z1]).
  rewrite app_length, repeat_length, map_length.
  destruct (Nat.ltb_spec 44 (n + List.length ds)); [lia|].
  unfold b58_decode. rewrite <- map_repeat, <- map_app. rewrite all_index; [|exact b58_alphabet|].
  2: { rewrite b58_len. apply Forall_app. split; [|exact DB]. apply Forall_forall. intros x I.
       apply repeat_spec in I as ->. lia. }
  rewrite zeros_app by exact LD. rewrite undigits_zeros. unfold ds. rewrite digits_value by (lia || exact Z1).
  unfold z. rewrite digits_unique; [|lia|exact BM|exact L|lia].
  replace (repeat x00 n) with (map zb (repeat 0 n)) by (rewrite map_repeat; reflexivity).
  rewrite <- map_app, <- E. unfold zs. rewrite map_zb_bz. apply mkkey_kb.
Qed.

Lemma key_read s k : key_of_string s = Some k -> s = string_of_key k.
Proof.
  unfold key_of_string, string_of_key, b58_encode, b58_decode.
  destruct (Nat.ltb_spec 44 (List.length s)) as [|LS]; [discriminate|].
  destruct (all_some _) as [ds|] eqn:A; [|discriminate]. intros K. apply mkkey_some in K.
  apply all_index_some in A as [-> B]. rewrite b58_len in B. rewrite map_length in LS.
  destruct (zeros_split ds) as [E L]. set (n := zeros ds) in *. set (m := skipn n ds) in *.
  assert (BM : below 58 m) by (rewrite E in B; apply Forall_app in B as [_ B]; exact B).
  assert (V : undigits 58 ds = undigits 58 m) by (rewrite E; apply undigits_zeros).
  assert (LM : (List.length m <= 44)%nat).
  { apply (f_equal (@List.length Z)) in E. rewrite app_length, repeat_length in E. lia. }
  rewrite V in K. set (z := undigits 58 m) in *.
  assert (Z0 : 0 <= z < 256 ^ Z.of_nat 33).
  { split; [apply undigits_nonneg; [lia|exact BM]|].
    eapply Z.lt_le_trans; [apply undigits_lt; [lia|exact BM]|].
    eapply Z.le_trans; [apply Z.pow_le_mono_r with (c := Z.of_nat 44); lia|]. vm_compute. discriminate. }
  assert (M : map bz (kb k) = repeat 0 n ++ digits 256 33 z).
  { rewrite K, map_app, map_repeat. rewrite map_bz_zb by (apply digits_below; lia). reflexivity. }
  rewrite M, zeros_app by (apply digits_lead; [lia|exact Z0]).
  rewrite undigits_zeros, digits_value by (lia || exact Z0). unfold z. rewrite digits_unique; [|lia|exact BM|exact L|exact LM].
  rewrite <- map_repeat, <- map_app, <- E. reflexivity.
Qed.

(** ** Numbers *)

Lemma dec_val_digits ds acc : below 10 ds ->
  dec_val acc (map (fun d => zb (48 + d)) ds) = Some (fold_left (fun a d => 10 * a + d) ds acc).
Proof.
  intros H. revert acc. induction H as [|d ds D H IH]; intros acc; [reflexivity|]. cbn [map dec_val fold_left]. cbv zeta.
  rewrite bz_zb, Z.mod_small by lia. replace (48 + d - 48) with d by lia.
  replace ((0 <=? d) && (d <? 10)) with true by lia. apply IH.
Qed.
Lemma num_shown z : 0 <= z < 2 ^ 128 -> u128_of_string (string_of_num z) = Some z.
Proof.
  intros H. unfold u128_of_string, string_of_num.
  assert (R : 0 <= z < 10 ^ Z.of_nat 39) by (split; [lia|]; eapply Z.lt_le_trans; [apply H|]; vm_compute; discriminate).
  pose proof (digits_below 10 39 z ltac:(lia) ltac:(lia)) as B. pose proof (digits_value 10 39 z ltac:(lia) R) as V.
  destruct (digits 10 39 z) as [|d ds] eqn:E.
  - cbn in V. subst z. reflexivity.
  - cbn [map]. assert (N : Byte.eqb (zb (48 + d)) x2b = false).
    { destruct (Byte.eqb (zb (48 + d)) x2b) eqn:Q; [|reflexivity]. apply byte_eqb_eq in Q. apply (f_equal bz) in Q.
      rewrite bz_zb in Q. inversion B; subst. rewrite Z.mod_small in Q by lia. change (bz x2b) with 43 in Q. lia. }
    rewrite N. change (zb (48 + d) :: map (fun d => zb (48 + d)) ds) with (map (fun d => zb (48 + d)) (d :: ds)).
    rewrite dec_val_digits by exact B. change (fold_left (fun a d => 10 * a + d) (d :: ds) 0) with (undigits 10 (d :: ds)).
    rewrite V. unfold u128max. replace (z <? 2 ^ 128) with true by lia. reflexivity.
Qed.
Lemma num_read s z : u128_of_string s = Some z -> 0 <= z < 2 ^ 128 /\
  exists sign ds, s = sign ++ ds /\ (sign = [] \/ sign = str "+") /\ ds <> [] /\ Forall is_digit ds /\
  z = number 10 (map (fun c => bz c - 48) ds).
Proof.
  unfold u128_of_string. cbv zeta. set (t := match s with c :: r => if Byte.eqb c x2b then r else s | [] => [] end).
  assert (T : exists sign, s = sign ++ t /\ (sign = [] \/ sign = str "+")).
  { unfold t. destruct s as [|c r]; [exists []; auto|]. destruct (Byte.eqb c x2b) eqn:E; [|exists []; auto].
    apply byte_eqb_eq in E as ->. exists (str "+"). auto. }
  clearbody t. destruct T as (sign & E & S). destruct t as [|c r] eqn:Et; [discriminate|]. rewrite <- Et in *.
  destruct (dec_val 0 t) as [n|] eqn:D; [|discriminate]. destruct (Z.ltb_spec n u128max) as [L|]; [|discriminate].
  intros H. injection H as <-. apply dec_val_spec in D as [F V]. unfold u128max in L. split.
  - split; [|exact L]. rewrite V. apply (undigits_nonneg 10); [lia|]. apply Forall_forall. intros x I.
    apply in_map_iff in I as (y & <- & I). rewrite Forall_forall in F. specialize (F y I). unfold is_digit in F. lia.
  - exists sign, t. split; [exact E|]. split; [exact S|]. split; [subst t; discriminate|]. split; [exact F|exact V].
Qed.

(** ** UUIDs *)

Lemma be_value n z : undigits 256 (map bz (rev (le n z))) = z mod 256 ^ Z.of_nat n.
Proof.
  revert z. induction n as [|n IH]; intros z; [cbn; symmetry; apply Z.mod_1_r|].
  cbn [le rev]. rewrite map_app. cbn [map]. rewrite undigits_app, IH, bz_zb.
  replace (Z.of_nat (S n)) with (Z.succ (Z.of_nat n)) by lia. rewrite Z.pow_succ_r by lia.
  assert (0 < 256 ^ Z.of_nat n) by (apply Z.pow_pos_nonneg; lia).
  rewrite Z.rem_mul_r by lia. lia.
Qed.
Lemma uuid_shown z : 0 <= z < 2 ^ 128 -> uuid_of_string (string_of_uuid z) = Some z.
Proof.
  intros H. unfold string_of_uuid. cbv zeta.
  pose proof (proj1 (hex_encode_ok (rev (le 16 z)))) as D.
  assert (L : List.length (hex_encode (rev (le 16 z))) = 32%nat).
  { pose proof (hex_decode_spec _ _ D) as (L & _). rewrite L, rev_length. pose proof (le_length 16 z). lia. }
  pose proof (be_value 16 z) as V. rewrite Z.mod_small in V by exact H.
  assert (LB : List.length (rev (le 16 z)) = 16%nat) by (rewrite rev_length; apply le_length).
  revert D L V LB. generalize (rev (le 16 z)). intros bs. generalize (hex_encode bs). intros h D L V LB.
  do 32 (destruct h as [|? h]; [discriminate L|]). destruct h; [|discriminate L].
  unfold uuid_of_string. cbn [firstn skipn app List.length Nat.eqb].
  unfold uuid_hyphenated. cbn [nth firstn skipn app].
  change (Byte.eqb x2d x2d) with true. cbn [andb]. unfold uuid_simple. rewrite D, LB. cbn [Nat.eqb]. rewrite V. reflexivity.
Qed.

Lemma hex_of_bytes s b : hex_decode s = Some b -> undigits 256 (map bz b) = number 16 (map hex_digit_value s) /\
  List.length s = (2 * List.length b)%nat /\ Forall is_hex s.
Proof.
  intros D. apply hex_decode_spec in D as (L & F & V). split; [symmetry; exact (V 0)|]. split; [exact L|exact F].
Qed.
Lemma uuid_simple_read s z : uuid_simple s = Some z ->
  List.length s = 32%nat /\ Forall is_hex s /\ z = number 16 (map hex_digit_value s).
Proof.
  unfold uuid_simple. destruct (hex_decode s) as [b|] eqn:D; [|discriminate]. apply hex_of_bytes in D as (V & L & F).
  destruct (Nat.eqb_spec (List.length b) 16); [|discriminate]. intros H. injection H as <-.
  split; [lia|]. split; [exact F|exact V].
Qed.

(** The 32 digits [ds] with hyphens as in a UUID. *)
Definition hyphenated (ds s : bytes) : Prop := exists a b c d f,
  List.length a = 8%nat /\ List.length b = 4%nat /\ List.length c = 4%nat /\ List.length d = 4%nat /\
  List.length f = 12%nat /\ ds = a ++ b ++ c ++ d ++ f /\
  s = a ++ str "-" ++ b ++ str "-" ++ c ++ str "-" ++ d ++ str "-" ++ f.

Lemma uuid_hyphenated_read s z : List.length s = 36%nat -> uuid_hyphenated s = Some z ->
  exists ds, hyphenated ds s /\ Forall is_hex ds /\ z = number 16 (map hex_digit_value ds).
Proof.
  intros L. do 36 (destruct s as [|? s]; [discriminate L|]). destruct s; [|discriminate L]. unfold uuid_hyphenated.
  cbn [nth firstn skipn app].
  match goal with |- (if ?b then _ else _) = _ -> _ => destruct b eqn:E end; [|discriminate].
  apply andb_true_iff in E as [E E4]. apply andb_true_iff in E as [E E3]. apply andb_true_iff in E as [E1 E2].
  apply byte_eqb_eq in E1 as ->. apply byte_eqb_eq in E2 as ->. apply byte_eqb_eq in E3 as ->. apply byte_eqb_eq in E4 as ->.
  intros H. apply uuid_simple_read in H as (_ & F & V).
  match type of F with Forall _ ?l => exists l end. split; [|split; [exact F|exact V]].
  match goal with |- hyphenated ?l _ => exists (firstn 8 l), (firstn 4 (skipn 8 l)), (firstn 4 (skipn 12 l)), (firstn 4 (skipn 16 l)), (skipn 20 l) end.
  repeat split; reflexivity.
Qed.
Lemma uuid_read s z : uuid_of_string s = Some z ->
  exists ds t, (s = ds \/ hyphenated ds t /\ (s = t \/ s = str "{" ++ t ++ str "}" \/ s = str "urn:uuid:" ++ t)) /\
  List.length ds = 32%nat /\ Forall is_hex ds /\ z = number 16 (map hex_digit_value ds).
Proof.
  assert (HL : forall ds t, hyphenated ds t -> List.length ds = 32%nat).
  { intros ds t (a & b & c & d & f & A & B & C & D & F & -> & _). rewrite !app_length. lia. }
  unfold uuid_of_string.
  destruct (Nat.eqb_spec (List.length s) 32) as [L|_].
  { intros H. apply uuid_simple_read in H as (_ & F & V). exists s, s. auto. }
  destruct (Nat.eqb_spec (List.length s) 36) as [L|_].
  { intros H. apply uuid_hyphenated_read in H as (ds & H & F & V); [|exact L]. exists ds, s. split; [right; split; [exact H|left; reflexivity]|]. split; [exact (HL _ _ H)|auto]. }
  destruct (Nat.eqb_spec (List.length s) 38) as [L|_].
  { destruct (_ && _) eqn:E; [|discriminate]. apply andb_true_iff in E as [E1 E2].
    apply byte_eqb_eq in E1. apply byte_eqb_eq in E2. intros H.
    apply uuid_hyphenated_read in H as (ds & H & F & V); [|rewrite firstn_length, skipn_length; lia].
    exists ds, (firstn 36 (skipn 1 s)). split; [|eauto]. right. split; [exact H|]. right; left. clear H.
    do 38 (destruct s as [|? s]; [discriminate L|]). destruct s; [|discriminate L]. cbn [nth] in E1, E2. subst. reflexivity. }
  destruct (Nat.eqb_spec (List.length s) 45) as [L|_]; [|discriminate].
  destruct (beqb _ _) eqn:E; [|discriminate]. apply beqb_eq in E. intros H.
  apply uuid_hyphenated_read in H as (ds & H & F & V); [|rewrite skipn_length; lia].
  exists ds, (skipn 9 s). split; [|eauto]. right. split; [exact H|]. right; right.
  rewrite <- E. symmetry. apply firstn_skipn.
Qed.

(** ** Payloads *)

Lemma zb_mod z : zb (z mod 256) = zb z.
Proof. rewrite <- (zb_bz (zb z)), bz_zb. reflexivity. Qed.
Lemma zb_is z x : z mod 256 = bz x -> zb z = x.
Proof. intros H. rewrite <- zb_mod, H. apply zb_bz. Qed.
Lemma sym64 i : 0 <= i < 64 -> index_of (symbol b64 i) b64 = Some i.
Proof. intros H. apply index_symbol; [exact b64_alphabet|rewrite b64_len; exact H]. Qed.
Lemma pad64 : index_of x3d b64 = None. Proof. vm_compute. reflexivity. Qed.

Lemma list_three_ind {A} (P : list A -> Prop) : P [] -> (forall x, P [x]) -> (forall x y, P [x; y]) ->
  (forall x y z l, P l -> P (x :: y :: z :: l)) -> forall l, P l.
Proof. intros H0 H1 H2 H3. fix F 1. intros [|x [|y [|z l]]]; [exact H0|apply H1|apply H2|apply H3, F]. Qed.
Lemma list_four_ind {A} (P : list A -> Prop) : P [] -> (forall x, P [x]) -> (forall x y, P [x; y]) ->
  (forall x y z, P [x; y; z]) -> (forall x y z w l, P l -> P (x :: y :: z :: w :: l)) -> forall l, P l.
Proof.
  intros H0 H1 H2 H3 H4. fix F 1.
  intros [|x [|y [|z [|w l]]]]; [exact H0|apply H1|apply H2|apply H3|apply H4, F].
Qed.

Lemma b64_shown b : b64_decode (b64_encode b) = Some b.
Proof.
  induction b as [|x|x y|x y z b IH] using list_three_ind.
  - reflexivity.
  - cbn [b64_encode]. cbv zeta. pose proof (bz_range x). cbn [b64_decode].
    rewrite !sym64 by lia. rewrite pad64. change (Byte.eqb x3d x3d) with true. cbn [nil_b andb].
    replace (bz x * 16 mod 64 mod 16 =? 0) with true by lia. do 2 f_equal. apply zb_is. lia.
  - cbn [b64_encode]. cbv zeta. pose proof (bz_range x). pose proof (bz_range y). cbn [b64_decode].
    rewrite !sym64 by lia. rewrite pad64. change (Byte.eqb x3d x3d) with true. cbn [nil_b andb]. cbv zeta.
    set (n := (bz x * 256 + bz y) * 4).
    assert (N : 4096 * (n / 4096) + 64 * (n / 64 mod 64) + n mod 64 = n) by lia. rewrite N.
    replace (n mod 64 mod 4 =? 0) with true by lia. repeat f_equal; apply zb_is; lia.
  - cbn [b64_encode]. cbv zeta. pose proof (bz_range x). pose proof (bz_range y). pose proof (bz_range z). cbn [b64_decode].
    rewrite !sym64 by lia. rewrite IH. cbv zeta. set (n := (bz x * 256 + bz y) * 256 + bz z).
    assert (N : 262144 * (n / 262144) + 4096 * (n / 4096 mod 64) + 64 * (n / 64 mod 64) + n mod 64 = n) by lia. rewrite N.
    repeat f_equal; apply zb_is; lia.
Qed.

Lemma idx64 c i : index_of c b64 = Some i -> c = symbol b64 i /\ 0 <= i < 64.
Proof. intros H. apply index_some in H as [<- R]. rewrite b64_len in R. auto. Qed.

Lemma b64_read s : forall b, b64_decode s = Some b -> s = b64_encode b.
Proof.
  induction s as [|x|x y|x y z|a b c d r IH] using list_four_ind; intros t; try discriminate.
  { intros H. injection H as <-. reflexivity. }
  cbn [b64_decode].
  destruct (index_of a b64) as [x|] eqn:Ea; [|discriminate]. destruct (index_of b b64) as [y|] eqn:Eb; [|discriminate].
  apply idx64 in Ea as [-> Rx]. apply idx64 in Eb as [-> Ry].
  destruct (index_of c b64) as [z|] eqn:Ec; [apply idx64 in Ec as [-> Rz]|]; destruct (index_of d b64) as [w|] eqn:Ed; try discriminate.
  - apply idx64 in Ed as [-> Rw]. destruct (b64_decode r) as [u|] eqn:Er; [|discriminate]. cbv zeta. intros H.
    specialize (IH u eq_refl). subst r.
    set (n := 262144 * x + 4096 * y + 64 * z + w) in H.
    assert (T : t = zb (n / 65536) :: zb (n / 256) :: zb n :: u) by congruence. subst t. cbn [b64_encode]. cbv zeta.
    rewrite !bz_zb. set (m := (n / 65536 mod 256 * 256 + n / 256 mod 256) * 256 + n mod 256).
    assert (M : m = n) by (unfold m; lia). clearbody m. subst m.
    repeat f_equal; lia.
  - destruct (_ && _ && _) eqn:E; [|discriminate]. apply andb_true_iff in E as [E E3]. apply andb_true_iff in E as [E1 E2].
    destruct r; [|discriminate E1]. apply byte_eqb_eq in E2 as ->. apply Z.eqb_eq in E3. cbv zeta. intros H.
    set (n := 4096 * x + 64 * y + z) in H. assert (T : t = [zb (n / 1024); zb (n / 4)]) by congruence. subst t.
    cbn [b64_encode]. cbv zeta. rewrite !bz_zb. set (m := (n / 1024 mod 256 * 256 + n / 4 mod 256) * 4).
    assert (M : m = n) by (unfold m; lia). clearbody m. subst m. repeat f_equal; lia.
  - destruct (_ && _ && _ && _) eqn:E; [|discriminate]. apply andb_true_iff in E as [E E4].
    apply andb_true_iff in E as [E E3]. apply andb_true_iff in E as [E1 E2].
    destruct r; [|discriminate E1]. apply byte_eqb_eq in E2 as ->. apply byte_eqb_eq in E3 as ->. apply Z.eqb_eq in E4. intros H.
    assert (T : t = [zb ((64 * x + y) / 16)]) by congruence. subst t.
    cbn [b64_encode]. cbv zeta. rewrite !bz_zb. set (m := (64 * x + y) / 16 mod 256 * 16).
    assert (M : m = 64 * x + y) by (unfold m; lia). clearbody m. subst m. repeat f_equal; lia.
Qed.

(** ** The notations, spelled out *)

Definition base58_symbols : bytes := str "123456789ABCDEFGHJKLMNPQRSTUVWXYZabcdefghijkmnopqrstuvwxyz".
Definition base64_symbols : bytes := str "ABCDEFGHIJKLMNOPQRSTUVWXYZabcdefghijklmnopqrstuvwxyz0123456789+/".
(** [s] is the text with the digits [ds]. *)
Definition spelled (symbols : bytes) (ds : list Z) (s : bytes) : Prop :=
  below (blen symbols) ds /\ s = map (fun d => nth (Z.to_nat d) symbols x00) ds.

Lemma b64_digits b : exists ds pad, spelled base64_symbols ds (firstn (List.length ds) (b64_encode b)) /\
  b64_encode b = firstn (List.length ds) (b64_encode b) ++ repeat x3d pad /\ (pad < 3)%nat /\
  (3 * (List.length ds + pad) = 4 * (List.length b + pad))%nat /\
  forall acc, fold_left (fun a d => 64 * a + d) (ds ++ repeat 0 pad) acc =
              fold_left (fun a d => 256 * a + d) (map bz b ++ repeat 0 pad) acc.
Proof.
  induction b as [|x|x y|x y z b IH] using list_three_ind.
  - exists [], 0%nat. repeat split; try constructor; lia.
  - pose proof (bz_range x). exists [bz x * 16 / 64; bz x * 16 mod 64], 2%nat. split; [split; [repeat constructor; change (blen base64_symbols) with 64; lia|reflexivity]|].
    split; [reflexivity|]. split; [lia|]. split; [cbn; lia|]. intros acc. cbn [map app repeat fold_left]. lia.
  - pose proof (bz_range x). pose proof (bz_range y).
    set (n := (bz x * 256 + bz y) * 4). exists [n / 4096; n / 64 mod 64; n mod 64], 1%nat.
    split; [split; [repeat constructor; change (blen base64_symbols) with 64; lia|reflexivity]|].
    split; [reflexivity|]. split; [lia|]. split; [cbn; lia|]. intros acc. cbn [map app repeat fold_left]. lia.
  - pose proof (bz_range x). pose proof (bz_range y). pose proof (bz_range z). destruct IH as (ds & pad & [B S] & E & P & L & V).
    set (n := (bz x * 256 + bz y) * 256 + bz z). exists (n / 262144 :: n / 4096 mod 64 :: n / 64 mod 64 :: n mod 64 :: ds), pad.
    cbn [b64_encode]. cbv zeta. fold n. cbn [List.length firstn]. split; [split|].
    + repeat (constructor; [change (blen base64_symbols) with 64; lia|]). exact B.
    + cbn [map]. rewrite S at 1. reflexivity.
    + split; [rewrite E at 1; reflexivity|]. split; [exact P|]. split; [cbn [List.length]; lia|]. intros acc.
      cbn [map app fold_left]. rewrite V. f_equal. lia.
Qed.

(** * C69 What the JavaScript bindings show can be read back *)

(** Each text form has one meaning.  A public key and a payload have exactly one text, a number has its decimal text
    (with leading zeros or a plus sign allowed), a seed is read from the 32 hexadecimal digits of a UUID. *)
Theorem C69_texts_partial :
  (forall k, key_of_string (string_of_key k) = Some k) /\
  (forall s k, key_of_string s = Some k -> s = string_of_key k /\
     exists ds, spelled base58_symbols ds s /\
       number 58 ds = number 256 (map bz (kb k)) /\ zeros ds = zeros (map bz (kb k))) /\
  (forall b, b64_decode (b64_encode b) = Some b) /\
  (forall s b, b64_decode s = Some b -> s = b64_encode b /\
     exists ds pad t, spelled base64_symbols ds t /\ s = t ++ repeat (zb 61) pad /\ (pad < 3)%nat /\
       (3 * (List.length ds + pad) = 4 * (List.length b + pad))%nat /\
       number 64 (ds ++ repeat 0 pad) = number 256 (map bz b ++ repeat 0 pad)) /\
  (forall z, 0 <= z < 2 ^ 128 -> u128_of_string (string_of_num z) = Some z) /\
  (forall s z, u128_of_string s = Some z -> 0 <= z < 2 ^ 128 /\
     exists sign ds, s = sign ++ ds /\ (sign = [] \/ sign = str "+") /\ ds <> [] /\ Forall is_digit ds /\
     z = number 10 (map (fun c => bz c - 48) ds)) /\
  (forall z, 0 <= z < 2 ^ 128 -> uuid_of_string (string_of_uuid z) = Some z) /\
  (forall s z, uuid_of_string s = Some z ->
     exists ds t, (s = ds \/ hyphenated ds t /\ (s = t \/ s = str "{" ++ t ++ str "}" \/ s = str "urn:uuid:" ++ t)) /\
     List.length ds = 32%nat /\ Forall is_hex ds /\ z = number 16 (map hex_digit_value ds)).
Proof.
  split; [exact key_shown|]. split.
  { intros s k H. split; [exact (key_read s k H)|]. pose proof (key_shown k) as S. rewrite <- (key_read s k H) in S. clear S.
    unfold key_of_string, b58_decode in H. destruct (44 <? List.length s)%nat eqn:LS; [discriminate|].
    apply Nat.ltb_ge in LS.
    destruct (all_some _) as [ds|] eqn:A; [|discriminate]. apply mkkey_some in H.
    apply all_index_some in A as [-> B]. rewrite b58_len in B. rewrite map_length in LS. exists ds. split; [split; [exact B|reflexivity]|].
    assert (Z0 : 0 <= undigits 58 ds < 256 ^ Z.of_nat 33).
    { split; [apply undigits_nonneg; [lia|exact B]|]. eapply Z.lt_le_trans; [apply undigits_lt; [lia|exact B]|].
      eapply Z.le_trans; [apply Z.pow_le_mono_r with (c := Z.of_nat 44); lia|]. vm_compute. discriminate. }
    rewrite H. rewrite map_app, map_repeat, map_bz_zb by (apply digits_below; lia). change (bz x00) with 0. split.
    - change (undigits 58 ds = undigits 256 (repeat 0 (zeros ds) ++ digits 256 33 (undigits 58 ds))).
      rewrite undigits_zeros, digits_value by (lia || exact Z0). reflexivity.
    - rewrite zeros_app by (apply digits_lead; [lia|exact Z0]). reflexivity. }
  split; [exact b64_shown|]. split.
  { intros s b H. apply b64_read in H. split; [exact H|]. destruct (b64_digits b) as (ds & pad & S & E & P & L & V).
    exists ds, pad, (firstn (List.length ds) (b64_encode b)). split; [exact S|]. split; [rewrite H; exact E|].
    split; [exact P|]. split; [exact L|]. exact (V 0). }
  split; [exact num_shown|]. split; [exact num_read|].
  split; [exact uuid_shown|exact uuid_read].
Qed.

(** [s] is the decimal text of the number [z], with a minus sign if it is negative. *)
Definition int_shown (z : Z) (s : bytes) : Prop :=
  (0 <= z -> u128_of_string s = Some z) /\ (z < 0 -> exists r, s = str "-" ++ r /\ u128_of_string r = Some (- z)).
Lemma i64_shown z : - 2 ^ 63 <= z < 2 ^ 63 -> int_shown z (string_of_i64 z).
Proof.
  intros B. assert (P : 2 ^ 63 < 2 ^ 128) by (vm_compute; reflexivity). unfold int_shown, string_of_i64. destruct (z <? 0) eqn:E.
  - apply Z.ltb_lt in E. split; [lia|]. intros _. exists (string_of_num (- z)). split; [reflexivity|]. apply num_shown. lia.
  - apply Z.ltb_ge in E. split; [|lia]. intros _. apply num_shown. lia.
Qed.

(** The texts in an unpacked token record name what is stored. *)
Theorem C69_tokens_partial : forall d t, unpack c_token_settings TP_LEN tk_init d = Ok t ->
  exists j, js_unpack_token_settings d = Ok j /\
  match tk_kind t, jt_kind j with
  | TKEver mint token dc, JKEver m k n => key_of_string m = Some mint /\ ever_from_string k = Some token /\ n = dc
  | TKSol mint vault, JKSol m v => key_of_string m = Some mint /\ key_of_string v = Some vault
  | _, _ => False
  end /\
  u128_of_string (jt_dlimit j) = Some (tk_dlimit t) /\ u128_of_string (jt_wlimit j) = Some (tk_wlimit t) /\
  u128_of_string (jt_wdlimit j) = Some (tk_wdlimit t) /\ u128_of_string (jt_wdamount j) = Some (tk_wdamount t) /\
  int_shown (tk_wepoch t) (jt_wepoch j) /\ jt_init j = tk_init t /\ jt_akind j = tk_akind t /\
  jt_emergency j = tk_emergency t /\ jt_name j = tk_name t /\ jt_symbol j = tk_symbol t /\
  jt_fee_supply j = tk_fee_supply t /\ jt_fee_dep j = tk_fee_dep t /\ jt_fee_wdr j = tk_fee_wdr t.
Proof.
  intros d t H. unfold js_unpack_token_settings. rewrite H. cbn [rbind]. eexists. split; [reflexivity|].
  cbn [jt_kind jt_dlimit jt_wlimit jt_wdlimit jt_wdamount jt_wepoch jt_init jt_akind jt_emergency jt_name jt_symbol jt_fee_supply jt_fee_dep jt_fee_wdr].
  apply unpack_ok in H as [r [_ [O _]]]; [|typeclasses eauto].
  apply C01_ranges in O as (_ & K & _ & _ & A1 & A2 & A3 & A4 & A5 & _).
  assert (P : 2 ^ 64 < 2 ^ 128) by (vm_compute; reflexivity).
  split.
  - destruct (tk_kind t) as [m v dc|m v]; cbn [js_kind_of].
    + split; [apply key_shown|]. split; [|reflexivity]. apply (proj1 C08_text_form).
      cbn [okb c_token_kind c_pair c_ever c_key c_i8 c_int fst snd] in K.
      change (256 ^ Z.of_nat 1 / 2) with 128 in K. rewrite !andb_true_iff, !Z.leb_le, !Z.ltb_lt in K. lia.
    + split; apply key_shown.
  - rewrite !num_shown by lia. do 4 (split; [reflexivity|]). split; [apply i64_shown; exact A5|]. repeat split.
Qed.

(** The seed of a deposit is shown in decimal but the builders read it as a UUID: no text shown is read as the seed. *)
Lemma decimal_hex l acc acc' : below 10 l -> 0 <= acc -> acc < acc' ->
  fold_left (fun a d => 10 * a + d) l acc < fold_left (fun a d => 16 * a + d) l acc'.
Proof.
  intros H. revert acc acc'. induction H as [|d l D H IH]; intros acc acc' A L; cbn [fold_left]; [exact L|].
  apply IH; lia.
Qed.
Lemma shown_digits z : 0 <= z < 2 ^ 128 -> Forall is_digit (string_of_num z).
Proof.
  intros H. unfold string_of_num. pose proof (digits_below 10 39 z ltac:(lia) ltac:(lia)) as B.
  destruct (digits 10 39 z) as [|d ds]; [repeat constructor; vm_compute; discriminate|].
  apply Forall_map. revert B. apply Forall_impl. intros x X. unfold is_digit. rewrite bz_zb, Z.mod_small by lia. lia.
Qed.
Lemma not_digits a c b : Forall is_digit (a ++ c :: b) -> is_digit c.
Proof. intros H. apply Forall_app in H as [_ H]. inversion H. assumption. Qed.

Theorem C69_seed_never : forall z, 0 <= z < 2 ^ 128 -> uuid_of_string (string_of_num z) <> Some z.
Proof.
  intros z H E. pose proof (shown_digits z H) as D. apply uuid_read in E as (ds & t & S & L & X & V).
  assert (T : hyphenated ds t -> forall p q, string_of_num z = p ++ t ++ q -> False).
  { intros (a & b & c & d & f & La & _ & _ & _ & _ & _ & ->) p q Q. rewrite Q in D.
    replace (p ++ (a ++ str "-" ++ b ++ str "-" ++ c ++ str "-" ++ d ++ str "-" ++ f) ++ q)
      with ((p ++ a) ++ x2d :: (b ++ str "-" ++ c ++ str "-" ++ d ++ str "-" ++ f) ++ q) in D
      by (change (str "-") with [x2d]; rewrite <- !app_assoc; reflexivity).
    apply not_digits in D. unfold is_digit in D. change (bz x2d) with 45 in D. lia. }
  destruct S as [S|[S [Q|[Q|Q]]]].
  2: { apply (T S [] []). rewrite app_nil_r. exact Q. }
  2: { exact (T S _ _ Q). }
  2: { apply (T S (str "urn:uuid:") []). rewrite app_nil_r. exact Q. }
  clear T. unfold string_of_num in S. pose proof (digits_below 10 39 z ltac:(lia) ltac:(lia)) as B.
  assert (R : 0 <= z < 10 ^ Z.of_nat 39) by (split; [lia|]; eapply Z.lt_le_trans; [apply H|]; vm_compute; discriminate).
  pose proof (digits_value 10 39 z ltac:(lia) R) as W. pose proof (digits_lead 10 39 z ltac:(lia) R) as N.
  destruct (digits 10 39 z) as [|d r]; [subst ds; discriminate L|]. subst ds. cbn [lead] in N.
  assert (M : map hex_digit_value (map (fun d => zb (48 + d)) (d :: r)) = d :: r).
  { rewrite map_map. rewrite <- (map_id (d :: r)) at 2. apply map_ext_in. intros x I.
    unfold below in B. rewrite Forall_forall in B. specialize (B x I). unfold hex_digit_value. rewrite bz_zb, Z.mod_small by lia.
    replace (48 + x <=? 57) with true by lia. lia. }
  rewrite M in V. rewrite map_length in L. destruct r as [|d2 r]; [discriminate L|]. inversion B as [|? ? B1 B2].
  inversion B2 as [|? ? B3 B4]. clear D H R. unfold number in V. unfold undigits in W. cbn [fold_left] in V, W.
  pose proof (decimal_hex r (10 * (10 * 0 + d) + d2) (16 * (16 * 0 + d) + d2) B4 ltac:(lia) ltac:(lia)). lia.
Qed.

(** The full property fails for seeds: a deposit record whose shown seed is the text of another seed. *)
Definition demo_seed : Z := 12345678901234567890123456789012.
Definition demo_deposit_record : dsol :=
  Dep true (KDeposit 255) (knum 15)
    (dsol_event_new (DSolEvent (knum 16) (str "Token") (str "TKN") 9 1000 (AddrStd 0 (knum 17)) 0 (knum 0) []))
    (dep_meta_new demo_seed).
Theorem C69_refuted : exists d x text seed, unpack c_dsol TP_LEN d_init d = Ok x /\
  js_unpack_deposit_sol d = Ok (d_event x, text) /\ uuid_of_string text = Some seed /\ wl_data (d_meta x) <> seed.
Proof.
  set (d := enc c_dsol demo_deposit_record ++ repeat x00 (1000 - List.length (enc c_dsol demo_deposit_record))).
  exists d, demo_deposit_record, (str "12345678901234567890123456789012"), 24197857199965561741520400062332047378.
  split; [vm_compute; reflexivity|]. split; [vm_compute; reflexivity|]. split; [vm_compute; reflexivity|].
  vm_compute. discriminate.
Qed.

(** Concrete texts: the two programs' addresses, an amount, a UUID in its three notations and a payload; texts that are
    refused: a symbol outside the alphabet (0), a key of 31 bytes, 2^128, padding that is missing. *)
Example C69_case :
  string_of_key tp_id = str "octuswa5MD5hrTwcNBKvdxDvDQoz7C7M9sk2cRRvZfg" /\
  string_of_key sys_id = str "11111111111111111111111111111111" /\
  key_of_string (str "TokenkegQfeZyiNwAJbNbGKPFXCWuBvf9Ss623VQ5DA") = Some spl_id /\
  key_of_string (str "0okenkegQfeZyiNwAJbNbGKPFXCWuBvf9Ss623VQ5DA") = None /\
  key_of_string (str "1111111111111111111111111111111") = None /\
  u128_of_string (str "+0340282366920938463463374607431768211455") = Some (2 ^ 128 - 1) /\
  u128_of_string (str "340282366920938463463374607431768211456") = None /\
  string_of_num 1000000 = str "1000000" /\
  uuid_of_string (str "67e55044-10b1-426f-9247-bb680e5fe0c8") = Some 138101147531900207301164854559698313416 /\
  uuid_of_string (str "67E5504410B1426F9247BB680E5FE0C8") = Some 138101147531900207301164854559698313416 /\
  uuid_of_string (str "{67e55044-10b1-426f-9247-bb680e5fe0c8}") = Some 138101147531900207301164854559698313416 /\
  string_of_uuid 138101147531900207301164854559698313416 = str "67e55044-10b1-426f-9247-bb680e5fe0c8" /\
  b64_encode (str "hello") = str "aGVsbG8=" /\ b64_decode (str "aGVsbG8") = None.
Proof. repeat match goal with |- _ /\ _ => split end; vm_compute; reflexivity. Qed.

Print Assumptions C69_texts_partial.
Print Assumptions C69_tokens_partial.
Print Assumptions C69_seed_never.
Print Assumptions C69_refuted.
