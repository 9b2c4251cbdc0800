(** The record of a request in the presence of payloads that call the token proxy again and of payload
    executions on any account: the head, the lengths and the status of the record.  No code of /repo is
    modelled here. *)

From Coq Require Import ZifyBool ZifyNat ZifyN.
From Verif Require Export Vacant Nested.
Ltac Zify.zify_post_hook ::= Z.div_mod_to_equations.
Open Scope Z_scope.
Open Scope list_scope.

(** * The record *)

(** Initialised mark, kind, author, round, required votes and position of the event. *)
Definition head : Type := bool * (account_kind * (key * (Z * (Z * pda)))).

(** The account [k] of the token proxy starts with the record of a request with head [h], event bytes [ev]
    and meta data [m]; votes and what follows are not described. *)
Definition filed (s : state) (k : key) (h : head) (ev : bytes) (m : wmeta) : Prop :=
  own (accs s k) = tp_id /\ blen (dat (accs s k)) = TP_LEN /\ okb c_phead h = true /\ okb c_wmeta m = true /\
  exists r, dat (accs s k) = enc c_phead h ++ enc c_bytes ev ++ enc c_bytes (enc c_wmeta m) ++ r.

#[export] Instance lawful_phead : Lawful c_phead. Proof. unfold c_phead. typeclasses eauto. Qed.

Lemma okb_phead {E M_} (ce : codec E) (cm : codec M_) (p : prop E M_) : okb (c_prop ce cm) p = true -> okb c_phead (phead p) = true.
Proof.
  intros O. rewrite (okb_prop ce cm) in O. unfold c_phead, phead. cbn [okb c_pair fst snd]. rewrite !andb_true_iff in *. intuition.
Qed.
Lemma filed_small s k h ev m : filed s k h ev m -> blen ev < u32max.
Proof.
  intros (_ & B & _ & _ & r & D). rewrite D in B. rewrite !blen_app in B. unfold c_bytes in B. cbn [enc] in B. rewrite !blen_app in B.
  pose proof (blen_nonneg (enc c_phead h)). pose proof (blen_nonneg r). pose proof (blen_nonneg (le 4 (blen ev))).
  pose proof (blen_nonneg (le 4 (blen (enc c_wmeta m)))). pose proof (blen_nonneg (enc c_wmeta m)). unfold TP_LEN, u32max in *. lia.
Qed.
Lemma request_filed e s k g m : request_at e s k g m -> filed s k (phead g) (p_event g) m.
Proof.
  intros (O & U & PM & OM & _). apply unpack_ok in U as (r & D & OG & B & _); [|typeclasses eauto].
  split; [exact O|]. split; [exact B|]. split; [eapply okb_phead; exact OG|]. split; [exact OM|].
  exists (enc (c_vec c_vote) (p_signers g) ++ r). rewrite D. unfold c_gprop. rewrite (prop_split c_bytes c_bytes), PM.
  rewrite <- !app_assoc. reflexivity.
Qed.
Lemma filed_same s s' k h ev m : same_od s s' k -> filed s k h ev m -> filed s' k h ev m.
Proof. intros [O D] H. unfold filed. rewrite O, D. exact H. Qed.
Lemma filed_fun s k h ev m h' ev' m' : filed s k h ev m -> filed s k h' ev' m' -> h' = h /\ ev' = ev /\ m' = m.
Proof.
  intros F F'. pose proof (filed_small _ _ _ _ _ F) as S. pose proof (filed_small _ _ _ _ _ F') as S'.
  destruct F as (_ & _ & OH & OM & r & D), F' as (_ & _ & OH' & OM' & r' & D'). rewrite D in D'.
  apply (enc_prefix c_phead _) in D' as [<- D']; [|exact OH|exact OH'].
  apply (enc_prefix c_bytes _) in D' as [<- D']; [|cbn [okb c_bytes]; lia|cbn [okb c_bytes]; lia].
  apply (enc_prefix c_bytes _) in D' as [E _]; [|cbn [okb c_bytes]; rewrite blen_wmeta; reflexivity|cbn [okb c_bytes]; rewrite blen_wmeta; reflexivity].
  apply (enc_inj c_wmeta _) in E; [|exact OM|exact OM']. auto.
Qed.
Lemma filed_kind s k h ev m : filed s k h ev m -> kind_at (dat (accs s k)) = Some (fst (snd h)).
Proof.
  intros (_ & _ & OH & _ & r & D). rewrite D. destruct h as [b [kd h]]. unfold c_phead in *. cbn [enc okb c_pair fst snd] in *.
  rewrite <- !app_assoc. apply kind_at_enc. rewrite !andb_true_iff in OH. apply OH.
Qed.

(** * Byte by byte *)

Definition fits (h : head) (n : nat) (st : wstatus) (d : bytes) : Prop :=
  let p := (length (enc c_phead h) + 4)%nat in
  (forall j, (j < p)%nat -> nth_error d j = nth_error (enc c_phead h ++ le 4 (Z.of_nat n)) j) /\
  (forall j, (j < 4)%nat -> nth_error d (p + n + j) = nth_error [x11; x00; x00; x00] j) /\
  nth_error d (p + n + 4) = Some (status_byte st) /\ (p + n + 21 <= length d)%nat.

Lemma filed_fits s k h ev m : filed s k h ev m -> fits h (length ev) (wm_status m) (dat (accs s k)).
Proof.
  intros (_ & _ & _ & _ & r & D). rewrite D. clear D.
  assert (E : enc c_bytes (enc c_wmeta m) = [x11; x00; x00; x00] ++ enc c_wmeta m) by (unfold c_bytes; cbn [enc]; rewrite blen_wmeta; reflexivity).
  rewrite E. unfold c_bytes. cbn [enc]. fold (blen ev). unfold fits. change (Z.of_nat (length ev)) with (blen ev).
  pose proof (le_length 4 (blen ev)) as L4.
  assert (LM : length (enc c_wmeta m) = 17%nat) by (pose proof (blen_wmeta m) as B; unfold blen in B; lia).
  assert (S : exists x, enc c_wmeta m = status_byte (wm_status m) :: x).
  { destruct m as [st bo ep]. unfold c_wmeta, c_iso. cbn [enc c_pair fst snd wm_status wm_bounty wm_epoch]. destruct st; eexists; reflexivity. }
  split; [|split; [|split]].
  - intros j J. rewrite <- !app_assoc. rewrite !(app_assoc (enc c_phead h)). rewrite nth_error_app1; [reflexivity|rewrite app_length; lia].
  - intros j J. rewrite <- !app_assoc. rewrite !(app_assoc (enc c_phead h)). rewrite nth_error_app2 by (rewrite app_length; lia).
    rewrite nth_error_app2 by (rewrite app_length; lia). rewrite app_length, L4.
    replace (length (enc c_phead h) + 4 + length ev + j - (length (enc c_phead h) + 4) - length ev)%nat with j by lia.
    rewrite nth_error_app1; [reflexivity|cbn [length]; lia].
  - rewrite <- !app_assoc. rewrite !(app_assoc (enc c_phead h)). rewrite nth_error_app2 by (rewrite app_length; lia).
    rewrite nth_error_app2 by (rewrite app_length; lia). rewrite app_length, L4.
    replace (length (enc c_phead h) + 4 + length ev + 4 - (length (enc c_phead h) + 4) - length ev)%nat with 4%nat by lia.
    rewrite nth_error_app2 by (cbn [length]; lia). change (4 - length [x11; x00; x00; x00])%nat with 0%nat.
    destruct S as (x & ->). reflexivity.
  - rewrite !app_length, L4, LM. cbn [length]. lia.
Qed.

Lemma prefix_nth (p d : bytes) : (forall j, (j < length p)%nat -> nth_error d j = nth_error p j) -> exists r, d = p ++ r.
Proof.
  revert d. induction p as [|x p IH]; intros d H; [exists d; reflexivity|].
  destruct d as [|y d]; [specialize (H 0%nat ltac:(cbn [length]; lia)); discriminate|].
  pose proof (H 0%nat ltac:(cbn [length]; lia)) as E. injection E as ->.
  destruct (IH d) as (r & ->); [intros j J; apply (H (Datatypes.S j)); cbn [length]; lia|]. exists r. reflexivity.
Qed.
Lemma take_enough n b : (n <= length b)%nat -> exists h t, take_bytes n b = Some (h, t) /\ b = h ++ t /\ length h = n.
Proof.
  intros L. exists (firstn n b), (skipn n b). rewrite <- (firstn_skipn n b) at 1.
  assert (F : length (firstn n b) = n) by (apply firstn_length_le; exact L).
  split; [apply take_bytes_app'; exact F|]. split; [symmetry; apply firstn_skipn|exact F].
Qed.

Lemma fits_filed s k h n st : own (accs s k) = tp_id -> blen (dat (accs s k)) = TP_LEN -> okb c_phead h = true ->
  fits h n st (dat (accs s k)) -> exists ev m, filed s k h ev m /\ length ev = n /\ wm_status m = st.
Proof.
  intros O B OH (F1 & F2 & F3 & F4). set (d := dat (accs s k)) in *. set (P := enc c_phead h ++ le 4 (Z.of_nat n)) in *.
  assert (LP : length P = (length (enc c_phead h) + 4)%nat) by (unfold P; rewrite app_length, le_length; reflexivity).
  destruct (prefix_nth P d) as (r1 & D1); [intros j J; apply F1; rewrite <- LP; exact J|].
  rewrite <- LP in F2, F3, F4. rewrite D1, app_length in F4.
  destruct (take_enough n r1) as (ev & r2 & _ & D2 & LE); [lia|]. rewrite D2 in D1.
  assert (N : forall j, nth_error d (length P + n + j) = nth_error r2 j).
  { intros j. rewrite D1. rewrite nth_error_app2 by lia. rewrite nth_error_app2 by lia. f_equal. lia. }
  destruct (prefix_nth [x11; x00; x00; x00] r2) as (r3 & D3); [intros j J; rewrite <- N; apply F2; exact J|].
  rewrite N, D3 in F3. rewrite nth_error_app2 in F3 by (cbn [length]; lia). change (4 - length [x11; x00; x00; x00])%nat with 0%nat in F3.
  destruct r3 as [|b r3]; [discriminate|]. cbn [nth_error] in F3. injection F3 as ->.
  assert (L3 : (16 <= length r3)%nat).
  { rewrite D2, D3, !app_length in F4. cbn [length] in F4. lia. }
  destruct (take_enough 8 r3) as (b1 & r4 & T1 & D4 & L4); [lia|].
  destruct (take_enough 8 r4) as (b2 & r5 & T2 & D5 & L5); [rewrite D4, app_length in L3; lia|].
  assert (M : exists m, okb c_wmeta m = true /\ wm_status m = st /\ status_byte st :: r3 = enc c_wmeta m ++ r5).
  { assert (W : dec c_wstatus (status_byte st :: r3) = Some (st, r3)) by (destruct st; reflexivity).
    assert (U : dec c_u64 r3 = Some (unle b1, r4)) by (unfold c_u64, c_uint; cbn [dec]; rewrite T1; reflexivity).
    assert (I : exists z, dec c_i64 r4 = Some (z, r5)) by (eexists; unfold c_i64, c_int; cbn [dec]; rewrite T2; reflexivity).
    destruct I as (z & I). assert (E : dec c_wmeta (status_byte st :: r3) = Some (WMeta st (unle b1) z, r5)).
    { unfold c_wmeta, c_iso. cbn [dec c_pair]. rewrite W, U, I. reflexivity. }
    apply can in E as [E OM]. exists (WMeta st (unle b1) z). auto. }
  destruct M as (m & OM & MS & DM). exists ev, m. split; [|split; [exact LE|exact MS]].
  split; [exact O|]. split; [exact B|]. split; [exact OH|]. split; [exact OM|]. exists r5.
  unfold d in D1. rewrite D1. unfold P. rewrite D3, DM. unfold c_bytes. cbn [enc]. unfold blen at 1 2.
  rewrite LE. assert (LM : length (enc c_wmeta m) = 17%nat) by (pose proof (blen_wmeta m) as BM; unfold blen in BM; lia).
  rewrite LM. rewrite <- !app_assoc. reflexivity.
Qed.

(** * Writing back a record read before *)

(** What a payload execution writes is, byte by byte, what was there when it began, or what is there now,
    with at most one byte 5 of the former turned into 1, behind the head and the length of the event. *)
Lemma written_back {E} (ce : codec E) (LE : Lawful ce) ini d d1 (w : prop (withlen E) (withlen wmeta)) :
  unpack (c_prop (c_withlen ce) (c_withlen c_wmeta)) TP_LEN ini d = Ok w -> w_status w = WWaitExecute -> length d1 = length d ->
  let b := enc (c_prop (c_withlen ce) (c_withlen c_wmeta)) (w_set_status w WProcessed) in
  let d' := b ++ skipn (length b) d1 in
  length d' = length d1 /\ (exists r, d = enc c_phead (phead w) ++ r) /\ okb c_phead (phead w) = true /\
  forall j, nth_error d' j = nth_error d j \/ nth_error d' j = nth_error d1 j \/
    ((length (enc c_phead (phead w)) + 4 <= j)%nat /\ nth_error d j = Some x05 /\ nth_error d' j = Some x01).
Proof.
  intros U ST L b d'. apply unpack_ok in U as (r & D & O & _); [|typeclasses eauto].
  assert (MF : exists x y, (4 <= length x)%nat /\ enc (c_prop (c_withlen ce) (c_withlen c_wmeta)) w = enc c_phead (phead w) ++ x ++ x05 :: y /\
     b = enc c_phead (phead w) ++ x ++ x01 :: y).
  { unfold b. rewrite !prop_split. change (phead (w_set_status w WProcessed)) with (phead w). clear d' b D O.
    unfold w_set_status. cbn [p_with_meta p_event p_meta p_signers]. destruct w as [i kd au ro rq pd [el ev] [ml [st bo ep]] sg].
    unfold w_status in ST. cbn [p_meta wl_data wm_status] in ST. subst st.
    exists (enc (c_withlen ce) (WithLen el ev) ++ enc c_u32 ml), (enc c_u64 bo ++ enc c_i64 ep ++ enc (c_vec c_vote) sg).
    split. { rewrite app_length. unfold c_u32, c_uint. cbn [enc]. rewrite le_length. lia. }
    cbn [p_event p_meta p_signers wl_len wl_data wm_bounty wm_epoch]. unfold c_withlen at 2 4, c_wmeta, c_iso.
    cbn [enc c_pair fst snd wl_len wl_data wm_status wm_bounty wm_epoch c_wstatus app]. rewrite <- !app_assoc. split; reflexivity. }
  destruct MF as (x & y & LX & E1 & E2). rewrite E1 in D. set (H := enc c_phead (phead w)) in *.
  assert (LB : length b = (length H + length x + 1 + length y)%nat) by (rewrite E2, !app_length; cbn [length]; lia).
  assert (LD : (length b <= length d)%nat) by (rewrite D, LB, !app_length; cbn [length]; lia).
  split; [unfold d'; rewrite app_length, skipn_length; lia|].
  split; [exists ((x ++ x05 :: y) ++ r); rewrite D, <- !app_assoc; reflexivity|]. split; [eapply okb_phead; exact O|].
  intros j. destruct (Nat.lt_ge_cases j (length b)) as [J|J].
  - assert (N' : nth_error d' j = nth_error ((H ++ x) ++ x01 :: y) j).
    { unfold d'. rewrite nth_error_app1 by exact J. rewrite E2, app_assoc. reflexivity. }
    assert (N : nth_error d j = nth_error ((H ++ x) ++ x05 :: y) j).
    { rewrite D. rewrite nth_error_app1 by (rewrite !app_length; cbn [length]; lia). rewrite app_assoc. reflexivity. }
    destruct (Nat.eq_dec j (length (H ++ x))) as [EJ|NJ].
    + right. right. rewrite N, N', EJ, !nth_mid. split; [rewrite app_length; lia|auto].
    + left. rewrite N, N'. apply nth_flip. exact NJ.
  - right. left. unfold d'. rewrite nth_error_app2 by exact J. rewrite <- (firstn_skipn (length b) d1) at 2.
    assert (LF : length (firstn (length b) d1) = length b) by (apply firstn_length_le; lia).
    rewrite nth_error_app2 by lia. rewrite LF. reflexivity.
Qed.

Lemma status_byte_inj a b : status_byte a = status_byte b -> a = b.
Proof. destruct a, b; (reflexivity || discriminate). Qed.

Lemma fits_back {E} (ce : codec E) (LE : Lawful ce) ini h n st st1 d d1 (w : prop (withlen E) (withlen wmeta)) :
  okb c_phead h = true -> fits h n st d -> fits h n st1 d1 -> length d1 = length d ->
  unpack (c_prop (c_withlen ce) (c_withlen c_wmeta)) TP_LEN ini d = Ok w -> w_status w = WWaitExecute ->
  let b := enc (c_prop (c_withlen ce) (c_withlen c_wmeta)) (w_set_status w WProcessed) in
  exists st', fits h n st' (b ++ skipn (length b) d1) /\ (st' = st \/ st' = st1 \/ (st = WWaitExecute /\ st' = WProcessed)).
Proof.
  intros OH F F1 L U ST b. destruct (written_back ce LE _ _ d1 _ U ST L) as (LD & (r & D) & OW & W). fold b in LD, W.
  set (d' := b ++ skipn (length b) d1) in *. destruct F as (A1 & A2 & A3 & A4), F1 as (B1 & B2 & B3 & B4).
  assert (EH : phead w = h).
  { destruct (prefix_nth (enc c_phead h ++ le 4 (Z.of_nat n)) d) as (q & Q); [intros j J; apply A1; rewrite app_length, le_length in J; exact J|].
    rewrite D, <- app_assoc in Q. apply (enc_prefix c_phead _) in Q as [Q _]; [exact Q|exact OW|exact OH]. }
  rewrite EH in W. set (p := (length (enc c_phead h) + 4)%nat) in *.
  assert (C1 : forall j, (j < p)%nat -> nth_error d' j = nth_error (enc c_phead h ++ le 4 (Z.of_nat n)) j).
  { intros j J. destruct (W j) as [->|[->|(G & _)]]; [apply A1; exact J|apply B1; exact J|lia]. }
  assert (C2 : forall j, (j < 4)%nat -> nth_error d' (p + n + j) = nth_error [x11; x00; x00; x00] j).
  { intros j J. destruct (W (p + n + j)%nat) as [->|[->|(_ & X & _)]]; [apply A2; exact J|apply B2; exact J|].
    exfalso. rewrite A2 in X by exact J. do 4 (destruct j as [|j]; [discriminate X|]). lia. }
  assert (C4 : (p + n + 21 <= length d')%nat) by lia.
  destruct (W (p + n + 4)%nat) as [X|[X|(_ & X & Y)]].
  - exists st. split; [split; [exact C1|split; [exact C2|split; [exact (eq_trans X A3)|exact C4]]]|auto].
  - exists st1. split; [split; [exact C1|split; [exact C2|split; [exact (eq_trans X B3)|exact C4]]]|auto].
  - exists WProcessed. split; [split; [exact C1|split; [exact C2|split; [exact Y|exact C4]]]|]. right. right. split; [|reflexivity].
    rewrite A3 in X. injection X as X. destruct st; (reflexivity || discriminate X).
Qed.

(** * One call *)

Lemma app_inv_length {A} (a b c d : list A) : length a = length b -> a ++ c = b ++ d -> a = b /\ c = d.
Proof.
  revert b. induction a as [|x a IH]; intros [|y b] L H; try discriminate L; [split; [reflexivity|exact H]|].
  injection H as -> H. injection L as L. destruct (IH b L H) as [-> ->]. split; reflexivity.
Qed.
Lemma filed_gen s k h ev m g : filed s k h ev m -> fst h = true -> unpack_from_slice c_gprop (dat (accs s k)) = Ok g ->
  phead g = h /\ p_event g = ev /\ p_meta g = enc c_wmeta m /\ okb c_wmeta m = true /\ own (accs s k) = tp_id /\
  unpack c_gprop TP_LEN (@p_init _ _) (dat (accs s k)) = Ok g.
Proof.
  intros F I U. pose proof (filed_small _ _ _ _ _ F) as SM. destruct F as (O & B & OH & OM & r & D). pose proof U as U0.
  apply unpack_from_slice_ok in U as (q & D' & OG); [|typeclasses eauto]. rewrite D' in D. unfold c_gprop, gprop in D, OG.
  rewrite (prop_split c_bytes c_bytes) in D. rewrite (okb_prop c_bytes c_bytes) in OG. rewrite <- !app_assoc in D.
  pose proof OG as OG'. rewrite !andb_true_iff in OG'. destruct OG' as (_ & _ & _ & _ & G5 & G6 & _).
  apply (enc_prefix c_phead _) in D as [EH D]; [|apply (okb_phead c_bytes c_bytes); rewrite (okb_prop c_bytes c_bytes); exact OG|exact OH].
  apply (enc_prefix c_bytes _) in D as [EE D]; [|exact G5|cbn [okb c_bytes]; pose proof (blen_nonneg ev); lia].
  apply (enc_prefix c_bytes _) in D as [EM _]; [|exact G6|cbn [okb c_bytes]; rewrite blen_wmeta; reflexivity].
  do 3 (split; [assumption|]). split; [exact OM|]. split; [exact O|]. apply unpack_init; [|rewrite <- EH in I; exact I].
  with_strategy transparent [unpack_unchecked] unfold unpack_unchecked. rewrite B, Z.eqb_refl. exact U0.
Qed.

Lemma filed_typed {E} (ce : codec E) (LE : Lawful ce) s k h ev m ini (w : prop (withlen E) (withlen wmeta)) : filed s k h ev m ->
  unpack (c_prop (c_withlen ce) (c_withlen c_wmeta)) TP_LEN ini (dat (accs s k)) = Ok w ->
  length (enc ce (wl_data (p_event w))) = length ev ->
  phead w = h /\ enc ce (wl_data (p_event w)) = ev /\ wl_data (p_meta w) = m /\ true_len ce (p_event w) /\ true_len c_wmeta (p_meta w).
Proof.
  intros F U L. pose proof (filed_small _ _ _ _ _ F) as SM. destruct F as (O & B & OH & OM & r & D).
  apply unpack_ok in U as (q & D' & OW & _); [|typeclasses eauto]. rewrite D' in D. rewrite prop_split in D. rewrite <- !app_assoc in D.
  pose proof OW as OW'. rewrite (okb_prop (c_withlen ce)) in OW'. rewrite !andb_true_iff in OW'. destruct OW' as (_ & _ & _ & _ & W5 & W6 & _).
  rewrite okb_withlen in W5. rewrite okb_withlen in W6. rewrite !andb_true_iff in W5, W6. destruct W5 as [[W5a W5b] W5c], W6 as [[W6a W6b] W6c].
  apply (enc_prefix c_phead _) in D as [EH D]; [|eapply okb_phead; exact OW|exact OH].
  unfold c_withlen at 1 2 in D. cbn [c_iso enc c_pair fst snd c_bytes] in D. rewrite <- !app_assoc in D.
  change (le 4 (blen ev)) with (enc c_u32 (blen ev)) in D.
  apply (enc_prefix c_u32 _) in D as [E6 D]; [|apply okb_u32; lia|apply okb_u32; pose proof (blen_nonneg ev); lia].
  assert (EV : enc ce (wl_data (p_event w)) = ev /\ enc c_u32 (wl_len (p_meta w)) ++ enc c_wmeta (wl_data (p_meta w)) ++ enc (c_vec c_vote) (p_signers w) ++ q
      = le 4 (blen (enc c_wmeta m)) ++ enc c_wmeta m ++ r) by (apply app_inv_length; [exact L|exact D]).
  destruct EV as [EV D1]. change (le 4 (blen (enc c_wmeta m))) with (enc c_u32 (blen (enc c_wmeta m))) in D1.
  apply (enc_prefix c_u32 _) in D1 as [E7 D1]; [|apply okb_u32; lia|apply okb_u32; rewrite blen_wmeta; unfold u32max; lia].
  apply (enc_prefix c_wmeta _) in D1 as [E8 _]; [|assumption|assumption].
  split; [exact EH|]. split; [exact EV|]. split; [exact E8|]. unfold true_len. rewrite EV. split; [exact E6|]. rewrite E7, !blen_wmeta. reflexivity.
Qed.

(** A call without payload does to a request what it may do. *)
Lemma plain_call e ext c i s s' k g m : tp_call e ext c i s s' -> is_payload i = false -> no_collision e k ->
  request_at e s k g m -> req_change e c i s s' k g m.
Proof.
  intros C IP NC R. apply tp_call_exec in C as (Hp & Oi & CK & H). pose proof R as (O & U & PM & OM & n & pn & K & P).
  destruct i; try discriminate IP; try (eapply effect_req; try eassumption; [discriminate|eapply tp_exec_effect; eassumption]).
  cbn [tp_exec] in H. apply tp_close_withdrawal_ok in H as (wk & a & rest & g0 & m0 & KS & U0 & _ & A & M0 & ST & D).
  destruct (key_dec k wk) as [->|NE]; [|apply RC_same; apply D; exact NE].
  rewrite (unpack_slice_of _ _ _ _ _ U) in U0. injection U0 as <-. subst a.
  apply RC_closed; [reflexivity|rewrite KS; reflexivity| |exact D]. rewrite PM in M0. rewrite try_from_slice_rt in M0 by (typeclasses eauto || exact OM).
  injection M0 as <-. exact ST.
Qed.

(** Event bytes [b] give the address [k]. *)
Definition event_for (e : env) (k : key) (b : bytes) : Prop :=
  exists r ts lt conf n, find_pda e (sd_proposal r ts lt conf (e_hash e b)) tp_id = Ok (k, n).

Lemma filed_call e ext c i s s' k h ev m b : tp_call e ext c i s s' -> is_payload i = false -> no_collision e k -> event_for e k b ->
  fst h = true -> (exists n pn, fst (snd h) = KProposal n pn) -> filed s k h ev m -> length ev = length b ->
  same_od s s' k \/ exists g, request_at e s k g m /\ phead g = h /\ p_event g = b /\ ev = b /\ req_change e c i s s' k g m.
Proof.
  intros C IP NC (r0 & t0 & l0 & c0 & n0 & EF) I (kn & kp & KH) F L.
  assert (DO : forall g, request_at e s k g m -> phead g = h -> p_event g = b -> ev = b ->
     same_od s s' k \/ exists g, request_at e s k g m /\ phead g = h /\ p_event g = b /\ ev = b /\ req_change e c i s s' k g m).
  { intros g R EH EB EV. right. exists g. repeat (split; [assumption|]). eapply plain_call; eassumption. }
  pose proof C as C0. apply tp_call_exec in C0 as (Hp & Oi & CK & H).
  pose proof (tp_exec_effect _ _ _ _ _ _ k Hp Oi CK IP H) as T. pose proof (filed_kind _ _ _ _ _ F) as KD. rewrite KH in KD.
  pose proof F as (O & _). assert (NU : ~ unused s k) by (intros [Z _]; rewrite O in Z; discriminate).
  assert (GEN : forall g, unpack_from_slice c_gprop (dat (accs s k)) = Ok g -> request_addr e tp_id k g (e_hash e (p_event g)) ->
     same_od s s' k \/ exists g, request_at e s k g m /\ phead g = h /\ p_event g = b /\ ev = b /\ req_change e c i s s' k g m).
  { intros g U (n & pn & K & P). destruct (filed_gen _ _ _ _ _ _ F I U) as (EH & EE & PM & OM & OW & UG).
    assert (EB : p_event g = b) by (eapply NC; [exact P|exact EF]).
    apply (DO g); [|exact EH|exact EB|congruence]. split; [exact OW|]. split; [exact UG|]. split; [exact PM|]. split; [exact OM|]. exists n, pn. auto. }
  assert (TYP : forall E (ce : codec E) (LE : Lawful ce) (w : prop (withlen E) (withlen wmeta)),
     held (c_prop (c_withlen ce) (c_withlen c_wmeta)) (@p_init _ _) s k w -> request_addr e tp_id k w (e_hash e (enc ce (wl_data (p_event w)))) ->
     same_od s s' k \/ exists g, request_at e s k g m /\ phead g = h /\ p_event g = b /\ ev = b /\ req_change e c i s s' k g m).
  { intros E ce LE w [OW U] RA. assert (EB : enc ce (wl_data (p_event w)) = b) by (destruct RA as (n & pn & K & P); eapply NC; [exact P|exact EF]).
    destruct (filed_typed ce LE _ _ _ _ _ _ _ F U) as (EH & EE & EM & T1 & T2); [rewrite EB; symmetry; exact L|].
    apply (DO (gen_prop ce c_wmeta w)); [|exact EH|exact EB|congruence]. rewrite <- EM. apply typed_request; assumption. }
  destruct T as [Q|? ? ? ? ? ? _ _ _ _ Z _|? ? ? ? _ _ Z _|st st' pn0 _ _ V _|nt ts' Z _ _ _|ts ts' vn _ _ V _
    |? ? ? ? ? ? ? ? ? ? ? ? ? ? ? ? ? ? ? _ _ _ _ _ Z|? ? ? ? ? ? ? ? ? ? ? ? ? ? ? ? ? ? ? ? _ _ _ _ _ _ _ Z|seed dn Z _ _ _ _
    |v relay rrk rest Ei KS _ OW V|b0 w a Ei SG AU HW RA ST HW'|w st' HW RA MV WP QU HW'|w st' HW RA MV WP QU HW'|author CW _ D];
    try contradiction.
  - destruct Q as [Q|[Q _]]; [left; exact Q|contradiction].
  - destruct V as (V & x & KV & _). apply kind_tp_settings in V. rewrite KD, KV in V. discriminate.
  - destruct V as (V & tn & KV & _). apply kind_token_settings in V. rewrite KD, KV in V. discriminate.
  - destruct V as (g0 & rr & j & old & S & NV & U0 & RA & _). apply (GEN g0 U0). rewrite Hp in RA. exact RA.
  - eapply (TYP _ c_wsol_event _ w); [exact HW|exact RA].
  - eapply (TYP _ c_wever_event _ w); [exact HW|exact RA].
  - eapply (TYP _ c_wsol_event _ w); [exact HW|exact RA].
  - destruct CW as [(_ & _ & g0 & seed & n1 & U0 & _ & K0 & _)|(Ei & g0 & m0 & U0 & RA & A & M0 & ST)].
    + apply kind_gdep in U0. rewrite KD, K0 in U0. discriminate.
    + apply (GEN g0 U0 RA).
Qed.
