(** Sizes of encoded records and the relation between typed and kind-agnostic views. *)

From Coq Require Import ZifyBool ZifyNat ZifyN.
From Verif Require Export TypesLaws Helper RoundLoader TokenProxy.
Ltac Zify.zify_post_hook ::= Z.div_mod_to_equations.

(** ** Sizes *)

Lemma blen_uint n z : blen (enc (c_uint n) z) = Z.of_nat n.
Proof. cbn [c_uint enc]. apply blen_le. Qed.
Lemma blen_int n z : blen (enc (c_int n) z) = Z.of_nat n.
Proof. cbn [c_int enc]. apply blen_le. Qed.
Lemma blen_u8 z : blen (enc c_u8 z) = 1. Proof. apply blen_uint. Qed.
Lemma blen_u32 z : blen (enc c_u32 z) = 4. Proof. apply blen_uint. Qed.
Lemma blen_u64 z : blen (enc c_u64 z) = 8. Proof. apply blen_uint. Qed.
Lemma blen_u128 z : blen (enc c_u128 z) = 16. Proof. apply blen_uint. Qed.
Lemma blen_i8 z : blen (enc c_i8 z) = 1. Proof. apply blen_int. Qed.
Lemma blen_i64 z : blen (enc c_i64 z) = 8. Proof. apply blen_int. Qed.
Lemma blen_key k : blen (enc c_key k) = 32. Proof. apply blen_kb. Qed.
Lemma blen_bool b : blen (enc c_bool b) = 1. Proof. destruct b; reflexivity. Qed.
Lemma blen_bytes b : blen (enc c_bytes b) = 4 + blen b.
Proof. cbn [c_bytes enc]. rewrite blen_app, blen_le. lia. Qed.
Lemma blen_string b : blen (enc c_string b) = 4 + blen b.
Proof. apply blen_bytes. Qed.
Lemma blen_pair {A B} (ca : codec A) (cb : codec B) a b :
  blen (enc (ca ** cb) (a, b)) = blen (enc ca a) + blen (enc cb b).
Proof. cbn [c_pair enc fst snd]. apply blen_app. Qed.
Lemma blen_flat_map {A} (f : A -> bytes) n l :
  (forall x, blen (f x) = n) -> blen (flat_map f l) = n * blen l.
Proof.
  intros H. induction l as [|x l IH]; cbn [flat_map]; [unfold blen; cbn [length]; ring|].
  rewrite blen_app, blen_cons, H, IH. ring.
Qed.
Lemma blen_vec {A} (c : codec A) n l :
  (forall x, blen (enc c x) = n) -> blen (enc (c_vec c) l) = 4 + n * blen l.
Proof.
  intros H. cbn [c_vec enc]. rewrite blen_app, blen_le, (blen_flat_map _ n) by assumption. lia.
Qed.
Lemma blen_vote v : blen (enc c_vote v) = 1. Proof. destruct v; reflexivity. Qed.
Lemma blen_ever a : blen (enc c_ever a) = 34.
Proof. cbn [c_ever enc]. rewrite blen_cons, blen_pair, blen_i8, blen_key. reflexivity. Qed.
Lemma blen_pda p : blen (enc c_pda p) = 44.
Proof. unfold c_pda. cbn [c_iso enc]. rewrite !blen_pair, blen_u32, blen_u64, blen_key. reflexivity. Qed.
Lemma blen_fee_info p : blen (enc c_fee_info p) = 16.
Proof. unfold c_fee_info. cbn [c_iso enc]. rewrite !blen_pair, !blen_u64. reflexivity. Qed.
Lemma blen_wmeta p : blen (enc c_wmeta p) = 17.
Proof.
  unfold c_wmeta. cbn [c_iso enc]. rewrite !blen_pair, blen_u64, blen_i64.
  destruct (wm_status p); reflexivity.
Qed.
Lemma blen_withlen {A} (c : codec A) n x : blen (enc (c_withlen c) (WithLen n x)) = 4 + blen (enc c x).
Proof. unfold c_withlen. cbn [c_iso enc wl_len wl_data]. rewrite blen_pair, blen_u32. reflexivity. Qed.

Definition kind_len (k : account_kind) : Z :=
  match k with
  | KSettings _ _ | KTokenSettings _ _ => 3
  | KDeposit _ | KRelayRound _ | KMultiVault _ => 2
  | KProposal _ None => 3
  | KProposal _ (Some _) => 4
  end.
Lemma blen_kind k : blen (enc c_kind k) = kind_len k.
Proof.
  destruct k as [a b|a|a [p|]|a|a|a b]; cbn [c_kind enc kind_len];
  rewrite blen_cons, ?blen_pair, ?blen_u8; try reflexivity.
Qed.
Lemma kind_len_range k : 2 <= kind_len k <= 4.
Proof. destruct k as [| |? [|]| | |]; cbn [kind_len]; lia. Qed.

Lemma blen_token_kind k :
  blen (enc c_token_kind k) = match k with TKEver _ _ _ => 68 | TKSol _ _ => 65 end.
Proof.
  destruct k; cbn [c_token_kind enc]; rewrite blen_cons, !blen_pair, ?blen_ever, ?blen_u8, ?blen_key;
  reflexivity.
Qed.

Lemma size_rl_settings x : blen (enc c_rl_settings x) = 45 + kind_len (rs_kind x).
Proof.
  unfold c_rl_settings. cbn [c_iso enc].
  rewrite !blen_pair, blen_bool, blen_kind, !blen_u32, blen_key. lia.
Qed.
Lemma size_relay_round x :
  blen (enc c_relay_round x) = 13 + kind_len (rr_kind x) + 32 * blen (rr_relays x).
Proof.
  unfold c_relay_round. cbn [c_iso enc].
  rewrite !blen_pair, blen_bool, blen_kind, !blen_u32, (blen_vec c_key 32) by apply blen_key. lia.
Qed.
Lemma size_rl_event x : blen (enc c_rl_event x) = 12 + 32 * blen (re_relays x).
Proof.
  unfold c_rl_event. cbn [c_iso enc].
  rewrite !blen_pair, !blen_u32, (blen_vec c_key 32) by apply blen_key. lia.
Qed.
Lemma size_prop {E M} (ce : codec E) (cm : codec M) x :
  blen (enc (c_prop ce cm) x) =
  89 + kind_len (p_kind x) + blen (enc ce (p_event x)) + blen (enc cm (p_meta x))
  + blen (p_signers x).
Proof.
  unfold c_prop. cbn [c_iso enc].
  rewrite !blen_pair, blen_bool, blen_kind, !blen_u32, blen_key, blen_pda,
    (blen_vec c_vote 1) by apply blen_vote. lia.
Qed.
Lemma size_tp_settings x : blen (enc c_tp_settings x) = 98 + kind_len (gs_kind x).
Proof.
  unfold c_tp_settings. cbn [c_iso enc].
  rewrite !blen_pair, !blen_bool, blen_kind, !blen_key. lia.
Qed.
Lemma size_multi_vault x : blen (enc c_multi_vault x) = 1 + kind_len (mv_kind x).
Proof.
  unfold c_multi_vault. cbn [c_iso enc]. rewrite !blen_pair, !blen_bool, blen_kind. lia.
Qed.
Lemma size_token_settings x :
  blen (enc c_token_settings x) =
  90 + kind_len (tk_akind x) + blen (enc c_token_kind (tk_kind x)) + blen (tk_name x)
  + blen (tk_symbol x).
Proof.
  unfold c_token_settings. cbn [c_iso enc].
  rewrite !blen_pair, !blen_bool, blen_kind, !blen_string, !blen_u64, blen_i64, !blen_fee_info. lia.
Qed.
Lemma size_dep {E M} (ce : codec E) (cm : codec M) x :
  blen (enc (c_dep ce cm) x) =
  33 + kind_len (d_kind x) + blen (enc ce (d_event x)) + blen (enc cm (d_meta x)).
Proof.
  unfold c_dep. cbn [c_iso enc]. rewrite !blen_pair, blen_bool, blen_kind, blen_key. lia.
Qed.
Lemma size_wever_event x :
  blen (enc c_wever_event x) =
  95 + blen (wee_name x) + blen (wee_symbol x) + blen (wee_payload x).
Proof.
  unfold c_wever_event. cbn [c_iso enc].
  rewrite !blen_pair, blen_ever, !blen_string, blen_bytes, blen_u8, blen_u128, blen_key. lia.
Qed.
Lemma size_wsol_event x : blen (enc c_wsol_event x) = 84 + blen (wse_payload x).
Proof.
  unfold c_wsol_event. cbn [c_iso enc].
  rewrite !blen_pair, blen_bytes, blen_u128, !blen_key. lia.
Qed.
Lemma size_dever_event x : blen (enc c_dever_event x) = 128 + blen (dee_payload x).
Proof.
  unfold c_dever_event. cbn [c_iso enc].
  rewrite !blen_pair, !blen_ever, blen_bytes, blen_u128, blen_u64, blen_key. lia.
Qed.
Lemma size_dsol_event x :
  blen (enc c_dsol_event x) =
  135 + blen (dse_name x) + blen (dse_symbol x) + blen (dse_payload x).
Proof.
  unfold c_dsol_event. cbn [c_iso enc].
  rewrite !blen_pair, !blen_ever, !blen_string, blen_bytes, blen_u128, blen_u64, blen_u8, !blen_key.
  lia.
Qed.

(** ** Length prefixes written by the [new] functions are the true lengths *)

Lemma wrap32_small z : 0 <= z < u32max -> wrap32 z = z.
Proof. apply Z.mod_small. Qed.

Lemma wever_len x : blen (enc c_wever_event x) < u32max ->
  wl_len (wever_event_new x) = blen (enc c_wever_event x).
Proof.
  intros H. unfold wever_event_new. cbn [wl_len].
  rewrite size_wever_event in *.
  pose proof (blen_nonneg (wee_name x)); pose proof (blen_nonneg (wee_symbol x));
  pose proof (blen_nonneg (wee_payload x)).
  rewrite wrap32_small by lia. lia.
Qed.
Lemma wsol_len x : blen (enc c_wsol_event x) < u32max ->
  wl_len (wsol_event_new x) = blen (enc c_wsol_event x).
Proof.
  intros H. unfold wsol_event_new. cbn [wl_len].
  rewrite size_wsol_event in *. pose proof (blen_nonneg (wse_payload x)).
  rewrite wrap32_small by lia. lia.
Qed.
Lemma dever_len x : blen (enc c_dever_event x) < u32max ->
  wl_len (dever_event_new x) = blen (enc c_dever_event x).
Proof.
  intros H. unfold dever_event_new. cbn [wl_len].
  rewrite size_dever_event in *. pose proof (blen_nonneg (dee_payload x)).
  rewrite wrap32_small by lia. lia.
Qed.
Lemma dsol_len x : blen (enc c_dsol_event x) < u32max ->
  wl_len (dsol_event_new x) = blen (enc c_dsol_event x).
Proof.
  intros H. unfold dsol_event_new. cbn [wl_len].
  rewrite size_dsol_event in *. 
  pose proof (blen_nonneg (dse_name x)); pose proof (blen_nonneg (dse_symbol x));
  pose proof (blen_nonneg (dse_payload x)).
  rewrite wrap32_small by lia. lia.
Qed.

(** A length-prefixed value with the true length is the byte vector of its encoding. *)
Lemma enc_withlen_bytes {A} (c : codec A) w :
  wl_len w = blen (enc c (wl_data w)) ->
  enc (c_withlen c) w = enc c_bytes (enc c (wl_data w)).
Proof.
  intros H. unfold c_withlen. cbn [c_iso enc c_pair fst snd c_u32 c_uint c_bytes].
  rewrite H. reflexivity.
Qed.

(** ** The kind-agnostic view *)

Definition gen_prop {E M_} (ce : codec E) (cm : codec M_) (p : prop (withlen E) (withlen M_)) : gprop :=
  Prop_ (p_init p) (p_kind p) (p_author p) (p_round p) (p_required p) (p_pda p)
    (enc ce (wl_data (p_event p))) (enc cm (wl_data (p_meta p))) (p_signers p).
Definition gen_dep {E M_} (ce : codec E) (cm : codec M_) (p : dep (withlen E) (withlen M_)) : gdep :=
  Dep (d_init p) (d_kind p) (d_author p) (enc ce (wl_data (d_event p))) (enc cm (wl_data (d_meta p))).

Definition true_len {A} (c : codec A) (w : withlen A) : Prop := wl_len w = blen (enc c (wl_data w)).

Lemma gen_prop_enc {E M_} (ce : codec E) (cm : codec M_) p :
  true_len ce (p_event p) -> true_len cm (p_meta p) ->
  enc c_gprop (gen_prop ce cm p) = enc (c_prop (c_withlen ce) (c_withlen cm)) p.
Proof.
  intros He Hm. unfold c_gprop, c_prop, gen_prop.
  cbn [c_iso enc c_pair fst snd p_init p_kind p_author p_round p_required p_pda p_event p_meta p_signers].
  rewrite (enc_withlen_bytes ce) by assumption. rewrite (enc_withlen_bytes cm) by assumption.
  reflexivity.
Qed.
Lemma gen_dep_enc {E M_} (ce : codec E) (cm : codec M_) p :
  true_len ce (d_event p) -> true_len cm (d_meta p) ->
  enc c_gdep (gen_dep ce cm p) = enc (c_dep (c_withlen ce) (c_withlen cm)) p.
Proof.
  intros He Hm. unfold c_gdep, c_dep, gen_dep.
  cbn [c_iso enc c_pair fst snd d_init d_kind d_author d_event d_meta].
  rewrite (enc_withlen_bytes ce) by assumption. rewrite (enc_withlen_bytes cm) by assumption.
  reflexivity.
Qed.

Lemma okb_withlen {A} (c : codec A) w :
  okb (c_withlen c) w = (0 <=? wl_len w) && (wl_len w <? u32max) && okb c (wl_data w).
Proof. reflexivity. Qed.

Lemma okb_prop {E M_} (ce : codec E) (cm : codec M_) (p : prop E M_) :
  okb (c_prop ce cm) p =
  (okb c_kind (p_kind p) && (okb c_u32 (p_round p) && (okb c_u32 (p_required p) && (okb c_pda (p_pda p)
  && (okb ce (p_event p) && (okb cm (p_meta p) && okb (c_vec c_vote) (p_signers p))))))).
Proof. reflexivity. Qed.
Lemma okb_dep {E M_} (ce : codec E) (cm : codec M_) (p : dep E M_) :
  okb (c_dep ce cm) p = (okb c_kind (d_kind p) && (okb ce (d_event p) && okb cm (d_meta p))).
Proof. reflexivity. Qed.

Lemma gen_prop_ok {E M_} (ce : codec E) (cm : codec M_) p :
  true_len ce (p_event p) -> true_len cm (p_meta p) ->
  okb (c_prop (c_withlen ce) (c_withlen cm)) p = true -> okb c_gprop (gen_prop ce cm p) = true.
Proof.
  intros He Hm. unfold c_gprop, gprop. rewrite (okb_prop (c_withlen ce)), (okb_prop c_bytes), !okb_withlen, He, Hm. unfold gen_prop.
  cbn [p_init p_kind p_author p_round p_required p_pda p_event p_meta p_signers c_bytes okb].
  rewrite !andb_true_iff. intuition.
Qed.
Lemma gen_dep_ok {E M_} (ce : codec E) (cm : codec M_) p :
  true_len ce (d_event p) -> true_len cm (d_meta p) ->
  okb (c_dep (c_withlen ce) (c_withlen cm)) p = true -> okb c_gdep (gen_dep ce cm p) = true.
Proof.
  intros He Hm. unfold c_gdep, gdep. rewrite (okb_dep (c_withlen ce)), (okb_dep c_bytes), !okb_withlen, He, Hm. unfold gen_dep.
  cbn [d_init d_kind d_author d_event d_meta c_bytes okb].
  rewrite !andb_true_iff. intuition.
Qed.

(** Setting one vote keeps encodability. *)
Lemma set_nth_length {A} i (x : A) l : length (set_nth i x l) = length l.
Proof. revert i; induction l as [|y l IH]; intros [|i]; cbn [set_nth length]; auto. Qed.
Lemma set_nth_same {A} i (x : A) l : (i < length l)%nat -> nth_error (set_nth i x l) i = Some x.
Proof.
  revert i; induction l as [|y l IH]; intros [|i]; cbn [set_nth length nth_error]; intros H;
  try lia; auto. apply IH. lia.
Qed.
Lemma set_nth_other {A} i j (x : A) l : i <> j -> nth_error (set_nth i x l) j = nth_error l j.
Proof.
  revert i j; induction l as [|y l IH]; intros [|i] [|j]; cbn [set_nth nth_error]; intros H;
  try lia; auto.
Qed.
Lemma okb_votes l : okb (c_vec c_vote) l = (blen l <? u32max).
Proof.
  cbn [c_vec okb]. replace (forallb (okb c_vote) l) with true; [apply andb_true_r|].
  symmetry. induction l; cbn [forallb]; auto.
Qed.
Lemma okb_set_nth i v l : okb (c_vec c_vote) (set_nth i v l) = okb (c_vec c_vote) l.
Proof. rewrite !okb_votes. unfold blen. rewrite set_nth_length. reflexivity. Qed.

Lemma okb_with_signers {E M_} (ce : codec E) (cm : codec M_) (p : prop E M_) i v :
  okb (c_prop ce cm) p = true -> okb (c_prop ce cm) (p_with_signers p (set_nth i v (p_signers p))) = true.
Proof.
  rewrite !okb_prop. unfold p_with_signers.
  cbn [p_init p_kind p_author p_round p_required p_pda p_event p_meta p_signers].
  rewrite okb_set_nth. auto.
Qed.

(** Recording a vote through the kind-agnostic view *)
Lemma gen_vote {E M_} (ce : codec E) (cm : codec M_) (Le : Lawful ce) (Lm : Lawful cm) p d i v d' g :
  true_len ce (p_event p) -> true_len cm (p_meta p) ->
  okb (c_prop (c_withlen ce) (c_withlen cm)) p = true ->
  unpack_from_slice (c_prop (c_withlen ce) (c_withlen cm)) d = Ok p ->
  unpack_from_slice c_gprop d = Ok g ->
  pack_into_slice c_gprop (p_with_signers g (set_nth i v (p_signers g))) d = Ok d' ->
  g = gen_prop ce cm p /\
  unpack_from_slice (c_prop (c_withlen ce) (c_withlen cm)) d'
    = Ok (p_with_signers p (set_nth i v (p_signers p))) /\
  length d' = length d.
Proof.
  intros He Hm Ho Hu Hg Hp.
  apply unpack_from_slice_ok in Hu as [r [-> _]]; [|typeclasses eauto].
  rewrite <- gen_prop_enc in Hg by assumption.
  rewrite unpack_from_slice_enc in Hg; [|typeclasses eauto|apply gen_prop_ok; assumption].
  injection Hg as <-. split; [reflexivity|].
  apply pack_into_slice_ok in Hp as [-> Hl]. split; [|exact Hl].
  replace (p_with_signers (gen_prop ce cm p) (set_nth i v (p_signers (gen_prop ce cm p))))
    with (gen_prop ce cm (p_with_signers p (set_nth i v (p_signers p)))) by reflexivity.
  rewrite gen_prop_enc by assumption. apply unpack_from_slice_enc; [typeclasses eauto|].
  apply okb_with_signers. exact Ho.
Qed.

Lemma gen_view {E M_} (ce : codec E) (cm : codec M_) (Le : Lawful ce) (Lm : Lawful cm) p d :
  true_len ce (p_event p) -> true_len cm (p_meta p) ->
  unpack_from_slice (c_prop (c_withlen ce) (c_withlen cm)) d = Ok p ->
  unpack_from_slice c_gprop d = Ok (gen_prop ce cm p).
Proof.
  intros He Hm Hu. apply unpack_from_slice_ok in Hu as [r [-> O]]; [|typeclasses eauto].
  rewrite <- gen_prop_enc by assumption.
  apply unpack_from_slice_enc; [typeclasses eauto|apply gen_prop_ok; assumption].
Qed.
Lemma gen_view_dep {E M_} (ce : codec E) (cm : codec M_) (Le : Lawful ce) (Lm : Lawful cm) p d :
  true_len ce (d_event p) -> true_len cm (d_meta p) ->
  unpack_from_slice (c_dep (c_withlen ce) (c_withlen cm)) d = Ok p ->
  unpack_from_slice c_gdep d = Ok (gen_dep ce cm p).
Proof.
  intros He Hm Hu. apply unpack_from_slice_ok in Hu as [r [-> O]]; [|typeclasses eauto].
  rewrite <- gen_dep_enc by assumption.
  apply unpack_from_slice_enc; [typeclasses eauto|apply gen_dep_ok; assumption].
Qed.
