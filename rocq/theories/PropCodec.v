(** Properties C01 - C04: stored records, instruction data, generic and typed views. *)

From Verif Require Export CodecFacts.
Open Scope Z_scope.

(** * C01 Stored accounts read back exactly *)

(** "A record of type A written with codec [c] into an account of [LEN] bytes": what the property
    demands of one record type.  [okb c x] says that every integer field of [x] fits its Rust type
    and every string is UTF-8 (no other restriction, see [C01_ranges]). *)
Definition stores_exactly {A} (c : codec A) (LEN : Z) (init : A -> bool) : Prop :=
  forall x old, okb c x = true -> init x = true ->
  (* fits: written, read back, same size, bytes behind the record untouched *)
  (blen old = LEN -> blen (enc c x) <= LEN ->
     exists new, pack c LEN x old = Ok new /\ unpack c LEN init new = Ok x /\
       length new = length old /\
       forall i, (length (enc c x) <= i)%nat -> nth_error new i = nth_error old i) /\
  (* does not fit: abort *)
  (blen old = LEN -> LEN < blen (enc c x) -> pack c LEN x old = Err Panic) /\
  (* wrong account size: refused in both directions *)
  (blen old <> LEN -> pack c LEN x old = Err InvalidAccountData /\
                      unpack c LEN init old = Err InvalidAccountData).

Lemma nth_error_app_tail {A} (a b c : list A) i :
  length a = length c -> (length a <= i)%nat ->
  nth_error (a ++ b) i = nth_error (c ++ b) i.
Proof. intros H Hi. rewrite !nth_error_app2 by lia. f_equal. lia. Qed.

Lemma stores_exactly_lawful {A} (c : codec A) (L : Lawful c) LEN init : stores_exactly c LEN init.
Proof.
  intros x old Hok Hi. repeat split.
  - intros Hl Hf. unfold pack, pack_into_slice. rewrite Hl, Z.eqb_refl.
    destruct (Z.leb_spec (blen (enc c x)) LEN); [|lia].
    eexists. split; [reflexivity|].
    assert (Hlen : length (enc c x ++ skipn (length (enc c x)) old) = length old).
    { rewrite app_length, skipn_length. unfold blen in *. lia. }
    split; [|split; [exact Hlen|]].
    + apply unpack_enc; auto. unfold blen in *. lia.
    + intros i Hge. rewrite <- (firstn_skipn (length (enc c x)) old) at 2.
      apply nth_error_app_tail; [|assumption]. rewrite firstn_length. unfold blen in *. lia.
  - intros Hl Hf. unfold pack, pack_into_slice. rewrite Hl, Z.eqb_refl.
    destruct (Z.leb_spec (blen (enc c x)) LEN); [lia|reflexivity].
  - unfold pack. destruct (Z.eqb_spec (blen old) LEN); [contradiction|reflexivity].
  - unfold unpack, unpack_unchecked. destruct (Z.eqb_spec (blen old) LEN); [contradiction|reflexivity].
Qed.

Theorem C01_pack_unpack :
  stores_exactly c_rl_settings RL_SETTINGS_LEN rs_init /\
  stores_exactly c_relay_round RELAY_ROUND_LEN rr_init /\
  stores_exactly c_rl_proposal RL_PROPOSAL_LEN p_init /\
  stores_exactly c_tp_settings TP_LEN gs_init /\
  stores_exactly c_multi_vault TP_LEN mv_init /\
  stores_exactly c_token_settings TP_LEN tk_init /\
  stores_exactly c_dever TP_LEN d_init /\
  stores_exactly c_dsol TP_LEN d_init /\
  stores_exactly c_wever TP_LEN p_init /\
  stores_exactly c_wsol TP_LEN p_init.
Proof. repeat match goal with |- _ /\ _ => split end; apply stores_exactly_lawful; typeclasses eauto. Qed.

(** The range condition of C01 spelled out for the record with the most fields. *)
Theorem C01_ranges : forall x : token_settings,
  okb c_token_settings x = true <->
  okb c_kind (tk_akind x) = true /\ okb c_token_kind (tk_kind x) = true /\
  (blen (tk_name x) < 2 ^ 32 /\ utf8 (tk_name x) = true) /\
  (blen (tk_symbol x) < 2 ^ 32 /\ utf8 (tk_symbol x) = true) /\
  0 <= tk_dlimit x < 2 ^ 64 /\ 0 <= tk_wlimit x < 2 ^ 64 /\ 0 <= tk_wdlimit x < 2 ^ 64 /\
  0 <= tk_wdamount x < 2 ^ 64 /\ - 2 ^ 63 <= tk_wepoch x < 2 ^ 63 /\
  0 <= tk_fee_supply x < 2 ^ 64 /\
  (0 <= fi_mul (tk_fee_dep x) < 2 ^ 64 /\ 0 <= fi_div (tk_fee_dep x) < 2 ^ 64) /\
  (0 <= fi_mul (tk_fee_wdr x) < 2 ^ 64 /\ 0 <= fi_div (tk_fee_wdr x) < 2 ^ 64).
Proof.
  intros x. unfold c_token_settings, c_fee_info, c_string, c_bytes.
  cbn [c_iso c_pair okb fst snd c_bool c_u64 c_uint c_i64 c_int].
  change (256 ^ Z.of_nat 8) with (2 ^ 64). change (2 ^ 64 / 2) with (2 ^ 63). unfold u32max.
  rewrite !andb_true_iff, !Z.ltb_lt, !Z.leb_le. tauto.
Qed.

(** Which records fit: sizes of the variable-length ones. *)
Theorem C01_fits :
  (forall x, blen (enc c_rl_settings x) <= RL_SETTINGS_LEN) /\
  (forall x, blen (enc c_tp_settings x) <= TP_LEN) /\
  (forall x, blen (enc c_multi_vault x) <= TP_LEN) /\
  (forall x n, rr_kind x = KRelayRound n ->
     (blen (enc c_relay_round x) <= RELAY_ROUND_LEN <-> blen (rr_relays x) <= 100)) /\
  (forall x, blen (tk_name x) <= 32 -> blen (tk_symbol x) <= 32 ->
     blen (enc c_token_settings x) <= TP_LEN).
Proof.
  unfold RL_SETTINGS_LEN, TP_LEN, RELAY_ROUND_LEN. repeat split.
  - intros x. rewrite size_rl_settings. pose proof (kind_len_range (rs_kind x)). lia.
  - intros x. rewrite size_tp_settings. pose proof (kind_len_range (gs_kind x)). lia.
  - intros x. rewrite size_multi_vault. pose proof (kind_len_range (mv_kind x)). lia.
  - rewrite size_relay_round, H. cbn [kind_len]. lia.
  - rewrite size_relay_round, H. cbn [kind_len]. lia.
  - intros x Hn Hs. rewrite size_token_settings, blen_token_kind.
    pose proof (kind_len_range (tk_akind x)). destruct (tk_kind x); lia.
Qed.

(** A relay round with two relays written over stale bytes. *)
Example C01_example :
  let x := RelayRound true (KRelayRound 254) 7 1000 [knum 1; knum 2] in
  okb c_relay_round x = true /\ rr_init x = true /\
  exists new, pack c_relay_round RELAY_ROUND_LEN x (repeat xff 3215) = Ok new /\
    unpack c_relay_round RELAY_ROUND_LEN rr_init new = Ok x /\
    nth_error new 79 = Some xff /\ nth_error new 78 = Some x00.
Proof. split; [vm_compute; reflexivity|]. split; [reflexivity|]. eexists.
  split; [vm_compute; reflexivity|]. split; [vm_compute; reflexivity|].
  split; vm_compute; reflexivity.
Qed.

(** * C02 Account decoding is canonical *)

Definition canonical {A} (c : codec A) (LEN : Z) : Prop :=
  (forall b x, unpack_unchecked c LEN b = Ok x ->
     (exists tail, b = enc c x ++ tail) /\ pack c LEN x b = Ok b) /\
  (forall b1 b2 x, unpack_unchecked c LEN b1 = Ok x -> unpack_unchecked c LEN b2 = Ok x ->
     firstn (length (enc c x)) b1 = firstn (length (enc c x)) b2).

Lemma canonical_lawful {A} (c : codec A) (L : Lawful c) LEN : canonical c LEN.
Proof.
  split.
  - intros b x H. split; [|apply pack_unpack_id; assumption].
    apply unpack_unchecked_ok in H as [r [-> _]]; [|assumption]. eauto.
  - intros b1 b2 x H1 H2.
    apply unpack_unchecked_ok in H1 as [r1 [-> _]]; [|assumption].
    apply unpack_unchecked_ok in H2 as [r2 [-> _]]; [|assumption].
    rewrite !firstn_app, !Nat.sub_diag. cbn [firstn]. reflexivity.
Qed.

Theorem C02_canonical :
  canonical c_rl_settings RL_SETTINGS_LEN /\
  canonical c_relay_round RELAY_ROUND_LEN /\
  canonical c_rl_proposal RL_PROPOSAL_LEN /\
  canonical c_gprop TP_LEN /\ canonical c_gprop RL_PROPOSAL_LEN /\
  canonical c_tp_settings TP_LEN /\
  canonical c_multi_vault TP_LEN /\
  canonical c_token_settings TP_LEN /\
  canonical c_dever TP_LEN /\ canonical c_dsol TP_LEN /\ canonical c_gdep TP_LEN /\
  canonical c_wever TP_LEN /\ canonical c_wsol TP_LEN.
Proof. repeat match goal with |- _ /\ _ => split end; apply canonical_lawful; typeclasses eauto. Qed.

Example C02_example :
  let b := enc c_multi_vault (MultiVault true (KMultiVault 250)) ++ repeat xab 997 in
  unpack_unchecked c_multi_vault TP_LEN b = Ok (MultiVault true (KMultiVault 250)) /\
  (* a byte 2 in place of the boolean is refused *)
  unpack_unchecked c_multi_vault TP_LEN (x02 :: skipn 1 b) = Err BorshIo.
Proof. vm_compute. repeat split. Qed.

(** * C03 Instructions decode to what the client encoded *)

Definition instruction_codec {I} (c : codec I) : Prop :=
  (forall i, okb c i = true -> try_from_slice c (enc c i) = Some i) /\
  (forall i j, okb c i = true -> okb c j = true -> enc c i = enc c j -> i = j) /\
  (forall b i, try_from_slice c b = Some i -> b = enc c i) /\
  (forall i x t, okb c i = true -> try_from_slice c (enc c i ++ x :: t) = None) /\
  (forall i p t, okb c i = true -> enc c i = p ++ t -> t <> [] -> try_from_slice c p = None).

Lemma instruction_codec_lawful {I} (c : codec I) (L : Lawful c) : instruction_codec c.
Proof.
  repeat split.
  - intros i H. apply try_from_slice_rt; assumption.
  - intros i j Hi Hj He. eapply enc_inj; eauto.
  - intros b i H. apply try_from_slice_can in H; intuition.
  - intros i x t H. unfold try_from_slice. rewrite rt by assumption. reflexivity.
  - intros i p t H He Ht. destruct (try_from_slice c p) as [j|] eqn:E; [|reflexivity].
    apply try_from_slice_can in E as [-> Oj]; [|assumption].
    assert (i = j) as ->.
    { apply (f_equal (fun l => l ++ [])) in He. rewrite <- app_assoc in He.
      apply enc_prefix in He; intuition. }
    apply (f_equal (@length byte)) in He. rewrite app_length in He.
    destruct t; [congruence|cbn [length] in He; lia].
Qed.

Theorem C03_instructions :
  instruction_codec c_rl_ix /\ instruction_codec c_tp_ix /\ instruction_codec c_np_ix.
Proof. repeat match goal with |- _ /\ _ => split end; apply instruction_codec_lawful; typeclasses eauto. Qed.

Lemma dec_enum_none {B} (alts : list (bytes -> option (B * bytes))) t r :
  Z.of_nat (length alts) <= bz t -> dec_enum alts (t :: r) = None.
Proof.
  intros H. cbn [dec_enum]. replace (nth_error alts (Z.to_nat (bz t))) with (@None (bytes -> option (B * bytes))).
  - reflexivity.
  - symmetry. apply nth_error_None. lia.
Qed.

(** Unknown tags: round-loader knows 9, token-proxy 32, native-proxy 1 instructions. *)
Theorem C03_unknown_tags : forall t r,
  (9 <= bz t -> try_from_slice c_rl_ix (t :: r) = None) /\
  (32 <= bz t -> try_from_slice c_tp_ix (t :: r) = None) /\
  (1 <= bz t -> try_from_slice c_np_ix (t :: r) = None).
Proof.
  intros t r. unfold try_from_slice. repeat split; intros H.
  - cbn [c_rl_ix dec]. rewrite dec_enum_none; [reflexivity|cbn [length]; lia].
  - cbn [c_tp_ix dec]. rewrite dec_enum_none; [reflexivity|cbn [length]; lia].
  - cbn [c_np_ix dec]. rewrite dec_enum_none; [reflexivity|cbn [length]; lia].
Qed.

Example C03_example :
  let i := TpDepositEver 5 6 (AddrStd (-1) (knum 9)) 7 (knum 3) [x01; x02] in
  okb c_tp_ix i = true /\ try_from_slice c_tp_ix (enc c_tp_ix i) = Some i /\
  try_from_slice c_tp_ix (enc c_tp_ix i ++ [x00]) = None /\
  try_from_slice c_tp_ix [x7f] = None.
Proof. vm_compute. repeat split. Qed.

(** * C04 Generic and typed views of deposits and withdrawals agree *)

(** What the generic view of a withdrawal must expose. *)
Definition shows_prop {E F} (ce : codec E) (cf : codec F) (w : prop (withlen E) (withlen F)) (g : gprop) : Prop :=
  p_init g = p_init w /\ p_kind g = p_kind w /\ p_author g = p_author w /\ p_round g = p_round w /\
  p_required g = p_required w /\ p_pda g = p_pda w /\ p_signers g = p_signers w /\
  p_event g = enc ce (wl_data (p_event w)) /\ p_meta g = enc cf (wl_data (p_meta w)).
Definition shows_dep {E F} (ce : codec E) (cf : codec F) (w : dep (withlen E) (withlen F)) (g : gdep) : Prop :=
  d_init g = d_init w /\ d_kind g = d_kind w /\ d_author g = d_author w /\
  d_event g = enc ce (wl_data (d_event w)) /\ d_meta g = enc cf (wl_data (d_meta w)).

(** Typed record with vote [i] replaced and every other field kept. *)
Definition with_vote {E F} (w : prop E F) (i : nat) (v : vote) (w' : prop E F) : Prop :=
  p_init w' = p_init w /\ p_kind w' = p_kind w /\ p_author w' = p_author w /\ p_round w' = p_round w /\
  p_required w' = p_required w /\ p_pda w' = p_pda w /\ p_event w' = p_event w /\
  p_meta w' = p_meta w /\ length (p_signers w') = length (p_signers w) /\
  ((i < length (p_signers w))%nat -> nth_error (p_signers w') i = Some v) /\
  (forall j, i <> j -> nth_error (p_signers w') j = nth_error (p_signers w) j).

Lemma pack_true_len {A} (c : codec A) LEN x old new :
  pack c LEN x old = Ok new -> blen (enc c x) <= LEN.
Proof.
  unfold pack, pack_into_slice. destruct (Z.eqb_spec (blen old) LEN) as [->|]; [|discriminate].
  destruct (Z.leb_spec (blen (enc c x)) LEN); [auto|discriminate].
Qed.

Lemma view_and_vote {E F} (ce : codec E) (cf : codec F) (Le : Lawful ce) (Lf : Lawful cf) w old d :
  let c := c_prop (c_withlen ce) (c_withlen cf) in
  true_len ce (p_event w) -> true_len cf (p_meta w) -> okb c w = true ->
  pack c TP_LEN w old = Ok d ->
  exists g, unpack_unchecked c_gprop TP_LEN d = Ok g /\ shows_prop ce cf w g /\
  forall i v d', pack c_gprop TP_LEN (p_with_signers g (set_nth i v (p_signers g))) d = Ok d' ->
  exists w', unpack_unchecked c TP_LEN d' = Ok w' /\ with_vote w i v w'.
Proof.
  intros c He Hm Ho Hp. pose proof Hp as Hp0.
  apply pack_ok in Hp as (Hd & Hlen & Hl).
  assert (Hu : unpack_from_slice c d = Ok w).
  { subst d. apply unpack_from_slice_enc; [typeclasses eauto|assumption]. }
  exists (gen_prop ce cf w). 
  assert (Hlen' : blen d = TP_LEN) by (unfold blen in *; lia).
  split; [|split].
  - unfold unpack_unchecked. rewrite Hlen', Z.eqb_refl. apply gen_view; auto.
  - repeat split.
  - intros i v d' Hv. unfold pack in Hv. rewrite Hlen', Z.eqb_refl in Hv.
    destruct (gen_vote ce cf Le Lf w d i v d' (gen_prop ce cf w) He Hm Ho Hu
      (gen_view ce cf Le Lf w d He Hm Hu) Hv) as (_ & Hu' & Hl').
    exists (p_with_signers w (set_nth i v (p_signers w))). split.
    + unfold unpack_unchecked. replace (blen d') with TP_LEN by (unfold blen in *; lia).
      rewrite Z.eqb_refl. exact Hu'.
    + unfold with_vote, p_with_signers.
      cbn [p_init p_kind p_author p_round p_required p_pda p_event p_meta p_signers].
      repeat split; auto using set_nth_length, set_nth_same, set_nth_other.
Qed.

Lemma view_dep {E F} (ce : codec E) (cf : codec F) (Le : Lawful ce) (Lf : Lawful cf) w old d :
  let c := c_dep (c_withlen ce) (c_withlen cf) in
  true_len ce (d_event w) -> true_len cf (d_meta w) -> okb c w = true ->
  pack c TP_LEN w old = Ok d ->
  exists g, unpack_unchecked c_gdep TP_LEN d = Ok g /\ shows_dep ce cf w g.
Proof.
  intros c He Hm Ho Hp. apply pack_ok in Hp as (Hd & Hlen & Hl).
  assert (Hu : unpack_from_slice c d = Ok w).
  { subst d. apply unpack_from_slice_enc; [typeclasses eauto|assumption]. }
  exists (gen_dep ce cf w). split.
  - unfold unpack_unchecked. replace (blen d) with TP_LEN by (unfold blen in *; lia).
    rewrite Z.eqb_refl. apply gen_view_dep; auto.
  - repeat split.
Qed.

Lemma prop_event_le {E F} (ce : codec E) (cf : codec F) (w : prop (withlen E) (withlen F)) :
  blen (enc ce (wl_data (p_event w))) <= blen (enc (c_prop (c_withlen ce) (c_withlen cf)) w).
Proof.
  rewrite size_prop. destruct (p_event w) as [n x]. destruct (p_meta w) as [m y].
  rewrite !blen_withlen. cbn [wl_data].
  pose proof (kind_len_range (p_kind w)). pose proof (blen_nonneg (enc cf y)).
  pose proof (blen_nonneg (p_signers w)). lia.
Qed.
Lemma dep_event_le {E F} (ce : codec E) (cf : codec F) (w : dep (withlen E) (withlen F)) :
  blen (enc ce (wl_data (d_event w))) <= blen (enc (c_dep (c_withlen ce) (c_withlen cf)) w).
Proof.
  rewrite size_dep. destruct (d_event w) as [n x]. destruct (d_meta w) as [m y].
  rewrite !blen_withlen. cbn [wl_data].
  pose proof (kind_len_range (d_kind w)). pose proof (blen_nonneg (enc cf y)). lia.
Qed.

(** Withdrawals: the event was built by the request instruction ([..._event_new]), the metadata
    carry their length 17, and the record was written to its account. *)
Theorem C04_withdrawal_views :
  (forall w ev old d, p_event w = wever_event_new ev -> wl_len (p_meta w) = 17 ->
     okb c_wever w = true -> pack c_wever TP_LEN w old = Ok d ->
     exists g, unpack_unchecked c_gprop TP_LEN d = Ok g /\ shows_prop c_wever_event c_wmeta w g /\
     forall i v d', pack c_gprop TP_LEN (p_with_signers g (set_nth i v (p_signers g))) d = Ok d' ->
     exists w', unpack_unchecked c_wever TP_LEN d' = Ok w' /\ with_vote w i v w') /\
  (forall w ev old d, p_event w = wsol_event_new ev -> wl_len (p_meta w) = 17 ->
     okb c_wsol w = true -> pack c_wsol TP_LEN w old = Ok d ->
     exists g, unpack_unchecked c_gprop TP_LEN d = Ok g /\ shows_prop c_wsol_event c_wmeta w g /\
     forall i v d', pack c_gprop TP_LEN (p_with_signers g (set_nth i v (p_signers g))) d = Ok d' ->
     exists w', unpack_unchecked c_wsol TP_LEN d' = Ok w' /\ with_vote w i v w').
Proof.
  split.
  - intros w ev old d He Hm Ho Hp.
    refine (view_and_vote c_wever_event c_wmeta _ _ w old d _ _ Ho Hp).
    + unfold true_len. apply pack_true_len in Hp. unfold c_wever in Hp.
      pose proof (prop_event_le c_wever_event c_wmeta w) as Hle. rewrite He in *.
      apply wever_len. unfold wever_event_new in Hle. cbn [wl_data] in Hle.
      unfold TP_LEN, wever in *. change u32max with 4294967296. cbn [wl_data wever_event_new wsol_event_new dever_event_new dsol_event_new]. lia.
    + unfold true_len. rewrite blen_wmeta. exact Hm.
  - intros w ev old d He Hm Ho Hp.
    refine (view_and_vote c_wsol_event c_wmeta _ _ w old d _ _ Ho Hp).
    + unfold true_len. apply pack_true_len in Hp. unfold c_wsol in Hp.
      pose proof (prop_event_le c_wsol_event c_wmeta w) as Hle. rewrite He in *.
      apply wsol_len. unfold wsol_event_new in Hle. cbn [wl_data] in Hle.
      unfold TP_LEN, wsol in *. change u32max with 4294967296. cbn [wl_data wever_event_new wsol_event_new dever_event_new dsol_event_new]. lia.
    + unfold true_len. rewrite blen_wmeta. exact Hm.
Qed.

Theorem C04_deposit_views :
  (forall w ev seed old d, d_event w = dever_event_new ev -> d_meta w = dep_meta_new seed ->
     okb c_dever w = true -> pack c_dever TP_LEN w old = Ok d ->
     exists g, unpack_unchecked c_gdep TP_LEN d = Ok g /\ shows_dep c_dever_event c_u128 w g) /\
  (forall w ev seed old d, d_event w = dsol_event_new ev -> d_meta w = dep_meta_new seed ->
     okb c_dsol w = true -> pack c_dsol TP_LEN w old = Ok d ->
     exists g, unpack_unchecked c_gdep TP_LEN d = Ok g /\ shows_dep c_dsol_event c_u128 w g).
Proof.
  split.
  - intros w ev seed old d He Hm Ho Hp.
    refine (view_dep c_dever_event c_u128 _ _ w old d _ _ Ho Hp).
    + unfold true_len. apply pack_true_len in Hp. unfold c_dever in Hp.
      pose proof (dep_event_le c_dever_event c_u128 w) as Hle. rewrite He in *.
      apply dever_len. unfold dever_event_new in Hle. cbn [wl_data] in Hle.
      unfold TP_LEN, dever in *. change u32max with 4294967296. cbn [wl_data wever_event_new wsol_event_new dever_event_new dsol_event_new]. lia.
    + unfold true_len. rewrite Hm, blen_u128. reflexivity.
  - intros w ev seed old d He Hm Ho Hp.
    refine (view_dep c_dsol_event c_u128 _ _ w old d _ _ Ho Hp).
    + unfold true_len. apply pack_true_len in Hp. unfold c_dsol in Hp.
      pose proof (dep_event_le c_dsol_event c_u128 w) as Hle. rewrite He in *.
      apply dsol_len. unfold dsol_event_new in Hle. cbn [wl_data] in Hle.
      unfold TP_LEN, dsol in *. change u32max with 4294967296. cbn [wl_data wever_event_new wsol_event_new dever_event_new dsol_event_new]. lia.
    + unfold true_len. rewrite Hm, blen_u128. reflexivity.
Qed.

Example C04_example :
  let ev := WSolEvent (knum 1) 100 (knum 2) [x61] in
  let w := Prop_ true (KProposal 255 None) (knum 3) 1 2 (Pda 4 5 (knum 6)) (wsol_event_new ev)
             (wmeta_new 0 0) [VNone; VNone; VNone] in
  okb c_wsol w = true /\
  rbind (pack c_wsol TP_LEN w (repeat x00 1000)) (fun d =>
  rbind (unpack_unchecked c_gprop TP_LEN d) (fun g =>
  rbind (pack c_gprop TP_LEN (p_with_signers g (set_nth 1 VConfirm (p_signers g))) d) (fun d' =>
  rbind (unpack_unchecked c_wsol TP_LEN d') (fun w' => Ok (p_signers w', wl_data (p_event w'))))))
  = Ok ([VNone; VConfirm; VNone], ev).
Proof. vm_compute. split; reflexivity. Qed.

Print Assumptions C01_pack_unpack.
Print Assumptions C01_ranges.
Print Assumptions C01_fits.
Print Assumptions C02_canonical.
Print Assumptions C03_instructions.
Print Assumptions C03_unknown_tags.
Print Assumptions C04_withdrawal_views.
Print Assumptions C04_deposit_views.
