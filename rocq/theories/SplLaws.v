(** Laws of the token layouts and what the token program's instructions do when they succeed. *)

From Coq Require Import ZifyBool ZifyNat ZifyN.
From Verif Require Export HelperLaws Spl.
Ltac Zify.zify_post_hook ::= Z.div_mod_to_equations.

(** ** Layouts *)

#[export] Instance lawful_tag4 : Lawful c_tag4.
Proof.
  split.
  - intros [] r _; reflexivity.
  - intros b x r H. cbn [dec c_tag4] in H.
    destruct b as [|b0 b]; [discriminate|]. destruct b0; try discriminate H;
    (destruct b as [|b1 b]; [discriminate|]); destruct b1; try discriminate H;
    (destruct b as [|b2 b]; [discriminate|]); destruct b2; try discriminate H;
    (destruct b as [|b3 b]; [discriminate|]); destruct b3; try discriminate H;
    injection H as <- <-; split; reflexivity.
Qed.
#[export] Instance lawful_coption {A} (c : codec A) : Lawful c -> Lawful (c_coption c).
Proof. intros L. unfold c_coption. typeclasses eauto. Qed.
#[export] Instance lawful_tstate : Lawful c_tstate.
Proof. tac_enum. Qed.
#[export] Instance lawful_tacc : Lawful c_tacc.
Proof. tac_iso. Qed.
#[export] Instance lawful_tmint : Lawful c_tmint.
Proof. tac_iso. Qed.

Lemma blen_tag4 x : blen (enc c_tag4 x) = 4. Proof. destruct x; reflexivity. Qed.
Lemma blen_tstate x : blen (enc c_tstate x) = 1. Proof. destruct x; reflexivity. Qed.
Lemma size_tacc t : blen (enc c_tacc t) = 165.
Proof.
  unfold c_tacc, c_coption. cbn [enc c_iso c_pair fst snd].
  rewrite !blen_app, !blen_tag4, !blen_tstate, !blen_key, !blen_u64. reflexivity.
Qed.
Lemma size_tmint t : blen (enc c_tmint t) = 82.
Proof.
  unfold c_tmint, c_coption. cbn [enc c_iso c_pair fst snd].
  rewrite !blen_app, !blen_tag4, !blen_bool, !blen_key, blen_u64, blen_u8. reflexivity.
Qed.
Lemma okb_u64 z : okb c_u64 z = true <-> 0 <= z < u64max.
Proof. unfold c_u64, c_uint, u64max. cbn [okb]. change (256 ^ Z.of_nat 8) with (2 ^ 64). lia. Qed.
Lemma okb_tacc t : okb c_tacc t = true <->
  0 <= ta_amount t < u64max /\ 0 <= snd (ta_native t) < u64max /\ 0 <= ta_damount t < u64max.
Proof.
  unfold c_tacc, c_coption. cbn [okb c_iso c_pair fst snd c_key c_tag4 c_tstate].
  cbn [andb]. rewrite !andb_true_iff, !okb_u64. tauto.
Qed.
Lemma okb_u8 z : okb c_u8 z = true <-> 0 <= z < 256.
Proof. unfold c_u8, c_uint. cbn [okb]. change (256 ^ Z.of_nat 1) with 256. lia. Qed.
Lemma okb_tmint t : okb c_tmint t = true <->
  0 <= tm_supply t < u64max /\ 0 <= tm_decimals t < 256.
Proof.
  unfold c_tmint, c_coption. cbn [okb c_iso c_pair fst snd c_key c_tag4 c_bool].
  cbn [andb]. rewrite !andb_true_iff, !okb_u64, !okb_u8. tauto.
Qed.

Lemma spl_unpack_ok {A} (c : codec A) LEN i d x : spl_unpack c LEN i d = Ok x <-> unpack c LEN i d = Ok x.
Proof. unfold spl_unpack. destruct (unpack c LEN i d) as [|[]]; split; intros H; congruence. Qed.
Lemma spl_unpack_unchecked_ok {A} (c : codec A) LEN d x :
  spl_unpack_unchecked c LEN d = Ok x <-> unpack_unchecked c LEN d = Ok x.
Proof. unfold spl_unpack_unchecked. destruct (unpack_unchecked c LEN d); split; intros H; congruence. Qed.

(** ** Token accounts and mints in a state *)

(** The bytes of [k] are an initialized token account / mint (whoever owns them). *)
Definition tacc_in (s : state) (k : key) (t : tacc) : Prop :=
  unpack c_tacc TACC_LEN ta_init (dat (accs s k)) = Ok t.
Definition tmint_in (s : state) (k : key) (m : tmint) : Prop :=
  unpack c_tmint TMINT_LEN tm_init (dat (accs s k)) = Ok m.
(** [k] is a token account / mint of the token program. *)
Definition tok_in (s : state) (k : key) (t : tacc) : Prop :=
  own (accs s k) = spl_id /\ tacc_in s k t.
Definition mint_in (s : state) (k : key) (m : tmint) : Prop :=
  own (accs s k) = spl_id /\ tmint_in s k m.

Lemma tacc_in_fun s k t t' : tacc_in s k t -> tacc_in s k t' -> t = t'.
Proof. unfold tacc_in. congruence. Qed.
Lemma tmint_in_fun s k t t' : tmint_in s k t -> tmint_in s k t' -> t = t'.
Proof. unfold tmint_in. congruence. Qed.
Lemma tacc_in_ok s k t : tacc_in s k t ->
  okb c_tacc t = true /\ blen (dat (accs s k)) = 165 /\ dat (accs s k) = enc c_tacc t /\ ta_init t = true.
Proof.
  intros H. apply unpack_unchecked_init in H as [H I].
  apply unpack_unchecked_ok in H as (r & E & O & B); [|typeclasses eauto].
  rewrite E in *. rewrite blen_app, size_tacc in B. unfold TACC_LEN in B.
  assert (r = []) as -> by (destruct r; [reflexivity|rewrite blen_cons in B; pose proof (blen_nonneg r); lia]).
  rewrite app_nil_r in *. rewrite size_tacc. auto.
Qed.
Lemma tmint_in_ok s k t : tmint_in s k t ->
  okb c_tmint t = true /\ blen (dat (accs s k)) = 82 /\ dat (accs s k) = enc c_tmint t /\ tm_init t = true.
Proof.
  intros H. apply unpack_unchecked_init in H as [H I].
  apply unpack_unchecked_ok in H as (r & E & O & B); [|typeclasses eauto].
  rewrite E in *. rewrite blen_app, size_tmint in B. unfold TMINT_LEN in B.
  assert (r = []) as -> by (destruct r; [reflexivity|rewrite blen_cons in B; pose proof (blen_nonneg r); lia]).
  rewrite app_nil_r in *. rewrite size_tmint. auto.
Qed.
Lemma tacc_tmint s k t m : tacc_in s k t -> tmint_in s k m -> False.
Proof. intros H1 H2. apply tacc_in_ok in H1 as (_ & H1 & _). apply tmint_in_ok in H2 as (_ & H2 & _). lia. Qed.
Lemma tacc_enc_in s k t : dat (accs s k) = enc c_tacc t -> okb c_tacc t = true -> ta_init t = true -> tacc_in s k t.
Proof.
  intros E O I. unfold tacc_in. apply unpack_init; [|exact I]. rewrite E, <- (app_nil_r (enc c_tacc t)).
  apply unpack_unchecked_enc; [typeclasses eauto|exact O|]. rewrite app_nil_r. apply size_tacc.
Qed.
Lemma tmint_enc_in s k t : dat (accs s k) = enc c_tmint t -> okb c_tmint t = true -> tm_init t = true -> tmint_in s k t.
Proof.
  intros E O I. unfold tmint_in. apply unpack_init; [|exact I]. rewrite E, <- (app_nil_r (enc c_tmint t)).
  apply unpack_unchecked_enc; [typeclasses eauto|exact O|]. rewrite app_nil_r. apply size_tmint.
Qed.
Lemma same_od_tacc s s' k t : same_od s s' k -> tacc_in s k t -> tacc_in s' k t.
Proof. unfold tacc_in. intros [_ ->]. auto. Qed.
Lemma same_od_tmint s s' k t : same_od s s' k -> tmint_in s k t -> tmint_in s' k t.
Proof. unfold tmint_in. intros [_ ->]. auto. Qed.
Lemma same_od_tok s s' k t : same_od s s' k -> tok_in s k t -> tok_in s' k t.
Proof. intros H [H1 H2]. split; [destruct H; congruence|eapply same_od_tacc; eauto]. Qed.
Lemma same_od_mint s s' k t : same_od s s' k -> mint_in s k t -> mint_in s' k t.
Proof. intros H [H1 H2]. split; [destruct H; congruence|eapply same_od_tmint; eauto]. Qed.
Lemma same_od_sym s s' k : same_od s s' k -> same_od s' s k.
Proof. intros [? ?]. split; congruence. Qed.

Lemma tacc_at_ok k s t s' : tacc_at k s = Ok (t, s') -> tacc_in s k t /\ s' = s.
Proof. unfold tacc_at. intros H. minv H. split; [apply spl_unpack_ok; assumption|reflexivity]. Qed.
Lemma tmint_at_ok k s t s' : tmint_at k s = Ok (t, s') -> tmint_in s k t /\ s' = s.
Proof. unfold tmint_at. intros H. minv H. split; [apply spl_unpack_ok; assumption|reflexivity]. Qed.
Lemma check_owner_ok k s a s' : check_owner k s = Ok (a, s') -> own (accs s k) = spl_id /\ s' = s.
Proof. unfold check_owner. intros H. minv H. split; [apply keqb_eq; assumption|reflexivity]. Qed.
Lemma validate_owner_ok c x auth s a s' : validate_owner c x auth s = Ok (a, s') ->
  x = auth /\ c_sg c auth = true /\ s' = s.
Proof. unfold validate_owner. intros H. minv H. mfacts. auto. Qed.

(** ** Spending rights *)

(** [auth] may spend [amount] from [t], as its delegate or as its owner; the delegate fields become
    [dl], [da]. *)
Definition may_spend (t : tacc) (auth : key) (amount : Z) (dl : bool * key) (da : Z) : Prop :=
  (ta_delegate t = (true, auth) /\ amount <= ta_damount t /\ da = ta_damount t - amount /\
     dl = (if ta_damount t - amount =? 0 then (false, auth) else (true, auth)) \/
   ta_delegate t <> (true, auth) /\ ta_owner t = auth /\ dl = ta_delegate t /\ da = ta_damount t).
Lemma spend_ok c t auth amount s r s' : spend c t auth amount s = Ok (r, s') ->
  s' = s /\ c_sg c auth = true /\ may_spend t auth amount (fst r) (snd r).
Proof.
  unfold spend. intros H. destruct (fst (ta_delegate t) && keqb auth (snd (ta_delegate t))) eqn:E.
  - apply andb_true_iff in E as [E1 E2]. apply keqb_eq in E2. minv H.
    apply validate_owner_ok in H0 as (_ & Hs & ->). cbn [fst snd]. split; [reflexivity|]. split; [exact Hs|].
    left. destruct (ta_delegate t) as [f d]. cbn [fst snd] in *. subst. repeat split; try lia.
  - minv H. apply validate_owner_ok in H0 as (Ho & Hs & ->). split; [reflexivity|]. split; [exact Hs|].
    right. cbn [fst snd]. repeat split; auto. intros X. rewrite X in E. cbn [fst snd] in E.
    rewrite keqb_refl in E. discriminate.
Qed.

(** ** Transfer *)

Ltac tacbn := cbn [ta_with ta_mint ta_owner ta_amount ta_delegate ta_state ta_native ta_damount ta_close].
Ltac tacbn_in H :=
  cbn [ta_with ta_mint ta_owner ta_amount ta_delegate ta_state ta_native ta_damount ta_close] in H.

Lemma pack_tacc c k x s a s' : pack_at c c_tacc TACC_LEN k x s = Ok (a, s') ->
  s' = put_dat s k (enc c_tacc x) /\
  (dat (accs s k) = enc c_tacc x \/ own (accs s k) = c_pid c /\ c_wr c k = true).
Proof.
  intros H. apply pack_at_eff in H as (-> & B & _ & _ & W).
  assert (E : skipn (length (enc c_tacc x)) (dat (accs s k)) = []).
  { apply skipn_all2. pose proof (size_tacc x). unfold blen, TACC_LEN in *. lia. }
  rewrite E, app_nil_r in *. auto.
Qed.
Lemma pack_tmint c k x s a s' : pack_at c c_tmint TMINT_LEN k x s = Ok (a, s') ->
  s' = put_dat s k (enc c_tmint x) /\ blen (dat (accs s k)) = 82 /\
  (dat (accs s k) = enc c_tmint x \/ own (accs s k) = c_pid c /\ c_wr c k = true).
Proof.
  intros H. apply pack_at_eff in H as (-> & B & _ & _ & W).
  assert (E : skipn (length (enc c_tmint x)) (dat (accs s k)) = []).
  { apply skipn_all2. pose proof (size_tmint x). unfold blen, TMINT_LEN in *. lia. }
  rewrite E, app_nil_r in *. auto.
Qed.
Lemma enc_tacc_amount x y : enc c_tacc x = enc c_tacc y -> okb c_tacc x = true -> okb c_tacc y = true ->
  ta_amount x = ta_amount y.
Proof. intros E O1 O2. apply (enc_inj c_tacc) in E; [congruence|typeclasses eauto|exact O1|exact O2]. Qed.

(** Only the amount and the delegate fields of a token account change. *)
Definition ta_moved (t t' : tacc) : Prop :=
  ta_mint t' = ta_mint t /\ ta_owner t' = ta_owner t /\ ta_state t' = ta_state t /\
  ta_native t' = ta_native t /\ ta_close t' = ta_close t.
Lemma ta_with_moved t a d n : ta_moved t (ta_with t a d n).
Proof. repeat split. Qed.

Lemma may_spend_range t auth amount dl da : okb c_tacc t = true -> 0 <= amount ->
  may_spend t auth amount dl da -> 0 <= da < u64max.
Proof. intros O A [(_ & B & -> & _)|(_ & _ & _ & ->)]; apply okb_tacc in O; lia. Qed.

Lemma tok_transfer_ok c src dst auth amount s x s' :
  c_pid c = spl_id -> 0 <= amount ->
  tok_transfer c src dst auth amount s = Ok (x, s') ->
  exists a b dl da,
    tok_in s src a /\ tok_in s dst b /\ ta_mint a = ta_mint b /\ amount <= ta_amount a /\
    ta_state a = TInit /\ ta_state b = TInit /\
    c_sg c auth = true /\ may_spend a auth amount dl da /\
    (src = dst -> s' = s) /\
    (src <> dst ->
       tok_in s' src (ta_with a (ta_amount a - amount) dl da) /\
       tok_in s' dst (ta_with b (ta_amount b + amount) (ta_delegate b) (ta_damount b)) /\
       ta_amount b + amount < u64max /\ (0 < amount -> c_wr c src = true /\ c_wr c dst = true)) /\
    (forall k, k <> src -> k <> dst -> same_od s s' k) /\ same_env s s' /\
    dlam s s' (fun k => if fst (ta_native a) then at_key dst amount k - at_key src amount k else 0).
Proof.
  intros Hp Ha H. unfold tok_transfer in H.
  mstep H. apply tacc_at_ok in H0 as [Ta ->]. mstep H. apply tacc_at_ok in H0 as [Tb ->].
  rename v into a, v0 into b. do 3 mstep H. rename H0 into Hfr, H1 into Hle, H2 into Hm. mfacts.
  apply orb_false_iff in Hfr as [F1 F2].
  mstep H. apply spend_ok in H0 as (-> & Ss & Sp). destruct v2 as [dl da]. cbn [fst snd] in Sp. cbv beta iota in H.
  pose proof (tacc_in_ok _ _ _ Ta) as (Oa & Ba & Da & Ia). pose proof (tacc_in_ok _ _ _ Tb) as (Ob & Bb & Db & Ib).
  assert (Sa : ta_state a = TInit) by (unfold ta_init, ta_frozen in *; destruct (ta_state a); congruence).
  assert (Sb : ta_state b = TInit) by (unfold ta_init, ta_frozen in *; destruct (ta_state b); congruence).
  apply bind_ok in H as (u & s1 & Hown & H).
  assert (Hs1 : s1 = s /\ (src = dst \/ amount = 0 -> own (accs s src) = spl_id /\ own (accs s dst) = spl_id)).
  { destruct (keqb src dst || (amount =? 0)) eqn:E.
    - apply bind_ok in Hown as (? & ? & H1 & H2). apply check_owner_ok in H1 as [H1 ->].
      apply check_owner_ok in H2 as [H2 ->]. auto.
    - minv Hown. split; [reflexivity|]. apply orb_false_iff in E as [E1 E2]. apply keqb_neq in E1.
      intros [?|?]; [contradiction|lia]. }
  destruct Hs1 as [-> Hown']. clear Hown.
  destruct (keqb src dst) eqn:Esd.
  { apply keqb_eq in Esd. minv H. destruct (Hown' (or_introl eq_refl)) as [O1 O2].
    exists a, b, dl, da. split; [split; assumption|]. split; [split; assumption|]. split; [assumption|].
    split; [lia|]. split; [assumption|]. split; [assumption|]. split; [assumption|]. split; [assumption|]. split; [reflexivity|].
    split; [contradiction|]. split; [intros; apply same_od_refl|]. split; [apply same_env_refl|].
    intros k. destruct (fst (ta_native a)); lia. }
  apply keqb_neq in Esd. mstep H. rename H0 into Hof.
  apply bind_ok in H as (u2 & s2 & Hnat & H).
  assert (Hs2 : sod s s2 /\ same_env s s2 /\
    dlam s s2 (fun k => if fst (ta_native a) then at_key dst amount k - at_key src amount k else 0)).
  { destruct (fst (ta_native a)).
    - minv Hnat. apply set_lam_ok in Hnat as [-> _]. apply set_lam_ok in H1 as [-> _].
      split; [eapply sod_trans; apply sod_put_lam|]. split; [split; reflexivity|].
      intros k. destruct (key_dec k dst) as [->|N].
      + rewrite lam_put_lam, at_same. rewrite lam_put_lam_other, at_other by congruence. lia.
      + rewrite lam_put_lam_other, (at_other dst) by assumption. destruct (key_dec k src) as [->|N2].
        * rewrite lam_put_lam, at_same. lia.
        * rewrite lam_put_lam_other, at_other by assumption. lia.
    - minv Hnat. split; [apply sod_refl|]. split; [apply same_env_refl|]. intros k. lia. }
  destruct Hs2 as (Q & E2 & D2). clear Hnat.
  apply bind_ok in H as (u3 & s3 & P1 & P2).
  apply pack_tacc in P1 as [-> W1]. apply pack_tacc in P2 as [-> W2].
  rewrite own_put_dat, dat_put_dat_other in W2 by congruence.
  destruct (Q src) as [Q1 Q2]. destruct (Q dst) as [Q3 Q4].
  pose proof (may_spend_range _ _ _ _ _ Oa Ha Sp) as Rd.
  assert (O1 : okb c_tacc (ta_with a (ta_amount a - amount) dl da) = true).
  { apply okb_tacc in Oa. apply okb_tacc. tacbn; lia. }
  assert (O2 : okb c_tacc (ta_with b (ta_amount b + amount) (ta_delegate b) (ta_damount b)) = true).
  { apply okb_tacc in Ob. apply okb_tacc. tacbn; lia. }
  assert (Own : own (accs s src) = spl_id /\ own (accs s dst) = spl_id /\ (0 < amount -> c_wr c src = true /\ c_wr c dst = true)).
  { destruct (Z.eq_dec amount 0) as [Z0|Z0]; [destruct (Hown' (or_intror Z0)); split; [|split]; auto; lia|].
    split; [|split].
    - destruct W1 as [W1|[W1 _]]; [|congruence]. rewrite Q2, Da in W1. apply enc_tacc_amount in W1; [|assumption|assumption].
      tacbn_in W1; lia.
    - destruct W2 as [W2|[W2 _]]; [|congruence]. rewrite Q4, Db in W2. apply enc_tacc_amount in W2; [|assumption|assumption].
      tacbn_in W2; lia.
    - intros _. split.
      + destruct W1 as [W1|[_ W1]]; [|assumption]. rewrite Q2, Da in W1. apply enc_tacc_amount in W1; [|assumption|assumption].
        tacbn_in W1; lia.
      + destruct W2 as [W2|[_ W2]]; [|assumption]. rewrite Q4, Db in W2. apply enc_tacc_amount in W2; [|assumption|assumption].
        tacbn_in W2; lia. }
  destruct Own as (Os & Od & Ww).
  exists a, b, dl, da. split; [split; assumption|]. split; [split; assumption|]. split; [assumption|].
  split; [lia|]. split; [assumption|]. split; [assumption|]. split; [assumption|]. split; [assumption|]. split; [intros X; contradiction|].
  split; [intros _; split; [|split; [|split; [lia|exact Ww]]]|].
  - split; [rewrite !own_put_dat; congruence|]. apply tacc_enc_in; [|exact O1|exact Ia].
    rewrite dat_put_dat_other by congruence. apply dat_put_dat.
  - split; [rewrite !own_put_dat; congruence|]. apply tacc_enc_in; [apply dat_put_dat|exact O2|exact Ib].
  - split; [|split].
    + intros k N1 N2. eapply same_od_trans; [apply Q|]. eapply same_od_trans; apply same_od_put_dat_other; assumption.
    + exact E2.
    + intros k. rewrite !lam_put_dat. apply D2.
Qed.

(** ** Mint and burn *)

Ltac tmcbn := cbn [tm_with_supply tm_auth tm_supply tm_decimals tm_init tm_freeze].
Ltac tmcbn_in H := cbn [tm_with_supply tm_auth tm_supply tm_decimals tm_init tm_freeze] in H.
Lemma enc_tmint_supply x y : enc c_tmint x = enc c_tmint y -> okb c_tmint x = true -> okb c_tmint y = true ->
  tm_supply x = tm_supply y.
Proof. intros E O1 O2. apply (enc_inj c_tmint) in E; [congruence|typeclasses eauto|exact O1|exact O2]. Qed.

Lemma tok_mint_to_ok c mint dst auth amount s x s' :
  c_pid c = spl_id -> 0 <= amount ->
  tok_mint_to c mint dst auth amount s = Ok (x, s') ->
  exists b m,
    tok_in s dst b /\ mint_in s mint m /\ mint <> dst /\ ta_mint b = mint /\ tm_auth m = (true, auth) /\
    ta_state b = TInit /\ fst (ta_native b) = false /\
    c_sg c auth = true /\
    tok_in s' dst (ta_with b (ta_amount b + amount) (ta_delegate b) (ta_damount b)) /\
    mint_in s' mint (tm_with_supply m (tm_supply m + amount)) /\
    (forall k, k <> mint -> k <> dst -> same_od s s' k) /\ same_env s s' /\
    (forall k, lam (accs s' k) = lam (accs s k)).
Proof.
  intros Hp Ha H. unfold tok_mint_to in H.
  mstep H. apply tacc_at_ok in H0 as [Tb ->]. rename v into b. do 3 mstep H. rename H0 into Hf, H1 into Hn, H2 into Hm.
  mfact Hf. mfact Hn.
  mstep H. apply tmint_at_ok in H0 as [Tm ->]. rename v2 into m.
  assert (Nd : mint <> dst) by (intros ->; eapply tacc_tmint; eassumption).
  pose proof (tacc_in_ok _ _ _ Tb) as (Ob & Bb & Db & Ib). pose proof (tmint_in_ok _ _ _ Tm) as (Om & Bm & Dm & Im).
  mstep H. unfold copt in H0. destruct (tm_auth m) as [f ak] eqn:Eau. cbn [fst snd] in H0. destruct f; [|discriminate].
  apply validate_owner_ok in H0 as (-> & Hs & ->).
  apply bind_ok in H as (u & s1 & Hown & H).
  assert (Hs1 : s1 = s /\ (amount = 0 -> own (accs s mint) = spl_id /\ own (accs s dst) = spl_id)).
  { destruct (Z.eqb_spec amount 0) as [E|E].
    - apply bind_ok in Hown as (? & ? & H1 & H2). apply check_owner_ok in H1 as [H1 ->].
      apply check_owner_ok in H2 as [H2 ->]. auto.
    - minv Hown. split; [reflexivity|]. contradiction. }
  destruct Hs1 as [-> Hown']. clear Hown. do 2 mstep H. rename H0 into L1, H1 into L2.
  apply bind_ok in H as (u3 & s3 & P1 & P2).
  apply pack_tacc in P1 as [-> W1]. apply pack_tmint in P2 as (-> & _ & W2).
  rewrite own_put_dat, dat_put_dat_other in W2 by assumption.
  assert (O1 : okb c_tacc (ta_with b (ta_amount b + amount) (ta_delegate b) (ta_damount b)) = true).
  { apply okb_tacc in Ob. apply okb_tacc. tacbn; lia. }
  assert (O2 : okb c_tmint (tm_with_supply m (tm_supply m + amount)) = true).
  { apply okb_tmint in Om. apply okb_tmint. tmcbn; lia. }
  apply keqb_eq in Hm.
  assert (Own : own (accs s mint) = spl_id /\ own (accs s dst) = spl_id).
  { destruct (Z.eq_dec amount 0) as [Z0|Z0]; [auto|]. split.
    - destruct W2 as [W2|[W2 _]]; [|congruence]. rewrite Dm in W2. apply enc_tmint_supply in W2; [|assumption|assumption].
      tmcbn_in W2. lia.
    - destruct W1 as [W1|[W1 _]]; [|congruence]. rewrite Db in W1. apply enc_tacc_amount in W1; [|assumption|assumption].
      tacbn_in W1. lia. }
  destruct Own as [Omi Od].
  assert (Sb : ta_state b = TInit) by (unfold ta_init, ta_frozen in *; destruct (ta_state b); congruence).
  exists b, m. split; [split; assumption|]. split; [split; assumption|]. split; [assumption|]. split; [congruence|].
  split; [assumption|]. split; [assumption|]. split; [assumption|]. split; [assumption|]. split; [|split; [|split; [|split]]].
  - split; [rewrite !own_put_dat; assumption|]. apply tacc_enc_in; [|exact O1|exact Ib].
    rewrite dat_put_dat_other by congruence. apply dat_put_dat.
  - split; [rewrite !own_put_dat; assumption|]. apply tmint_enc_in; [apply dat_put_dat|exact O2|exact Im].
  - intros k N1 N2. eapply same_od_trans; apply same_od_put_dat_other; assumption.
  - split; reflexivity.
  - intros k. rewrite !lam_put_dat. reflexivity.
Qed.

Lemma tok_burn_ok c src mint auth amount s x s' :
  c_pid c = spl_id -> 0 <= amount ->
  tok_burn c src mint auth amount s = Ok (x, s') ->
  exists a m dl da,
    tok_in s src a /\ mint_in s mint m /\ mint <> src /\ ta_mint a = mint /\ amount <= ta_amount a /\
    ta_state a = TInit /\ fst (ta_native a) = false /\
    ((ta_owner a = sys_id \/ ta_owner a = incinerator_id) /\ dl = ta_delegate a /\ da = ta_damount a \/
     c_sg c auth = true /\ may_spend a auth amount dl da) /\
    tok_in s' src (ta_with a (ta_amount a - amount) dl da) /\
    mint_in s' mint (tm_with_supply m (tm_supply m - amount)) /\ amount <= tm_supply m /\
    (forall k, k <> mint -> k <> src -> same_od s s' k) /\ same_env s s' /\
    (forall k, lam (accs s' k) = lam (accs s k)).
Proof.
  intros Hp Ha H. unfold tok_burn in H.
  mstep H. apply tacc_at_ok in H0 as [Ta ->]. rename v into a.
  mstep H. apply tmint_at_ok in H0 as [Tm ->]. rename v into m.
  do 4 mstep H. rename H0 into Hf, H1 into Hn, H2 into Hle, H3 into Hm. mfact Hf. mfact Hn.
  assert (Nd : mint <> src) by (intros ->; eapply tacc_tmint; eassumption).
  pose proof (tacc_in_ok _ _ _ Ta) as (Oa & Ba & Da & Ia). pose proof (tmint_in_ok _ _ _ Tm) as (Om & Bm & Dm & Im).
  apply bind_ok in H as ([dl da] & s1 & Hsp & H).
  assert (Hs1 : s1 = s /\ ((ta_owner a = sys_id \/ ta_owner a = incinerator_id) /\ dl = ta_delegate a /\ da = ta_damount a \/
     c_sg c auth = true /\ may_spend a auth amount dl da)).
  { destruct (keqb (ta_owner a) sys_id || keqb (ta_owner a) incinerator_id) eqn:E.
    - apply ret_ok in Hsp as [E2 ->]. injection E2 as -> ->. split; [reflexivity|]. left. split; [|split; reflexivity].
      apply orb_true_iff in E as [E|E]; apply keqb_eq in E; auto.
    - apply spend_ok in Hsp as (-> & Hs & Sp). auto. }
  destruct Hs1 as [-> Sp]. clear Hsp. cbv beta iota in H.
  apply bind_ok in H as (u & s1 & Hown & H).
  assert (Hs1 : s1 = s /\ (amount = 0 -> own (accs s src) = spl_id /\ own (accs s mint) = spl_id)).
  { destruct (Z.eqb_spec amount 0) as [E|E].
    - apply bind_ok in Hown as (? & ? & H1 & H2). apply check_owner_ok in H1 as [H1 ->].
      apply check_owner_ok in H2 as [H2 ->]. auto.
    - minv Hown. split; [reflexivity|]. contradiction. }
  destruct Hs1 as [-> Hown']. clear Hown. mstep H. rename H0 into L1.
  apply bind_ok in H as (u3 & s3 & P1 & P2).
  apply pack_tacc in P1 as [-> W1]. apply pack_tmint in P2 as (-> & _ & W2).
  rewrite own_put_dat, dat_put_dat_other in W2 by assumption.
  assert (Rd : 0 <= da < u64max).
  { destruct Sp as [(_ & _ & ->)|[_ Sp]]; [apply okb_tacc in Oa; lia|eapply may_spend_range; eassumption]. }
  assert (O1 : okb c_tacc (ta_with a (ta_amount a - amount) dl da) = true).
  { apply okb_tacc in Oa. apply okb_tacc. tacbn; lia. }
  assert (O2 : okb c_tmint (tm_with_supply m (tm_supply m - amount)) = true).
  { apply okb_tmint in Om. apply okb_tmint. tmcbn; lia. }
  apply keqb_eq in Hm.
  assert (Own : own (accs s mint) = spl_id /\ own (accs s src) = spl_id).
  { destruct (Z.eq_dec amount 0) as [Z0|Z0]; [destruct (Hown' Z0); auto|]. split.
    - destruct W2 as [W2|[W2 _]]; [|congruence]. rewrite Dm in W2. apply enc_tmint_supply in W2; [|assumption|assumption].
      tmcbn_in W2. lia.
    - destruct W1 as [W1|[W1 _]]; [|congruence]. rewrite Da in W1. apply enc_tacc_amount in W1; [|assumption|assumption].
      tacbn_in W1. lia. }
  destruct Own as [Omi Os].
  assert (Sa : ta_state a = TInit) by (unfold ta_init, ta_frozen in *; destruct (ta_state a); congruence).
  exists a, m, dl, da. split; [split; assumption|]. split; [split; assumption|]. split; [assumption|]. split; [congruence|].
  split; [lia|]. split; [assumption|]. split; [assumption|]. split; [assumption|].
  split; [|split; [|split; [lia|split; [|split]]]].
  - split; [rewrite !own_put_dat; assumption|]. apply tacc_enc_in; [|exact O1|exact Ia].
    rewrite dat_put_dat_other by congruence. apply dat_put_dat.
  - split; [rewrite !own_put_dat; assumption|]. apply tmint_enc_in; [apply dat_put_dat|exact O2|exact Im].
  - intros k N1 N2. eapply same_od_trans; apply same_od_put_dat_other; assumption.
  - split; reflexivity.
  - intros k. rewrite !lam_put_dat. reflexivity.
Qed.

(** ** Initialisation *)

Lemma rent_min_range e n : 0 <= rent_min e n < u64max.
Proof. unfold rent_min, wrap64, u64max. apply Z.mod_pos_bound. lia. Qed.

Lemma unpack_unchecked_len {A} (c : codec A) (L : Lawful c) LEN d x :
  unpack_unchecked c LEN d = Ok x -> blen d = LEN /\ okb c x = true.
Proof. intros H. apply unpack_unchecked_ok in H as (r & E & O & B); [|exact L]. subst d. auto. Qed.

Definition tmint_zero : tmint := TMint (false, key0) 0 0 false (false, key0).
Lemma tmint_zero_ok : unpack_unchecked c_tmint TMINT_LEN (repeat x00 (Z.to_nat TMINT_LEN)) = Ok tmint_zero.
Proof. vm_compute. reflexivity. Qed.
Definition tacc_zero : tacc :=
  TAcc key0 key0 0 (false, key0) TUninit (false, 0) 0 (false, key0).
Lemma tacc_zero_ok : unpack_unchecked c_tacc TACC_LEN (repeat x00 (Z.to_nat TACC_LEN)) = Ok tacc_zero.
Proof. vm_compute. reflexivity. Qed.

Lemma tok_init_mint_ok e c mint rent auth freeze decimals s x s' :
  0 <= decimals < 256 ->
  tok_init_mint e c mint rent auth freeze decimals s = Ok (x, s') ->
  rent = rent_id /\ exists m0, unpack_unchecked c_tmint TMINT_LEN (dat (accs s mint)) = Ok m0 /\ tm_init m0 = false /\
  let m := TMint (true, auth) (tm_supply m0) decimals true
       (match freeze with Some f => (true, f) | None => (false, snd (tm_freeze m0)) end) in
  s' = put_dat s mint (enc c_tmint m) /\ tmint_in s' mint m /\
  own (accs s mint) = c_pid c.
Proof.
  intros Hd H. unfold tok_init_mint in H. minv H. split; [reflexivity|].
  match goal with X : spl_unpack_unchecked _ _ _ = _ |- _ => apply spl_unpack_unchecked_ok in X; rename X into U end.
  mfacts. apply pack_tmint in H as (-> & B & W). exists v0. split; [exact U|]. split; [assumption|]. cbv zeta.
  pose proof (unpack_unchecked_len _ _ _ _ _ U) as [_ O]. apply okb_tmint in O.
  split; [reflexivity|]. split; [apply tmint_enc_in; [apply dat_put_dat| |reflexivity]|].
  - apply okb_tmint. tmcbn. lia.
  - destruct W as [W|[W _]]; [|exact W]. exfalso.
    match type of W with _ = enc _ ?m => assert (T : tmint_in s mint m) end.
    { apply tmint_enc_in; [exact W| |reflexivity]. apply okb_tmint. tmcbn. lia. }
    apply unpack_unchecked_init in T as [T _]. rewrite T in U.
    assert (F : forall a b : res tmint, a = b -> match a with Ok x => tm_init x | _ => true end = match b with Ok x => tm_init x | _ => true end) by (intros ? ? ->; reflexivity).
    apply F in U. cbn [tm_init] in U. congruence.
Qed.

(** Encoding an out-of-range amount wraps it. *)
Lemma le_mod n z : le n (z mod 256 ^ Z.of_nat n) = le n z.
Proof.
  revert z. induction n as [|n IH]; intros z; [reflexivity|]. cbn [le].
  rewrite pow256_S, Z.rem_mul_r by (try lia; pose proof (pow256_pos n); lia).
  f_equal.
  - rewrite <- (zb_mod (z mod 256 + _)). rewrite <- (zb_mod z). f_equal.
    rewrite Z.mul_comm, Z.mod_add, Z.mod_mod by lia. reflexivity.
  - rewrite Z.mul_comm, Z.div_add, (Z.div_small (z mod 256)) by lia. apply IH.
Qed.
Lemma enc_tacc_wrap m o a d st n da cl :
  enc c_tacc (TAcc m o a d st n da cl) = enc c_tacc (TAcc m o (wrap64 a) d st n da cl).
Proof.
  unfold c_tacc. cbn [enc c_iso c_pair fst snd ta_mint ta_owner ta_amount ta_delegate ta_state ta_native ta_damount ta_close].
  do 3 f_equal. unfold c_u64, c_uint, wrap64. cbn [enc]. change u64max with (256 ^ Z.of_nat 8).
  rewrite le_mod. reflexivity.
Qed.
Lemma wrap64_range z : 0 <= wrap64 z < u64max.
Proof. unfold wrap64, u64max. apply Z.mod_pos_bound. lia. Qed.
Lemma wrap64_small z : 0 <= z < u64max -> wrap64 z = z.
Proof. intros H. unfold wrap64. apply Z.mod_small. exact H. Qed.

Lemma tok_init_account3_ok e c k mint owner s x s' :
  tok_init_account3 e c k mint owner s = Ok (x, s') ->
  exists t0, unpack_unchecked c_tacc TACC_LEN (dat (accs s k)) = Ok t0 /\ ta_init t0 = false /\
  (mint <> native_mint -> exists m, mint_in s mint m) /\
  let nat_ := if keqb mint native_mint then (true, rent_min e TACC_LEN) else (false, snd (ta_native t0)) in
  let amt := if keqb mint native_mint then wrap64 (lam (accs s k) - rent_min e TACC_LEN) else 0 in
  let t := TAcc mint owner amt (false, snd (ta_delegate t0)) TInit nat_ 0 (false, snd (ta_close t0)) in
  s' = put_dat s k (enc c_tacc t) /\ tacc_in s' k t /\ own (accs s k) = c_pid c.
Proof.
  intros H. unfold tok_init_account3 in H. do 4 mstep H.
  rename H0 into U, H1 into I, H2 into R. apply spl_unpack_unchecked_ok in U. mfact I.
  pose proof (unpack_unchecked_len _ _ _ _ _ U) as [_ O]. apply okb_tacc in O.
  apply bind_ok in H as (u & s1 & Hm & H).
  assert (Hm' : s1 = s /\ (mint <> native_mint -> exists m, mint_in s mint m)).
  { destruct (keqb mint native_mint) eqn:E.
    - minv Hm. split; [reflexivity|]. apply keqb_eq in E. contradiction.
    - mstep Hm. apply check_owner_ok in H0 as [Ho ->]. minv Hm. split; [reflexivity|]. intros _.
      destruct (spl_unpack c_tmint TMINT_LEN tm_init (dat (accs s mint))) as [m|] eqn:E2; [|discriminate].
      apply spl_unpack_ok in E2. exists m. split; assumption. }
  destruct Hm' as [-> Hm']. clear Hm.
  apply bind_ok in H as ([nat_ amt] & s1 & Hn & H).
  exists v. split; [exact U|]. split; [exact I|]. split; [exact Hm'|]. cbv zeta.
  assert (Hn' : s1 = s /\ nat_ = (if keqb mint native_mint then (true, rent_min e TACC_LEN) else (false, snd (ta_native v)))
    /\ amt = (if keqb mint native_mint then lam (accs s k) - rent_min e TACC_LEN else 0)).
  { destruct (keqb mint native_mint); minv Hn.
    - match goal with X : (_, _) = (_, _) |- _ => injection X as -> -> end. auto.
    - match goal with X : (_, _) = (_, _) |- _ => injection X as -> -> end. auto. }
  destruct Hn' as (-> & -> & ->). clear Hn. cbv beta iota in H.
  pose proof (rent_min_range e TACC_LEN) as RR.
  apply pack_tacc in H as (-> & W). rewrite enc_tacc_wrap in *.
  replace (wrap64 (if keqb mint native_mint then lam (accs s k) - rent_min e TACC_LEN else 0))
    with (if keqb mint native_mint then wrap64 (lam (accs s k) - rent_min e TACC_LEN) else 0) in *
    by (destruct (keqb mint native_mint); [reflexivity|rewrite wrap64_small; [reflexivity|unfold u64max; lia]]).
  pose proof (wrap64_range (lam (accs s k) - rent_min e TACC_LEN)) as LK.
  match type of W with _ = enc _ ?m \/ _ => assert (OK : okb c_tacc m = true) end.
  { apply okb_tacc. tacbn. destruct (keqb mint native_mint); cbn [snd]; lia. }
  split; [reflexivity|]. split; [apply tacc_enc_in; [apply dat_put_dat|exact OK|reflexivity]|].
  destruct W as [W|[W _]]; [|exact W]. exfalso.
  match type of W with _ = enc _ ?m => assert (T : tacc_in s k m) end.
  { apply tacc_enc_in; [exact W|exact OK|reflexivity]. }
  apply unpack_unchecked_init in T as [T _]. rewrite T in U.
  assert (F : forall a b : res tacc, a = b -> match a with Ok x => ta_init x | _ => true end = match b with Ok x => ta_init x | _ => true end) by (intros ? ? ->; reflexivity).
  apply F in U. unfold ta_init in *. cbn [ta_state] in U. congruence.
Qed.

Lemma tok_init_immutable_ok k s x s' : tok_init_immutable k s = Ok (x, s') -> s' = s.
Proof. unfold tok_init_immutable. intros H. minv H. reflexivity. Qed.
Lemma tok_account_size_ok m s x s' : tok_account_size m s = Ok (x, s') -> s' = s.
Proof. unfold tok_account_size. intros H. mstep H. apply check_owner_ok in H0 as [_ ->]. minv H. reflexivity. Qed.

Lemma tok_sync_native_ok c k s x s' :
  tok_sync_native c k s = Ok (x, s') ->
  exists t, tok_in s k t /\ fst (ta_native t) = true /\
    let t' := ta_with t (wrap64 (lam (accs s k) - snd (ta_native t))) (ta_delegate t) (ta_damount t) in
    tok_in s' k t' /\ ta_amount t <= lam (accs s k) - snd (ta_native t) /\ s' = put_dat s k (enc c_tacc t').
Proof.
  intros H. unfold tok_sync_native in H. mstep H. apply check_owner_ok in H0 as [O ->].
  mstep H. apply tacc_at_ok in H0 as [T ->]. minv H. apply pack_tacc in H as [-> W].
  pose proof (tacc_in_ok _ _ _ T) as (OK & _ & _ & I). unfold ta_with in W. unfold ta_with. rewrite enc_tacc_wrap in *.
  pose proof (wrap64_range (lam (accs s k) - snd (ta_native v0))) as LK.
  exists v0. split; [split; assumption|]. split; [assumption|]. cbv zeta. split; [|split; [lia|reflexivity]].
  split; [rewrite own_put_dat; exact O|]. apply tacc_enc_in; [apply dat_put_dat| |exact I].
  apply okb_tacc in OK. apply okb_tacc. tacbn. lia.
Qed.

(** ** The invoke wrappers *)

(** [k] signs a CPI: it signed the caller's instruction or is derived from the given seeds. *)
Definition signed (c : ctx) (pdas : list key) (k : key) : Prop := c_sg c k = true \/ In k pdas.

Lemma invoke_tok_transfer_ok c src dst auth amount pdas s x s' : 0 <= amount ->
  invoke_tok_transfer c src dst auth amount pdas s = Ok (x, s') ->
  exists a b dl da,
    tok_in s src a /\ tok_in s dst b /\ ta_mint a = ta_mint b /\ amount <= ta_amount a /\
    signed c pdas auth /\ may_spend a auth amount dl da /\
    (src = dst -> s' = s) /\
    (src <> dst ->
       tok_in s' src (ta_with a (ta_amount a - amount) dl da) /\
       tok_in s' dst (ta_with b (ta_amount b + amount) (ta_delegate b) (ta_damount b))) /\
    (forall k, k <> src -> k <> dst -> same_od s s' k) /\ same_env s s' /\
    dlam s s' (fun k => if fst (ta_native a) then at_key dst amount k - at_key src amount k else 0) /\
    c_wr c src = true /\ c_wr c dst = true /\ In spl_id (c_keys c).
Proof.
  unfold invoke_tok_transfer. intros Ha H. apply cpi_inv in H as [H P].
  apply tok_transfer_ok in H as (a & b & dl & da & T1 & T2 & T3 & T4 & _ & _ & T7 & T8 & T9 & T10 & T11 & T12 & T13);
    [|reflexivity|exact Ha].
  pose proof (cpi_sg _ _ _ _ _ P T7) as Sg. destruct P as [P1 P2].
  exists a, b, dl, da. split; [exact T1|]. split; [exact T2|]. split; [exact T3|]. split; [exact T4|].
  split; [exact Sg|]. split; [exact T8|]. split; [exact T9|]. split; [|split; [exact T11|split; [exact T12|split; [exact T13|]]]].
  - intros N. destruct (T10 N) as (X1 & X2 & _). auto.
  - destruct (P2 (Meta src false true)) as (_ & _ & Q2); [left; reflexivity|].
    destruct (P2 (Meta dst false true)) as (_ & _ & Q4); [right; left; reflexivity|].
    cbn [m_wr m_key] in *. auto.
Qed.

Lemma invoke_tok_mint_to_ok c mint dst auth amount pdas s x s' : 0 <= amount ->
  invoke_tok_mint_to c mint dst auth amount pdas s = Ok (x, s') ->
  exists b m,
    tok_in s dst b /\ mint_in s mint m /\ mint <> dst /\ ta_mint b = mint /\ tm_auth m = (true, auth) /\
    signed c pdas auth /\
    tok_in s' dst (ta_with b (ta_amount b + amount) (ta_delegate b) (ta_damount b)) /\
    mint_in s' mint (tm_with_supply m (tm_supply m + amount)) /\
    (forall k, k <> mint -> k <> dst -> same_od s s' k) /\ same_env s s' /\
    (forall k, lam (accs s' k) = lam (accs s k)) /\
    c_wr c mint = true /\ c_wr c dst = true /\ In spl_id (c_keys c).
Proof.
  unfold invoke_tok_mint_to. intros Ha H. apply cpi_inv in H as [H P].
  apply tok_mint_to_ok in H as (b & m & T1 & T2 & T3 & T4 & T5 & _ & _ & T8 & T9 & T10 & T11 & T12 & T13);
    [|reflexivity|exact Ha].
  pose proof (cpi_sg _ _ _ _ _ P T8) as Sg. destruct P as [P1 P2].
  exists b, m. repeat (split; [assumption|]).
  destruct (P2 (Meta mint false true)) as (_ & _ & Q2); [left; reflexivity|].
  destruct (P2 (Meta dst false true)) as (_ & _ & Q4); [right; left; reflexivity|].
  cbn [m_wr m_key] in *. auto.
Qed.

Lemma invoke_tok_burn_ok c src mint auth amount s x s' : 0 <= amount ->
  invoke_tok_burn c src mint auth amount s = Ok (x, s') ->
  exists a m dl da,
    tok_in s src a /\ mint_in s mint m /\ mint <> src /\ ta_mint a = mint /\ amount <= ta_amount a /\
    c_sg c auth = true /\
    ((ta_owner a = sys_id \/ ta_owner a = incinerator_id) /\ dl = ta_delegate a /\ da = ta_damount a \/
     may_spend a auth amount dl da) /\
    tok_in s' src (ta_with a (ta_amount a - amount) dl da) /\
    mint_in s' mint (tm_with_supply m (tm_supply m - amount)) /\ amount <= tm_supply m /\
    (forall k, k <> mint -> k <> src -> same_od s s' k) /\ same_env s s' /\
    (forall k, lam (accs s' k) = lam (accs s k)) /\
    c_wr c mint = true /\ c_wr c src = true /\ In spl_id (c_keys c).
Proof.
  unfold invoke_tok_burn. intros Ha H. apply cpi_inv in H as [H P].
  apply tok_burn_ok in H as (a & m & dl & da & T1 & T2 & T3 & T4 & T5 & _ & _ & T8 & T9 & T10 & T11 & T12 & T13 & T14);
    [|reflexivity|exact Ha].
  destruct P as [P1 P2].
  destruct (P2 (Meta src false true)) as (_ & _ & Q2); [left; reflexivity|].
  destruct (P2 (Meta mint false true)) as (_ & _ & Q4); [right; left; reflexivity|].
  destruct (P2 (Meta auth true false)) as (_ & Q5 & _); [do 3 right; left; reflexivity|].
  cbn [m_wr m_key m_sg] in *. destruct (Q5 eq_refl) as [Q|[]].
  exists a, m, dl, da. repeat (split; [assumption|]).
  split; [|repeat (split; [assumption|]); auto]. destruct T8 as [T8|[_ T8]]; auto.
Qed.

Lemma invoke_init_mint_ok e c mint auth freeze decimals pdas s x s' : 0 <= decimals < 256 ->
  invoke_init_mint e c mint auth freeze decimals pdas s = Ok (x, s') ->
  exists m0, unpack_unchecked c_tmint TMINT_LEN (dat (accs s mint)) = Ok m0 /\ tm_init m0 = false /\
  let m := TMint (true, auth) (tm_supply m0) decimals true
       (match freeze with Some f => (true, f) | None => (false, snd (tm_freeze m0)) end) in
  s' = put_dat s mint (enc c_tmint m) /\ mint_in s' mint m /\ own (accs s mint) = spl_id.
Proof.
  unfold invoke_init_mint. intros Hd H. apply cpi_inv in H as [H P].
  apply tok_init_mint_ok in H as (_ & m0 & U & I & E & T & O); [|exact Hd]. cbv zeta in *.
  exists m0. split; [exact U|]. split; [exact I|]. split; [exact E|]. split; [|exact O].
  split; [rewrite E, own_put_dat; exact O|exact T].
Qed.

(** The token account [k] starts as. *)
Definition ta_new (e : env) (t0 : tacc) (mint owner : key) (lamports : Z) : tacc :=
  TAcc mint owner (if keqb mint native_mint then wrap64 (lamports - rent_min e TACC_LEN) else 0)
    (false, snd (ta_delegate t0)) TInit
    (if keqb mint native_mint then (true, rent_min e TACC_LEN) else (false, snd (ta_native t0)))
    0 (false, snd (ta_close t0)).
Lemma invoke_init_account3_ok e c infos k mint owner pdas s x s' :
  invoke_init_account3 e c infos k mint owner pdas s = Ok (x, s') ->
  exists t0, unpack_unchecked c_tacc TACC_LEN (dat (accs s k)) = Ok t0 /\ ta_init t0 = false /\
  (mint <> native_mint -> exists m, mint_in s mint m) /\
  let t := ta_new e t0 mint owner (lam (accs s k)) in
  s' = put_dat s k (enc c_tacc t) /\ tok_in s' k t /\ own (accs s k) = spl_id.
Proof.
  unfold invoke_init_account3. intros H. apply cpi_inv in H as [H P].
  apply tok_init_account3_ok in H as (t0 & U & I & Hm & E & T & O). cbv zeta in *.
  exists t0. split; [exact U|]. split; [exact I|]. split; [exact Hm|]. split; [exact E|]. split; [|exact O].
  split; [rewrite E, own_put_dat; exact O|exact T].
Qed.
Lemma invoke_init_immutable_ok c infos k s x s' : invoke_init_immutable c infos k s = Ok (x, s') -> s' = s.
Proof. unfold invoke_init_immutable. intros H. apply cpi_inv in H as [H _]. apply tok_init_immutable_ok in H. exact H. Qed.
Lemma invoke_account_size_ok c k s x s' : invoke_account_size c k s = Ok (x, s') -> s' = s.
Proof. unfold invoke_account_size. intros H. apply cpi_inv in H as [H _]. apply tok_account_size_ok in H. exact H. Qed.
Lemma invoke_sync_native_ok c k s x s' : invoke_sync_native c k s = Ok (x, s') ->
  exists t, tok_in s k t /\ fst (ta_native t) = true /\
    let t' := ta_with t (wrap64 (lam (accs s k) - snd (ta_native t))) (ta_delegate t) (ta_damount t) in
    tok_in s' k t' /\ ta_amount t <= lam (accs s k) - snd (ta_native t) /\ s' = put_dat s k (enc c_tacc t').
Proof. unfold invoke_sync_native. intros H. apply cpi_inv in H as [H _]. apply tok_sync_native_ok in H. exact H. Qed.

(** ** Derived token accounts *)

(** [k] was an empty system account and is now an account of [owner] with zeroed data. *)
Definition made (s s' : state) (to owner : key) (space : Z) : Prop :=
  own (accs s to) = sys_id /\ dat (accs s to) = [] /\
  own (accs s' to) = owner /\ dat (accs s' to) = repeat x00 (Z.to_nat space) /\
  forall k, k <> to -> same_od s s' k.
Lemma created_made s s' to owner space : created s s' to owner space -> made s s' to owner space.
Proof. intros (A & B & _ & C & D & E). repeat split; auto; apply E; assumption. Qed.

Lemma create_pda_account_ok e c payer space owner sysinfo k sd s x s' :
  create_pda_account e c payer space owner sysinfo k sd s = Ok (x, s') ->
  made s s' k owner space /\ same_env s s' /\
  (exists p, 0 <= p /\ dlam s s' (fun j => at_key k p j - at_key payer p j) /\
     (0 <= lam (accs s k) -> p = Z.max 0 (Z.max (rent_min e space) 1 - lam (accs s k))) /\
     (0 < p -> c_sg c payer = true \/ e_pda e sd (c_pid c) = Some payer) /\
     (0 < p -> own (accs s payer) = sys_id)) /\
  (c_sg c k = true \/ e_pda e sd (c_pid c) = Some k).
Proof.
  unfold create_pda_account. intros H. mstep H. destruct (0 <? lam (accs s k)) eqn:El.
  - apply bind_ok in H as (u & s1 & Ht & H).
    assert (Ht' : sod s s1 /\ same_env s s1 /\ exists p, 0 <= p /\ dlam s s1 (fun j => at_key k p j - at_key payer p j) /\
       p = Z.max 0 (Z.max (rent_min e space) 1 - lam (accs s k)) /\
       (0 < p -> c_sg c payer = true) /\ (0 < p -> own (accs s payer) = sys_id)).
    { cbv zeta in Ht. destruct (0 <? Z.max (rent_min e space) 1 - lam (accs s k)) eqn:Er.
      - apply cpi_inv in Ht as [Ht P]. apply sys_transfer_ok in Ht as (T1 & T2 & T3 & T4 & T5 & T6 & T7).
        split; [exact T4|]. split; [exact T5|]. eexists. split; [|split; [exact T6|]]; [lia|].
        split; [lia|]. split.
        + intros _. pose proof (cpi_sg _ _ _ _ _ P T1) as [X|[]]. exact X.
        + intros Hp. destruct T7 as [?|[_ [?|T7]]]; [lia|lia|exact T7].
      - minv Ht. split; [apply sod_refl|]. split; [apply same_env_refl|]. exists 0. split; [lia|].
        split; [intros j; unfold at_key; destruct (keqb j k), (keqb j payer); lia|]. split; [lia|]. split; lia. }
    destruct Ht' as (S1 & E1 & p & P0 & D1 & P1 & P2 & P3). clear Ht.
    mstep H. mstep H. apply cpi_inv in H1 as [H1 Q]. apply cpi_inv in H as [H Q'].
    apply sys_allocate_ok in H1 as (A1 & A2 & A3 & ->). apply sys_assign_ok in H.
    destruct (S1 k) as [O1 O2].
    assert (Sk : c_sg c k = true \/ e_pda e sd (c_pid c) = Some k).
    { destruct (cpi_sg _ _ _ _ _ Q A1) as [X|[<-|[]]]; [left; exact X|right; assumption]. }
    assert (R : s' = put_dat s1 k (repeat x00 (Z.to_nat space)) /\ owner = sys_id \/
       s' = put_own (put_dat s1 k (repeat x00 (Z.to_nat space))) k owner).
    { rewrite own_put_dat in H. destruct H as [[Ho ->]|(Ho & -> & _)]; [left|right]; [|reflexivity]. split; [reflexivity|]. congruence. }
    split; [|split; [|split; [|exact Sk]]].
    + unfold made. split; [congruence|]. split; [congruence|]. split; [|split].
      * destruct R as [[-> ->]| ->]; [rewrite own_put_dat; congruence|apply own_put_own].
      * destruct R as [[-> ->]| ->]; [|rewrite dat_put_own]; apply dat_put_dat.
      * intros j Hj. eapply same_od_trans; [apply S1|]. destruct R as [[-> ->]| ->]; [apply same_od_put_dat_other; exact Hj|].
        split; [rewrite own_put_own_other by exact Hj; apply own_put_dat|rewrite dat_put_own; apply dat_put_dat_other; exact Hj].
    + eapply same_env_trans; [exact E1|]. destruct R as [[-> ->]| ->]; split; reflexivity.
    + eexists. split; [exact P0|]. split; [|split; [intros _; reflexivity|split; [intros Hp; left; auto|exact P3]]].
      intros j. destruct R as [[-> ->]| ->]; [|rewrite lam_put_own]; rewrite lam_put_dat; apply D1.
  - mstep H. apply cpi_inv in H as [H P]. apply sys_create_ok in H as (C & S1 & S2 & T3 & T5 & T6 & T7).
    split; [apply created_made; exact C|]. split; [exact T5|]. split.
    + eexists. split; [|split; [exact T6|]]; [lia|]. split; [lia|]. split.
      * intros _. destruct (cpi_sg _ _ _ _ _ P S1) as [X|[<-|[]]]; auto.
      * intros Hp. destruct (T7 Hp) as [[_ X]| ->]; [exact X|]. destruct C as [C _]. exact C.
    + destruct (cpi_sg _ _ _ _ _ P S2) as [X|[<-|[]]]; auto.
Qed.

(** An associated token account of [wallet] for [mint] is created at its derived address. *)
Lemma invoke_ata_create_ok e c funder wallet mint s x s' :
  invoke_ata_create e c funder wallet mint s = Ok (x, s') ->
  exists ata n t, find_pda e (ata_seeds wallet mint) ata_id = Ok (ata, n) /\
    own (accs s ata) = sys_id /\ dat (accs s ata) = [] /\
    tok_in s' ata t /\ ta_mint t = mint /\ ta_owner t = wallet /\
    (mint <> native_mint -> ta_amount t = 0) /\
    (forall k, k <> ata -> same_od s s' k) /\ same_env s s' /\
    (exists p, 0 <= p /\ dlam s s' (fun j => at_key ata p j - at_key funder p j) /\
      (0 < p -> own (accs s funder) = sys_id)) /\
    In ata (c_keys c) /\ c_wr c ata = true.
Proof.
  unfold invoke_ata_create. intros H. mstep H. destruct v as [ata n]. cbv beta iota in H.
  apply cpi_inv in H as [H P]. unfold ata_create in H. mstep H. destruct v as [k2 n2]. cbv beta iota in H.
  do 4 mstep H. mfacts. subst.
  match goal with X : invoke_account_size _ _ _ = _ |- _ => apply invoke_account_size_ok in X as -> end || idtac.
  apply bind_ok in H as (u1 & s1 & Hc & H). try apply invoke_account_size_ok in Hc as ->.
  apply bind_ok in H as (u0 & s0 & Hc & H).
  apply create_pda_account_ok in Hc as ((M1 & M2 & M3 & M4 & M5) & E1 & (p & P0 & D & _ & _ & P4) & _).
  apply bind_ok in H as (u2 & s2 & Hi & H). apply invoke_init_immutable_ok in Hi as ->.
  apply invoke_init_account3_ok in H as (t0 & U & I & Hm & E & T & O). cbv zeta in *.
  match goal with X : find_pda _ (ata_seeds _ _) _ = Ok _ |- _ => rename X into F end.
  eexists _, _, _. split; [exact F|]. split; [exact M1|]. split; [exact M2|]. split; [exact T|].
  split; [reflexivity|]. split; [reflexivity|]. split; [|split; [|split; [|split]]].
  - intros Nn. cbn [ta_new ta_amount]. rewrite (keqb_ne _ _ Nn). reflexivity.
  - intros j Hj. eapply same_od_trans; [apply M5; exact Hj|]. rewrite E. apply same_od_put_dat_other. exact Hj.
  - eapply same_env_trans; [exact E1|]. rewrite E. split; reflexivity.
  - exists p. split; [exact P0|]. split; [|exact P4]. intros j. rewrite E, lam_put_dat. apply D.
  - destruct P as [_ P]. destruct (P (Meta ata false true)) as (X & _ & Y); [right; left; reflexivity|].
    cbn [m_key m_wr] in *. auto.
Qed.
