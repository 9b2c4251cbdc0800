(** Properties C37 - C40, C44, C48, C56 and C57: deposits, collected fees, filled withdrawals and the
    multi-vault. *)

From Coq Require Import Strings.String ZifyBool ZifyNat ZifyN.
From Verif Require Import TpDemoLaws TpFlow PropTpFlow PropTpPay.
Open Scope Z_scope.
Open Scope list_scope.
Ltac Zify.zify_post_hook ::= Z.div_mod_to_equations.

(** * Vocabulary *)

(** The token proxy's account [k] consists of the record [x], padded with zeros. *)
Definition holds {A} (cd : codec A) (s : state) (k : key) (x : A) : Prop :=
  own (accs s k) = tp_id /\ exists r, dat (accs s k) = enc cd x ++ r /\ all0 r = true.
(** [k] is the deposit account number [seed] and records a deposit by [author] as [ev] says. *)
Definition ever_deposit (e : env) (s : state) (k author : key) (seed : Z) (ev : dever_event) : Prop :=
  tp_addr e (sd_deposit seed) k /\ exists n len, holds c_dever s k (Dep true (KDeposit n) author (WithLen len ev) (WithLen 16 seed)).
Definition sol_deposit (e : env) (s : state) (k author : key) (seed : Z) (ev : dsol_event) : Prop :=
  tp_addr e (sd_deposit seed) k /\ exists n len, holds c_dsol s k (Dep true (KDeposit n) author (WithLen len ev) (WithLen 16 seed)).
(** [k] is not in use. *)
Definition fresh (s : state) (k : key) : Prop := own (accs s k) = sys_id /\ dat (accs s k) = [].
(** The multi-vault: it reads as one and is at its address. *)
Definition is_multivault (e : env) (s : state) (k : key) : Prop :=
  tp_addr e (str "multivault") k /\ exists mv n, unpack c_multi_vault TP_LEN mv_init (dat (accs s k)) = Ok mv /\ mv_kind mv = KMultiVault n.

Lemma multivault_spec e s k : multivault_in e tp_id s k -> is_multivault e s k.
Proof. intros (mv & n & U & KM & F). split; [exists n; exact F|exists mv, n; auto]. Qed.
Lemma multivault_len e s k : multivault_in e tp_id s k -> blen (dat (accs s k)) = TP_LEN.
Proof. intros (mv & n & U & _ & F). eapply unpack_len; [|exact U]. typeclasses eauto. Qed.

Lemma gda_rescale x a b z : Z.abs (a - b) <= 38 -> get_deposit_amount x a b = Ok z -> z = rescale x b a.
Proof.
  intros D H. unfold get_deposit_amount in H. unfold rescale. destruct (b <? a) eqn:L.
  - destruct (a <? b) eqn:L2; [lia|]. apply cmul_ok in H as [-> _]. destruct (pow10_small (a - b)) as [-> _]; [lia|]. reflexivity.
  - apply cdiv_ok in H as [_ ->]. destruct (pow10_small (b - a)) as [-> _]; [lia|].
    destruct (a <? b) eqn:L2; [reflexivity|]. replace (b - a) with 0 by lia. replace (a - b) with 0 by lia. rewrite Z.pow_0_r. lia.
Qed.

Lemma packed_token e c s s' k ts vn ts' : token_in e tp_id s k ts vn -> packed c c_token_settings TP_LEN s s' k ts' ->
  okb c_token_settings ts' = true -> tk_init ts' = true -> tk_kind ts' = tk_kind ts -> token_at e s' k ts'.
Proof.
  intros V PK O I KE. pose proof (token_spec _ _ _ _ _ V) as [PA U]. split; [rewrite KE; exact PA|].
  apply unpack_init; [|exact I]. eapply wrote_unpack; [typeclasses eauto|eapply packed_wrote; exact PK| |exact O].
  eapply unpack_len; [|exact U]; typeclasses eauto.
Qed.
Lemma same_od_token e s s' k ts vn : same_od s s' k -> token_in e tp_id s k ts vn -> token_in e tp_id s' k ts vn.
Proof. intros [_ D] [U R]. split; [rewrite D; exact U|exact R]. Qed.
Lemma token_at_same e s s' k ts : same_od s s' k -> token_at e s k ts -> token_at e s' k ts.
Proof. intros [_ D] [A U]. split; [exact A|rewrite D; exact U]. Qed.
Lemma new_holds {A} (cd : codec A) x s s' k : new_record cd TP_LEN x tp_id s s' k -> holds cd s' k x.
Proof. intros (_ & _ & O & r & D & Z & _). split; [exact O|]. exists r. auto. Qed.
Lemma holds_same {A} (cd : codec A) x s s' k : same_od s s' k -> holds cd s k x -> holds cd s' k x.
Proof. intros [O D] (O' & r & D' & Z). split; [congruence|]. exists r. split; [congruence|exact Z]. Qed.

(** * C37 Deposits of Ever tokens *)

(** A successful deposit of [amount] Ever tokens: the settings of the token, its mint at the address
    derived from the token, and the multi-vault are at their places in the account list; exactly
    [amount] tokens vanish from the sender's token account, signed for by its owner or delegate, and
    from the mint's supply; no other account of the token program changes; the fee is added to the
    token's recorded fees; a new deposit account records the amount less fee in the token's Everscale
    decimals with recipient, value and payload as instructed; the multi-vault gets exactly [value].
    Missing for the full C37: tokens whose decimals differ by 39 or more, see C37_refuted. *)
Theorem C37_partial : forall e ext c seed amount recipient value evers payload s s',
  tp_call e ext c (TpDepositEver seed amount recipient value evers payload) s s' ->
  exists funder sender src deposit mint mv tsk t md ts ts' m token dec amt rent,
    (exists rest, c_keys c = funder :: sender :: src :: deposit :: mint :: mv :: tsk :: rest) /\
    token_at e s tsk ts /\ tk_kind ts = TKEver m token dec /\
    tp_addr e (str "mint" ++ kb (token_hash e token)) mint /\ mint_in s mint md /\ tok_in s src t /\ ta_mint t = mint /\
    c_sg c sender = true /\ (ta_owner t = sys_id \/ ta_owner t = incinerator_id \/ spender t sender) /\
    let fee := fee_on (tk_fee_dep ts) amount in
    fee <= amount /\ amount <= balance s src /\
    balance s' src = balance s src - amount /\ supply s' mint = supply s mint - amount /\
    spl_rest s s' (fun j => j = src \/ j = mint) /\
    token_at e s' tsk ts' /\ tk_fee_supply ts' = tk_fee_supply ts + fee /\
    fresh s deposit /\ ever_deposit e s' deposit sender seed (DEverEvent token amt recipient value evers payload) /\
    (Z.abs (dec - tm_decimals md) <= 38 -> amt = rescale (amount - fee) (tm_decimals md) dec) /\
    is_multivault e s mv /\ lam (accs s' mv) = lam (accs s mv) + value /\
    lam (accs s' funder) = lam (accs s funder) - value - rent /\ lam (accs s' deposit) = rent + lam (accs s deposit).
Proof.
  intros e ext c seed amount recipient value evers payload s s' CALL.
  apply tp_call_exec in CALL as (Hp & OI & _ & H). cbn [tp_exec] in H. apply ix_deposit_ever in OI.
  apply tp_deposit_ever_ok in H as (f & cr & ct & dk & mint & mv & tsk & sk & x & y & z & rest & K & B); [|lia].
  destruct B as (st & pn & ts & mn & m & tok & dc & md & dn & fee & pu & amt & s1 & s2 & s3 & S & VS & GE & V & KT & EM & PM & TM & VM & PD & F & PE & P0 & B1 & GA & BU & _ & _ & RE & PK & LP).
  rewrite Hp in *. destruct (fee_on_of _ _ _ _ F) as [FD FE].
  pose proof (token_ok _ _ _ _ _ _ V) as OT. pose proof (token_init _ _ _ _ _ _ V) as IT.
  pose proof (tokens_burned _ _ _ _ _ _ BU) as TK.
  assert (NS : nospl s1 s').
  { eapply nospl_trans; [eapply nospl_recorded; [exact Hp|exact RE]|]. eapply nospl_trans; [eapply nospl_packed; [exact Hp|exact PK]|eapply nospl_lpaid; exact LP]. }
  destruct (recorded_deposit (c_withlen c_dever_event) e c dn cr _ seed f dk _ s1 s2 Hp PD RE) as (UN & OD & LD & KD).
  pose proof (burned_step _ _ _ _ _ _ BU) as SS.
  assert (SO1 : same_od s s1 tsk) by (apply SS; eapply token_len; exact V).
  assert (SOM : same_od s s1 mv) by (apply SS; eapply multivault_len; exact VM).
  assert (ND : tsk <> dk).
  { intros ->. destruct UN as [_ UN]. destruct SO1 as [_ SO1]. apply token_len in V. rewrite <- SO1, UN in V. discriminate. }
  assert (NM : mv <> dk).
  { intros ->. destruct UN as [_ UN]. destruct SOM as [_ SOM]. apply multivault_len in VM. rewrite <- SOM, UN in VM. discriminate. }
  assert (SO2 : same_od s s2 tsk) by (apply (same_od_trans _ s1); [exact SO1|apply RE; exact ND]).
  assert (TA' : token_at e s' tsk (tk_set_fee_supply ts (tk_fee_supply ts + fee))).
  { apply (token_at_same e s3); [apply LP|]. eapply packed_token; [exact (same_od_token _ _ _ _ _ _ SO2 V)|exact PK| |exact IT|reflexivity].
    eapply deposit_fee_ok; eassumption. }
  destruct LP as (SF & LF & DF & SOD & _ & DL & _). pose proof RE as (NR & LZ & SOR & DLR & _).
  assert (LBU : forall j, lam (accs s1 j) = lam (accs s j)) by (destruct BU as (? & ? & ? & ? & BU); apply BU).
  assert (LPK : forall j, lam (accs s3 j) = lam (accs s2 j)) by (eapply packed_lam; exact PK).
  assert (BPK : forall j, blen (dat (accs s3 j)) = blen (dat (accs s2 j))).
  { intros j. destruct (key_dec j tsk) as [->|N]; [|rewrite (packed_other _ _ _ _ _ _ _ PK) by exact N; reflexivity].
    eapply wrote_blen; [eapply packed_wrote; exact PK|reflexivity]. }
  assert (BF : blen (dat (accs s2 f)) = 0) by (rewrite <- BPK, DF; reflexivity).
  assert (NFD : f <> dk) by (intros ->; rewrite LD in BF; discriminate).
  assert (NF : mv <> f).
  { intros ->. rewrite (proj2 (same_od_trans _ _ _ _ SOM (SOR _ NM))) in BF. apply multivault_len in VM. rewrite VM in BF. discriminate. }
  assert (NTD : dk <> tsk) by congruence.
  assert (HD : holds c_dever s' dk (Dep true (KDeposit dn) cr (dever_event_new (DEverEvent tok amt recipient value evers payload)) (dep_meta_new seed))).
  { apply (holds_same _ _ s3); [apply SOD|]. apply (holds_same _ _ s2); [eapply packed_od; [exact PK|exact NTD]|]. rewrite Hp in NR. eapply new_holds. exact NR. }
  pose proof (nospl_still _ _ NS) as (BS & SS' & RS).
  destruct BU as (a & mm & dl & da & T1 & T2 & NMS & EMM & LA & LS & AU & T3 & T4 & OTH & _).
  assert (MD : mm = md) by (destruct T2 as [_ T2]; unfold tmint_in in *; congruence). subst mm.
  exists f, cr, ct, dk, mint, mv, tsk, a, md, ts, (tk_set_fee_supply ts (tk_fee_supply ts + fee)), m, tok, dc, amt, (Z.max 1 (rent_min e TP_LEN)).
  split; [eexists; exact K|]. split; [eapply token_spec; exact V|]. split; [exact KT|].
  split; [exists mn; exact PM|]. split; [exact T2|]. split; [exact T1|]. split; [exact EMM|]. split; [exact S|].
  split; [|].
  { destruct AU as [[[AU|AU] _]|[[AU _]|(_ & AU & _)]]; [left; exact AU|right; left; exact AU|right; right; right; exact AU|right; right; left; exact AU]. }
  cbv zeta. rewrite <- FE. split; [lia|]. split; [rewrite (balance_tok _ _ _ T1); exact LA|].
  split; [rewrite BS, (balance_tok _ _ _ T3), (balance_tok _ _ _ T1); reflexivity|].
  split; [rewrite SS', (supply_mint _ _ _ T4), (supply_mint _ _ _ T2); reflexivity|].
  split; [|].
  { intros j O NJ. apply (same_od_trans _ s1); [apply OTH; tauto|]. apply RS; [|tauto].
    destruct (OTH j) as [OO _]; [tauto|tauto|congruence]. }
  split; [exact TA'|]. split; [reflexivity|].
  assert (FR : fresh s dk).
  { assert (same_od s s1 dk).
    { destruct UN as [_ UN]. apply OTH; intros ->; [apply mint_len in T4; rewrite UN in T4; discriminate|apply tok_len in T3; rewrite UN in T3; discriminate]. }
    destruct H as [H1 H2], UN as [UN1 UN2]. split; congruence. }
  split; [exact FR|]. split; [split; [exists dn; exact PD|exists dn; eexists; exact HD]|].
  split; [|].
  { intros D. rewrite <- PE. eapply gda_rescale; eassumption. }
  split; [apply multivault_spec; exact VM|].
  split; [rewrite DL, LPK, DLR, LBU, at_same, !at_other by congruence; lia|].
  split; [rewrite DL, LPK, DLR, LBU, !at_same, !at_other by congruence; lia|].
  rewrite DL, LPK, DLR, LBU, at_same, !at_other by (try congruence; intros ->; congruence); lia.
Qed.

(** * C38 and C39 Deposits of Solana tokens *)

Lemma mv_not_token e s k ts vn : multivault_in e tp_id s k -> token_in e tp_id s k ts vn -> False.
Proof.
  intros (mv & n & U & KM & _) [U' R]. apply kind_multi_vault in U. apply kind_token_settings in U'.
  unfold token_in in R. destruct R as (tn & KT & _). congruence.
Qed.

(** What the registration of a Solana token, if any, changes. *)
Lemma reg_sol e c f vk mint tsk name symbol s s0 : c_pid c = tp_id -> okb c_string name = true -> okb c_string symbol = true ->
  ((lam (accs s tsk) <> 0 /\ s0 = s) \/ (lam (accs s tsk) = 0 /\ registered_sol e c f vk mint tsk name symbol s s0)) ->
  (forall j, j <> vk -> j <> tsk -> same_od s s0 j) /\ (forall j, j <> vk -> j <> tsk -> j <> f -> lam (accs s0 j) = lam (accs s j)) /\
  (forall j, j <> vk -> balance s0 j = balance s j) /\
  (lam (accs s tsk) <> 0 \/ mint <> native_mint -> balance s0 vk = balance s vk) /\
  (forall j, supply s0 j = supply s j) /\ (forall j, own (accs s j) = spl_id -> same_od s s0 j) /\
  (lam (accs s tsk) <> 0 -> s0 = s) /\
  (lam (accs s tsk) = 0 -> exists kd, unpack c_token_settings TP_LEN tk_init (dat (accs s0 tsk)) = Ok (new_token_settings kd (TKSol mint vk) name symbol)).
Proof.
  intros Hp ON OS [[L ->]|[L R]].
  { repeat split; try reflexivity. intros L'. contradiction. }
  pose proof (tokens_registered_sol e c f vk mint tsk name symbol s s0 Hp R) as TK.
  destruct R as (vn & tn & t & PV & PT & NV & VO & VD & TV & TM & _ & _ & _ & AM & NR & SO & DL & _). rewrite Hp in *.
  assert (NT : own (accs s tsk) = sys_id /\ own (accs s0 tsk) = tp_id) by (split; apply NR).
  split; [exact SO|]. split; [|split; [|split; [|split; [|split; [|split]]]]].
  - intros j N1 N2 N3. rewrite DL, !at_other by assumption. lia.
  - intros j N. destruct (key_dec j tsk) as [->|N2]; [|apply balance_same, SO; assumption].
    destruct NT as [N1 N2]. rewrite !balance_other; [reflexivity|rewrite N1; discriminate|rewrite N2; discriminate].
  - intros [X|X]; [contradiction|]. rewrite (balance_tok _ _ _ TV), balance_other; [apply AM, X|rewrite VO; discriminate].
  - intros j. rewrite (to_sup _ _ _ _ TK). unfold none. lia.
  - intros j O. apply SO; intros ->; [rewrite VO in O|destruct NT as [NT _]; rewrite NT in O]; discriminate.
  - intros X. contradiction.
  - intros _. eexists. set (nt := new_token_settings (KTokenSettings tn vn) (TKSol mint vk) name symbol) in *.
    assert (OT : okb c_token_settings nt = true).
    { apply new_token_ok; try assumption; try (eapply bump_ok; eassumption). reflexivity. }
    destruct (new_held c_token_settings _ tk_init nt s s0 tsk NR OT eq_refl) as [_ [_ U]]. exact U.
Qed.

Lemma moved_bal s s' a b au n : moved s s' a b au n -> forall j, balance s' j = balance s j + shift a b n j.
Proof.
  intros (x & y & dl & da & T1 & T2 & _ & _ & _ & EE & NE & OTH & _) j.
  destruct (key_dec a b) as [->|N]; [rewrite EE by reflexivity; unfold shift; lia|].
  destruct (NE N) as [T3 T4]. unfold shift.
  destruct (key_dec j a) as [->|N1]; [rewrite gain_at, gain_other by exact N; rewrite (balance_tok _ _ _ T1), (balance_tok _ _ _ T3); cbn [ta_amount ta_with]; lia|].
  rewrite (gain_other a) by exact N1.
  destruct (key_dec j b) as [->|N2]; [rewrite gain_at, (balance_tok _ _ _ T2), (balance_tok _ _ _ T4); cbn [ta_amount ta_with]; lia|].
  rewrite gain_other by exact N2. rewrite (balance_same s s' j) by (apply OTH; assumption). lia.
Qed.

(** A successful deposit of [amount] Solana tokens: exactly [amount] tokens go from the sender's token
    account, signed for by its owner or delegate, to the vault account of the account list, which
    afterwards holds no more than the deposit limit; no other account of the token program changes,
    except for the vault when the token is registered by this very deposit; the fee is added to
    the token's recorded fees; a new deposit account records the mint of the account list, the amount
    less fee, and recipient, value and payload as instructed; the multi-vault gets exactly [value].
    Missing for the full C38 and C39: the vault and the mint of the account list need not be those of the
    token's settings (the [m] and [v] below), see C38_refuted and C39_refuted. *)
Theorem C38_partial : forall e ext c seed name symbol amount recipient value evers payload s s',
  tp_call e ext c (TpDepositSol seed name symbol amount recipient value evers payload) s s' ->
  exists funder sender src vault deposit mint mv tsk t md ts' m v,
    (exists rest, c_keys c = funder :: sender :: src :: vault :: deposit :: mint :: mv :: tsk :: rest) /\
    token_at e s' tsk ts' /\ tk_kind ts' = TKSol m v /\
    tmint_in s mint md /\ c_sg c sender = true /\ spender t sender /\
    let fee := fee_on (tk_fee_dep ts') amount in
    fee <= amount /\
    (src = vault -> tok_in s' vault t) /\
    (src <> vault -> tok_in s src t /\ amount <= balance s src /\ balance s' src = balance s src - amount /\
       (lam (accs s tsk) <> 0 \/ mint <> native_mint -> balance s' vault = balance s vault + amount)) /\
    balance s' vault <= tk_dlimit ts' /\ (forall j, j <> vault -> j <> src -> balance s' j = balance s j) /\
    (forall j, supply s' j = supply s j) /\ spl_rest s s' (fun j => j = src \/ j = vault) /\
    (lam (accs s tsk) <> 0 -> exists ts, token_at e s tsk ts /\ tk_fee_supply ts' = tk_fee_supply ts + fee) /\
    (lam (accs s tsk) = 0 -> m = mint /\ v = vault /\ tk_name ts' = name /\ tk_symbol ts' = symbol /\ tk_fee_supply ts' = fee) /\
    fresh s deposit /\
    sol_deposit e s' deposit sender seed (DSolEvent mint (tk_name ts') (tk_symbol ts') (tm_decimals md) (amount - fee) recipient value evers payload) /\
    is_multivault e s mv /\ lam (accs s' mv) = lam (accs s mv) + value.
Proof.
  intros e ext c seed name symbol amount recipient value evers payload s s' CALL.
  apply tp_call_exec in CALL as (Hp & OI & _ & H). cbn [tp_exec] in H. apply ix_deposit_sol in OI as (OI & ON & OS).
  apply tp_deposit_sol_ok in H as (f & cr & ct & vk & dk & mint & mv & tsk & sk & x & y & z & rest & st & pn & s0 & K & S & VS & GE & LN & LS & R & B); [|lia].
  destruct B as (ts & vn & sm & sv & md & vt & dn & fee & amt & s1 & s2 & s3 & V & KT & EM & MM & TM & VV & TV & DLI & DLU & VM & PD & F & PE & P0 & B1 & B).
  cbv zeta in B. destruct B as ((MV & SG & _) & LP & RE & PK).
  rewrite Hp in *. destruct (fee_on_of _ _ _ _ F) as [FD FE].
  pose proof (token_ok _ _ _ _ _ _ V) as OT. pose proof (token_init _ _ _ _ _ _ V) as IT.
  pose proof (moved_step _ _ _ _ _ _ MV) as SS.
  assert (NS : nospl s1 s').
  { eapply nospl_trans; [eapply nospl_lpaid; exact LP|]. eapply nospl_trans; [eapply nospl_recorded; [exact Hp|exact RE]|eapply nospl_packed; [exact Hp|exact PK]]. }
  destruct (recorded_deposit (c_withlen c_dsol_event) e c dn cr _ seed f dk _ s2 s3 Hp PD RE) as (UN & OD & LD & KD).
  assert (SO1 : same_od s0 s2 tsk) by (apply (same_od_trans _ s1); [apply SS; eapply token_len; exact V|apply LP]).
  assert (SOM : same_od s0 s2 mv) by (apply (same_od_trans _ s1); [apply SS; eapply multivault_len; exact VM|apply LP]).
  assert (ND : tsk <> dk).
  { intros ->. destruct UN as [_ UN]. destruct SO1 as [_ SO1]. apply token_len in V. rewrite <- SO1, UN in V. discriminate. }
  assert (NM : mv <> dk).
  { intros ->. destruct UN as [_ UN]. destruct SOM as [_ SOM]. apply multivault_len in VM. rewrite <- SOM, UN in VM. discriminate. }
  assert (NMT : mv <> tsk) by (intros ->; eapply mv_not_token; eassumption).
  assert (SO2 : same_od s0 s3 tsk) by (apply (same_od_trans _ s2); [exact SO1|apply RE; exact ND]).
  assert (TA' : token_at e s' tsk (tk_set_fee_supply ts (tk_fee_supply ts + fee))).
  { eapply packed_token; [exact (same_od_token _ _ _ _ _ _ SO2 V)|exact PK| |exact IT|reflexivity].
    eapply deposit_fee_ok; eassumption. }
  destruct LP as (SF & LF & DF & SOD & _ & DL & _). pose proof RE as (NR & LZ & SOR & DLR & _).
  assert (LPK : forall j, lam (accs s' j) = lam (accs s3 j)) by (eapply packed_lam; exact PK).
  pose proof (nospl_still _ _ NS) as (BS & SS' & RS).
  destruct (reg_sol e c f vk mint tsk name symbol s s0 Hp ON OS R) as (R1 & R2 & R3 & R4 & R5 & R6 & R7 & R8). clear R.
  pose proof (tokens_moved _ _ _ _ _ _ MV) as TK. pose proof MV as (a & b & dl & da & T1 & T2 & EQ & LA & SP & EE & NE & OTH & _ & DM).
  assert (EB : b = vt) by (destruct T2 as [_ T2]; unfold tacc_in in *; congruence). subst b.
  assert (NMV : mint <> vk) by (intros ->; apply tok_len in T2; apply tmint_in_ok in TM as [_ [TM _]]; congruence).
  assert (NMK : mint <> tsk) by (intros ->; apply token_len in V; apply tmint_in_ok in TM as [_ [TM _]]; rewrite TM in V; discriminate).
  assert (NCK : ct <> tsk) by (intros ->; apply token_len in V; apply tok_len in T1; rewrite T1 in V; discriminate).
  assert (NVK : vk <> tsk) by (intros ->; apply token_len in V; apply tok_len in T2; rewrite T2 in V; discriminate).
  assert (NVM : mv <> vk) by (intros ->; apply multivault_len in VM; apply tok_len in T2; rewrite T2 in VM; discriminate).
  assert (NCM : mv <> ct) by (intros ->; apply multivault_len in VM; apply tok_len in T1; rewrite T1 in VM; discriminate).
  assert (NF : mv <> f).
  { intros ->. destruct SOM as [_ SOM]. rewrite (proj2 (SOD f)), DF in SOM. apply multivault_len in VM. rewrite <- SOM in VM. discriminate. }
  assert (HD : holds c_dsol s' dk (Dep true (KDeposit dn) cr (dsol_event_new (DSolEvent mint (tk_name ts) (tk_symbol ts) (tm_decimals md) amt recipient value evers payload)) (dep_meta_new seed))).
  { apply (holds_same _ _ s3); [eapply packed_od; [exact PK|congruence]|]. rewrite Hp in NR. eapply new_holds. exact NR. }
  assert (UD : same_od s s2 dk).
  { apply (same_od_trans _ s1); [|apply SOD]. assert (X : same_od s0 s1 dk).
    { eapply moved_sys; [exact MV|]. rewrite <- (proj1 (SOD dk)). apply UN. }
    apply (same_od_trans _ s0); [|exact X]. apply R1; [|congruence]. intros <-.
    destruct UN as [_ UN]. rewrite (proj2 (SOD dk)), (proj2 X) in UN. apply tok_len in T2. rewrite UN in T2. discriminate. }
  assert (BC : ct <> vk -> balance s' ct = balance s ct - amount).
  { intros N. rewrite BS. destruct (NE N) as [X _]. rewrite (balance_tok _ _ _ X), <- (R3 ct N), (balance_tok _ _ _ T1). reflexivity. }
  assert (BV : ct <> vk -> balance s' vk = ta_amount vt + amount).
  { intros N. rewrite BS. destruct (NE N) as [_ X]. rewrite (balance_tok _ _ _ X). reflexivity. }
  assert (TB : ct = vk -> tok_in s' vk a).
  { intros E. rewrite (EE E) in NS. subst ct. assert (X : own (accs s0 vk) = spl_id) by apply T1.
    destruct (NS vk) as [[Y1 Y2]|[Y _]]; [|contradiction]. destruct T1 as [Q1 Q2]. split; [congruence|]. unfold tacc_in in *. rewrite Y2. exact Q2. }
  assert (BL : balance s' vk <= tk_dlimit ts).
  { destruct (key_dec ct vk) as [E|N]; [|rewrite (BV N); exact DLI]. rewrite (balance_tok _ _ _ (TB E)). subst ct.
    assert (a = vt) by (destruct T1 as [_ T1]; unfold tacc_in in *; congruence). subst a. lia. }
  exists f, cr, ct, vk, dk, mint, mv, tsk, a, md, (tk_set_fee_supply ts (tk_fee_supply ts + fee)), sm, sv.
  split; [eexists; exact K|]. split; [exact TA'|]. split; [exact KT|].
  split; [unfold tmint_in in *; rewrite <- (proj2 (R1 mint NMV NMK)); exact TM|]. split; [exact S|].
  split; [destruct SP as [[SP _]|(_ & SP & _)]; [right; exact SP|left; exact SP]|].
  cbv zeta. cbn [tk_fee_dep tk_set_fee_supply tk_fee_supply tk_dlimit tk_name tk_symbol]. rewrite <- FE, <- PE. split; [lia|].
  split; [exact TB|]. split; [|split; [exact BL|split; [|split; [|split; [|split; [|split; [|split; [|split; [|split]]]]]]]]].
  - intros N. assert (T0 : tok_in s ct a).
    { destruct (R1 ct N NCK) as [X1 X2]. destruct T1 as [Q1 Q2]. split; [congruence|]. unfold tacc_in in *. rewrite <- X2. exact Q2. }
    split; [exact T0|]. split; [rewrite (balance_tok _ _ _ T0); exact LA|]. split; [exact (BC N)|].
    intros X. rewrite (BV N), <- (R4 X), (balance_tok _ _ _ T2). reflexivity.
  - intros j N1 N2. rewrite BS, (moved_bal _ _ _ _ _ _ MV j), (R3 j N1). unfold shift, gain.
    rewrite (keqb_ne j ct), (keqb_ne j vk) by assumption. destruct (keqb vk ct), (keqb ct vk); lia.
  - intros j. rewrite SS', <- R5, (to_sup _ _ _ _ TK). unfold none. lia.
  - intros j O NJ. apply (same_od_trans _ s0); [exact (R6 j O)|]. assert (X : same_od s0 s1 j) by (apply OTH; tauto).
    apply (same_od_trans _ s1); [exact X|]. apply RS; [|tauto]. destruct X as [X _], (R6 j O) as [Y _]. congruence.
  - intros L. rewrite (R7 L) in V. exists ts. split; [eapply token_spec; exact V|reflexivity].
  - intros L. destruct (R8 L) as [kd U]. destruct V as [V _]. rewrite U in V. injection V as <-.
    cbn [tk_kind new_token_settings] in KT. injection KT as <- <-.
    cbn [tk_name tk_symbol tk_fee_supply new_token_settings]. repeat (split; [reflexivity|]). reflexivity.
  - destruct UD as [X1 X2], UN as [UN1 UN2]. split; congruence.
  - split; [exists dn; exact PD|exists dn; eexists; exact HD].
  - apply multivault_spec. destruct VM as (m' & n & U & REST). exists m', n. split; [|exact REST]. rewrite <- (proj2 (R1 mv NVM NMT)). exact U.
  - rewrite LPK, DLR, DL, DM, <- (R2 mv NVM NMT NF), at_same, !at_other by assumption. destruct (fst (ta_native a)); lia.
Qed.

(** No deposit of Solana tokens raises the balance of any token account - so in particular that of the
    token's vault - above the deposit limit.
    Missing for the full C39: a vault that holds more than a lowered limit already does not stop deposits, see
    C39_refuted. *)
Theorem C39_partial : forall e ext c seed name symbol amount recipient value evers payload s s' tsk,
  tp_call e ext c (TpDepositSol seed name symbol amount recipient value evers payload) s s' -> nth_error (c_keys c) 7 = Some tsk ->
  exists ts', token_at e s' tsk ts' /\ forall j, balance s' j <= Z.max (tk_dlimit ts') (balance s j).
Proof.
  intros e ext c seed name symbol amount recipient value evers payload s s' tsk CALL K7.
  assert (0 <= amount) as A0. { apply tp_call_exec in CALL as (_ & OI & _ & _). apply ix_deposit_sol in OI as (OI & _ & _). lia. }
  apply C38_partial in CALL as (f & se & src & vault & dk & mint & mv & tsk' & t & md & ts' & m & v & (rest & K) & TA & _ & _ & _ & _ & X).
  cbv zeta in X. destruct X as (_ & _ & B1 & B2 & B3 & _). rewrite K in K7. injection K7 as <-. exists ts'. split; [exact TA|].
  intros j. destruct (key_dec j vault) as [->|N1]; [lia|]. destruct (key_dec j src) as [->|N2]; [|rewrite (B3 j N1 N2); lia].
  destruct (B1 N1) as (_ & _ & Q & _). lia.
Qed.

(** * C40 Withdrawing the collected fees *)

Lemma ix_u64 i amount : okb c_tp_ix i = true -> i = TpWithdrawEverFee amount \/ i = TpWithdrawSolFee amount \/ i = TpWithdrawMultiVault amount \/ i = TpWithdrawProxy amount ->
  0 <= amount < u64max.
Proof. intros O [->|[->|[->| ->]]]; apply okb_u64; change (okb c_u64 amount = true) in O; exact O. Qed.
Lemma entitled_manager e c s sk st pn a : c_pid c = tp_id -> c_sg c a = true -> tp_settings_in e tp_id s sk st pn -> entitled e tp_id s (gs_manager st) a ->
  settings_at e s sk st /\ signed_for e c s (gs_manager st).
Proof. intros Hp SG VS EN. split; [eapply settings_spec; exact VS|eapply entitled_spec; eassumption]. Qed.
Lemma fee_less_ok ts n : okb c_token_settings ts = true -> 0 <= n <= tk_fee_supply ts -> okb c_token_settings (tk_set_fee_supply ts (tk_fee_supply ts - n)) = true.
Proof. intros O B. pose proof O as O2. apply okb_ts in O2. apply fee_supply_ok; [exact O|]. lia. Qed.

(** Withdrawing [amount] of an Ever token's fees: the manager or the upgrade authority signed, no more
    than the recorded fees, which shrink by exactly [amount], are minted, to one token account; no
    other account of the token program changes. *)
Theorem C40_ever : forall e ext c amount s s', tp_call e ext c (TpWithdrawEverFee amount) s s' ->
  exists authority mint dst tsk settings st ts ts' m token dec,
    (exists rest, c_keys c = authority :: mint :: dst :: tsk :: settings :: rest) /\
    settings_at e s settings st /\ signed_for e c s (gs_manager st) /\
    token_at e s tsk ts /\ tk_kind ts = TKEver m token dec /\ tp_addr e (str "mint" ++ kb (token_hash e token)) mint /\
    amount <= tk_fee_supply ts /\ token_at e s' tsk ts' /\ ts' = tk_set_fee_supply ts (tk_fee_supply ts - amount) /\
    mint <> dst /\ supply s' mint = supply s mint + amount /\ balance s' dst = balance s dst + amount /\
    spl_rest s s' (fun j => j = mint \/ j = dst).
Proof.
  intros e ext c amount s s' CALL. apply tp_call_exec in CALL as (Hp & OI & _ & H). cbn [tp_exec] in H.
  assert (A0 : 0 <= amount < u64max) by (eapply ix_u64; [exact OI|tauto]).
  apply tp_withdraw_ever_fee_ok in H as (a & mint & dst & tsk & sk & x & rest & K & st & pn & ts & mn & m & token & dc & s1 & SG & VS & EN & V & KT & PM & OM & OR & LE & MI & _ & _ & _ & PK); [|lia].
  rewrite Hp in *. destruct (entitled_manager _ _ _ _ _ _ _ Hp SG VS EN) as [SA SF].
  pose proof (minted_step _ _ _ _ _ MI) as SS. pose proof (nospl_packed c c_token_settings TP_LEN _ _ _ _ Hp PK) as NS.
  destruct (nospl_still _ _ NS) as (BS & SS' & RS). destruct MI as (b & mm & T1 & T2 & N & _ & _ & T3 & T4 & OTH & _).
  assert (SO : same_od s s1 tsk) by (apply SS; eapply token_len; exact V).
  exists a, mint, dst, tsk, sk, st, ts, (tk_set_fee_supply ts (tk_fee_supply ts - amount)), m, token, dc.
  split; [eexists; exact K|]. split; [exact SA|]. split; [exact SF|]. split; [eapply token_spec; exact V|]. split; [exact KT|].
  split; [exists mn; exact PM|]. split; [exact LE|]. split.
  { eapply packed_token; [exact (same_od_token _ _ _ _ _ _ SO V)|exact PK| |exact (token_init _ _ _ _ _ _ V)|reflexivity].
    apply fee_less_ok; [eapply token_ok; exact V|lia]. }
  split; [reflexivity|]. split; [exact N|]. split; [rewrite SS', (supply_mint _ _ _ T4), (supply_mint _ _ _ T2); reflexivity|].
  split; [rewrite BS, (balance_tok _ _ _ T1), (balance_tok _ _ _ T3); reflexivity|].
  intros j O NJ. assert (X : same_od s s1 j) by (apply OTH; tauto). apply (same_od_trans _ s1); [exact X|]. apply RS; [|tauto]. destruct X; congruence.
Qed.

(** The same for a Solana token: [amount] leaves the token's vault. *)
Theorem C40_sol : forall e ext c amount s s', tp_call e ext c (TpWithdrawSolFee amount) s s' ->
  exists authority vault dst tsk settings st ts ts' m v,
    (exists rest, c_keys c = authority :: vault :: tsk :: dst :: settings :: rest) /\
    settings_at e s settings st /\ signed_for e c s (gs_manager st) /\
    token_at e s tsk ts /\ tk_kind ts = TKSol m v /\ tp_addr e (str "vault" ++ kb m) vault /\
    amount <= tk_fee_supply ts /\ token_at e s' tsk ts' /\ ts' = tk_set_fee_supply ts (tk_fee_supply ts - amount) /\
    amount <= balance s vault /\
    (vault <> dst -> balance s' vault = balance s vault - amount /\ balance s' dst = balance s dst + amount) /\
    (forall j, supply s' j = supply s j) /\
    spl_rest s s' (fun j => vault <> dst /\ (j = vault \/ j = dst)).
Proof.
  intros e ext c amount s s' CALL. apply tp_call_exec in CALL as (Hp & OI & _ & H). cbn [tp_exec] in H.
  assert (A0 : 0 <= amount < u64max) by (eapply ix_u64; [exact OI|tauto]).
  apply tp_withdraw_sol_fee_ok in H as (a & vault & tsk & dst & sk & x & rest & K & st & pn & ts & vn & m & v & s1 & SG & VS & EN & V & KT & PM & LE & MV & _ & _ & _ & PK); [|lia].
  rewrite Hp in *. destruct (entitled_manager _ _ _ _ _ _ _ Hp SG VS EN) as [SA SF].
  pose proof (moved_step _ _ _ _ _ _ MV) as SS. pose proof (nospl_packed c c_token_settings TP_LEN _ _ _ _ Hp PK) as NS.
  pose proof (tokens_moved _ _ _ _ _ _ MV) as TK.
  destruct (nospl_still _ _ NS) as (BS & SS' & RS). destruct MV as (ta & tb & dl & da & T1 & T2 & _ & LA & _ & EE & NE & OTH & _).
  assert (SO : same_od s s1 tsk) by (apply SS; eapply token_len; exact V).
  exists a, vault, dst, tsk, sk, st, ts, (tk_set_fee_supply ts (tk_fee_supply ts - amount)), m, v.
  split; [eexists; exact K|]. split; [exact SA|]. split; [exact SF|]. split; [eapply token_spec; exact V|]. split; [exact KT|].
  split; [exists vn; exact PM|]. split; [exact LE|]. split.
  { eapply packed_token; [exact (same_od_token _ _ _ _ _ _ SO V)|exact PK| |exact (token_init _ _ _ _ _ _ V)|reflexivity].
    apply fee_less_ok; [eapply token_ok; exact V|lia]. }
  split; [reflexivity|]. split; [rewrite (balance_tok _ _ _ T1); exact LA|]. split.
  { intros N. destruct (NE N) as [T3 T4].
    split; rewrite BS; [rewrite (balance_tok _ _ _ T3), (balance_tok _ _ _ T1)|rewrite (balance_tok _ _ _ T4), (balance_tok _ _ _ T2)]; reflexivity. }
  split; [intros j; rewrite SS', (to_sup _ _ _ _ TK); unfold none; lia|].
  intros j O NJ. assert (X : same_od s s1 j).
  { destruct (key_dec vault dst) as [E|N]; [rewrite (EE E); apply same_od_refl|]. apply OTH; tauto. }
  apply (same_od_trans _ s1); [exact X|]. apply RS; [|tauto]. destruct X; congruence.
Qed.

(** * C44 Filling pending withdrawals *)

(** A filled request with the token account that is paid. *)
Record filling := Filling { f_request : key; f_account : key; f_w : wsol }.
Definition f_gross (x : filling) : Z := wse_amount (event_of (f_w x)).
Definition f_fee (fi : fee_info) (x : filling) : Z := fee_on fi (f_gross x).
Definition f_bounty (x : filling) : Z := wm_bounty (wl_data (p_meta (f_w x))).
(** Amount less fee less bounty. *)
Definition f_out (fi : fee_info) (x : filling) : Z := f_gross x - f_fee fi x - f_bounty x.
Definition total {A} (f : A -> Z) (l : list A) : Z := fold_right (fun x z => f x + z) 0 l.
Definition keys_of (l : list filling) : list key := flat_map (fun x => [f_request x; f_account x]) l.
(** What account [j] gets by paying every request of [l] from [src]. *)
Definition payments (fi : fee_info) (src : key) (l : list filling) (j : key) : Z :=
  total (fun x => if keqb j (f_account x) then f_out fi x else 0) l - (if keqb j src then total (f_out fi) l else 0).
(** [x] is pending, for tokens [mint], to be paid to a token account of the event's recipient, and finished
    afterwards. *)
Definition filled (e : env) (s s' : state) (mint : key) (fi : fee_info) (x : filling) : Prop :=
  sol_request e s (f_request x) (f_w x) /\ status_of (f_w x) = WPending /\ wse_mint (event_of (f_w x)) = mint /\
  (exists r, tok_in s (f_account x) r /\ ta_owner r = wse_recipient (event_of (f_w x))) /\
  f_gross x < 2 ^ 64 /\ 0 <= f_out fi x /\
  sol_request e s' (f_request x) (w_set_status (f_w x) WProcessed).

(** [t] is an earlier state of the token account [t']. *)
Definition earlier (t t' : tacc) : Prop := ta_owner t' = ta_owner t /\ ta_mint t' = ta_mint t /\ forall a, spender t' a -> spender t a.
Lemma earlier_refl t : earlier t t.
Proof. split; [reflexivity|]. split; [reflexivity|]. auto. Qed.
Lemma earlier_trans a b c : earlier a b -> earlier b c -> earlier a c.
Proof. intros (A & B & C) (D & E & F). split; [congruence|]. split; [congruence|]. auto. Qed.
Lemma moved_back s s' a b au n j t' : moved s s' a b au n -> tok_in s' j t' ->
  exists t, tok_in s j t /\ earlier t t'.
Proof.
  intros (x & y & dl & da & T1 & T2 & _ & _ & MS & EE & NE & OTH & _) T.
  destruct (key_dec a b) as [E|N]; [rewrite (EE E) in T; exists t'; split; [exact T|apply earlier_refl]|]. destruct (NE N) as [T3 T4].
  destruct (key_dec j a) as [->|N1].
  { exists x. split; [exact T1|]. assert (t' = ta_with x (ta_amount x - n) dl da) by (destruct T as [_ T], T3 as [_ T3]; unfold tacc_in in *; congruence). subst.
    split; [reflexivity|]. split; [reflexivity|]. intros z [Z|Z]; [left; exact Z|]. cbn [ta_delegate ta_with] in Z.
    destruct MS as [(D & _ & _ & E)|(_ & _ & E & _)]; [|right; congruence]. right. rewrite D. destruct (ta_damount x - n =? 0); congruence. }
  destruct (key_dec j b) as [->|N2].
  { exists y. split; [exact T2|]. assert (t' = ta_with y (ta_amount y + n) (ta_delegate y) (ta_damount y)) by (destruct T as [_ T], T4 as [_ T4]; unfold tacc_in in *; congruence). subst.
    split; [reflexivity|]. split; [reflexivity|]. auto. }
  exists t'. split; [|apply earlier_refl]. eapply same_od_tok; [apply same_od_sym, OTH; assumption|exact T].
Qed.
Lemma nospl_back s s' j t : nospl s s' -> tok_in s' j t -> tok_in s j t.
Proof. intros NS T. destruct (NS j) as [X|[_ X]]; [eapply same_od_tok; [apply same_od_sym; exact X|exact T]|apply plain_ne in X; destruct T; contradiction]. Qed.
Lemma payments_cons fi src x l j : payments fi src (x :: l) j = shift src (f_account x) (f_out fi x) j + payments fi src l j.
Proof. unfold payments, shift, gain. cbn [total fold_right]. fold (total (f_out fi) l). destruct (keqb j src), (keqb j (f_account x)); unfold total; lia. Qed.

Lemma fill_one_list e c au src sm dk f wk rt fee net s s' : c_pid c = tp_id ->
  fill_one_eff e c au src sm dk f wk rt fee net s s' ->
  exists w, let x := Filling wk rt w in filled e s s' sm f x /\ fee = f_fee f x /\ net = f_gross x - f_fee f x /\
    (forall j, balance s' j = balance s j + shift src rt (f_out f x) j) /\ (forall j, supply s' j = supply s j) /\
    spl_rest s s' (fun j => j = src \/ j = rt) /\
    (forall j t', tok_in s' j t' -> exists t, tok_in s j t /\ earlier t t') /\
    (exists t r, tok_in s src t /\ tok_in s rt r /\ ta_mint t = ta_mint r /\ spender t au /\ 0 <= f_fee f x <= f_gross x) /\ c_sg c au = true.
Proof.
  intros Hp F. destruct F as (w & r & out & s1 & s2 & [U RA] & ST & EM & TR & OR & LT & FE & NE & N0 & OE & O0 & (MV & SG & _) & PK & ->). rewrite Hp in *.
  assert (SO : same_od s s1 wk) by (apply (moved_step _ _ _ _ _ _ MV); eapply unpack_len; [|exact U]; typeclasses eauto).
  assert (NS : nospl s1 (put_log s2 (enc c_ev_liq (EvLiq dk wk)))).
  { apply (nospl_trans _ s2); [eapply nospl_put; [exact Hp|exact PK]|apply nospl_accs; reflexivity]. }
  destruct (nospl_still _ _ NS) as (BS & SS & RS). destruct (fee_on_of _ _ _ _ FE) as [_ FE']. apply fee_pos in FE.
  pose proof (tokens_moved _ _ _ _ _ _ MV) as TK.
  destruct (packed_moves (c_withlen c_wsol_event) _ c _ _ _ w WProcessed Hp PK) as [H1 H2].
  { destruct SO as [_ SO]. cbn [accs put_log]. rewrite SO. exact U. }
  { rewrite ST. discriminate. }
  assert (HS : tp_wsol s wk w) by exact (held_same _ _ _ _ _ _ (same_od_sym _ _ _ SO) H1).
  assert (EO : out = f_out f (Filling wk rt w)) by (unfold f_out, f_fee, f_gross, f_bounty, event_of; cbn [f_w]; rewrite <- FE'; lia).
  exists w. cbv zeta. cbn [f_account]. rewrite <- EO. split; [|split; [exact FE'|split; [unfold f_gross, f_fee, f_gross, event_of; cbn [f_w]; rewrite <- FE'; exact NE|]]].
  - unfold filled. cbn [f_request f_w f_account]. split; [apply sol_request_is; assumption|]. split; [exact ST|]. split; [exact EM|].
    split; [exists r; split; assumption|]. split; [exact LT|]. split; [lia|]. destruct RA as (n & pn & RA1 & RA2).
    destruct H2 as [H2 H3]. split; [exact H2|]. split; [exact H3|]. exists n. exact RA2.
  - split; [intros j; rewrite BS; eapply moved_bal; exact MV|]. split; [intros j; rewrite SS, (to_sup _ _ _ _ TK); unfold none; lia|].
    pose proof MV as (t & b & dl & da & T1 & T2 & EQ & _ & MS & EE & _ & OTH & _).
    split; [|split; [|split; [|exact SG]]].
    + intros j O N. assert (X : same_od s s1 j) by (apply OTH; tauto). apply (same_od_trans _ s1); [exact X|]. apply RS; [|tauto]. destruct X; congruence.
    + intros j t' T'. eapply moved_back; [exact MV|]. eapply nospl_back; [exact NS|exact T'].
    + exists t, b. split; [exact T1|]. split; [exact T2|]. split; [exact EQ|split; [eapply may_spender; exact MS|]].
      unfold f_gross, f_fee, f_gross, event_of. cbn [f_w]. rewrite <- FE'. lia.
Qed.

Lemma wrap_add a b : wrap64 (wrap64 a + b) = wrap64 (a + b).
Proof. unfold wrap64. apply Zplus_mod_idemp_l. Qed.

Lemma fill_run_list e c au src sm dk f fees nets l s fees' nets' l' s' : c_pid c = tp_id ->
  fill_run e c au src sm dk f fees nets l s fees' nets' l' s' ->
  exists fl, l = keys_of fl ++ l' /\ (List.length l' < 2)%nat /\ NoDup (map f_request fl) /\ Forall (filled e s s' sm f) fl /\
    (forall j, balance s' j = balance s j + payments f src fl j) /\ (forall j, supply s' j = supply s j) /\
    spl_rest s s' (fun j => j = src \/ In j (map f_account fl)) /\
    (forall j t', tok_in s' j t' -> exists t, tok_in s j t /\ earlier t t') /\
    Forall (fun x => exists t r, tok_in s src t /\ tok_in s (f_account x) r /\ ta_mint t = ta_mint r /\ spender t au /\ 0 <= f_fee f x <= f_gross x) fl /\
    wrap64 fees' = wrap64 (fees + total (f_fee f) fl) /\ wrap64 nets' = wrap64 (nets + total (fun x => f_gross x - f_fee f x) fl).
Proof.
  intros Hp R. induction R as [fees nets l s L|fees nets wd rt l s fee net s1 fees' nets' l' s' F R IH].
  - exists []. cbn [keys_of flat_map app map total fold_right]. rewrite !Z.add_0_r. repeat (split; [first [reflexivity|exact L|apply NoDup_nil|apply Forall_nil|intros j; unfold payments; cbn; destruct (keqb j src); lia|intros j _ _; apply same_od_refl|intros j t' T; exists t'; split; [exact T|apply earlier_refl]]|]).
    split; reflexivity.
  - destruct IH as (fl & EL & LL & ND & FO & BA & SU & RE & BK & FS & WF & WN).
    destruct (fill_one_list e c au src sm dk f wd rt fee net s s1 Hp F) as (w & FI & EF & EN & BA1 & SU1 & RE1 & BK1 & FS1 & _).
    cbv zeta in *. set (x := Filling wd rt w) in *.
    assert (NI : forall y, In y fl -> f_request y <> wd).
    { intros y I E. rewrite Forall_forall in FO. destruct (FO y I) as ((_ & U & _) & P & _). destruct FI as (_ & _ & _ & _ & _ & _ & _ & U1 & _).
      rewrite E in U. cbn [f_request f_w x] in U1. assert (Q : f_w y = w_set_status w WProcessed) by congruence. rewrite Q in P. discriminate. }
    exists (x :: fl). cbn [keys_of flat_map app map]. split; [rewrite EL; reflexivity|]. split; [exact LL|]. split.
    { apply NoDup_cons; [|exact ND]. intros I. apply in_map_iff in I as (y & E & I). exact (NI y I E). }
    split; [|split; [|split; [|split; [|split; [|split; [|split]]]]]].
    + apply Forall_cons.
      * destruct FI as (A1 & A2 & A3 & A4 & A5 & A6 & A7). repeat (split; [assumption|]). cbn [f_request f_w x] in *.
        destruct (fill_run_cases _ _ _ _ _ _ _ _ _ _ _ _ _ _ _ wd Hp R) as [[[SO1 SO2]|[X _]]|(m & w' & _ & W1' & _ & ST' & _)].
        -- destruct A7 as (Q1 & Q2 & Q3). split; [congruence|]. split; [rewrite SO2; exact Q2|exact Q3].
        -- destruct A7; contradiction.
        -- exfalso. destruct W1' as [_ U1], A7 as (_ & U2 & _). assert (w' = w_set_status w WProcessed) by congruence. subst w'. discriminate.
      * rewrite Forall_forall in *. intros y I. destruct (FO y I) as (A1 & A2 & A3 & (r & A4 & A4') & A5 & A6 & A7).
        split; [|split; [exact A2|split; [exact A3|split; [|split; [exact A5|split; [exact A6|exact A7]]]]]].
        -- destruct A1 as (Q1 & Q2 & Q3).
           destruct (fill_one_cases _ _ _ _ _ _ _ _ _ _ _ _ _ (f_request y) Hp F) as [[[SO1 SO2]|[_ X]]|(E & _)];
             [split; [congruence|split; [rewrite <- SO2; exact Q2|exact Q3]]|contradiction|destruct (NI y I E)].
        -- destruct (BK1 _ _ A4) as (t & T & (E1 & _)). exists t. split; [exact T|congruence].
    + intros j. rewrite BA, BA1, payments_cons. cbn [f_account x]. lia.
    + intros j. rewrite SU, SU1. reflexivity.
    + intros j O N. assert (X : same_od s s1 j) by (apply RE1; [exact O|]; cbn [f_account x In] in N; intuition).
      apply (same_od_trans _ s1); [exact X|]. apply RE; [destruct X; congruence|]. cbn [In] in N. tauto.
    + intros j t' T'. destruct (BK _ _ T') as (t1 & T1 & E1). destruct (BK1 _ _ T1) as (t & T & E). exists t. split; [exact T|]. eapply earlier_trans; eassumption.
    + apply Forall_cons; [exact FS1|]. rewrite Forall_forall in *. intros y I. destruct (FS y I) as (t & r & T1 & T2 & EQ & SP & PO).
      destruct (BK1 _ _ T1) as (t0 & T10 & (E1 & E2 & E3)). destruct (BK1 _ _ T2) as (r0 & T20 & (E4 & E5 & E6)).
      exists t0, r0. split; [exact T10|]. split; [exact T20|]. split; [congruence|]. split; [apply E3; exact SP|exact PO].
    + rewrite WF, wrap_add, EF. cbn [total fold_right]. f_equal. unfold total. lia.
    + rewrite WN, wrap_add, EN. cbn [total fold_right]. f_equal. unfold total. lia.
Qed.

(** A record of the bridge that is not a request is untouched by the loop. *)
Lemma fill_run_rest e c au src sm dk f fees nets l s fees' nets' l' s' k kd : c_pid c = tp_id ->
  fill_run e c au src sm dk f fees nets l s fees' nets' l' s' ->
  blen (dat (accs s k)) = TP_LEN -> kind_at (dat (accs s k)) = Some kd -> (forall n pn, kd <> KProposal n pn) ->
  same_od s s' k /\ lam (accs s' k) = lam (accs s k).
Proof.
  intros Hp R. induction R as [fees nets l s L|fees nets wd rt l s fee net s1 fees' nets' l' s' F R IH]; intros B KD NP.
  - split; [apply same_od_refl|reflexivity].
  - destruct F as (w & r & out & s2 & s3 & [U RA] & _ & _ & _ & _ & _ & _ & _ & _ & _ & _ & (MV & _) & PK & ->). rewrite Hp in *.
    assert (SO : same_od s s2 k) by (apply (moved_step _ _ _ _ _ _ MV); exact B).
    assert (N : k <> wd).
    { intros ->. destruct RA as (n & pn & KP & _). apply (NP n pn). rewrite <- KP. pose proof (kind_prop (c_withlen c_wsol_event) (c_withlen c_wmeta) _ _ _ _ _ _ U) as Q. congruence. }
    assert (SO3 : same_od s s3 k) by exact (same_od_trans _ _ _ _ SO (packed_od _ _ _ _ _ _ _ PK _ N)).
    assert (L3 : lam (accs s3 k) = lam (accs s k)).
    { rewrite (packed_lam _ _ _ _ _ _ _ PK k). cbn [accs put_log]. destruct MV as (a & b & dl & da & T1 & T2 & _ & _ & _ & _ & _ & _ & _ & DM).
      rewrite DM. destruct (fst (ta_native a)); [|lia]. rewrite !at_other; [lia| |].
      - intros ->. apply tok_len in T1. rewrite T1 in B. discriminate.
      - intros ->. apply tok_len in T2. rewrite T2 in B. discriminate. }
    destruct SO3 as [Q1 Q2]. destruct IH as [I1 I2]; cbn [accs put_log] in *; [rewrite Q2; exact B|rewrite Q2; exact KD|exact NP|].
    split; [destruct I1 as [I3 I4]; cbn [accs put_log] in *; split; congruence|congruence].
Qed.

Lemma total_add {A} (f g : A -> Z) l : total (fun x => f x + g x) l = total f l + total g l.
Proof. induction l as [|x l IH]; cbn [total fold_right]; [reflexivity|]. fold (total (fun x => f x + g x) l). fold (total f l). fold (total g l). lia. Qed.
Lemma total_ext {A} (f g : A -> Z) l : (forall x, f x = g x) -> total f l = total g l.
Proof. intros H. induction l as [|x l IH]; cbn [total fold_right]; [reflexivity|]. fold (total f l). fold (total g l). rewrite H. lia. Qed.
Lemma total_pos {A} (f : A -> Z) l : Forall (fun x => 0 <= f x) l -> 0 <= total f l.
Proof. induction 1 as [|x l H _ IH]; cbn [total fold_right]; [lia|]. fold (total f l). lia. Qed.

(** A successful fill with the requests and token accounts [fl] from place 12 on, and the vault derived
    from the token's mint as the last account: no request occurs twice; each is a pending request for this
    token, is finished afterwards, and its recipient's token account gets exactly the event's amount less fee
    less bounty, all from [src], signed for by its owner or delegate; all the token accounts hold the same
    kind of tokens as the vault; the rest of [amount] - what is not given out as net amounts - goes from
    [src] to the vault; no other account of the token program changes; a new deposit records
    [amount] less fee for the provider; the token's settings stay; the multi-vault gets exactly [value].
    If the amounts of the requests add up to less than 2^64, [amount] covers them, and the vault stays within
    the deposit limit.
    Missing for the full C44: larger sums, see C44_refuted. *)
Theorem C44_partial : forall e ext c seed recipient amount value evers payload s s',
  tp_call e ext c (TpFill seed recipient amount value evers payload) s s' ->
  exists funder author src mint deposit settings x tsk y z mv fl vault ts m v md t vt,
    c_keys c = funder :: author :: src :: mint :: deposit :: settings :: x :: tsk :: y :: z :: mv :: keys_of fl ++ [vault] /\
    token_at e s tsk ts /\ tk_kind ts = TKSol m v /\ tp_addr e (str "vault" ++ kb m) vault /\
    NoDup (map f_request fl) /\ Forall (filled e s s' m (tk_fee_wdr ts)) fl /\
    c_sg c author = true /\ tok_in s src t /\ spender t author /\ tok_in s vault vt /\ ta_mint t = ta_mint vt /\
    (forall f r, In f fl -> tok_in s (f_account f) r -> ta_mint r = ta_mint vt) /\
    (let net := total (fun f => f_gross f - f_fee (tk_fee_wdr ts) f) fl in
     let rest := (amount - net) mod 2 ^ 64 in
     (forall j, balance s' j = balance s j + payments (tk_fee_wdr ts) src fl j + shift src vault rest j) /\
     (total f_gross fl < 2 ^ 64 -> total f_gross fl <= amount /\ rest = amount - net /\ balance s' vault <= tk_dlimit ts)) /\
    (forall j, supply s' j = supply s j) /\ spl_rest s s' (fun j => j = src \/ j = vault \/ In j (map f_account fl)) /\
    fresh s deposit /\ tmint_in s mint md /\
    sol_deposit e s' deposit author seed
      (DSolEvent m (tk_name ts) (tk_symbol ts) (tm_decimals md) (amount - fee_on (tk_fee_wdr ts) amount) recipient value evers payload) /\
    fee_on (tk_fee_wdr ts) amount <= amount /\ token_at e s' tsk ts /\
    is_multivault e s mv /\ lam (accs s' mv) = lam (accs s mv) + value.
Proof.
  intros e ext c seed recipient amount value evers payload s s' CALL. apply tp_call_exec in CALL as (Hp & OI & _ & H). cbn [tp_exec] in H.
  apply tp_fill_ok in H as (f & a & src & mint & dk & sk & x & tsk & y & z & mv & rest & K & B).
  destruct B as (st & pn & ts & vn & m & sv & md & dn & fees & nets & vk & unread & vt & fee & amt & s1 & s2 & s3 & s4 & S & VS & GE & V & KT & EM & VM & MM & TM & PD & PV & LP & FR & (CR & _ & _ & DC) & WR & TV & DL1 & DL2 & (MV & SG & _) & FE & EA & A0 & PK).
  cbv zeta in PK. rewrite Hp in *. destruct (fee_on_of _ _ _ _ FE) as [_ FE']. clear FE.
  destruct (fill_run_list _ _ _ _ _ _ _ _ _ _ _ _ _ _ _ Hp FR) as (fl & EL & LL & ND & FO & BA & SU & RE & BK & FS & WF & WN).
  destruct unread as [|u unread]; [|cbn [List.length] in LL; lia].
  pose proof (nospl_lpaid _ _ _ _ _ _ LP) as N1. pose proof (nospl_created _ _ _ _ CR) as N3.
  pose proof (nospl_put _ _ _ _ _ _ _ _ Hp PK) as N5.
  destruct (nospl_still _ _ N1) as (B1 & U1 & R1). destruct (nospl_still _ _ N3) as (B3 & U3 & R3). destruct (nospl_still _ _ N5) as (B5 & U5 & R5).
  pose proof (moved_bal _ _ _ _ _ _ MV) as B4. pose proof (tokens_moved _ _ _ _ _ _ MV) as TK4.
  pose proof (moved_step _ _ _ _ _ _ MV) as SS4.
  pose proof MV as (ta & tb & dl & da & T1 & T2 & EQ & LA & MS & EE & NE & OTH & _ & DM).
  assert (tb = vt) by (destruct T2 as [_ T2]; unfold tacc_in in *; congruence). subst tb.
  pose proof LP as (SF & LF & DF & SOD & _ & DL & _).
  assert (BK' : forall j t', tok_in s3 j t' -> exists t, tok_in s j t /\ earlier t t').
  { intros j t' T'. apply (nospl_back _ _ _ _ N3) in T'. destruct (BK _ _ T') as (t0 & T0 & E0). exists t0. split; [eapply nospl_back; [exact N1|exact T0]|exact E0]. }
  destruct (BK' _ _ T1) as (t0 & T10 & (E1 & E2 & E3)). destruct (BK' _ _ T2) as (v0 & T20 & (E4 & E5 & E6)).
  assert (REST : forall k kd, blen (dat (accs s k)) = TP_LEN -> kind_at (dat (accs s k)) = Some kd -> (forall n pn, kd <> KProposal n pn) ->
    same_od s s' k /\ (k <> f -> lam (accs s' k) = lam (accs s k) + at_key mv value k)).
  { intros k kd B KD NP. pose proof (SOD k) as [X1 X2].
    destruct (fill_run_rest _ _ _ _ _ _ _ _ _ _ _ _ _ _ _ k kd Hp FR) as [Y1 Y2]; [rewrite X2; exact B|rewrite X2; exact KD|exact NP|].
    assert (ND' : k <> dk).
    { intros ->. destruct CR as (_ & CR & _), Y1 as [_ Y1]. rewrite Y1, X2 in CR. rewrite CR in B. discriminate. }
    assert (S3 : same_od s s3 k).
    { apply (same_od_trans _ s1); [apply SOD|]. apply (same_od_trans _ s2); [exact Y1|]. apply CR. exact ND'. }
    assert (S4 : same_od s s4 k).
    { apply (same_od_trans _ s3); [exact S3|]. apply SS4. destruct S3 as [_ S3]. rewrite S3. exact B. }
    split; [apply (same_od_trans _ s4); [exact S4|]; exact (packed_od _ _ _ _ _ _ _ PK _ ND')|].
    intros NF. rewrite (packed_lam _ _ _ _ _ _ _ PK k). cbn [accs put_log].
    rewrite DM, DC, Y2, DL, (at_other f), (at_other dk), (at_other f) by assumption.
    assert (NS1 : k <> src) by (intros ->; apply tok_len in T10; rewrite T10 in B; discriminate).
    assert (NS2 : k <> vk) by (intros ->; apply tok_len in T20; rewrite T20 in B; discriminate).
    rewrite (at_other src), (at_other vk) by assumption. destruct (fst (ta_native ta)); lia. }
  assert (TREST : same_od s s' tsk).
  { destruct (REST tsk (tk_akind ts)) as [X _]; [eapply token_len; exact V|eapply kind_token_settings; apply V| |exact X].
    destruct V as [_ (n & -> & _)]. discriminate. }
  assert (NMF : mv <> f).
  { intros ->. destruct VM as (mv0 & n0 & U & _). apply unpack_len in U; [|typeclasses eauto]. rewrite <- (proj2 (SOD f)) in U. rewrite (proj2 (SOD f)), DF in U. discriminate. }
  set (net := total (fun f => f_gross f - f_fee (tk_fee_wdr ts) f) fl) in *.
  assert (WN' : wrap64 (amount - nets) = (amount - net) mod 2 ^ 64).
  { change (2 ^ 64) with u64max. unfold wrap64 in *. rewrite Zminus_mod, WN, <- Zminus_mod. reflexivity. }
  rewrite WN' in *.
  exists f, a, src, mint, dk, sk, x, tsk, y, z, mv, fl, vk, ts, m, sv, md, t0, v0.
  split; [rewrite K, EL; reflexivity|]. split; [eapply token_spec; exact V|]. split; [exact KT|]. split; [exists vn; exact PV|].
  split; [exact ND|].
  refine (conj _ (conj S (conj T10 (conj _ (conj T20 (conj _ (conj _ (conj _ (conj _ (conj _ (conj _ (conj _ (conj _ (conj _ (conj _ (conj _ _)))))))))))))))).
  - rewrite Forall_forall in *. intros w I. destruct (FO w I) as ((A1 & A2 & A3) & A4 & A5 & (r & A6 & A6') & A7 & A8 & A9 & A10 & A11).
    pose proof (SOD (f_request w)) as [X1 X2]. unfold filled.
    split; [split; [congruence|split; [rewrite <- X2; exact A2|exact A3]]|]. split; [exact A4|]. split; [exact A5|].
    split; [exists r; split; [eapply nospl_back; [exact N1|exact A6]|exact A6']|]. split; [exact A7|]. split; [exact A8|].
    assert (NK : f_request w <> dk) by (intros E; rewrite E in A9; destruct CR as (CR & _); rewrite A9 in CR; discriminate).
    assert (S3 : same_od s2 s3 (f_request w)) by (apply CR; exact NK).
    assert (S4 : same_od s2 s4 (f_request w)).
    { apply (same_od_trans _ s3); [exact S3|]. apply SS4. destruct S3 as [_ S3]. rewrite S3. eapply unpack_len; [|exact A10]. typeclasses eauto. }
    pose proof (packed_od _ _ _ _ _ _ _ PK _ NK) as S5. destruct (same_od_trans _ _ _ _ S4 S5) as [Q1 Q2].
    split; [congruence|]. split; [rewrite Q2; exact A10|exact A11].
  - apply E3. eapply may_spender. exact MS.
  - congruence.
  - intros w r I TR. rewrite Forall_forall in FS. destruct (FS w I) as (t1 & r1 & Q1 & Q2 & Q3 & _).
    apply (nospl_back _ _ _ _ N1) in Q1. apply (nospl_back _ _ _ _ N1) in Q2.
    assert (t1 = t0) by (destruct Q1 as [_ Q1], T10 as [_ T10]; unfold tacc_in in *; congruence).
    assert (r1 = r) by (destruct Q2 as [_ Q2], TR as [_ TR]; unfold tacc_in in *; congruence). congruence.
  - cbv zeta. assert (BAL : forall j, balance s' j = balance s j + payments (tk_fee_wdr ts) src fl j + shift src vk ((amount - net) mod 2 ^ 64) j).
    { intros j. rewrite B5, B4, B3, BA, B1. reflexivity. }
    split; [exact BAL|]. intros TG.
    assert (P1 : 0 <= total (f_fee (tk_fee_wdr ts)) fl).
    { apply total_pos. rewrite Forall_forall in *. intros w I. destruct (FS w I) as (_ & _ & _ & _ & _ & _ & PO). lia. }
    assert (P2 : 0 <= net).
    { apply total_pos. rewrite Forall_forall in *. intros w I. destruct (FS w I) as (_ & _ & _ & _ & _ & _ & PO). lia. }
    assert (SUM : total f_gross fl = total (f_fee (tk_fee_wdr ts)) fl + net).
    { unfold net. rewrite <- total_add. apply total_ext. intros w. lia. }
    assert (WG : wrap64 (fees + nets) = total f_gross fl).
    { rewrite SUM. unfold wrap64 in *. rewrite Zplus_mod, WF, WN, <- Zplus_mod. apply Z.mod_small. change u64max with (2 ^ 64). clear - P1 P2 TG SUM. lia. }
    assert (V0 : 0 <= ta_amount vt).
    { pose proof (balance_range s3 vk) as X. rewrite (balance_tok _ _ _ T2) in X. lia. }
    assert (RR : (amount - net) mod 2 ^ 64 = amount - net) by (apply Z.mod_small; change (2 ^ 64) with u64max in *; lia).
    split; [lia|]. split; [exact RR|]. rewrite B5, B4, RR, (balance_tok _ _ _ T2). unfold shift, gain. rewrite keqb_refl. destruct (keqb vk src); lia.
  - intros j. rewrite U5, (to_sup _ _ _ _ TK4), U3, SU, U1. unfold none. lia.
  - intros j O N. assert (X1 : same_od s s1 j) by apply SOD.
    assert (X2 : same_od s s2 j). { apply (same_od_trans _ s1); [exact X1|]. apply RE; [destruct X1; congruence|]. tauto. }
    assert (X3 : same_od s s3 j). { apply (same_od_trans _ s2); [exact X2|]. apply R3; [destruct X2; congruence|]. tauto. }
    assert (X4 : same_od s s4 j). { apply (same_od_trans _ s3); [exact X3|]. apply OTH; tauto. }
    apply (same_od_trans _ s4); [exact X4|]. apply R5; [destruct X4; congruence|]. tauto.
  - assert (X : unused s1 dk) by (eapply fill_run_unused; [exact FR|]; split; apply CR). pose proof (SOD dk) as [X1 X2]. destruct X as [X3 X4]. split; congruence.
  - exact TM.
  - split; [exists dn; exact PD|]. exists dn. eexists. rewrite <- FE', <- EA.
    eapply new_holds. eapply created_packed; [exact CR| |exact PK].
    apply (same_od_trans _ s4); [|split; reflexivity]. apply SS4. destruct CR as (_ & _ & _ & _ & CR & _). rewrite CR. reflexivity.
  - lia.
  - eapply token_at_same; [exact TREST|eapply token_spec; exact V].
  - apply multivault_spec. exact VM.
  - destruct VM as (mv0 & n0 & U & KM & _). destruct (REST mv (mv_kind mv0)) as [_ X]; [eapply unpack_len; [|exact U]; typeclasses eauto|eapply kind_multi_vault; exact U|rewrite KM; discriminate|].
    rewrite (X NMF), at_same. reflexivity.
Qed.

(** * C48 The multi-vault *)

(** The multi-vault's place in the account list, and the value an instruction announces. *)
Definition announced (i : tp_ix) : option (nat * Z) :=
  match i with
  | TpDepositEver _ _ _ value _ _ => Some (5%nat, value)
  | TpDepositSol _ _ _ _ _ value _ _ => Some (6%nat, value)
  | TpCancel _ _ value _ _ => Some (9%nat, value)
  | TpFill _ _ _ value _ _ => Some (10%nat, value)
  | _ => None end.

Theorem C48_value : forall e ext c i s s' n value, tp_call e ext c i s s' -> announced i = Some (n, value) ->
  exists mv, nth_error (c_keys c) n = Some mv /\ is_multivault e s mv /\ lam (accs s' mv) = lam (accs s mv) + value.
Proof.
  intros e ext c i s s' n value CALL A. destruct i; try discriminate A; injection A as <- <-.
  - apply C37_partial in CALL as (f & cr & src & dk & mint & mv & tsk & t & md & ts & ts' & m & tok & dc & amt & rt & (rest & K) & _ & _ & _ & _ & _ & _ & _ & _ & _ & _ & _ & _ & _ & _ & _ & _ & _ & _ & MV & L & _).
    exists mv. rewrite K. auto.
  - apply C38_partial in CALL as (f & cr & src & vk & dk & mint & mv & tsk & t & md & ts' & m & v & (rest & K) & _ & _ & _ & _ & _ & _ & _ & _ & _ & _ & _ & _ & _ & _ & _ & MV & L).
    exists mv. rewrite K. auto.
  - apply tp_call_exec in CALL as (Hp & OI & _ & H). cbn [tp_exec] in H.
    apply tp_cancel_ok in H as (f & a & mint & wk & dk & sk & tsk & x & y & mv & rest & K & st & pn & w & ts & vn & sv & md & dn & fee & amt & s1 & s2 & _ & _ & _ & VW & _ & ST & _ & _ & _ & VM & _ & _ & PD & _ & _ & _ & _ & LP & RE & PK).
    rewrite Hp in *. exists mv. rewrite K. split; [reflexivity|]. split; [apply multivault_spec; exact VM|].
    destruct LP as (_ & _ & DF & SOD & _ & DL & _). destruct RE as ((OD & DD & _) & _ & SOR & DLR & _).
    pose proof (multivault_len _ _ _ VM) as LM.
    rewrite (packed_lam _ _ _ _ _ _ _ PK mv). cbn [accs put_log].
    assert (NF : mv <> f) by (intros ->; rewrite DF in LM; discriminate).
    assert (ND : mv <> dk) by (intros ->; rewrite (proj2 (SOD dk)) in DD; rewrite DD in LM; discriminate).
    rewrite DLR, DL, at_same, !at_other by assumption. lia.
  - apply C44_partial in CALL as (f & a & src & mint & dk & sk & x & tsk & y & z & mv & fl & vk & ts & m & v & md & t & vt & K & _ & _ & _ & _ & _ & _ & _ & _ & _ & _ & _ & _ & _ & _ & _ & _ & _ & _ & _ & MV & L).
    exists mv. rewrite K. auto.
Qed.

(** Withdrawing from the multi-vault: the manager or the upgrade authority signed, exactly [amount]
    lamports, no more than there are, go from the multi-vault to the recipient; nothing else changes. *)
Theorem C48_withdraw : forall e ext c amount s s', tp_call e ext c (TpWithdrawMultiVault amount) s s' ->
  exists authority recipient mv settings st,
    (exists rest, c_keys c = authority :: recipient :: mv :: settings :: rest) /\
    settings_at e s settings st /\ signed_for e c s (gs_manager st) /\ is_multivault e s mv /\ 0 <= amount <= lam (accs s mv) /\
    (recipient <> mv -> lam (accs s' mv) = lam (accs s mv) - amount /\ lam (accs s' recipient) = lam (accs s recipient) + amount) /\
    (forall k, k <> mv -> k <> recipient \/ recipient = mv -> accs s' k = accs s k) /\
    (recipient = mv -> accs s' mv = accs s mv) /\ (forall k, same_od s s' k) /\ now s' = now s /\ logs s' = logs s.
Proof.
  intros e ext c amount s s' CALL. apply tp_call_exec in CALL as (Hp & OI & _ & H). cbn [tp_exec] in H.
  assert (A0 : 0 <= amount < u64max) by (eapply ix_u64; [exact OI|tauto]).
  apply tp_withdraw_multi_vault_ok in H as (a & r & mv & sk & rest & st & pn & K & SG & VS & EN & VM & LE & SOD & [EL EN'] & DL & _).
  rewrite Hp in *. destruct (entitled_manager _ _ _ _ _ _ _ Hp SG VS EN) as [SA SF].
  exists a, r, mv, sk, st. split; [eexists; exact K|]. split; [exact SA|]. split; [exact SF|]. split; [apply multivault_spec; exact VM|]. split; [lia|].
  assert (EQ : forall k, lam (accs s' k) = lam (accs s k) -> accs s' k = accs s k).
  { intros k L. destruct (SOD k) as [O D]. rewrite <- (acct_eta (accs s' k)), <- (acct_eta (accs s k)). congruence. }
  split; [intros N; rewrite !DL, !at_same, !at_other by congruence; lia|]. split; [|split; [|split; [exact SOD|auto]]].
  - intros k N [X|X]; apply EQ; rewrite DL, !at_other by congruence; lia.
  - intros ->. apply EQ. rewrite DL, at_same. lia.
Qed.

(** Programs called by payloads do not debit the account [k] of the token proxy. *)
Definition ext_keeps (ext : extern) (k : key) : Prop := forall c d s a s',
  ext c d s = Ok (a, s') -> own (accs s k) = tp_id -> own (accs s' k) = tp_id /\ lam (accs s k) <= lam (accs s' k).

Lemma nested_keeps e ext c proxy k : ext_keeps ext k -> forall l s s', nested_run e ext c proxy l s s' ->
  own (accs s k) = tp_id -> own (accs s' k) = tp_id /\ lam (accs s k) <= lam (accs s' k).
Proof.
  intros E l s s' R. induction R as [s|i l s s1 s2 x H R IH]; intros O; [split; [exact O|lia]|].
  apply cpi_inv in H as [H _]. destruct (E _ _ _ _ _ H O) as [O1 L1]. destruct (IH O1). split; [assumption|lia].
Qed.
Lemma deleted_keeps c s s' j a k : nonneg s -> deleted c s s' j a -> k <> j -> lam (accs s k) <= lam (accs s' k).
Proof.
  intros NN (_ & _ & _ & _ & _ & A & B & _) N. specialize (NN j).
  destruct (key_dec k a) as [->|NA]; [rewrite (A N); lia|rewrite (B k N NA); lia].
Qed.

(** No other instruction takes lamports from the multi-vault. *)
Theorem C48_only : forall e ext c i s s' mv, tp_call e ext c i s s' -> ext_keeps ext mv -> nonneg s ->
  is_multivault e s mv -> own (accs s mv) = tp_id -> lam (accs s' mv) < lam (accs s mv) -> exists amount, i = TpWithdrawMultiVault amount.
Proof.
  intros e ext c i s s' mv CALL EX NN (_ & x & n & U & KM) O L. apply tp_call_exec in CALL as (Hp & OI & _ & H).
  apply kind_multi_vault in U. rewrite KM in U.
  assert (NP : forall kd k, kind_at (dat (accs s k)) = Some kd -> kd <> KMultiVault n -> mv <> k) by (intros kd k E1 E2 ->; congruence).
  assert (PL : forall E (cw : codec (prop E (withlen wmeta))) wk w mk r p, payload_eff e ext c cw wk w mk r p s s' -> lam (accs s mv) <= lam (accs s' mv)).
  { intros E cw wk w mk r p [[_ ->]|(_ & m & n1 & pn & l & s1 & _ & _ & _ & RUN & PK)]; [lia|].
    rewrite (packed_lam _ _ _ _ _ _ _ PK mv). destruct RUN as [[_ ->]|(px & _ & RUN)]; [lia|].
    destruct (nested_keeps e ext c px mv EX l s s1 RUN O). assumption. }
  destruct (debits i) eqn:D.
  - destruct i; try discriminate D; cbn [tp_exec] in H; [| | | | |eexists; reflexivity]; exfalso.
    + apply tp_vote_ok in H as (r & wk & rrk & rest & K & g & rr & i & old & _ & _ & UG & (n1 & pn1 & KG & _) & _ & _ & _ & _ & [[_ ->]|(_ & d & _ & _ & _ & _ & _ & _ & _ & DL & _)]); [lia|].
      assert (N : mv <> wk) by (eapply NP; [eapply kind_gprop; exact UG|rewrite KG; discriminate]).
      rewrite DL, (at_other wk) in L by exact N. unfold at_key in L. destruct (keqb mv r); unfold RELAY_REPARATION in L; lia.
    + apply tp_execute_payload_ever_ok in H as (wk & rest & w & _ & _ & PE). pose proof (PL _ _ _ _ _ _ _ PE). lia.
    + apply tp_execute_payload_sol_ok in H as (wk & rest & w & _ & _ & PE). pose proof (PL _ _ _ _ _ _ _ PE). lia.
    + apply tp_close_deposit_ok in H as (a & dk & rest & g & sd & n1 & K & _ & UG & _ & KG & _ & _ & DE).
      assert (N : mv <> dk) by (eapply NP; [eapply kind_gdep; exact UG|rewrite KG; discriminate]).
      pose proof (deleted_keeps _ _ _ _ _ mv NN DE N). lia.
    + apply tp_close_withdrawal_ok in H as (wk & a & rest & g & m & K & UG & (n1 & pn1 & KG & _) & _ & _ & _ & DE).
      assert (N : mv <> wk) by (eapply NP; [eapply kind_gprop; exact UG|rewrite KG; discriminate]).
      pose proof (deleted_keeps _ _ _ _ _ mv NN DE N). lia.
  - exfalso. destruct (lam_tp_exec e ext c i D s tt s' H NN) as [_ X]. destruct (X mv) as [Y _]. specialize (Y O). lia.
Qed.

(** * C56 The log entry of a deposit *)

(** Seed, recipient and value of an instruction that makes a deposit account of its [n]th account. *)
Definition makes_deposit (i : tp_ix) : option (nat * Z * ever * Z) :=
  match i with
  | TpDepositEver seed _ recipient value _ _ => Some (3%nat, seed, recipient, value)
  | TpDepositSol seed _ _ _ recipient value _ _ => Some (4%nat, seed, recipient, value)
  | TpFill seed recipient _ value _ _ => Some (4%nat, seed, recipient, value)
  | TpCancel seed recipient value _ _ => Some (4%nat, seed, recipient, value)
  | _ => None
  end.

Lemma moved_logs s s' a b au n : moved s s' a b au n -> logs s' = logs s.
Proof. intros (? & ? & ? & ? & H). apply H. Qed.
Lemma packed_logs {A} c (cd : codec A) LEN s s' k x : packed c cd LEN s s' k x -> logs s' = logs s.
Proof. intros H. apply packed_env in H. apply H. Qed.
Lemma fill_run_logs e c au src sm dk f fees nets l s fees' nets' l' s' :
  fill_run e c au src sm dk f fees nets l s fees' nets' l' s' -> exists more, logs s' = logs s ++ more.
Proof.
  induction 1 as [|fees nets w rt l s fee net s1 fees' nets' l' s' ONE RUN (more & IH)]; [exists []; rewrite app_nil_r; reflexivity|].
  destruct ONE as (x & r & out & s2 & s3 & _ & _ & _ & _ & _ & _ & _ & _ & _ & _ & _ & (MV & _) & PK & ->).
  apply moved_logs in MV. apply packed_logs in PK. rewrite IH. cbn [put_log logs] in *. rewrite PK, MV, <- !app_assoc. eexists. reflexivity.
Qed.

(** Deposits of Ever and Solana tokens and the filling of withdrawals end their log with an entry that
    names the deposit account made by the instruction, its number, recipient and value.
    Missing for the full C56: cancelling a withdrawal, see C56_refuted. *)
Theorem C56_partial : forall e ext c i s s' n seed recipient value, tp_call e ext c i s s' ->
  makes_deposit i = Some (n, seed, recipient, value) -> (forall a b d f g, i <> TpCancel a b d f g) ->
  exists deposit more ev, nth_error (c_keys c) n = Some deposit /\
    fresh s deposit /\ tp_addr e (sd_deposit seed) deposit /\ own (accs s' deposit) = tp_id /\
    logs s' = logs s ++ more ++ [enc c_ev_deposit ev] /\
    ed_account ev = deposit /\ ed_seed ev = seed /\ ed_recipient ev = recipient /\ ed_value ev = value.
Proof.
  intros e ext c i s s' n seed recipient value CALL M NC.
  assert (LG : forall deposit more amt ev evb evers, logs s' = logs s ++ more ++ [ev] -> ev = dep_log e deposit recipient amt seed value evers evb ->
    exists mo ev, logs s' = logs s ++ mo ++ [enc c_ev_deposit ev] /\
      ed_account ev = deposit /\ ed_seed ev = seed /\ ed_recipient ev = recipient /\ ed_value ev = value).
  { intros deposit more amt ev evb evers L ->. unfold dep_log in L. exists more. eexists. split; [exact L|]. repeat split; reflexivity. }
  destruct i; try discriminate M; injection M as <- <- <- <-; [| |exfalso; eapply NC; reflexivity|].
  - destruct (C37_partial _ _ _ _ _ _ _ _ _ _ _ CALL) as (f0 & cr0 & ct0 & dk0 & mint0 & mv0 & tsk0 & t0 & md0 & ts0' & ts'0 & m0 & token0 & dec0 & amt0 & rent0 & (rest0 & K0) & _ & _ & _ & _ & _ & _ & _ & _ & X).
    cbv zeta in X. destruct X as (_ & _ & _ & _ & _ & _ & _ & FR & (_ & n0 & len & (OW & _)) & _).
    apply tp_call_exec in CALL as (Hp & OI & _ & H). cbn [tp_exec] in H. apply ix_deposit_ever in OI.
    apply tp_deposit_ever_ok in H as (f & cr & ct & dk & mint & mv & tsk & sk & x & y & z & rest & K & B); [|lia].
    destruct B as (st & pn & ts & mn & m & token & dec_ & md & dn & fee & pure_ & amt & s1 & s2 & s3 & _ & _ & _ & _ & _ & _ & _ & _ & _ & PD & _ & _ & _ & _ & _ & B).
    cbv zeta in B. destruct B as ((? & ? & ? & ? & BU) & _ & _ & RE & PK & LP). rewrite Hp in PD.
    rewrite K0 in K. injection K as <- <- <- <- _ _ _ _.
    destruct RE as (_ & _ & _ & _ & L2 & _). apply packed_logs in PK. destruct LP as (_ & _ & _ & _ & [LP _] & _).
    destruct BU as (_ & _ & _ & _ & _ & _ & _ & _ & _ & _ & [LB _] & _).
    destruct (LG dk0 [] amt _ _ _ (eq_trans LP (eq_trans PK (eq_trans L2 (f_equal (fun x => x ++ _) LB)))) eq_refl) as (mo & ev & Q).
    exists dk0, mo, ev. rewrite K0. split; [reflexivity|]. split; [exact FR|]. split; [exists dn; exact PD|]. split; [exact OW|exact Q].
  - destruct (C38_partial _ _ _ _ _ _ _ _ _ _ _ _ _ CALL) as (f0 & cr0 & ct0 & vk0 & dk0 & mint0 & mv0 & tsk0 & t0 & md0 & ts'0 & m0 & v0 & (rest0 & K0) & _ & _ & _ & _ & _ & X).
    cbv zeta in X. destruct X as (_ & _ & _ & _ & _ & _ & _ & _ & _ & FR & (_ & n0 & len & (OW & _)) & _).
    apply tp_call_exec in CALL as (Hp & OI & _ & H). cbn [tp_exec] in H. apply ix_deposit_sol in OI as (OI & _ & _).
    apply tp_deposit_sol_ok in H as (f & cr & ct & vk & dk & mint & mv & tsk & sk & x & y & z & rest & st & pn & sr & K & _ & _ & _ & _ & _ & R & B); [|lia].
    destruct B as (ts & vn & sm & sv & md & vt & dn & fee & amt & s1 & s2 & s3 & _ & _ & _ & _ & _ & _ & _ & _ & _ & _ & PD & _ & _ & _ & _ & B).
    cbv zeta in B. destruct B as ((MV & _ & _) & LP & RE & PK). rewrite Hp in PD.
    rewrite K0 in K. injection K as <- <- <- <- <- _ _ _ _.
    assert (LR : exists more, logs sr = logs s ++ more).
    { destruct R as [[_ ->]|[_ (? & ? & ? & R)]]; [exists []; rewrite app_nil_r; reflexivity|].
      destruct R as (_ & _ & _ & _ & _ & _ & _ & _ & _ & _ & _ & _ & _ & _ & L & _). eexists. exact L. }
    destruct LR as [more LR].
    destruct RE as (_ & _ & _ & _ & L2 & _). apply packed_logs in PK. destruct LP as (_ & _ & _ & _ & [LP _] & _). apply moved_logs in MV.
    assert (L : logs s' = logs s ++ more ++ [dep_log e dk0 recipient0 amt seed0 value0 evers (enc c_dsol_event (DSolEvent mint (tk_name ts) (tk_symbol ts) (tm_decimals md) amt recipient0 value0 evers payload))]).
    { rewrite PK, L2, LP, MV, LR, <- app_assoc. reflexivity. }
    destruct (LG dk0 more amt _ _ _ L eq_refl) as (mo & ev & Q).
    exists dk0, mo, ev. rewrite K0. split; [reflexivity|]. split; [exact FR|]. split; [exists dn; exact PD|]. split; [exact OW|exact Q].
  - destruct (C44_partial _ _ _ _ _ _ _ _ _ _ _ CALL) as (f0 & a0 & src0 & mint0 & dk0 & sk0 & x0 & tsk0 & y0 & z0 & mv0 & fl & vault0 & ts0' & m0 & v0 & md0 & t0 & vt0 & K0 & _ & _ & _ & _ & _ & _ & _ & _ & _ & _ & _ & _ & _ & _ & FR & _ & (_ & n0 & len & (OW & _)) & _).
    apply tp_call_exec in CALL as (Hp & OI & _ & H). cbn [tp_exec] in H.
    apply tp_fill_ok in H as (f & a & src & mint & dk & sk & x & tsk & y & z & mv & rest & K & B).
    destruct B as (st & pn & ts & vn & m & sv & md & dn & fees & nets & vk & unread & vt & fee & amt & s1 & s2 & s3 & s4 & _ & _ & _ & _ & _ & _ & _ & _ & _ & PD & _ & LP & RUN & (_ & [CR _] & _) & _ & _ & _ & _ & (MV & _) & _ & _ & _ & PK).
    cbv zeta in PK. rewrite Hp in PD. rewrite K0 in K. injection K as <- <- <- <- <- _ _ _ _ _ _ _.
    apply fill_run_logs in RUN as [more RUN]. destruct LP as (_ & _ & _ & _ & [LP _] & _). apply moved_logs in MV. apply packed_logs in PK.
    cbn [put_log logs] in PK.
    assert (L : logs s' = logs s ++ more ++ [dep_log e dk0 recipient0 amt seed0 value0 evers (enc c_dsol_event (DSolEvent m (tk_name ts) (tk_symbol ts) (tm_decimals md) amt recipient0 value0 evers payload))]).
    { rewrite PK, MV, CR, RUN, LP, <- app_assoc. reflexivity. }
    destruct (LG dk0 more amt _ _ _ L eq_refl) as (mo & ev & Q).
    exists dk0, mo, ev. rewrite K0. split; [reflexivity|]. split; [exact FR|]. split; [exists dn; exact PD|]. split; [exact OW|exact Q].
Qed.

(** * Findings *)

Ltac demo_token_at := split; [exists 255; vm_compute; reflexivity|vm_compute; reflexivity].
Definition demo_record {A} (cd : codec A) (x : A) (s : state) (k : key) : bool :=
  let b := enc cd x in keqb (own (accs s k)) tp_id && beqb (firstn (List.length b) (dat (accs s k))) b && all0 (skipn (List.length b) (dat (accs s k))).
Lemma demo_holds {A} (cd : codec A) x s k : demo_record cd x s k = true -> holds cd s k x.
Proof.
  unfold demo_record. intros H. apply andb_true_iff in H as [H H3]. apply andb_true_iff in H as [H1 H2]. apply keqb_eq in H1. apply beqb_eq in H2.
  split; [exact H1|]. eexists. split; [|exact H3]. rewrite <- H2 at 1. rewrite firstn_skipn. reflexivity.
Qed.
Lemma demo_sol_deposit s k author seed ev : find_pda te (sd_deposit seed) tp_id = Ok (k, 255) ->
  demo_record c_dsol (Dep true (KDeposit 255) author (dsol_event_new ev) (dep_meta_new seed)) s k = true -> sol_deposit te s k author seed ev.
Proof. intros P H. split; [exists 255; exact P|]. exists 255. eexists. exact (demo_holds _ _ _ _ H). Qed.
Lemma demo_ever_deposit s k author seed ev : find_pda te (sd_deposit seed) tp_id = Ok (k, 255) ->
  demo_record c_dever (Dep true (KDeposit 255) author (dever_event_new ev) (dep_meta_new seed)) s k = true -> ever_deposit te s k author seed ev.
Proof. intros P H. split; [exists 255; exact P|]. exists 255. eexists. exact (demo_holds _ _ _ _ H). Qed.
Ltac demo_deposit := apply demo_sol_deposit; vm_compute; reflexivity.
Ltac demo_deposit_ever := apply demo_ever_deposit; vm_compute; reflexivity.

(** A deposit of the token [tmintS] into an account that is not the token's vault, of tokens the stranger made: the
    vault gets nothing, the deposit is recorded as 799600 of the genuine token. The check of the vault
    (processor.rs:805) only fails for an account that is neither the vault nor owned by the token program. *)
Definition xfake := tdep tstranger tfakeA tfakeV td2 tmintS 2 800000.
Theorem C38_refuted : exists c seed name symbol amount recipient value evers payload s s' tsk ts m v t deposit author,
  reached s /\ tp_call te no_ext c (TpDepositSol seed name symbol amount recipient value evers payload) s s' /\
  nth_error (c_keys c) 7 = Some tsk /\ token_at te s tsk ts /\ tk_kind ts = TKSol m v /\ tp_addr te (str "vault" ++ kb m) v /\
  tok_in s v t /\ ta_mint t = m /\ 0 < amount /\
  balance s' v = balance s v /\ (forall j r, tok_in s j r -> ta_mint r = m -> balance s' j = balance s j) /\
  sol_deposit te s' deposit author seed (DSolEvent m name symbol 6 (amount - 400) recipient value evers payload).
Proof.
  exists (ctx_of tp_id (fst xfake)), 2, (str "Solana Token"), (str "SOT"), 800000, teverX, 1000, (knum 72), [], ts2, (unres (tstp ts2 xfake)), ttsS, (the_token ts2 ttsS), tmintS, tvault, (the_tok ts2 tvault), td2, tstranger.
  assert (C : tp_call te no_ext (ctx_of tp_id (fst xfake)) (snd xfake) ts2 (unres (tstp ts2 xfake))) by demo_call.
  split; [unfold reached, ts2; demo_more; unfold ts1; demo_more; apply h_refl|].
  split; [exact C|]. split; [reflexivity|]. split; [demo_token_at|]. split; [vm_compute; reflexivity|]. split; [exists 255; vm_compute; reflexivity|].
  split; [split; vm_compute; reflexivity|]. split; [vm_compute; reflexivity|]. split; [lia|]. split; [vm_compute; reflexivity|]. split; [|demo_deposit].
  intros j r [O T] M. pose proof (C38_partial _ _ _ _ _ _ _ _ _ _ _ _ _ C) as (f & se & src & vk & dk & mint & mv & tsk & t & md & ts' & m & v & (rest & K) & _ & _ & _ & _ & _ & X).
  cbv zeta in X. destruct X as (_ & _ & _ & _ & B & _). injection K as <- <- <- <- <- <- <- <-.
  apply B; intros ->.
  - assert (X : the_tok ts2 tfakeV = r) by (unfold the_tok; unfold tacc_in in T; rewrite T; reflexivity). subst r. vm_compute in M. discriminate M.
  - assert (X : the_tok ts2 tfakeA = r) by (unfold the_tok; unfold tacc_in in T; rewrite T; reflexivity). subst r. vm_compute in M. discriminate M.
Qed.

(** A vault of 100000 tokens, the limit lowered to 50000; a deposit that sends the tokens somewhere else
    is accepted. *)
Definition ts40 := unres (tstp ts2 (tadmT tman ttsS (TpChangeDepositLimit 50000))).
Definition xelse := tdep tstranger tstrS trecvS td2 tmintS 2 40000.
Theorem C39_refuted : exists c seed name symbol amount recipient value evers payload s s' tsk ts' m v,
  reached s /\ tp_call te no_ext c (TpDepositSol seed name symbol amount recipient value evers payload) s s' /\
  nth_error (c_keys c) 7 = Some tsk /\ token_at te s' tsk ts' /\ tk_kind ts' = TKSol m v /\ tp_addr te (str "vault" ++ kb m) v /\
  tk_dlimit ts' < balance s' v.
Proof.
  exists (ctx_of tp_id (fst xelse)), 2, (str "Solana Token"), (str "SOT"), 40000, teverX, 1000, (knum 72), [], ts40, (unres (tstp ts40 xelse)), ttsS, (the_token (unres (tstp ts40 xelse)) ttsS), tmintS, tvault.
  split; [unfold reached, ts40; demo_more; unfold ts2; demo_more; unfold ts1; demo_more; apply h_refl|].
  split; [demo_call|]. split; [reflexivity|]. split; [demo_token_at|]. split; [vm_compute; reflexivity|]. split; [exists 255; vm_compute; reflexivity|].
  vm_compute. reflexivity.
Qed.

(** An Ever token of 95 decimals: 10^86 is computed modulo 2^128 (processor.rs:4614). *)
Definition xtiny : list meta * tp_ix :=
  ([sw tfunder; sw trecv; ww trecvX; ww td3; ww tmintX; ww tmv; ww ttsX; ro tset; ro sys_id; ro spl_id; ro rent_id],
   TpDepositEver 3 10 teverX 2000 (knum 72) []).
Theorem C37_refuted : exists c seed amount recipient value evers payload s s' tsk ts m token dec mint md amt deposit author,
  reached s /\ tp_call te no_ext c (TpDepositEver seed amount recipient value evers payload) s s' /\
  nth_error (c_keys c) 6 = Some tsk /\ nth_error (c_keys c) 4 = Some mint /\ token_at te s tsk ts /\ tk_kind ts = TKEver m token dec /\
  mint_in s mint md /\
  ever_deposit te s' deposit author seed (DEverEvent token amt recipient value evers payload) /\
  amt <> rescale (amount - fee_on (tk_fee_dep ts) amount) (tm_decimals md) dec.
Proof.
  exists (ctx_of tp_id (fst xtiny)), 3, 10, teverX, 2000, (knum 72), [], ts32, (unres (tstp ts32 xtiny)), ttsX, (the_token ts32 ttsX), tmintX, (AddrStd 0 (knum 73)), 95,
    tmintX, (the_mint ts32 tmintX), (9 * pow10 86), td3, trecv.
  split.
  { unfold reached, ts32. demo_more. demo_ts31. unfold ts30. demo_more. unfold ts2. demo_more. unfold ts1. demo_more. apply h_refl. }
  split; [demo_call|]. split; [reflexivity|]. split; [reflexivity|]. split; [demo_token_at|]. split; [vm_compute; reflexivity|].
  split; [split; vm_compute; reflexivity|]. split; [demo_deposit_ever|]. vm_compute. discriminate.
Qed.

(** Two pending withdrawals of 2^63 tokens each are filled with an [amount] of 1: the sums of fees and net
    amounts are computed modulo 2^64 (processor.rs:4159 and 4166). *)
Definition xwrap := tfill tuser tuserS td2 2 1 [tw9; trecvS; tw10; trecvS].
Theorem C44_refuted : exists c seed recipient amount value evers payload s s' w1 w2 x1 x2,
  reached s /\ tp_call te no_ext c (TpFill seed recipient amount value evers payload) s s' /\
  w1 <> w2 /\ sol_request te s w1 x1 /\ sol_request te s w2 x2 /\ status_of x1 = WPending /\ status_of x2 = WPending /\
  sol_request te s' w1 (w_set_status x1 WProcessed) /\ sol_request te s' w2 (w_set_status x2 WProcessed) /\
  amount < wse_amount (event_of x1) + wse_amount (event_of x2).
Proof.
  exists (ctx_of tp_id (fst xwrap)), 2, teverX, 1, 3000, (knum 72), [], ts36, (unres (tstp ts36 xwrap)), tw9, tw10, (the_wsol ts36 tw9), (the_wsol ts36 tw10).
  split.
  { unfold reached. demo_ts36. unfold ts35. demo_votes. unfold ts34. demo_votes. unfold ts33. demo_more. unfold ts2. demo_more. unfold ts1. demo_more. apply h_refl. }
  split; [demo_call|]. split; [discriminate|].
  repeat (split; [first [vm_compute; reflexivity|split; [vm_compute; reflexivity|]; split; [vm_compute; reflexivity|exists 255; vm_compute; reflexivity]]|]).
  vm_compute. reflexivity.
Qed.

(** Cancelling [tw2]: the log entry of the deposit names the withdrawal account (processor.rs:3948-3957). *)
Definition xcancel := tcancel trecv tw2.
Ltac reach11 := unfold reached; demo_ts11; unfold ts10; demo_votes; unfold ts9; demo_more;
    unfold ts8; demo_more; demo_ts7; unfold ts6; demo_more;
    unfold ts5; demo_more; demo_ts4; unfold ts3; demo_more; unfold ts2; demo_more; unfold ts1; demo_more; apply h_refl.
Theorem C56_refuted : exists c i s s' n seed recipient value deposit ev x,
  reached s /\ tp_call te no_ext c i s s' /\ makes_deposit i = Some (n, seed, recipient, value) /\ nth_error (c_keys c) n = Some deposit /\
  fresh s deposit /\ own (accs s' deposit) = tp_id /\
  logs s' = logs s ++ [enc c_ev_deposit ev; enc c_ev_status x] /\ ed_account ev <> deposit /\
  try_from_slice c_ev_deposit (enc c_ev_status x) = None.
Proof.
  exists (ctx_of tp_id (fst xcancel)), (snd xcancel), ts11, (unres (tstp ts11 xcancel)), 4%nat, 2, teverX, 3000, td2.
  exists (EvDeposit tw2 teverX 699650 2 3000 (knum 72) (kb key0)), (EvStatus tw2 WCancelled).
  split; [reach11|]. split; [demo_call|]. split; [reflexivity|]. split; [reflexivity|]. split; [split; vm_compute; reflexivity|]. split; [vm_compute; reflexivity|].
  split; [vm_compute; reflexivity|]. split; [discriminate|].
  vm_compute. reflexivity.
Qed.

(** Cancelling [tw2] withholds 350 of 700000 tokens as a fee that is not recorded: the increased fee supply
    is computed (processor.rs:3917-3920) but the token's settings are not written. *)
Theorem C57_cancel_refuted : exists c seed recipient value evers payload s s' tsk ts k w deposit name symbol author,
  reached s /\ tp_call te no_ext c (TpCancel seed recipient value evers payload) s s' /\
  nth_error (c_keys c) 3 = Some k /\ sol_request te s k w /\ nth_error (c_keys c) 6 = Some tsk /\ token_at te s tsk ts /\
  sol_deposit te s' deposit author seed (DSolEvent (wse_mint (event_of w)) name symbol 6 (wse_amount (event_of w) - 350) recipient value evers payload) /\
  token_at te s' tsk ts.
Proof.
  exists (ctx_of tp_id (fst xcancel)), 2, teverX, 3000, (knum 72), [], ts11, (unres (tstp ts11 xcancel)), ttsS, (the_token ts11 ttsS), tw2, (the_wsol ts11 tw2), td2, (str "Solana Token"), (str "SOT"), trecv.
  split; [reach11|]. split; [demo_call|]. split; [reflexivity|].
  split; [split; [vm_compute; reflexivity|]; split; [vm_compute; reflexivity|exists 255; vm_compute; reflexivity]|].
  split; [reflexivity|]. split; [demo_token_at|]. split; [demo_deposit|demo_token_at].
Qed.
(** Filling [tw2] with 800000 tokens withholds a fee of 350 from the recipient of the withdrawal and another one of 400
    from the provider; neither is recorded. *)
Definition xfill := tfill tstranger tstrS td2 2 800000 [tw2; trecvS].
Theorem C57_fill_refuted : exists c seed recipient amount value evers payload s s' tsk ts k w dst deposit name symbol author,
  reached s /\ tp_call te no_ext c (TpFill seed recipient amount value evers payload) s s' /\
  nth_error (c_keys c) 11 = Some k /\ nth_error (c_keys c) 12 = Some dst /\ sol_request te s k w /\ nth_error (c_keys c) 7 = Some tsk /\ token_at te s tsk ts /\
  balance s' dst = balance s dst + (wse_amount (event_of w) - 350 - wm_bounty (wl_data (p_meta w))) /\
  sol_deposit te s' deposit author seed (DSolEvent (wse_mint (event_of w)) name symbol 6 (amount - 400) recipient value evers payload) /\
  token_at te s' tsk ts.
Proof.
  exists (ctx_of tp_id (fst xfill)), 2, teverX, 800000, 3000, (knum 72), [], ts11, (unres (tstp ts11 xfill)), ttsS, (the_token ts11 ttsS), tw2, (the_wsol ts11 tw2), trecvS, td2, (str "Solana Token"), (str "SOT"), tstranger.
  split; [reach11|]. split; [demo_call|]. split; [reflexivity|]. split; [reflexivity|].
  split; [split; [vm_compute; reflexivity|]; split; [vm_compute; reflexivity|exists 255; vm_compute; reflexivity]|].
  split; [reflexivity|]. split; [demo_token_at|]. split; [vm_compute; reflexivity|]. split; [demo_deposit|demo_token_at].
Qed.

(** Deposits do record their fee, whatever the state and the accounts; so do executions of withdrawals
    (C32_ever and C32_sol).
    Missing for the full C57: cancelling and filling, see C57_cancel_refuted and C57_fill_refuted. *)
Theorem C57_partial : forall e ext c i s s', tp_call e ext c i s s' ->
  match i with
  | TpDepositEver _ amount _ _ _ _ => exists tsk ts ts', nth_error (c_keys c) 6 = Some tsk /\ token_at e s tsk ts /\ token_at e s' tsk ts' /\
      tk_fee_supply ts' = tk_fee_supply ts + fee_on (tk_fee_dep ts) amount
  | TpDepositSol _ _ _ amount _ _ _ _ => exists tsk ts', nth_error (c_keys c) 7 = Some tsk /\ token_at e s' tsk ts' /\
      ((exists ts, token_at e s tsk ts /\ tk_fee_supply ts' = tk_fee_supply ts + fee_on (tk_fee_dep ts') amount) \/
       lam (accs s tsk) = 0 /\ tk_fee_supply ts' = fee_on (tk_fee_dep ts') amount)
  | _ => True
  end.
Proof.
  intros e ext c i s s' CALL. destruct i; try exact Logic.I.
  - apply C37_partial in CALL as (f & cr & src & dk & mint & mv & tsk & t & md & ts & ts' & m & tok & dc & amt & rt & (rest & K) & TA & _ & _ & _ & _ & _ & _ & _ & X).
    cbv zeta in X. destruct X as (_ & _ & _ & _ & _ & TA' & FS & _). exists tsk, ts, ts'. rewrite K. auto.
  - apply C38_partial in CALL as (f & cr & src & vk & dk & mint & mv & tsk & t & md & ts' & m & v & (rest & K) & TA & _ & _ & _ & _ & X).
    cbv zeta in X. destruct X as (_ & _ & _ & _ & _ & _ & _ & X1 & X2 & _). exists tsk, ts'. rewrite K. split; [reflexivity|]. split; [exact TA|].
    destruct (Z.eq_dec (lam (accs s tsk)) 0) as [L|L]; [right; split; [exact L|apply X2; exact L]|left; apply X1; exact L].
Qed.

(** * Examples *)

Definition ts41 := unres (tstp ts8 (tdepE 3 20000)).
Example C37_ex :
  tp_call te no_ext (ctx_of tp_id (fst (tdepE 3 20000))) (snd (tdepE 3 20000)) ts8 ts41 /\
  balance ts8 trecvE = 79960 /\ balance ts41 trecvE = 59960 /\ supply ts41 tmintE = 59960 /\
  tk_fee_supply (the_token ts41 ttsE) = tk_fee_supply (the_token ts8 ttsE) + 10 /\
  ever_deposit te ts41 td3 trecv 3 (DEverEvent tever 19990 teverX 2000 (knum 72) []).
Proof. split; [demo_call|]. do 4 (split; [vm_compute; reflexivity|]). demo_deposit_ever. Qed.
Definition xdep := tdep tuser tuserS tvault td2 tmintS 2 30000.
Example C38_ex :
  let s' := unres (tstp ts5 xdep) in
  tp_call te no_ext (ctx_of tp_id (fst xdep)) (snd xdep) ts5 s' /\
  balance ts5 tvault = 50025 /\ balance s' tvault = 80025 /\ balance s' tuserS = balance ts5 tuserS - 30000 /\
  tk_fee_supply (the_token s' ttsS) = tk_fee_supply (the_token ts5 ttsS) + 15 /\ lam (accs s' tmv) = lam (accs ts5 tmv) + 1000 /\
  sol_deposit te s' td2 tuser 2 (DSolEvent tmintS (str "Solana Token") (str "SOT") 6 29985 teverX 1000 (knum 72) []).
Proof. cbv zeta. split; [demo_call|]. do 5 (split; [vm_compute; reflexivity|]). demo_deposit. Qed.
(** A deposit up to the limit is accepted, one token more is not. *)
Definition ts42 := unres (tstp ts5 (tadmT tman ttsS (TpChangeDepositLimit 80025))).
Example C39_ex :
  tp_call te no_ext (ctx_of tp_id (fst xdep)) (snd xdep) ts42 (unres (tstp ts42 xdep)) /\ nth_error (c_keys (ctx_of tp_id (fst xdep))) 7 = Some ttsS /\
  balance (unres (tstp ts42 xdep)) tvault = tk_dlimit (the_token ts42 ttsS) /\
  is_ok (tstp ts42 (tdep tuser tuserS tvault td2 tmintS 2 30001)) = false.
Proof. split; [demo_call|]. vm_compute. repeat split; reflexivity. Qed.
Definition xfeeS (who : key) (n : Z) : list meta * tp_ix := ([sw who; ww tvault; ww ttsS; ww trecvS; ro tset; ro tpd; ro spl_id], TpWithdrawSolFee n).
Definition xfeeE (who : key) (n : Z) : list meta * tp_ix := ([sw who; ww tmintE; ww trecvE; ww ttsE; ro tset; ro tpd; ro spl_id], TpWithdrawEverFee n).
Example C40_ex :
  tp_call te no_ext (ctx_of tp_id (fst (xfeeS tman 60))) (snd (xfeeS tman 60)) ts8 (unres (tstp ts8 (xfeeS tman 60))) /\
  tp_call te no_ext (ctx_of tp_id (fst (xfeeE tman 40))) (snd (xfeeE tman 40)) ts8 (unres (tstp ts8 (xfeeE tman 40))) /\
  tk_fee_supply (the_token ts8 ttsS) = 75 /\ tk_fee_supply (the_token ts8 ttsE) = 40 /\
  balance (unres (tstp ts8 (xfeeS tman 60))) tvault = balance ts8 tvault - 60 /\
  supply (unres (tstp ts8 (xfeeE tman 40))) tmintE = supply ts8 tmintE + 40 /\
  is_ok (tstp ts8 (xfeeS tman 76)) = false /\ is_ok (tstp ts8 (xfeeE tstranger 40)) = false.
Proof. split; [demo_call|]. split; [demo_call|]. vm_compute. repeat split; reflexivity. Qed.
Example C44_ex :
  let s' := unres (tstp ts11 xfill) in
  tp_call te no_ext (ctx_of tp_id (fst xfill)) (snd xfill) ts11 s' /\ tws ts11 tw2 = Some WPending /\ tws s' tw2 = Some WProcessed /\
  balance s' trecvS = balance ts11 trecvS + (700000 - 350) /\ balance s' tvault = balance ts11 tvault + (800000 - 699650) /\
  balance s' tstrS = balance ts11 tstrS - 800000.
Proof. cbv zeta. split; [demo_call|]. vm_compute. repeat split; reflexivity. Qed.
Definition xmv (who : key) (n : Z) : list meta * tp_ix := ([sw who; ww tguard; ww tmv; ro tset; ro tpd], TpWithdrawMultiVault n).
Example C48_ex :
  tp_call te no_ext (ctx_of tp_id (fst xdep)) (snd xdep) ts5 (unres (tstp ts5 xdep)) /\ announced (snd xdep) = Some (6%nat, 1000) /\
  tp_call te no_ext (ctx_of tp_id (fst (xmv tman 700))) (snd (xmv tman 700)) ts5 (unres (tstp ts5 (xmv tman 700))) /\
  lam (accs (unres (tstp ts5 (xmv tman 700))) tmv) = lam (accs ts5 tmv) - 700 /\ is_ok (tstp ts5 (xmv tstranger 700)) = false /\
  ext_keeps no_ext tmv /\ nonneg ts0 /\ is_multivault te ts5 tmv /\ own (accs ts5 tmv) = tp_id.
Proof.
  split; [demo_call|]. split; [reflexivity|]. split; [demo_call|]. split; [vm_compute; reflexivity|]. split; [vm_compute; reflexivity|].
  split; [intros c d s a s' H; destruct (no_ext_never _ _ _ _ H)|]. split; [apply demo_nonneg; vm_compute; reflexivity|].
  split; [|vm_compute; reflexivity]. split; [exists 255; vm_compute; reflexivity|]. exists (MultiVault true (KMultiVault 255)), 255. split; vm_compute; reflexivity.
Qed.
Example C56_ex :
  tp_call te no_ext (ctx_of tp_id (fst xdep)) (snd xdep) ts5 (unres (tstp ts5 xdep)) /\ makes_deposit (snd xdep) = Some (4%nat, 2, teverX, 1000) /\
  logs (unres (tstp ts5 xdep)) = logs ts5 ++ [enc c_ev_deposit (EvDeposit td2 teverX 29985 2 1000 (knum 72) (kb key0))].
Proof. split; [demo_call|]. split; [reflexivity|]. vm_compute. reflexivity. Qed.
Example C57_ex :
  tp_call te no_ext (ctx_of tp_id (fst xdep)) (snd xdep) ts5 (unres (tstp ts5 xdep)) /\
  fee_on (tk_fee_dep (the_token ts5 ttsS)) 30000 = 15.
Proof. split; [demo_call|]. vm_compute. reflexivity. Qed.

Print Assumptions C37_partial.
Print Assumptions C37_refuted.
Print Assumptions C38_partial.
Print Assumptions C38_refuted.
Print Assumptions C39_partial.
Print Assumptions C39_refuted.
Print Assumptions C40_ever.
Print Assumptions C40_sol.
Print Assumptions C44_partial.
Print Assumptions C44_refuted.
Print Assumptions C48_value.
Print Assumptions C48_withdraw.
Print Assumptions C48_only.
Print Assumptions C56_partial.
Print Assumptions C56_refuted.
Print Assumptions C57_partial.
Print Assumptions C57_cancel_refuted.
Print Assumptions C57_fill_refuted.
