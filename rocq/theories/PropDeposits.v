(** Property C76: every token can be deposited - unless somebody has sent a lamport to the address of its vault
    or of its settings before the first deposit. *)

From Coq Require Import Strings.String ZifyBool ZifyNat ZifyN.
From Verif Require Import TpDemoLaws SysGo TpDeposit PropTpReq PropTpFlow PropTpPay PropTpMoney PropTpMisc PropTpOutcome PropTpAdmin PropTpDaily PropLive PropExec PropExits.
Open Scope Z_scope.
Open Scope list_scope.
Ltac Zify.zify_post_hook ::= Z.div_mod_to_equations.

(** * Vocabulary *)

(** What the creation of a token account costs. *)
Definition token_price (e : env) : Z := Z.max 1 (e_rent e 165 mod 2 ^ 64).
(** The account lists of the Rust bindings (token-proxy/src/bindings.rs:195-213, 249-268). *)
Definition dever_accounts (funder author src dep mint mv tsk sk : key) : ctx := ctx_of tp_id
  [Meta funder true true; Meta author true true; Meta src false true; Meta dep false true; Meta mint false true; Meta mv false true;
   Meta tsk false true; Meta sk false false; Meta sys_id false false; Meta spl_id false false; Meta rent_id false false].
Definition dsol_accounts (funder author src vault dep mint mv tsk sk : key) : ctx := ctx_of tp_id
  [Meta funder true true; Meta author true true; Meta src false true; Meta vault false true; Meta dep false true; Meta mint false true;
   Meta mv false true; Meta tsk false true; Meta sk false false; Meta sys_id false false; Meta spl_id false false; Meta rent_id false false].
(** [mv] is the multi-vault with room for [value] lamports, [funder] a wallet with [value] and [more] lamports and
    [dep] the unused address number [seed] for a deposit. *)
Definition can_pay (e : env) (s : state) (funder mv dep : key) (seed value more : Z) : Prop :=
  multivault_stands e s mv /\ lam (accs s mv) + value < 2 ^ 64 /\ has_lamports s funder (value + record_price e + more) /\
  vacant s dep /\ exists dn, find_pda e (str "deposit" ++ le 16 seed) tp_id = Ok (dep, dn).

(** * Lemmas *)

Lemma fee_parts ts : okb c_token_settings ts = true -> 0 <= fi_mul (tk_fee_dep ts) /\ 0 <= fi_div (tk_fee_dep ts).
Proof.
  intros TO. apply okb_ts in TO. destruct TO as (_ & _ & _ & _ & _ & _ & _ & _ & _ & _ & FDP & _).
  unfold c_fee_info in FDP. cbn [c_iso okb c_pair fst snd] in FDP. apply andb_true_iff in FDP as [A B]. apply okb_u64 in A, B. lia.
Qed.
Lemma ix_value_sol seed n sy amount r v ev p : okb c_tp_ix (TpDepositSol seed n sy amount r v ev p) = true -> 0 <= v < 2 ^ 64.
Proof.
  intros O. change (okb c_u128 seed && (okb c_string n && (okb c_string sy && (okb c_u64 amount && (okb c_ever r && (okb c_u64 v && (true && okb c_bytes p)))))) = true) in O.
  rewrite !andb_true_iff in O. change (2 ^ 64) with u64max. rewrite <- okb_u64. tauto.
Qed.
Lemma ix_value_ever seed amount r v ev p : okb c_tp_ix (TpDepositEver seed amount r v ev p) = true -> 0 <= v < 2 ^ 64.
Proof.
  intros O. change (okb c_u128 seed && (okb c_u64 amount && (okb c_ever r && (okb c_u64 v && (true && okb c_bytes p)))) = true) in O.
  rewrite !andb_true_iff in O. change (2 ^ 64) with u64max. rewrite <- okb_u64. tauto.
Qed.
Lemma gda_go x a b : 0 <= x -> Z.abs (a - b) <= 38 -> rescale x b a < 2 ^ 128 -> get_deposit_amount x a b = Ok (rescale x b a).
Proof.
  intros X D F. unfold get_deposit_amount, rescale in *. destruct (b <? a) eqn:L.
  - destruct (a <? b) eqn:L2; [lia|]. destruct (pow10_small (a - b)) as [E P]; [lia|]. unfold cmul. rewrite E. change u128max with (2 ^ 128).
    apply Z.ltb_lt in F. rewrite F. reflexivity.
  - destruct (pow10_small (b - a)) as [E P]; [lia|]. unfold cdiv. rewrite E. replace (10 ^ (b - a) =? 0) with false by lia.
    destruct (a <? b) eqn:L2; [reflexivity|]. replace (b - a) with 0 by lia. replace (a - b) with 0 by lia. rewrite Z.pow_0_r. f_equal. lia.
Qed.

(** Burning by the owner. *)
Lemma burn_go c src mint auth n s a m : c_pid c = spl_id -> c_wr c src = true -> c_wr c mint = true -> c_sg c auth = true ->
  tok_in s src a -> mint_in s mint m -> ta_frozen a = false -> fst (ta_native a) = false -> 0 <= n <= ta_amount a -> ta_mint a = mint ->
  fst (ta_delegate a) = false -> ta_owner a = auth -> n <= tm_supply m ->
  exists s', tok_burn c src mint auth n s = Ok (tt, s') /\ only_two src mint s s' /\ (forall j, lam (accs s' j) = lam (accs s j)).
Proof.
  intros P W1 W2 SG [O1 U1] [O2 U2] F1 NA [N0 N1] MI DE OW SU.
  assert (NE : src <> mint).
  { intros E. rewrite E in *. apply tacc_len in U1. apply tmint_len in U2. rewrite U1 in U2. discriminate U2. }
  set (a' := ta_with a (ta_amount a - n) (ta_delegate a) (ta_damount a)).
  set (s2 := written c_tacc s src a'). set (s3 := written c_tmint s2 mint (tm_with_supply m (tm_supply m - n))).
  exists s3. split; [|split].
  - unfold tok_burn. eapply bind_go; [apply tacc_go; exact U1|]. cbv beta. eapply bind_go; [apply tmint_go; exact U2|]. cbv beta.
    eapply bind_go; [apply guard_go; rewrite F1; reflexivity|]. eapply bind_go; [apply guard_go; rewrite NA; reflexivity|].
    eapply bind_go; [apply guard_go; apply Z.leb_le; exact N1|]. eapply bind_go; [apply guard_go; rewrite MI; apply keqb_refl|].
    apply (bind_go _ _ s (ta_delegate a, ta_damount a) s).
    { destruct (keqb (ta_owner a) sys_id || keqb (ta_owner a) incinerator_id); [reflexivity|]. unfold spend. rewrite DE. cbn [andb]. eapply bind_go; [|reflexivity]. unfold validate_owner.
      eapply bind_go; [apply guard_go; rewrite OW; apply keqb_refl|]. apply guard_go. exact SG. }
    cbv beta iota. apply (bind_go _ _ s tt s).
    { destruct (n =? 0); [|reflexivity]. eapply bind_go; [apply check_owner_go; exact O1|]. apply check_owner_go. exact O2. }
    eapply bind_go; [apply guard_go; apply Z.leb_le; exact SU|].
    apply (bind_go _ _ s tt s2).
    { apply pack_at_go; [rewrite P; exact O1|exact W1|eapply tacc_len; exact U1|rewrite size_tacc; unfold TACC_LEN; lia]. }
    apply pack_at_go; [|exact W2| |rewrite size_tmint; unfold TMINT_LEN; lia].
    + unfold s2, written. rewrite own_put_dat, P. exact O2.
    + unfold s2, written. rewrite accs_put_dat_other by congruence. eapply tmint_len; exact U2.
  - split; [|split; [|split; reflexivity]].
    + intros j. unfold s3, s2, written. rewrite !own_put_dat. reflexivity.
    + intros j J1 J2. unfold s3, s2, written. rewrite !accs_put_dat_other by assumption. reflexivity.
  - intros j. unfold s3, s2, written. rewrite !lam_put_dat. reflexivity.
Qed.

(** A deposit, from the state [s0] after the registration of the token, if it takes place. *)
Lemma deposit_sol_go e ext s s0 funder author src vault dep mint mv tsk sk st ts md seed name symbol amount recipient value evers payload :
  let c := dsol_accounts funder author src vault dep mint mv tsk sk in
  let i := TpDepositSol seed name symbol amount recipient value evers payload in
  clock_ok s -> bridge_settings e s sk st -> gs_emergency st = false -> blen name <= 32 -> blen symbol <= 32 ->
  (if lam (accs s tsk) =? 0 then register_sol e c funder vault mint tsk name symbol else ret tt) s = Ok (tt, s0) ->
  lam_sum (c_keys c) s0 = lam_sum (c_keys c) s -> nonneg s0 ->
  sol_listed e s0 mint vault tsk ts -> tk_emergency ts = false -> tmint_in s0 mint md ->
  can_pay e s0 funder mv dep seed value 0 ->
  src <> vault -> can_send s0 mint src author vault amount -> accepts s0 mint vault amount -> balance s0 vault + amount <= tk_dlimit ts ->
  fee_fits (tk_fee_dep ts) amount -> tk_fee_supply ts + fee_on (tk_fee_dep ts) amount < 2 ^ 64 ->
  okb c_tp_ix i = true -> blen (tk_name ts) + blen (tk_symbol ts) + blen payload <= 806 ->
  exists s', tp_call e ext c i s s' /\ sol_listed e s' mint vault tsk (tk_set_fee_supply ts (tk_fee_supply ts + fee_on (tk_fee_dep ts) amount)).
Proof.
  intros c i CK BS GE NL SL RG LS0 NN LI TE TM (MV & MU & HL & VA & dn & FD) NSV CS AC DL FF FU OI SZ.
  destruct (bridge_set _ _ _ _ BS) as (pd & pn & SI & FP).
  pose proof LI as (TS & [v0 KT] & n & vn & KA & PV). pose proof (ts_in _ _ _ _ _ _ TS KA) as TI. pose proof (token_len _ _ _ _ TS) as (TL & TB & TO). pose proof TS as (OT & UT & _).
  assert (KY : c_keys c = [funder; author; src; vault; dep; mint; mv; tsk; sk; sys_id; spl_id; rent_id]) by reflexivity.
  assert (WS : c_sg c funder = true /\ c_wr c funder = true /\ c_sg c author = true /\ c_wr c src = true /\ c_wr c vault = true /\ c_wr c dep = true /\ c_wr c mv = true /\ c_wr c tsk = true)
    by (unfold c, dsol_accounts; repeat split; metas).
  destruct WS as (SF & WF & SA & WC & WV & WD & WM & WT).
  pose proof (ix_value_sol _ _ _ _ _ _ _ _ OI) as V0. destruct (ix_deposit_sol _ _ _ _ _ _ _ _ OI) as (AM & _ & _).
  assert (PR : 0 < record_price e < u64max) by (unfold record_price, u64max; lia).
  pose proof HL as (HL1 & HL2 & HL3). pose proof (fee_parts ts TO) as [FP1 FP2].
  destruct (send_go c src author vault mint amount [] s0) as (s1 & SEND & (SO1 & A1 & LG1 & T1) & LS1); try assumption; try (rewrite KY; cbn [In]; tauto); try (left; assumption); try lia.
  pose proof CS as (a & [OA UA] & _). pose proof AC as (v & [OV UV] & _ & _ & UVA).
  assert (U1 : forall j, own (accs s0 j) <> spl_id -> accs s1 j = accs s0 j) by (intros j J; apply A1; intros E; apply J; rewrite E; assumption).
  assert (FN : accs s1 funder = accs s0 funder) by (apply U1; rewrite HL2; discriminate).
  assert (MN : accs s1 mv = accs s0 mv) by (apply U1; destruct MV as [-> _]; discriminate).
  assert (DN : accs s1 dep = accs s0 dep) by (apply U1; destruct VA as (_ & -> & _); discriminate).
  assert (TN : accs s1 tsk = accs s0 tsk) by (apply U1; rewrite OT; discriminate).
  assert (FM : funder <> mv) by (intros E; destruct MV as [MO _]; rewrite <- E, HL2 in MO; discriminate).
  destruct (pay_same c funder mv value s1) as (s2 & PAY & SO & L2 & A2 & LS2 & T2); try assumption; try (rewrite KY; cbn [In]; tauto); try (rewrite MN); try lia.
  { unfold has_lamports. rewrite FN. split; [lia|auto]. } { apply NN. }
  assert (ND : dep <> funder /\ dep <> mv /\ dep <> tsk).
  { destruct VA as (V1 & V2 & _). split; [|split]; intros E; rewrite E in *; [lia| |].
    - destruct MV as [MO _]. rewrite MO in V2. discriminate.
    - rewrite OT in V2. discriminate. }
  destruct ND as (ND1 & ND2 & ND3).
  assert (NT : tsk <> funder) by (intros E; rewrite E, HL2 in OT; discriminate).
  destruct (new_deposit_go e c funder dep seed dn s2) as (s3 & CR & O3 & D3 & A3 & LS3 & T3); try assumption; try reflexivity; try (rewrite KY; cbn [In]; tauto).
  { unfold vacant. rewrite A2 by assumption. rewrite DN. exact VA. }
  { destruct (SO funder) as [X Y]. unfold has_lamports. rewrite L2, X, Y, FN. split; [lia|auto]. }
  set (fee := fee_on (tk_fee_dep ts) amount) in *.
  assert (FE : fee_of u64max (tk_fee_dep ts) amount = Ok fee) by (apply fee_go; assumption).
  assert (CN : csub amount fee = Ok (amount - fee)) by (unfold csub; replace (fee <=? amount) with true by (destruct FF as [_ FF]; unfold fee; lia); reflexivity).
  set (ev := DSolEvent mint (tk_name ts) (tk_symbol ts) (tm_decimals md) (amount - fee) recipient value evers payload).
  set (rec := Dep true (KDeposit dn) author (dsol_event_new ev) (dep_meta_new seed)).
  set (lg := enc c_ev_deposit (EvDeposit dep recipient (amount - fee) seed value evers (kb (e_hash e (enc c_dsol_event ev))))).
  set (s4 := put_log s3 lg).
  assert (RS : blen (enc c_dsol rec) <= TP_LEN).
  { unfold c_dsol. pose proof (size_dep (c_withlen c_dsol_event) (c_withlen c_u128) rec) as Z. unfold dsol in *. rewrite Z. cbn [rec d_kind d_event d_meta kind_len dsol_event_new dep_meta_new].
    unfold c_withlen. cbn [c_iso enc wl_len wl_data]. rewrite !blen_pair, !blen_u32, size_dsol_event, blen_u128. unfold ev, dsol_event_new. cbn [wl_data dse_name dse_symbol dse_payload].
    unfold TP_LEN. lia. }
  set (s5 := written c_dsol s4 dep rec). set (ts1 := tk_set_fee_supply ts (tk_fee_supply ts + fee)).
  assert (K5 : own (accs s5 tsk) = tp_id /\ dat (accs s5 tsk) = dat (accs s0 tsk)).
  { unfold s5, written. rewrite own_put_dat, accs_put_dat_other by congruence. change (accs s4) with (accs s3). rewrite A3 by congruence.
    destruct (SO tsk) as [-> ->]. rewrite TN. auto. }
  destruct K5 as [K5 K6].
  assert (SZ1 : blen (enc c_token_settings ts1) <= TP_LEN) by (rewrite size_token_settings in *; exact TB).
  assert (F0 : 0 < fee) by (unfold fee, fee_on; lia).
  assert (OK1 : okb c_token_settings ts1 = true) by (eapply deposit_fee_ok; [exact TO|exact FE|exact FU]).
  assert (B0 : ta_amount v + amount <= tk_dlimit ts). { revert DL. unfold balance. unfold tacc_in in UV. rewrite OV, keqb_refl, UV. auto. }
  exists (written c_token_settings s5 tsk ts1). split.
  - apply call_go; [reflexivity|exact CK|exact OI|]. apply sum_go.
    + cbn [tp_exec i]. unfold tp_deposit_sol. rewrite KY. cbv beta iota. eapply bind_go; [apply guard_go; apply keqb_refl|].
      eapply bind_go; [apply guard_go; exact SA|]. eapply bind_go; [eapply live_go; [reflexivity|exact SI|exact GE]|].
      eapply bind_go; [apply guard_go; apply Z.leb_le; exact NL|]. eapply bind_go; [apply guard_go; apply Z.leb_le; exact SL|].
      eapply bind_go; [reflexivity|]. cbv beta. eapply bind_go; [exact RG|].
      eapply bind_go; [eapply ts_sol_go; [reflexivity|exact TI|exact KT]|]. cbv beta iota. eapply bind_go; [unfold token_live; apply guard_go; rewrite TE; reflexivity|].
      eapply bind_go; [reflexivity|]. cbv beta. eapply bind_go; [apply guard_go; rewrite keqb_refl; reflexivity|].
      eapply bind_go; [apply tmint_go; exact TM|]. cbv beta. eapply bind_go; [reflexivity|]. cbv beta.
      eapply bind_go; [apply guard_go; rewrite OV, keqb_refl; cbn [negb]; rewrite andb_false_r; reflexivity|].
      eapply bind_go; [apply multivault_go; [reflexivity|exact MV]|]. eapply bind_go; [apply tacc_go; exact UV|]. cbv beta.
      eapply bind_go; [apply lift_go; unfold cadd; replace (ta_amount v + amount <? u64max) with true by (symmetry; apply Z.ltb_lt; exact UVA); reflexivity|]. cbv beta.
      eapply bind_go; [apply guard_go; apply Z.leb_le; exact B0|].
      eapply bind_go; [exact SEND|]. eapply bind_go; [exact PAY|].
      eapply bind_go. { unfold deposit_address. eapply bind_go; [apply lift_go; exact FD|]. cbv beta iota. eapply bind_go; [apply guard_go; apply keqb_refl|]. reflexivity. }
      cbv beta iota. eapply bind_go; [exact CR|]. cbv zeta. eapply bind_go; [apply lift_go; exact FE|]. cbv beta.
      eapply bind_go; [apply lift_go; unfold cadd; replace (tk_fee_supply ts + fee <? u64max) with true by (symmetry; apply Z.ltb_lt; exact FU); reflexivity|].
      eapply bind_go; [apply lift_go; exact CN|]. cbv beta.
      eapply bind_go; [unfold emit_deposit; reflexivity|].
      apply (bind_go _ _ s4 tt s5). { apply (pack_at_go c c_dsol TP_LEN dep rec s4); [exact O3|exact WD|exact D3|exact RS]. }
      apply pack_at_go; [exact K5|exact WT|rewrite K6; exact TL|exact SZ1].
    + rewrite lam_sum_written. unfold s5. rewrite lam_sum_written. change (lam_sum (c_keys c) s4) with (lam_sum (c_keys c) s3). rewrite LS3, LS2, LS1. exact LS0.
  - split; [|split; [exists v0; exact KT|exists n, vn; split; [exact KA|exact PV]]].
    split; [rewrite written_own; exact K5|]. split.
    + apply written_reads; [typeclasses eauto|rewrite K6; exact TL|exact SZ1|exact OK1|]. apply unpack_ok in UT as (r & _ & _ & _ & I0); [exact I0|typeclasses eauto].
    + destruct TS as (_ & _ & X). exact X.
Qed.

(** Registration of a token by its first deposit. *)
Lemma init3_go e c k mint owner s : c_pid c = spl_id -> c_wr c k = true -> own (accs s k) = spl_id -> dat (accs s k) = repeat x00 165 ->
  e_rent e 165 mod 2 ^ 64 <= lam (accs s k) -> lam (accs s k) < 2 ^ 64 -> (exists m, mint_in s mint m) ->
  exists t, tok_init_account3 e c k mint owner s = Ok (tt, written c_tacc s k t) /\ okb c_tacc t = true /\ ta_init t = true /\ ta_mint t = mint /\ ta_owner t = owner /\ ta_state t = TInit /\
    ta_amount t = (if keqb mint native_mint then lam (accs s k) - e_rent e 165 mod 2 ^ 64 else 0) /\
    ta_native t = (if keqb mint native_mint then (true, e_rent e 165 mod 2 ^ 64) else (false, 0)) /\ fst (ta_delegate t) = false.
Proof.
  intros P W O D R L [m [OM UM]]. set (t0 := TAcc key0 key0 0 (false, key0) TUninit (false, 0) 0 (false, key0)).
  assert (U0 : spl_unpack_unchecked c_tacc TACC_LEN (dat (accs s k)) = Ok t0) by (rewrite D; vm_compute; reflexivity).
  set (nt := if keqb mint native_mint then ((true, e_rent e 165 mod 2 ^ 64), lam (accs s k) - e_rent e 165 mod 2 ^ 64) else ((false, 0), 0)).
  exists (TAcc mint owner (snd nt) (false, key0) TInit (fst nt) 0 (false, key0)). split; [|split].
  - unfold tok_init_account3. eapply bind_go; [reflexivity|]. cbv beta. eapply bind_go; [apply lift_go; exact U0|]. cbv beta.
    eapply bind_go; [apply guard_go; reflexivity|]. change (rent_min e TACC_LEN) with (e_rent e 165 mod 2 ^ 64).
    eapply bind_go; [apply guard_go; apply Z.leb_le; exact R|].
    apply (bind_go _ _ s tt s).
    { destruct (keqb mint native_mint); [reflexivity|]. eapply bind_go; [apply check_owner_go; exact OM|]. eapply bind_go; [reflexivity|]. cbv beta.
      apply guard_go. unfold spl_unpack. unfold tmint_in in UM. rewrite UM. reflexivity. }
    apply (bind_go _ _ s nt s).
    { unfold nt. destruct (keqb mint native_mint); [|reflexivity]. eapply bind_go; [apply guard_go; apply Z.leb_le; exact R|]. reflexivity. }
    rewrite (surjective_pairing nt). cbv beta iota. cbn [snd t0 ta_delegate ta_close]. rewrite <- (surjective_pairing nt).
    apply pack_at_go; [rewrite P; exact O|exact W|rewrite D; reflexivity|rewrite size_tacc; unfold TACC_LEN; lia].
  - apply okb_tacc. cbn [ta_amount ta_native ta_damount]. unfold nt, u64max. destruct (keqb mint native_mint); cbn [fst snd]; lia.
  - unfold nt. cbn [ta_init ta_state ta_mint ta_owner ta_amount ta_native]. destruct (keqb mint native_mint); auto 10.
Qed.

Lemma register_go e c funder vault mint tsk vn tn name symbol s : c_pid c = tp_id -> In funder (c_keys c) -> In vault (c_keys c) -> In mint (c_keys c) ->
  In tsk (c_keys c) -> In sys_id (c_keys c) -> In spl_id (c_keys c) -> c_sg c funder = true -> c_wr c funder = true -> c_wr c vault = true -> c_wr c tsk = true ->
  find_pda e (str "vault" ++ kb mint) tp_id = Ok (vault, vn) -> find_pda e (str "settings" ++ kb mint) tp_id = Ok (tsk, tn) ->
  vacant s vault -> vacant s tsk -> vault <> tsk -> has_lamports s funder (token_price e + record_price e) -> (exists m, mint_in s mint m) ->
  okb c_string name = true -> okb c_string symbol = true -> blen name <= 32 -> blen symbol <= 32 -> nonneg s ->
  exists s0 t, register_sol e c funder vault mint tsk name symbol s = Ok (tt, s0) /\ nonneg s0 /\ lam_sum (c_keys c) s0 = lam_sum (c_keys c) s /\
    sol_listed e s0 mint vault tsk (new_token_settings (KTokenSettings tn vn) (TKSol mint vault) name symbol) /\
    tok_in s0 vault t /\ ta_mint t = mint /\ ta_owner t = vault /\ ta_state t = TInit /\ 0 <= ta_amount t <= token_price e /\ (mint <> native_mint -> ta_amount t = 0) /\
    lam (accs s0 vault) = token_price e /\
    (forall j, j <> funder -> j <> vault -> j <> tsk -> accs s0 j = accs s j) /\
    own (accs s0 funder) = sys_id /\ dat (accs s0 funder) = [] /\ lam (accs s0 funder) = lam (accs s funder) - token_price e - record_price e.
Proof.
  intros P I1 I2 I3 I4 I5 I6 SG W1 W2 W3 FV FT VV VT NE HL (m & OM & UM) ON OS LN LSY NN.
  assert (PR : 0 < record_price e < u64max /\ 0 < token_price e < u64max) by (unfold record_price, token_price, u64max; lia). destruct PR as [PR PT].
  pose proof HL as (HL1 & HL2 & HL3). pose proof VV as (VV1 & VV2 & VV3). pose proof VT as (VT1 & VT2 & VT3).
  assert (N1 : funder <> vault) by (intros E; rewrite E in *; lia). assert (N2 : funder <> tsk) by (intros E; rewrite E in *; lia).
  assert (M1 : mint <> vault) by (intros E; rewrite E, VV2 in OM; discriminate). assert (M2 : mint <> tsk) by (intros E; rewrite E, VT2 in OM; discriminate).
  assert (M3 : mint <> funder) by (intros E; rewrite E, HL2 in OM; discriminate).
  pose proof FV as FV0. apply find_pda_some in FV0 as [FV0 _]. pose proof FT as FT0. apply find_pda_some in FT0 as [FT0 _].
  destruct (create_go e c funder vault (token_price e) TACC_LEN spl_id (with_bump (sd_vault mint) vn) s) as (s1 & C1 & A1 & A2 & A3 & L1 & T1); try assumption.
  { rewrite P. exact FV0. } { split; [lia|auto]. } { unfold TACC_LEN, MAX_DATA. lia. } { discriminate. }
  assert (MI : mint_in s1 mint m) by (split; unfold tmint_in; rewrite A3 by assumption; assumption).
  destruct (init3_go e (ctx_of spl_id [Meta vault false true; Meta mint false false]) vault mint vault s1) as (t & IN & OKT & TI & TM & TO & TST & TA & _); try reflexivity; try (rewrite A1; reflexivity).
  { cbn [ctx_of c_wr existsb m_key m_wr]. rewrite keqb_refl. reflexivity. }
  { rewrite A1. cbn [lam]. unfold token_price. lia. } { rewrite A1. cbn [lam]. unfold u64max in *. lia. } { exists m. exact MI. }
  set (s2 := written c_tacc s1 vault t) in *.
  assert (S2 : forall j, j <> vault -> accs s2 j = accs s1 j) by (intros j J; apply accs_put_dat_other; exact J).
  destruct (create_go e c funder tsk (record_price e) TP_LEN tp_id (with_bump (sd_ts_sol mint) tn) s2) as (s3 & C3 & B1 & B2 & B3 & L3 & T3); try assumption.
  { rewrite P. exact FT0. } { unfold vacant. rewrite S2, A3 by congruence. exact VT. }
  { unfold has_lamports. rewrite S2, A2 by congruence. cbn [lam own dat]. split; [lia|auto]. } { unfold TP_LEN, MAX_DATA. lia. } { discriminate. }
  set (s4 := put_log s3 (enc c_ev_token (EvToken tsk symbol name mint (Some vault) None None None default_fee))).
  set (ts := new_token_settings (KTokenSettings tn vn) (TKSol mint vault) name symbol).
  assert (SZ : blen (enc c_token_settings ts) <= TP_LEN).
  { rewrite size_token_settings. cbn [ts new_token_settings tk_akind tk_kind tk_name tk_symbol kind_len]. rewrite blen_token_kind. unfold TP_LEN. lia. }
  set (s0 := written c_token_settings s4 tsk ts).
  assert (D4 : blen (dat (accs s4 tsk)) = TP_LEN) by (change (accs s4) with (accs s3); rewrite B1; cbn [dat]; unfold blen; rewrite repeat_length; reflexivity).
  assert (O4 : own (accs s4 tsk) = tp_id) by (change (accs s4) with (accs s3); rewrite B1; reflexivity).
  assert (K0 : forall j, j <> tsk -> accs s0 j = accs s3 j) by (intros j J; unfold s0, written; rewrite accs_put_dat_other by exact J; reflexivity).
  assert (L0 : forall j, lam (accs s0 j) = lam (accs s3 j)) by (intros j; unfold s0, written; rewrite lam_put_dat; reflexivity).
  assert (V2 : accs s0 vault = accs s2 vault) by (rewrite K0 by exact NE; apply B3; congruence).
  assert (LV : lam (accs s0 vault) = token_price e) by (rewrite V2; unfold s2, written; rewrite lam_put_dat, A1; reflexivity).
  assert (F0 : accs s0 funder = Acct (lam (accs s funder) - token_price e - record_price e) sys_id []).
  { rewrite K0, B2, S2, A2 by congruence. reflexivity. }
  assert (R0 : forall j, j <> funder -> j <> vault -> j <> tsk -> accs s0 j = accs s j).
  { intros j J1 J2 J3. rewrite K0, B3, S2, A3 by assumption. reflexivity. }
  assert (LT : lam (accs s0 tsk) = record_price e) by (rewrite L0, B1; reflexivity).
  assert (ND : okb c_u8 tn = true /\ okb c_u8 vn = true) by (rewrite !okb_u8; apply find_pda_some in FV as [_ FV], FT as [_ FT]; lia). destruct ND as [ND1 ND2].
  assert (OKS : okb c_token_settings ts = true) by (apply new_token_ok; try assumption; reflexivity).
  exists s0, t. split; [|split; [|split; [|split; [|split]]]].
  - unfold register_sol. rewrite P. eapply bind_go; [apply lift_go; exact FV|]. cbv beta iota. eapply bind_go; [apply guard_go; apply keqb_refl|].
    eapply bind_go; [exact C1|]. eapply bind_go; [unfold pda_signer; apply lift_go; rewrite P; unfold with_bump, sd_vault; rewrite FV0; reflexivity|]. cbv beta.
    apply (bind_go _ _ s1 tt s2). { unfold invoke_init_account3. apply cpi_go; [exact I6| |exact IN].
      repeat (apply Forall_cons; [cbn [m_key m_sg m_wr]; (split; [assumption|split; [assumption|split; intros X; [discriminate X|try discriminate X; assumption]]])|]). apply Forall_nil. }
    eapply bind_go; [apply lift_go; exact FT|]. cbv beta iota. eapply bind_go; [apply guard_go; apply keqb_refl|].
    eapply bind_go; [exact C3|]. apply (bind_go _ _ s3 tt s4); [reflexivity|].
    apply pack_at_go; [rewrite P; exact O4|exact W3|exact D4|exact SZ].
  - intros j. destruct (key_dec j funder) as [J|J]; [rewrite J, F0; cbn [lam]; lia|]. destruct (key_dec j vault) as [J2|J2]; [rewrite J2, LV; lia|].
    destruct (key_dec j tsk) as [J3|J3]; [rewrite J3, LT; lia|]. rewrite R0 by assumption. apply NN.
  - transitivity (lam_sum (c_keys c) s2).
    + apply (two_sum _ s2 s0 tsk funder (record_price e)); try assumption; try congruence.
      * rewrite LT, S2, A3 by congruence. lia.
      * rewrite F0, S2, A2 by congruence. reflexivity.
      * intros j J1 J2. rewrite L0, B3 by congruence. reflexivity.
    + unfold s2. rewrite lam_sum_written. apply (two_sum _ s s1 vault funder (token_price e)); try assumption; try congruence.
      * rewrite A1. cbn [lam]. lia.
      * rewrite A2. reflexivity.
      * intros j J1 J2. rewrite A3 by assumption. reflexivity.
  - split; [|split; [exists vault; reflexivity|exists tn, vn; split; [reflexivity|exact FV]]].
    split; [unfold s0; rewrite written_own; exact O4|]. split; [apply written_reads; [typeclasses eauto|exact D4|exact SZ|exact OKS|reflexivity]|].
    exists tn, vn. split; [reflexivity|exact FT].
  - split; [rewrite V2; unfold s2; rewrite written_own, A1; reflexivity|]. unfold tacc_in. rewrite V2. unfold s2.
    apply written_reads; [typeclasses eauto|rewrite A1; cbn [dat]; unfold blen; rewrite repeat_length; reflexivity|rewrite size_tacc; unfold TACC_LEN; lia|exact OKT|exact TI].
  - split; [exact TM|]. split; [exact TO|]. split; [exact TST|].
    assert (TA2 : 0 <= ta_amount t <= token_price e). { rewrite TA, A1. cbn [lam]. destruct (keqb mint native_mint); unfold token_price; lia. }
    split; [exact TA2|]. split; [intros NM; rewrite TA, keqb_ne by exact NM; reflexivity|]. split; [exact LV|]. split; [exact R0|].
    rewrite F0. auto.
Qed.

(** * C76 *)

(** Whoever has tokens of a registered Solana token can deposit them, to any recipient, as long as bridge and token
    are not stopped, the deposit limit is kept, the deposit fee is defined, not above the amount, and leaves room in
    the 64-bit fee counter, and name, symbol and payload fit into the record. *)
Theorem C76_sol : forall e ext s funder author src vault dep mint mv tsk sk ts md seed name symbol amount recipient value evers payload,
  let fee := fee_on (tk_fee_dep ts) amount in
  clock_ok s -> nonneg s -> sol_listed e s mint vault tsk ts -> lam (accs s tsk) <> 0 -> running e s sk ts -> tmint_in s mint md ->
  can_pay e s funder mv dep seed value 0 ->
  src <> vault -> can_send s mint src author vault amount -> accepts s mint vault amount -> balance s vault + amount <= tk_dlimit ts ->
  fee_fits (tk_fee_dep ts) amount -> tk_fee_supply ts + fee < 2 ^ 64 -> blen name <= 32 -> blen symbol <= 32 ->
  okb c_tp_ix (TpDepositSol seed name symbol amount recipient value evers payload) = true -> blen (tk_name ts) + blen (tk_symbol ts) + blen payload <= 806 ->
  exists s', tp_call e ext (dsol_accounts funder author src vault dep mint mv tsk sk) (TpDepositSol seed name symbol amount recipient value evers payload) s s' /\
    balance s' src = balance s src - amount /\ balance s' vault = balance s vault + amount /\ lam (accs s' mv) = lam (accs s mv) + value /\
    sol_listed e s' mint vault tsk (tk_set_fee_supply ts (tk_fee_supply ts + fee)) /\
    sol_deposit e s' dep author seed (DSolEvent mint (tk_name ts) (tk_symbol ts) (tm_decimals md) (amount - fee) recipient value evers payload).
Proof.
  intros e ext s funder author src vault dep mint mv tsk sk ts md seed name symbol amount recipient value evers payload fee
    CK NN LI LT ([st [BS GE]] & TE) TM CP NSV CS AC DL FF FU NL SL OI SZ.
  destruct (deposit_sol_go e ext s s funder author src vault dep mint mv tsk sk st ts md seed name symbol amount recipient value evers payload) as (s' & R & LI'); try assumption; try reflexivity.
  { replace (lam (accs s tsk) =? 0) with false by lia. reflexivity. }
  exists s'. split; [exact R|].
  destruct (C38_partial _ _ _ _ _ _ _ _ _ _ _ _ _ R) as (f' & a' & c' & v' & d' & m' & mv' & t' & t & md' & ts' & m & v & (rest & KE) & (_ & UT') & _ & TM' & _ & _ & _ & _ & X & _ & _ & _ & _ & _ & _ & _ & SD & _ & LM).
  injection KE as <- <- <- <- <- <- <- <- _. destruct (X NSV) as (_ & _ & X1 & X2).
  destruct LI' as ((O' & U' & K') & L2 & L3). rewrite U' in UT'. injection UT' as <-. unfold tmint_in in *. rewrite TM in TM'. injection TM' as <-.
  split; [exact X1|]. split; [apply X2; left; exact LT|]. split; [exact LM|]. split; [split; [split; [exact O'|split; [exact U'|exact K']]|split; [exact L2|exact L3]]|exact SD].
Qed.

(** Whoever has tokens of a mint that the bridge does not know can register the mint and deposit them: one or more
    tokens, less than 2^64 together with the price of the vault.  MISSING for the full C76: lamports at the addresses
    of vault or settings stop it, see C76_refuted. *)
Theorem C76_first_partial : forall e ext s funder author src vault vn dep mint mv tsk tn sk st md seed name symbol amount recipient value evers payload,
  let fee := fee_on (FeeInfo 5 10000) amount in
  clock_ok s -> nonneg s -> find_pda e (str "vault" ++ kb mint) tp_id = Ok (vault, vn) -> find_pda e (str "settings" ++ kb mint) tp_id = Ok (tsk, tn) ->
  vacant s vault -> vacant s tsk -> vault <> tsk -> dep <> vault -> dep <> tsk ->
  bridge_settings e s sk st -> gs_emergency st = false -> mint_in s mint md ->
  can_pay e s funder mv dep seed value (token_price e + record_price e) ->
  can_send s mint src author vault amount -> 1 <= amount -> amount + token_price e < 2 ^ 64 -> blen name <= 32 -> blen symbol <= 32 ->
  okb c_tp_ix (TpDepositSol seed name symbol amount recipient value evers payload) = true -> blen name + blen symbol + blen payload <= 806 ->
  exists s' ts', tp_call e ext (dsol_accounts funder author src vault dep mint mv tsk sk) (TpDepositSol seed name symbol amount recipient value evers payload) s s' /\
    balance s' src = balance s src - amount /\ (mint <> native_mint -> balance s' vault = amount) /\ lam (accs s' mv) = lam (accs s mv) + value /\
    sol_listed e s' mint vault tsk ts' /\ tk_kind ts' = TKSol mint vault /\ tk_name ts' = name /\ tk_symbol ts' = symbol /\ tk_fee_supply ts' = fee /\
    sol_deposit e s' dep author seed (DSolEvent mint name symbol (tm_decimals md) (amount - fee) recipient value evers payload).
Proof.
  intros e ext s funder author src vault vn dep mint mv tsk tn sk st md seed name symbol amount recipient value evers payload fee
    CK NN FV FT VV VT NVT NDV NDT BS GE MI (MV & MU & HL & VA & dn & FD) CS A1 AB NL SL OI SZ.
  set (c := dsol_accounts funder author src vault dep mint mv tsk sk).
  pose proof (ix_value_sol _ _ _ _ _ _ _ _ OI) as V0. destruct (ix_deposit_sol _ _ _ _ _ _ _ _ OI) as (AM & ON & OS).
  assert (PR : 0 < record_price e < u64max /\ 0 < token_price e < u64max) by (unfold record_price, token_price, u64max; lia). destruct PR as [PR PT].
  assert (KY : c_keys c = [funder; author; src; vault; dep; mint; mv; tsk; sk; sys_id; spl_id; rent_id]) by reflexivity.
  pose proof HL as (HL1 & HL2 & HL3). pose proof VV as (VV1 & VV2 & VV3). pose proof VT as (VT1 & VT2 & VT3).
  destruct (register_go e c funder vault mint tsk vn tn name symbol s) as (s0 & t & RG & NN0 & LS0 & LI & TV & TVM & TVO & TVS & TVA & TVN & LV & R0 & F1 & F2 & F3);
    try assumption; try reflexivity; try (rewrite KY; cbn [In]; tauto); try (unfold c, dsol_accounts; metas).
  { split; [lia|auto]. } { exists md. exact MI. }
  pose proof CS as (a & [OA UA] & FA & MA & OWA & DA & NA & LA).
  assert (NSV : src <> vault) by (intros E; rewrite E, VV2 in OA; discriminate).
  assert (OLD : forall j, own (accs s j) <> sys_id -> accs s0 j = accs s j).
  { intros j J. apply R0; intros E; apply J; rewrite E; assumption. }
  destruct MI as [OM UM].
  assert (ES : accs s0 src = accs s src) by (apply OLD; rewrite OA; discriminate).
  assert (EM : accs s0 mint = accs s mint) by (apply OLD; rewrite OM; discriminate).
  assert (EV : accs s0 mv = accs s mv) by (apply OLD; destruct MV as [-> _]; discriminate).
  assert (ED : accs s0 dep = accs s dep).
  { apply R0; [|exact NDV|exact NDT]. intros E. rewrite E in *. destruct VA as (VA & _). lia. }
  set (ts := new_token_settings (KTokenSettings tn vn) (TKSol mint vault) name symbol) in *.
  assert (FO : fee_on (tk_fee_dep ts) amount = fee) by reflexivity.
  assert (FB : fee <= amount) by (unfold fee, fee_on; cbn [fi_div fi_mul]; lia).
  assert (FB2 : 0 < fee) by (unfold fee, fee_on; lia).
  destruct (deposit_sol_go e ext s s0 funder author src vault dep mint mv tsk sk st ts md seed name symbol amount recipient value evers payload) as (s' & R & LI'); try assumption; try reflexivity.
  { rewrite VT1. exact RG. }
  { unfold tmint_in. rewrite EM. exact UM. }
  { split; [unfold multivault_stands; rewrite EV; exact MV|]. split; [rewrite EV; exact MU|]. split; [unfold has_lamports; rewrite F1, F2, F3; split; [lia|auto]|].
    split; [unfold vacant; rewrite ED; exact VA|exists dn; exact FD]. }
  { exists a. unfold tok_in, tacc_in. rewrite ES, LV. split; [split; [exact OA|exact UA]|]. do 5 (split; [assumption|]).
    intros X. destruct (LA X) as [LA1 _]. split; [exact LA1|lia]. }
  { exists t. split; [exact TV|]. split; [rewrite TVS; discriminate|]. split; [exact TVM|]. lia. }
  { destruct TV as [TV1 TV2]. unfold balance. unfold tacc_in in TV2. rewrite TV1, keqb_refl, TV2. change (tk_dlimit ts) with (2 ^ 64 - 1). lia. }
  { split; [discriminate|]. rewrite FO. exact FB. }
  { rewrite FO. change (tk_fee_supply ts) with 0. unfold u64max in AM. lia. }
  exists s', (tk_set_fee_supply ts (tk_fee_supply ts + fee_on (tk_fee_dep ts) amount)). split; [exact R|].
  destruct (C38_partial _ _ _ _ _ _ _ _ _ _ _ _ _ R) as (f' & a' & c' & v' & d' & m' & mv' & t' & t0 & md' & ts' & m & v & (rest & KE) & (_ & UT') & _ & TM' & _ & _ & _ & _ & X & _ & _ & _ & _ & _ & _ & _ & SD & _ & LM).
  injection KE as <- <- <- <- <- <- <- <- _. destruct (X NSV) as (_ & _ & X1 & X2).
  destruct LI' as ((O' & U' & K') & L2 & L3). rewrite U' in UT'. injection UT' as <-. unfold tmint_in in *. rewrite UM in TM'. injection TM' as <-.
  split; [exact X1|]. split.
  { intros NM. rewrite X2 by (right; exact NM). assert (B0 : balance s vault = 0) by (unfold balance; rewrite VV2; reflexivity). rewrite B0. reflexivity. }
  split; [exact LM|]. split; [split; [split; [exact O'|split; [exact U'|exact K']]|split; [exact L2|exact L3]]|].
  split; [reflexivity|]. split; [reflexivity|]. split; [reflexivity|]. split; [reflexivity|exact SD].
Qed.

(** Whoever has tokens of a registered Ever token can deposit them. *)
Theorem C76_ever : forall e ext s funder author src dep token mint mv tsk sk ts m dec a md seed amount recipient value evers payload,
  let fee := fee_on (tk_fee_dep ts) amount in let out := rescale (amount - fee) (tm_decimals md) dec in
  clock_ok s -> nonneg s -> ever_listed e s token mint tsk ts -> tk_kind ts = TKEver m token dec -> running e s sk ts ->
  mint_in s mint md -> amount <= tm_supply md ->
  tok_in s src a -> ta_state a <> TFrozen -> ta_mint a = mint -> ta_owner a = author -> fst (ta_delegate a) = false -> fst (ta_native a) = false -> amount <= ta_amount a ->
  can_pay e s funder mv dep seed value 0 ->
  fee_fits (tk_fee_dep ts) amount -> tk_fee_supply ts + fee < 2 ^ 64 -> Z.abs (dec - tm_decimals md) <= 38 -> out < 2 ^ 128 ->
  okb c_tp_ix (TpDepositEver seed amount recipient value evers payload) = true -> blen payload <= 811 ->
  exists s', tp_call e ext (dever_accounts funder author src dep mint mv tsk sk) (TpDepositEver seed amount recipient value evers payload) s s' /\
    balance s' src = balance s src - amount /\ supply s' mint = supply s mint - amount /\ lam (accs s' mv) = lam (accs s mv) + value /\
    ever_listed e s' token mint tsk (tk_set_fee_supply ts (tk_fee_supply ts + fee)) /\
    ever_deposit e s' dep author seed (DEverEvent token out recipient value evers payload).
Proof.
  intros e ext s funder author src dep token mint mv tsk sk ts m dec a md seed amount recipient value evers payload fee out
    CK NN LI KT ([st [BS GE]] & TE) MI AS TA FZ AMI AOW ADL ANA AAM (MV & MU & HL & VA & dn & FD) FF FU DD OB OI SZ.
  set (c := dever_accounts funder author src dep mint mv tsk sk). set (i := TpDepositEver seed amount recipient value evers payload) in *.
  destruct (bridge_set _ _ _ _ BS) as (pd & pn & SI & FP).
  pose proof LI as (TS & LT & _ & n & mn & KA & PM). pose proof (ts_in _ _ _ _ _ _ TS KA) as TI. pose proof (token_len _ _ _ _ TS) as (TL & TB & TO). pose proof TS as (OT & UT & _).
  assert (KY : c_keys c = [funder; author; src; dep; mint; mv; tsk; sk; sys_id; spl_id; rent_id]) by reflexivity.
  assert (WS : c_sg c funder = true /\ c_wr c funder = true /\ c_sg c author = true /\ c_wr c src = true /\ c_wr c mint = true /\ c_wr c dep = true /\ c_wr c mv = true /\ c_wr c tsk = true)
    by (unfold c, dever_accounts; repeat split; metas).
  destruct WS as (SF & WF & SA & WC & WI & WD & WM & WT).
  pose proof (ix_value_ever _ _ _ _ _ _ OI) as V0. pose proof (ix_deposit_ever _ _ _ _ _ _ OI) as AM.
  assert (PR : 0 < record_price e < u64max) by (unfold record_price, u64max; lia).
  pose proof HL as (HL1 & HL2 & HL3). pose proof (fee_parts ts TO) as [FP1 FP2].
  assert (FA : ta_frozen a = false) by (unfold ta_frozen; destruct (ta_state a); congruence).
  destruct (burn_go (ctx_of spl_id [Meta src false true; Meta mint false true; Meta author false false; Meta author true false]) src mint author amount s a md)
    as (s1 & BU & (SO1 & A1 & LG1 & T1) & L1); try assumption; try reflexivity; try lia.
  { cbn [ctx_of c_wr existsb m_key m_wr]. rewrite keqb_refl. reflexivity. }
  { cbn [ctx_of c_wr existsb m_key m_wr]. rewrite keqb_refl. cbn [andb]. apply orb_true_r. }
  { cbn [ctx_of c_sg existsb m_key m_sg]. rewrite !keqb_refl, !andb_false_r. reflexivity. }
  pose proof TA as [OA UA]. pose proof MI as [OM UM].
  assert (U1 : forall j, own (accs s j) <> spl_id -> accs s1 j = accs s j) by (intros j J; apply A1; intros E; apply J; rewrite E; assumption).
  assert (FN : accs s1 funder = accs s funder) by (apply U1; rewrite HL2; discriminate).
  assert (MN : accs s1 mv = accs s mv) by (apply U1; destruct MV as [-> _]; discriminate).
  assert (DN : accs s1 dep = accs s dep) by (apply U1; destruct VA as (_ & -> & _); discriminate).
  assert (TN : accs s1 tsk = accs s tsk) by (apply U1; rewrite OT; discriminate).
  assert (FM : funder <> mv) by (intros E; destruct MV as [MO _]; rewrite <- E, HL2 in MO; discriminate).
  assert (ND : dep <> funder /\ dep <> mv /\ dep <> tsk).
  { destruct VA as (V1 & V2 & _). split; [|split]; intros E; rewrite E in *; [lia| |].
    - destruct MV as [MO _]. rewrite MO in V2. discriminate.
    - rewrite OT in V2. discriminate. }
  destruct ND as (ND1 & ND2 & ND3).
  assert (NT : tsk <> funder) by (intros E; rewrite E, HL2 in OT; discriminate).
  assert (HL' : has_lamports s1 funder (record_price e)) by (unfold has_lamports; rewrite FN; split; [lia|auto]).
  assert (DP : 0 < record_price e < u64max) by exact PR.
  destruct (create_go e c funder dep (record_price e) TP_LEN tp_id (with_bump (sd_deposit seed) dn) s1) as (s2 & CR & B1 & B2 & B3 & LG2 & T2); try assumption; try (rewrite KY; cbn [In]; tauto); try congruence.
  { apply find_pda_some in FD as [FD _]. exact FD. } { unfold vacant. rewrite DN. exact VA. } { unfold TP_LEN, MAX_DATA. lia. } { discriminate. }
  assert (LS2 : lam_sum (c_keys c) s2 = lam_sum (c_keys c) s1).
  { apply (two_sum _ s1 s2 dep funder (record_price e)); try (rewrite KY; cbn [In]; tauto); try congruence.
    - rewrite B1, DN. cbn [lam]. destruct VA as (-> & _). lia.
    - rewrite B2. reflexivity.
    - intros j J1 J2. rewrite B3 by assumption. reflexivity. }
  assert (FE : fee_of u64max (tk_fee_dep ts) amount = Ok fee) by (apply fee_go; assumption).
  assert (FB : fee <= amount) by (destruct FF as [_ FF]; exact FF).
  assert (F0 : 0 < fee) by (unfold fee, fee_on; lia).
  assert (CN : csub amount fee = Ok (amount - fee)) by (unfold csub; replace (fee <=? amount) with true by lia; reflexivity).
  assert (GD : get_deposit_amount (amount - fee) dec (tm_decimals md) = Ok out) by (apply gda_go; [lia|exact DD|exact OB]).
  set (ev := DEverEvent token out recipient value evers payload).
  set (rec := Dep true (KDeposit dn) author (dever_event_new ev) (dep_meta_new seed)).
  set (lg := enc c_ev_deposit (EvDeposit dep recipient out seed value evers (kb (e_hash e (enc c_dever_event ev))))).
  set (s3 := put_log s2 lg).
  assert (RS : blen (enc c_dever rec) <= TP_LEN).
  { unfold c_dever. pose proof (size_dep (c_withlen c_dever_event) (c_withlen c_u128) rec) as Z. unfold dever in *. rewrite Z. cbn [rec d_kind d_event d_meta kind_len dever_event_new dep_meta_new].
    unfold c_withlen. cbn [c_iso enc wl_len wl_data]. rewrite !blen_pair, !blen_u32, size_dever_event, blen_u128. unfold ev, dever_event_new. cbn [wl_data dee_payload].
    unfold TP_LEN. lia. }
  set (s4 := written c_dever s3 dep rec). set (ts1 := tk_set_fee_supply ts (tk_fee_supply ts + fee)).
  assert (K4 : accs s4 tsk = accs s tsk).
  { unfold s4, written. rewrite accs_put_dat_other by congruence. change (accs s3) with (accs s2). rewrite B3 by congruence. exact TN. }
  assert (SZ1 : blen (enc c_token_settings ts1) <= TP_LEN) by (rewrite size_token_settings in *; exact TB).
  assert (OK1 : okb c_token_settings ts1 = true) by (eapply deposit_fee_ok; [exact TO|exact FE|exact FU]).
  set (s5 := written c_token_settings s4 tsk ts1).
  assert (K5 : own (accs s5 tsk) = tp_id /\ unpack c_token_settings TP_LEN tk_init (dat (accs s5 tsk)) = Ok ts1).
  { split; [unfold s5; rewrite written_own, K4; exact OT|]. apply written_reads; [typeclasses eauto|rewrite K4; exact TL|exact SZ1|exact OK1|].
    apply unpack_ok in UT as (r & _ & _ & _ & I0); [exact I0|typeclasses eauto]. }
  assert (F5 : accs s5 funder = Acct (lam (accs s funder) - record_price e) sys_id []).
  { unfold s5, s4, written. rewrite !accs_put_dat_other by congruence. change (accs s3) with (accs s2). rewrite B2, FN. reflexivity. }
  assert (M5 : accs s5 mv = accs s mv).
  { unfold s5, s4, written. rewrite !accs_put_dat_other; [|congruence|]. { change (accs s3) with (accs s2). rewrite B3, MN by congruence. reflexivity. }
    intros E. rewrite <- E in *. destruct MV as (_ & x & y & X & Y & Z). eapply (mv_not_token e s mv ts); [|exact TI]. exists x, y. split; [exact X|split; [exact Y|exact Z]]. }
  destruct (pay_same c funder mv value s5) as (s' & PAY & SO & L6 & A6 & LS6 & T6); try assumption; try (rewrite KY; cbn [In]; tauto); try (rewrite M5); try lia.
  { unfold has_lamports. rewrite F5. cbn [lam own dat]. split; [lia|auto]. } { apply NN. }
  assert (R : tp_call e ext c i s s').
  { apply call_go; [reflexivity|exact CK|exact OI|]. apply sum_go.
    - cbn [tp_exec i]. unfold tp_deposit_ever. rewrite KY. cbv beta iota. eapply bind_go; [apply guard_go; apply keqb_refl|].
      eapply bind_go; [apply guard_go; exact SA|]. eapply bind_go; [eapply live_go; [reflexivity|exact SI|exact GE]|].
      eapply bind_go; [eapply ts_ever_go; [reflexivity|exact TI|exact KT]|]. cbv beta iota. eapply bind_go; [unfold token_live; apply guard_go; rewrite TE; reflexivity|].
      eapply bind_go; [apply lift_go, pda_go; exact PM|]. eapply bind_go; [apply tmint_go; exact UM|]. cbv beta.
      eapply bind_go; [apply multivault_go; [reflexivity|exact MV]|].
      apply (bind_go _ _ s tt s1). { unfold invoke_tok_burn. apply cpi_go; [rewrite KY; cbn [In]; tauto| |exact BU].
        repeat (apply Forall_cons; [cbn [m_key m_sg m_wr]; (split; [rewrite KY; cbn [In]; tauto|split; [rewrite KY; cbn [In]; tauto|split; intros X; [try discriminate X; left; assumption|try discriminate X; assumption]]])|]). apply Forall_nil. }
      eapply bind_go. { unfold deposit_address. eapply bind_go; [apply lift_go; exact FD|]. cbv beta iota. eapply bind_go; [apply guard_go; apply keqb_refl|]. reflexivity. }
      cbv beta iota. eapply bind_go; [exact CR|]. cbv zeta. eapply bind_go; [apply lift_go; exact FE|]. cbv beta.
      eapply bind_go; [apply lift_go; unfold cadd; replace (tk_fee_supply ts + fee <? u64max) with true by (symmetry; apply Z.ltb_lt; exact FU); reflexivity|].
      eapply bind_go; [apply lift_go; exact CN|]. cbv beta. eapply bind_go; [apply lift_go; exact GD|]. cbv beta.
      eapply bind_go; [unfold emit_deposit; reflexivity|].
      apply (bind_go _ _ s3 tt s4). { apply (pack_at_go c c_dever TP_LEN dep rec s3); [change (accs s3) with (accs s2); rewrite B1; reflexivity|exact WD| |exact RS].
        change (accs s3) with (accs s2). rewrite B1. cbn [dat]. unfold blen. rewrite repeat_length. reflexivity. }
      apply (bind_go _ _ s4 tt s5). { apply pack_at_go; [rewrite K4; exact OT|exact WT|rewrite K4; exact TL|exact SZ1]. }
      exact PAY.
    - rewrite LS6. unfold s5. rewrite lam_sum_written. unfold s4. rewrite lam_sum_written. change (lam_sum (c_keys c) s3) with (lam_sum (c_keys c) s2). rewrite LS2.
      apply lam_sum_same. exact L1. }
  exists s'. split; [exact R|].
  destruct (C37_partial _ _ _ _ _ _ _ _ _ _ _ R) as (f' & a' & c' & d' & m' & mv' & t' & t & md' & ts0 & ts' & m0 & tok & dec' & amt & rent & (rest & KE) & (_ & UT') & KT' & _ & (_ & TM') & _ & _ & _ & _ & _ & _ & X1 & X2 & _ & _ & _ & _ & SD & RX & _ & LM & _).
  rewrite KY in KE. injection KE as <- <- <- <- <- <- <- _. rewrite UT in UT'. injection UT' as <-. rewrite KT in KT'. injection KT' as <- <- <-. unfold tmint_in in *. rewrite UM in TM'. injection TM' as <-.
  rewrite (RX DD) in SD.
  split; [exact X1|]. split; [exact X2|]. split; [exact LM|]. split; [|exact SD]. destruct K5 as [K5 K6]. destruct (SO tsk) as [Q1 Q2].
  split; [|split; [|split; [exists m, dec; exact KT|exists n, mn; split; [exact KA|exact PM]]]].
  - split; [rewrite Q1; exact K5|]. split; [rewrite Q2; exact K6|]. destruct TS as (_ & _ & Y). exact Y.
  - rewrite A6; [|exact NT|]. { unfold s5, written. rewrite lam_put_dat, K4. exact LT. }
    intros E. rewrite E in *. destruct MV as (_ & x & y & X & Y & Z). eapply (mv_not_token e s mv ts); [|exact TI]. exists x, y. split; [exact X|split; [exact Y|exact Z]].
Qed.

(** ** What stops a first deposit *)

(** A single lamport at the address of the vault of a token that is not registered yet stops every deposit that names
    the token's settings, whoever makes it. *)
Theorem C76_blocked : forall e ext c seed name symbol amount recipient value evers payload s s' mint vault vn tsk,
  (forall m n, find_pda e (str "settings" ++ kb m) tp_id = Ok (tsk, n) -> m = mint) -> find_pda e (str "vault" ++ kb mint) tp_id = Ok (vault, vn) ->
  lam (accs s tsk) = 0 -> 0 < lam (accs s vault) -> nth_error (c_keys c) 7 = Some tsk ->
  ~ tp_call e ext c (TpDepositSol seed name symbol amount recipient value evers payload) s s'.
Proof.
  intros e ext c seed name symbol amount recipient value evers payload s s' mint vault vn tsk ONE FV LT LV KN R.
  apply tp_call_exec in R as (P & OI & _ & H). cbn [tp_exec] in H. apply ix_deposit_sol in OI as (OI & _ & _).
  pose proof H as H0. apply tp_deposit_sol_ok in H0 as (f & cr & ct & vk & dk & m & mv & t & sk & x & y & z & rest & st & pn & s0 & K & _ & _ & _ & _ & _ & RG & _); [|lia].
  rewrite K in KN. cbn [nth_error] in KN. injection KN as ->. destruct RG as [[A _]|[_ (vn' & tn & t0 & F1 & F2 & _)]]; [exact (A LT)|].
  rewrite P in *. apply ONE in F2. rewrite F2 in *. unfold sd_vault in F1. rewrite FV in F1. injection F1 as <- _.
  unfold tp_deposit_sol in H. rewrite K in H. cbv beta iota in H.
  unfold check_rent in H. do 2 (apply bind_ok in H as (? & ? & G & H); apply guard_ok in G as [_ ->]).
  apply bind_ok in H as (? & ? & G & H). apply tp_live_settings_ok in G as [-> _]. cbv beta iota in H.
  do 2 (apply bind_ok in H as (? & ? & G & H); apply guard_ok in G as [_ ->]). apply bind_ok in H as (? & ? & G & H). injection G as <- <-. cbv beta in H.
  rewrite LT in H. cbn [Z.eqb] in H. apply bind_ok in H as (? & s1 & G & _). unfold register_sol in G.
  apply bind_ok in G as ([v1 v2] & ? & G1 & G). apply lift_ok in G1 as [_ ->]. cbv beta iota in G.
  apply bind_ok in G as (? & ? & G1 & G). apply guard_ok in G1 as [_ ->]. apply bind_ok in G as (? & ? & G1 & _).
  apply invoke_create_ok in G1 as ((_ & _ & L & _) & _). lia.
Qed.
(** So does a lamport at the address of the settings. *)
Theorem C76_blocked_settings : forall e ext c seed name symbol amount recipient value evers payload s s' tsk,
  lam (accs s tsk) <> 0 -> (forall ts, ~ token_at e s tsk ts) -> nth_error (c_keys c) 7 = Some tsk ->
  ~ tp_call e ext c (TpDepositSol seed name symbol amount recipient value evers payload) s s'.
Proof.
  intros e ext c seed name symbol amount recipient value evers payload s s' tsk LT NT KN R.
  destruct (C38_partial _ _ _ _ _ _ _ _ _ _ _ _ _ R) as (f' & a' & c' & v' & d' & m' & mv' & t' & t0 & md' & ts' & m & v & (rest & KE) & _ & _ & _ & _ & _ & _ & _ & _ & _ & _ & _ & _ & X & _).
  rewrite KE in KN. cbn [nth_error] in KN. injection KN as ->. destruct (X LT) as (ts & TA & _). exact (NT ts TA).
Qed.

(** FALSE of the code: that everybody can make the first deposit of a token.  After one lamport has been sent to the
    address of the vault, no deposit naming the settings of the token succeeds, with whatever accounts and
    signatures. *)
Definition tb0 := demo_state ((tvault, Acct 1 sys_id []) :: taccs).
Definition tb1 := unres (tstp tb0 tinit).
Definition xk : list key := [tset; tmintS; tuserS; tmv; tfunder; tvault; ttsS; td1; td2].
Definition xb1 : list acct := Eval vm_compute in map (accs tb1) xk.
Lemma xb1_is : map (accs tb1) xk = xb1.
Proof. vm_compute. reflexivity. Qed.
Lemma atb1 n k : nth_error xk n = Some k -> accs tb1 k = nth n xb1 no_acct.
Proof. intros H. pose proof (map_nth_error (accs tb1) n xk H) as M. rewrite xb1_is in M. symmetry. apply nth_error_nth. exact M. Qed.
Ltac in_any a := cbv zeta; unfold can_pay, the_token, the_tok, the_mint, sol_listed, ever_listed, running, bridge_settings, token_settings_of,
  can_send, accepts, multivault_stands, tok_in, mint_in, tacc_in, tmint_in, balance, supply, vacant, has_lamports;
  rewrite ?(a 0%nat tset eq_refl), ?(a 1%nat tmintS eq_refl), ?(a 2%nat tuserS eq_refl), ?(a 3%nat tmv eq_refl), ?(a 4%nat tfunder eq_refl),
    ?(a 5%nat tvault eq_refl), ?(a 6%nat ttsS eq_refl), ?(a 7%nat td1 eq_refl), ?(a 8%nat td2 eq_refl).
Ltac ex_pay := split; [split; [ex_vm|eexists; exists 255; split; [ex_vm|split; ex_vm]]|]; split; [ex_vm|]; split; [split; [ex_vm|split; ex_vm]|];
  split; [split; [ex_vm|split; ex_vm]|exists 255; ex_vm].

Lemma ttsS_sole : forall m n, find_pda te (str "settings" ++ kb m) tp_id = Ok (ttsS, n) -> m = tmintS.
Proof.
  intros m n F. apply find_pda_some in F as [F _]. unfold te in F. cbn [demo_env e_pda] in F. apply pda_lookup_full in F.
  assert (B : forallb (fun '(sd, pid, k) => negb (keqb k ttsS && keqb pid tp_id) || beqb sd ((str "settings" ++ kb tmintS) ++ [zb 255])) ttab = true) by (vm_compute; reflexivity).
  rewrite forallb_forall in B. apply B in F. rewrite !keqb_refl in F. cbn [andb negb orb] in F. apply beqb_eq in F.
  apply app_inj_tail in F as [F _]. apply app_inv_head in F. apply keqb_eq. unfold keqb. apply beqb_eq. exact F.
Qed.

Theorem C76_refuted : exists e s0 s st mint md vault vn tsk tn user src funder mv dep,
  genesis e tp_id s0 /\ tp_hist e 0 s0 s /\ bridge_settings e s tset st /\ gs_emergency st = false /\ mint_in s mint md /\
  find_pda e (str "vault" ++ kb mint) tp_id = Ok (vault, vn) /\ find_pda e (str "settings" ++ kb mint) tp_id = Ok (tsk, tn) /\
  accs s vault = Acct 1 sys_id [] /\ vacant s tsk /\ can_pay e s funder mv dep 1 1000 (token_price e + record_price e) /\ can_send s mint src user vault 100000 /\
  forall ext c seed name symbol amount recipient value evers payload s', nth_error (c_keys c) 7 = Some tsk ->
    ~ tp_call e ext c (TpDepositSol seed name symbol amount recipient value evers payload) s s'.
Proof.
  exists te, tb0, tb1, (TpSettings true (KSettings 255 254) false tguard tman twman), tmintS, (TMint (true, knum 18) 5000000 6 true (false, key0)), tvault, 255, ttsS, 255, tuser, tuserS, tfunder, tmv, td1.
  split; [apply demo_genesis; vm_compute; reflexivity|].
  split; [apply tstp_hist; [apply h_refl|vm_compute; reflexivity|vm_compute; split; [discriminate|reflexivity]|vm_compute; reflexivity]|].
  assert (LV : accs tb1 tvault = Acct 1 sys_id []) by (in_any atb1; reflexivity).
  assert (LT : lam (accs tb1 ttsS) = 0) by (in_any atb1; reflexivity).
  in_any atb1. split; [ex_bridge|]. split; [reflexivity|]. split; [split; ex_vm|]. split; [ex_vm|]. split; [ex_vm|]. split; [reflexivity|].
  split; [split; [ex_vm|split; ex_vm]|]. split; [ex_pay|]. split; [ex_send|].
  intros ext c seed name symbol amount recipient value evers payload s' KN.
  eapply C76_blocked; [exact ttsS_sole| |exact LT|rewrite LV; reflexivity|exact KN]. instantiate (1 := 255). vm_compute. reflexivity.
Qed.

(** * Examples *)

(** The first deposit of the demo token in state [ts1] and a further one in [ts2]. *)
Definition x1 : list acct := Eval vm_compute in map (accs ts1) xk.
Lemma x1_is : map (accs ts1) xk = x1. Proof. vm_compute. reflexivity. Qed.
Lemma at1 n k : nth_error xk n = Some k -> accs ts1 k = nth n x1 no_acct.
Proof. intros H. pose proof (map_nth_error (accs ts1) n xk H) as M. rewrite x1_is in M. symmetry. apply nth_error_nth. exact M. Qed.
Definition x2 : list acct := Eval vm_compute in map (accs ts2) xk.
Lemma x2_is : map (accs ts2) xk = x2. Proof. vm_compute. reflexivity. Qed.
Lemma at2 n k : nth_error xk n = Some k -> accs ts2 k = nth n x2 no_acct.
Proof. intros H. pose proof (map_nth_error (accs ts2) n xk H) as M. rewrite x2_is in M. symmetry. apply nth_error_nth. exact M. Qed.
Lemma fine1 : fine ts1.
Proof. unfold ts1; fine_step. exact fine0. Qed.

Example C76_first_ex : fine ts1 /\ find_pda te (str "vault" ++ kb tmintS) tp_id = Ok (tvault, 255) /\ find_pda te (str "settings" ++ kb tmintS) tp_id = Ok (ttsS, 255) /\
  vacant ts1 tvault /\ vacant ts1 ttsS /\ tvault <> ttsS /\ td1 <> tvault /\ td1 <> ttsS /\
  bridge_settings te ts1 tset (TpSettings true (KSettings 255 254) false tguard tman twman) /\ mint_in ts1 tmintS (TMint (true, knum 18) 5000000 6 true (false, key0)) /\
  can_pay te ts1 tfunder tmv td1 1 1000 (token_price te + record_price te) /\ can_send ts1 tmintS tuserS tuser tvault 100000 /\ 100000 + token_price te < 2 ^ 64 /\
  okb c_tp_ix (TpDepositSol 1 (str "Solana Token") (str "SOT") 100000 teverX 1000 (knum 72) []) = true.
Proof.
  split; [exact fine1|]. in_any at1. do 2 (split; [ex_vm|]). do 2 (split; [split; [ex_vm|split; ex_vm]|]). do 3 (split; [ex_vm|]). split; [ex_bridge|]. split; [split; ex_vm|].
  split; [ex_pay|]. split; [ex_send|]. split; ex_vm.
Qed.
Example C76_sol_ex : let ts := the_token ts2 ttsS in fine ts2 /\ sol_listed te ts2 tmintS tvault ttsS ts /\ lam (accs ts2 ttsS) <> 0 /\ running te ts2 tset ts /\
  tmint_in ts2 tmintS (TMint (true, knum 18) 5000000 6 true (false, key0)) /\ can_pay te ts2 tfunder tmv td2 2 1000 0 /\ tuserS <> tvault /\
  can_send ts2 tmintS tuserS tuser tvault 30000 /\ accepts ts2 tmintS tvault 30000 /\ balance ts2 tvault + 30000 <= tk_dlimit ts /\
  fee_fits (tk_fee_dep ts) 30000 /\ fee_on (tk_fee_dep ts) 30000 = 15 /\ tk_fee_supply ts = 50 /\
  okb c_tp_ix (TpDepositSol 2 (str "Solana Token") (str "SOT") 30000 teverX 1000 (knum 72) []) = true.
Proof.
  cbv zeta. split; [exact fine2|]. in_any at2. split; [ex_sol|]. split; [ex_vm|]. split; [split; [eexists; split; [ex_bridge|ex_vm]|ex_vm]|].
  split; [ex_vm|]. split; [ex_pay|]. split; [ex_vm|]. split; [ex_send|]. split; [ex_accept|]. split; [ex_vm|]. split; [split; ex_vm|]. split; [ex_vm|]. split; ex_vm.
Qed.
(** A deposit of 20000 tokens of the demo Ever token in state [ts11]. *)
Example C76_ever_ex : let ts := the_token ts11 ttsE in let md := the_mint ts11 tmintE in let a := the_tok ts11 trecvE in
  fine ts11 /\ ever_listed te ts11 tever tmintE ttsE ts /\ (exists m, tk_kind ts = TKEver m tever 9) /\ running te ts11 tset ts /\ mint_in ts11 tmintE md /\ 20000 <= tm_supply md /\
  tok_in ts11 trecvE a /\ ta_state a <> TFrozen /\ ta_mint a = tmintE /\ ta_owner a = trecv /\ fst (ta_delegate a) = false /\ fst (ta_native a) = false /\ 20000 <= ta_amount a /\
  can_pay te ts11 tfunder tmv td2 2 2000 0 /\ fee_fits (tk_fee_dep ts) 20000 /\ Z.abs (9 - tm_decimals md) <= 38 /\
  okb c_tp_ix (TpDepositEver 2 20000 teverX 2000 (knum 72) []) = true.
Proof.
  cbv zeta. split; [exact fine11|]. unfold can_pay. in11. split; [ex_ever|]. split; [eexists; ex_vm|]. split; [split; [eexists; split; [ex_bridge|ex_vm]|ex_vm]|].
  split; [split; ex_vm|]. split; [ex_vm|]. split; [split; ex_vm|]. do 6 (split; [ex_vm|]). split; [ex_pay|]. split; [split; ex_vm|]. split; ex_vm.
Qed.
(** A lamport at the address of the settings of the demo token. *)
Definition tb2 := demo_state ((ttsS, Acct 1 sys_id []) :: taccs).
Example C76_blocked_settings_ex : lam (accs tb2 ttsS) <> 0 /\ forall ts, ~ token_at te tb2 ttsS ts.
Proof. split; [ex_vm|]. intros ts [_ U]. vm_compute in U. discriminate U. Qed.
Example C76_blocked_ex : find_pda te (str "vault" ++ kb tmintS) tp_id = Ok (tvault, 255) /\ lam (accs tb1 ttsS) = 0 /\ lam (accs tb1 tvault) = 1.
Proof. in_any atb1. split; [ex_vm|]. split; ex_vm. Qed.

Print Assumptions C76_sol.
Print Assumptions C76_first_partial.
Print Assumptions C76_ever.
Print Assumptions C76_blocked.
Print Assumptions C76_blocked_settings.
Print Assumptions C76_refuted.
