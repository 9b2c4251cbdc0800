(** Property C79: the first withdrawal of an Ever token can be executed: it creates mint, settings and token account
    and pays - unless somebody has sent a lamport to the address of the mint or of the settings before. *)

From Coq Require Import Strings.String ZifyBool ZifyNat ZifyN.
From Verif Require Import TpDemoLaws AtaGo TpDeposit PropTpReq PropTpFlow PropTpPay PropTpMoney PropTpMisc PropTpOutcome PropTpAdmin PropTpDaily PropLive PropExec PropExits PropDust.
Open Scope Z_scope.
Open Scope list_scope.
Ltac Zify.zify_post_hook ::= Z.div_mod_to_equations.

(** * Vocabulary *)

(** What the creation of a mint costs. *)
Definition mint_price (e : env) : Z := Z.max 1 (e_rent e 82 mod 2 ^ 64).
(** The account list of the JavaScript bindings (wasm/src/lib.rs:289-340). *)
Definition first_accounts (funder k mint ata tsk sk recipient : key) : ctx := ctx_of tp_id
  [Meta k false true; Meta mint false true; Meta ata false true; Meta tsk false true; Meta sk false false; Meta sys_id false false;
   Meta spl_id false false; Meta rent_id false false; Meta clock_id false false; Meta funder true true; Meta recipient false false; Meta ata_id false false].

(** * Lemmas *)

Lemma register_ever_go e c funder mint tsk ata mn tn an ev s : c_pid c = tp_id -> In funder (c_keys c) -> In mint (c_keys c) -> In tsk (c_keys c) ->
  In ata (c_keys c) -> In (wee_recipient ev) (c_keys c) -> In sys_id (c_keys c) -> In spl_id (c_keys c) -> In rent_id (c_keys c) -> In ata_id (c_keys c) ->
  c_sg c funder = true -> c_wr c funder = true -> c_wr c mint = true -> c_wr c tsk = true -> c_wr c ata = true ->
  find_pda e (str "mint" ++ kb (token_hash e (wee_token ev))) tp_id = Ok (mint, mn) -> find_pda e (str "settings" ++ kb (token_hash e (wee_token ev))) tp_id = Ok (tsk, tn) ->
  find_pda e (kb (wee_recipient ev) ++ kb spl_id ++ kb mint) ata_id = Ok (ata, an) ->
  vacant s mint -> vacant s tsk -> unused s ata -> lam (accs s ata) < u64max -> mint <> tsk -> mint <> ata -> tsk <> ata -> funder <> ata -> mint <> native_mint ->
  has_lamports s funder (mint_price e + token_price e + record_price e) ->
  0 <= wee_decimals ev < 256 -> okb c_ever (wee_token ev) = true -> okb c_string (wee_name ev) = true -> okb c_string (wee_symbol ev) = true -> blen (wee_name ev) <= 32 -> blen (wee_symbol ev) <= 32 ->
  exists s0 m t, register_ever e c funder mint tsk ev s = Ok (tt, s0) /\ lam_sum (c_keys c) s0 = lam_sum (c_keys c) s /\
    ever_listed e s0 (wee_token ev) mint tsk (new_token_settings (KTokenSettings tn mn) (TKEver mint (wee_token ev) (wee_decimals ev)) (wee_name ev) (wee_symbol ev)) /\
    mint_in s0 mint m /\ tm_supply m = 0 /\ tm_decimals m = Z.min 9 (wee_decimals ev) /\ tm_auth m = (true, mint) /\
    tok_in s0 ata t /\ ta_mint t = mint /\ ta_owner t = wee_recipient ev /\ ta_state t = TInit /\ ta_amount t = 0 /\ fst (ta_native t) = false /\
    (forall j, own (accs s j) <> sys_id -> accs s0 j = accs s j) /\ now s0 = now s.
Proof.
  intros P I1 I2 I3 I4 I5 I6 I7 I8 I9 SG W1 W2 W3 W4 FM FT FA VM VT UA LB N1 N2 N3 N4 NM HL DB OT ON OS LN LSY.
  assert (PR : 0 < record_price e < u64max /\ 0 < token_price e < u64max /\ 0 < mint_price e < u64max) by (unfold record_price, token_price, mint_price, u64max; lia). destruct PR as (PR & PT & PM).
  pose proof HL as (HL1 & HL2 & HL3). pose proof VM as (VM1 & VM2 & VM3). pose proof VT as (VT1 & VT2 & VT3). pose proof UA as (UA1 & UA2 & UA3).
  assert (F1 : funder <> mint) by (intros E; rewrite E in *; lia). assert (F2 : funder <> tsk) by (intros E; rewrite E in *; lia).
  pose proof FM as FM0. apply find_pda_some in FM0 as [FM0 _]. pose proof FT as FT0. apply find_pda_some in FT0 as [FT0 _].
  set (d := Z.min 9 (wee_decimals ev)).
  assert (DE : (if 9 <? wee_decimals ev then 9 else wee_decimals ev) = d) by (unfold d; destruct (9 <? wee_decimals ev) eqn:X; lia).
  destruct (create_go e c funder mint (mint_price e) TMINT_LEN spl_id (with_bump (sd_mint (token_hash e (wee_token ev))) mn) s) as (s1 & C1 & A1 & A2 & A3 & L1 & T1); try assumption.
  { rewrite P. exact FM0. } { split; [lia|auto]. } { unfold TMINT_LEN, MAX_DATA. lia. } { discriminate. }
  destruct (init_mint_go e (ctx_of spl_id [Meta mint false true; Meta rent_id false false]) mint mint d s1) as (m & IN & OKM & MI & MS & MD & MA & MF); try reflexivity; try (rewrite A1; reflexivity).
  { cbn [ctx_of c_wr existsb m_key m_wr]. rewrite keqb_refl. reflexivity. }
  { rewrite A1. cbn [lam]. unfold mint_price, rent_min, wrap64, TMINT_LEN. change u64max with (2 ^ 64). lia. } { unfold d. lia. }
  set (s2 := written c_tmint s1 mint m) in *.
  assert (S2 : forall j, j <> mint -> accs s2 j = accs s1 j) by (intros j J; apply accs_put_dat_other; exact J).
  assert (M2 : mint_in s2 mint m).
  { split; [unfold s2; rewrite written_own, A1; reflexivity|]. unfold tmint_in, s2. apply written_reads; try assumption; try typeclasses eauto; [rewrite A1; reflexivity|unfold TMINT_LEN; rewrite size_tmint; lia]. }
  destruct (ata_go e c funder (wee_recipient ev) mint ata an s2 m) as (s3 & p & t & C3 & PB & TT & TM & TO & TST & TA & TN & LA & AF & R3 & L3 & T3); try assumption.
  { intros E. rewrite E in I1. destruct I1. }
  { unfold unused. rewrite S2, A3 by congruence. exact UA. } { rewrite S2, A3 by congruence. exact LB. }
  { unfold has_lamports. rewrite S2, A2 by congruence. cbn [lam own dat]. split; [lia|auto]. }
  assert (F3 : lam (accs s3 funder) = lam (accs s funder) - mint_price e - p) by (rewrite AF, S2, A2 by congruence; reflexivity).
  destruct (create_go e c funder tsk (record_price e) TP_LEN tp_id (with_bump (sd_ts_ever (token_hash e (wee_token ev))) tn) s3) as (s4 & C4 & B1 & B2 & B3 & L4 & T4); try assumption.
  { rewrite P. exact FT0. } { unfold vacant. rewrite R3, S2, A3 by congruence. exact VT. }
  { unfold has_lamports. rewrite F3, AF. cbn [own dat]. split; [lia|auto]. } { unfold TP_LEN, MAX_DATA. lia. } { discriminate. }
  set (s5 := put_log s4 (enc c_ev_token (EvToken tsk (wee_symbol ev) (wee_name ev) mint None (Some (wee_decimals ev)) (Some d) (Some (wee_token ev)) default_fee))).
  set (ts := new_token_settings (KTokenSettings tn mn) (TKEver mint (wee_token ev) (wee_decimals ev)) (wee_name ev) (wee_symbol ev)).
  assert (SZ : blen (enc c_token_settings ts) <= TP_LEN).
  { rewrite size_token_settings. cbn [ts new_token_settings tk_akind tk_kind tk_name tk_symbol kind_len]. rewrite blen_token_kind. unfold TP_LEN. lia. }
  set (s0 := written c_token_settings s5 tsk ts).
  assert (D5 : blen (dat (accs s5 tsk)) = TP_LEN) by (change (accs s5) with (accs s4); rewrite B1; cbn [dat]; unfold blen; rewrite repeat_length; reflexivity).
  assert (O5 : own (accs s5 tsk) = tp_id) by (change (accs s5) with (accs s4); rewrite B1; reflexivity).
  assert (K0 : forall j, j <> tsk -> accs s0 j = accs s4 j) by (intros j J; unfold s0, written; rewrite accs_put_dat_other by exact J; reflexivity).
  assert (L0 : forall j, lam (accs s0 j) = lam (accs s4 j)) by (intros j; unfold s0, written; rewrite lam_put_dat; reflexivity).
  assert (EM : accs s0 mint = accs s2 mint) by (rewrite K0, B3, R3 by congruence; reflexivity).
  assert (EA : accs s0 ata = accs s3 ata) by (rewrite K0, B3 by congruence; reflexivity).
  assert (ND : okb c_u8 tn = true /\ okb c_u8 mn = true) by (rewrite !okb_u8; apply find_pda_some in FM as [_ FM], FT as [_ FT]; lia). destruct ND as [ND1 ND2].
  assert (OKS : okb c_token_settings ts = true). { apply new_token_ok; try assumption. change (okb c_key mint && (okb c_ever (wee_token ev) && okb c_u8 (wee_decimals ev)) = true). rewrite OT. cbn [andb]. rewrite andb_true_iff. split; [reflexivity|]. apply okb_u8. lia. }
  exists s0, m, t. split; [|split; [|split; [|split]]].
  - unfold register_ever. cbv zeta. rewrite P, DE. eapply bind_go; [apply lift_go; exact FM|]. cbv beta iota. eapply bind_go; [apply guard_go; apply keqb_refl|].
    eapply bind_go; [exact C1|]. eapply bind_go; [unfold pda_signer; apply lift_go; rewrite P; unfold with_bump, sd_mint; rewrite FM0; reflexivity|]. cbv beta.
    apply (bind_go _ _ s1 tt s2). { unfold invoke_init_mint. apply cpi_go; [exact I7| |exact IN].
      repeat (apply Forall_cons; [cbn [m_key m_sg m_wr]; (split; [assumption|split; [assumption|split; intros X; [discriminate X|try discriminate X; assumption]]])|]). apply Forall_nil. }
    eapply bind_go; [exact C3|].
    eapply bind_go; [apply lift_go; exact FT|]. cbv beta iota. eapply bind_go; [apply guard_go; apply keqb_refl|].
    eapply bind_go; [exact C4|]. apply (bind_go _ _ s4 tt s5); [reflexivity|].
    apply pack_at_go; [rewrite P; exact O5|exact W3|exact D5|exact SZ].
  - transitivity (lam_sum (c_keys c) s3); [|transitivity (lam_sum (c_keys c) s2)].
    + apply (two_sum _ s3 s0 tsk funder (record_price e)); try assumption; try congruence.
      * rewrite L0, B1, R3, S2, A3 by congruence. cbn [lam]. lia.
      * rewrite L0, B2. reflexivity.
      * intros j J1 J2. rewrite L0, B3 by congruence. reflexivity.
    + apply (two_sum _ s2 s3 ata funder p); try assumption; try congruence.
      * rewrite AF. reflexivity.
      * intros j J1 J2. rewrite R3 by congruence. reflexivity.
    + unfold s2. rewrite lam_sum_written. apply (two_sum _ s s1 mint funder (mint_price e)); try assumption; try congruence.
      * rewrite A1. cbn [lam]. lia.
      * rewrite A2. reflexivity.
      * intros j J1 J2. rewrite A3 by assumption. reflexivity.
  - split; [split; [|split]|split; [|split]].
    + unfold s0. rewrite written_own. exact O5.
    + apply written_reads; try assumption; try typeclasses eauto. reflexivity.
    + exists tn, mn. split; [reflexivity|exact FT].
    + rewrite L0, B1. cbn [lam]. lia.
    + exists mint, (wee_decimals ev). reflexivity.
    + exists tn, mn. split; [reflexivity|exact FM].
  - split; [rewrite EM; exact (proj1 M2)|]. unfold tmint_in. rewrite EM. exact (proj2 M2).
  - split; [exact MS|]. split; [exact MD|]. split; [exact MA|]. split; [split; unfold tacc_in; rewrite EA; apply TT|].
    do 5 (split; [assumption|]). split.
    + intros j J. assert (X : j <> mint /\ j <> ata /\ j <> tsk /\ j <> funder) by (repeat split; intros E; apply J; rewrite E; assumption). destruct X as (X1 & X2 & X3 & X4).
      rewrite K0, B3, R3, S2, A3 by assumption. reflexivity.
    + change (now s0) with (now s4). rewrite T4, T3. change (now s2) with (now s1). exact T1.
Qed.

(** [withdraw_ever_exec] for any account list. *)
Lemma pay_first_go e c s k w mint md dst tsk ts : c_pid c = tp_id -> c_wr c mint = true -> c_wr c dst = true -> c_wr c k = true -> c_wr c tsk = true ->
  In mint (c_keys c) -> In dst (c_keys c) -> In spl_id (c_keys c) -> ever_filed e s k w -> p_required w <= confirmed (p_signers w) -> ever_scales w md ->
  let gross := ever_gross w md mod 2 ^ 64 in
  let fee := fee_on (tk_fee_wdr ts) gross in let net := gross - fee in
  ever_gross w md < 2 ^ 128 -> status_of w = WNew -> today ts s + net < 2 ^ 64 -> tk_fee_supply ts + fee < 2 ^ 64 ->
  ever_listed e s (wee_token (event_of w)) mint tsk ts -> tk_emergency ts = false -> fee_fits (tk_fee_wdr ts) gross ->
  mint_ready s mint dst md net -> can_receive e s (p_kind w) (wee_payload (event_of w)) mint (wee_recipient (event_of w)) dst net ->
  exists s', withdraw_ever_exec e c w k k mint dst tsk (now s) s = Ok (tt, s') /\ lam_sum (c_keys c) s' = lam_sum (c_keys c) s /\ own (accs s' tsk) = tp_id.
Proof.
  intros P W1 W2 W3 W4 J1 J2 J3 RQ QU SC gross fee net G128 ST B1 B2 LI TE FF MR CR.
  pose proof (ever_filed_in _ _ _ _ RQ) as WI. destruct RQ as (OK_ & UW & _).
  destruct LI as (TS & LT & (m0 & d0 & KT) & n & mn & KA & PM). pose proof (token_len _ _ _ _ TS) as (TL & TB & TO). pose proof TS as (OT & UT & n1 & vn1 & KA1 & FT).
  rewrite KA in KA1. injection KA1 as <- <-.
  assert (TI : token_in e tp_id s tsk ts mn) by (split; [exact UT|]; exists n; split; [exact KA|]; unfold ts_seeds; destruct (tk_kind ts); exact FT).
  assert (WLEN : blen (dat (accs s k)) = TP_LEN) by (apply unpack_ok in UW as (r & _ & _ & L & _); [exact L|typeclasses eauto]).
  assert (A0 : 0 <= wee_amount (event_of w)).
  { apply (ever_amount e s k). split; [exact OK_|]. split; [exact UW|]. destruct WI as (_ & wn & wp & _ & WF). exists wn. exact WF. }
  assert (G : 0 <= gross < 2 ^ 64) by (apply Z.mod_pos_bound; lia).
  apply okb_ts in TO. destruct TO as (_ & _ & _ & _ & _ & _ & _ & DA & _ & FSU & _ & FW).
  assert (FM : 0 <= fi_mul (tk_fee_wdr ts) /\ 0 <= fi_div (tk_fee_wdr ts)).
  { clear - FW. unfold c_fee_info in FW. cbn [c_iso okb c_pair fst snd] in FW. apply andb_true_iff in FW as [A B]. apply okb_u64 in A, B. lia. }
  assert (FE : fee_of u64max (tk_fee_wdr ts) gross = Ok fee) by (apply fee_go; [exact G|apply FM|apply FM|exact FF]).
  assert (N0 : 0 <= net) by (destruct FF as [_ FF]; unfold net, fee; lia).
  assert (CN : csub gross fee = Ok net) by (unfold csub; replace (fee <=? gross) with true by (unfold net in N0; lia); reflexivity).
  assert (GA : get_withdrawal_amount (wee_amount (event_of w)) (wee_decimals (event_of w)) (tm_decimals md) = Ok gross) by (apply gwa_go; assumption).
  destruct (pay_ever_go e c w mint dst (wee_token (event_of w)) mn md net s P W1 W2) as (st & s1 & PAY & (O1 & A1 & _) & LS1); try assumption.
  assert (KV : forall j, own (accs s j) = tp_id -> accs s1 j = accs s j).
  { intros j J. apply A1; intros ->; [destruct MR as ([X _] & _)|destruct CR as (r & [X _] & _)]; rewrite X in J; discriminate. }
  set (ts1 := roll_day ts (epoch_of (now s))).
  assert (D1 : tk_wdamount ts1 = today ts s) by (unfold ts1, roll_day, today; change day_of with epoch_of; destruct (tk_wepoch ts =? epoch_of (now s)); reflexivity).
  assert (D2 : tk_fee_supply ts1 = tk_fee_supply ts) by (unfold ts1, roll_day; destruct (tk_wepoch ts =? epoch_of (now s)); reflexivity).
  assert (D3 : tk_fee_wdr ts1 = tk_fee_wdr ts) by (unfold ts1, roll_day; destruct (tk_wepoch ts =? epoch_of (now s)); reflexivity).
  set (ts2 := tk_set_daily (tk_set_fee_supply ts1 (tk_fee_supply ts + fee)) (tk_wepoch ts1) (today ts s + net)).
  assert (SZ : blen (enc c_token_settings ts2) <= TP_LEN).
  { rewrite size_token_settings in *. unfold ts2, ts1, roll_day. destruct (tk_wepoch ts =? epoch_of (now s)); exact TB. }
  assert (P0 : exists st' s2, (if (tk_wlimit ts <? net) || (tk_wdlimit ts <? today ts s + net) then ret WWaitApprove
                 else pay_ever e c w mint dst (wee_token (event_of w)) mn net) s = Ok (st', s2) /\
                 (forall j, own (accs s j) = tp_id -> accs s2 j = accs s j) /\ lam_sum (c_keys c) s2 = lam_sum (c_keys c) s).
  { destruct ((tk_wlimit ts <? net) || (tk_wdlimit ts <? today ts s + net)); [exists WWaitApprove, s|exists st, s1]; auto. }
  destruct P0 as (st' & s2 & P1 & P2 & P3). set (s3 := written c_token_settings s2 tsk ts2).
  assert (M2 : own (accs s3 k) = tp_id) by (unfold s3; rewrite written_own, P2; exact OK_).
  assert (M3 : blen (dat (accs s3 k)) = TP_LEN) by (apply written_len; [rewrite P2 by exact OT; rewrite TL; exact SZ|rewrite P2 by exact OK_; exact WLEN]).
  assert (M4 : lam_sum (c_keys c) s3 = lam_sum (c_keys c) s) by (unfold s3; rewrite lam_sum_written; exact P3).
  destruct (status_go (c_withlen c_wever_event) c s s3 k w st' k P W3 M2 M3 ltac:(typeclasses eauto) UW) as (s' & E1 & E2).
  assert (OWN : own (accs s' tsk) = tp_id).
  { pose proof E1 as X. apply bind_ok in X as (? & s5 & X1 & X). apply emit_ok in X1. apply pack_at_packed in X. destruct X as (X & _).
    rewrite X, own_put_dat, X1. change (accs (put_log s3 (enc c_ev_status (EvStatus k st')))) with (accs s3). unfold s3. rewrite written_own, P2 by exact OT. exact OT. }
  exists s'. split; [|split; [rewrite E2; exact M4|exact OWN]].
  unfold withdraw_ever_exec. cbv zeta.
  eapply bind_go; [eapply ts_ever_go; [exact P|exact TI|exact KT]|]. cbv beta iota.
  eapply bind_go; [unfold token_live; apply guard_go; rewrite TE; reflexivity|]. eapply bind_go; [apply lift_go; rewrite P; apply pda_go; exact PM|].
  eapply bind_go; [apply guard_go; apply ever_eqb_same|]. eapply bind_go; [apply tmint_go; exact (proj2 (proj1 MR))|]. cbv beta.
  assert (QW : wrap32 (confirms (p_signers w)) = confirmed (p_signers w)) by (rewrite <- (ever_confirms _ _ _ _ _ WI); reflexivity).
  rewrite QW. replace (p_required w <=? confirmed (p_signers w)) with true by lia. change (w_status w) with (status_of w). rewrite ST.
  cbn [andb wstatus_eqb]. cbv iota. fold ts1.
  eapply bind_go; [apply lift_go; exact GA|]. cbv beta. eapply bind_go; [apply lift_go; rewrite D3; exact FE|]. cbv beta.
  eapply bind_go; [apply lift_go; unfold cadd; rewrite D2; replace (tk_fee_supply ts + fee <? u64max) with true by (symmetry; apply Z.ltb_lt; exact B2); reflexivity|]. cbv beta.
  eapply bind_go; [apply lift_go; exact CN|]. cbv beta.
  eapply bind_go; [apply lift_go; unfold cadd; rewrite D1; replace (today ts s + net <? u64max) with true by (symmetry; apply Z.ltb_lt; exact B1); reflexivity|]. cbv beta.
  eapply bind_go; [exact P1|]. cbv beta. eapply bind_go; [apply pack_at_go; [rewrite P, P2; exact OT|exact W4|rewrite P2; [exact TL|exact OT]|exact SZ]|].
  exact E1.
Qed.

(** * C79 *)

(** Unless the bridge is stopped, and if the fee is not more than the amount: a confirmed new request without payload
    of an Ever token that has no mint and no settings yet is executed by the instruction of the bindings, which only
    needs somebody to pay for the three new accounts.  The token is registered with the defaults; the token account of
    the recipient is created (lamports sent to its address beforehand do no harm); the net amount is minted to it. *)
Theorem C79_first_partial : forall e ext s funder k w mint tsk ata sk mn tn an,
  let ev := event_of w in let gross := rescale (wee_amount ev) (wee_decimals ev) (Z.min 9 (wee_decimals ev)) mod 2 ^ 64 in
  let fee := fee_on (FeeInfo 5 10000) gross in let net := gross - fee in
  clock_ok s -> ever_filed e s k w -> status_of w = WNew -> p_required w <= confirmed (p_signers w) ->
  wee_payload ev = [] -> wee_decimals ev <= 47 -> blen (wee_name ev) <= 32 -> blen (wee_symbol ev) <= 32 -> fee <= gross ->
  (exists st, bridge_settings e s sk st /\ gs_emergency st = false) ->
  find_pda e (str "mint" ++ kb (token_hash e (wee_token ev))) tp_id = Ok (mint, mn) -> find_pda e (str "settings" ++ kb (token_hash e (wee_token ev))) tp_id = Ok (tsk, tn) ->
  find_pda e (kb (wee_recipient ev) ++ kb spl_id ++ kb mint) ata_id = Ok (ata, an) ->
  vacant s mint -> vacant s tsk -> unused s ata -> lam (accs s ata) < 2 ^ 64 ->
  mint <> tsk -> mint <> ata -> tsk <> ata -> funder <> ata -> mint <> native_mint ->
  has_lamports s funder (mint_price e + token_price e + record_price e) ->
  exists s' ts', tp_call e ext (first_accounts funder k mint ata tsk sk (wee_recipient ev)) TpWithdrawEver s s' /\
    token_at e s' tsk ts' /\ default_token ts' (TKEver mint (wee_token ev) (wee_decimals ev)) (wee_name ev) (wee_symbol ev) fee (day_of (now s)) net /\
    ever_request e s' k (w_set_status w WProcessed) /\ ever_paid e s s' w mint ata net.
Proof.
  intros e ext s funder k w mint tsk ata sk mn tn an ev gross fee net CK RQ ST QU PL D47 LN LSY FF (st & BS & GE) FM FT FA VM VT UA LB N1 N2 N3 N4 NM HL.
  set (c := first_accounts funder k mint ata tsk sk (wee_recipient ev)).
  pose proof (ever_filed_in _ _ _ _ RQ) as WI. destruct (wever_facts _ _ _ _ _ WI) as (OW & DB & AB).
  assert (OE : okb c_wever_event ev = true).
  { clear - OW. unfold c_wever, wever in OW. rewrite (okb_prop (c_withlen c_wever_event) (c_withlen c_wmeta)) in OW.
    rewrite !andb_true_iff in OW. destruct OW as (_ & _ & _ & _ & OW & _). rewrite okb_withlen, andb_true_iff in OW. apply OW. }
  change (okb c_wever_event ev) with (okb c_ever (wee_token ev) && (okb c_string (wee_name ev) && (okb c_string (wee_symbol ev) && (okb c_u8 (wee_decimals ev) && (okb c_u128 (wee_amount ev) && (true && okb c_bytes (wee_payload ev))))))) in OE.
  rewrite !andb_true_iff in OE. destruct OE as (O1 & O2 & O3 & _).
  pose proof RQ as (OK_ & UW & n & pn & KD & FK).
  assert (KY : c_keys c = [k; mint; ata; tsk; sk; sys_id; spl_id; rent_id; clock_id; funder; wee_recipient ev; ata_id]) by reflexivity.
  destruct (register_ever_go e c funder mint tsk ata mn tn an ev s) as (s0 & md & t & RG & LS0 & LI & MI & MS & MD & MA & TT & TM & TO & TST & TA & TN & OLD & NOW);
    try assumption; try reflexivity; try (rewrite KY; cbn [In]; tauto); try (unfold c, first_accounts; metas).
  set (ts := new_token_settings (KTokenSettings tn mn) (TKEver mint (wee_token ev) (wee_decimals ev)) (wee_name ev) (wee_symbol ev)) in *.
  assert (G : ever_gross w md mod 2 ^ 64 = gross) by (unfold ever_gross; rewrite MD; reflexivity).
  assert (GB : 0 <= gross < 2 ^ 64) by (apply Z.mod_pos_bound; lia).
  assert (FB : 0 < fee) by (unfold fee, fee_on; lia).
  assert (T0 : today ts s0 = 0) by (unfold today; cbn [ts new_token_settings tk_wepoch tk_wdamount]; destruct (0 =? day_of (now s0)); reflexivity).
  destruct (pay_first_go e c s0 k w mint md ata tsk ts) as (s' & EX & LS & OWN); try assumption; try reflexivity; try (rewrite KY; cbn [In]; tauto); try (unfold c, first_accounts; metas).
  { split; [rewrite OLD; rewrite OK_; [reflexivity|discriminate]|]. split; [rewrite OLD by (rewrite OK_; discriminate); exact UW|]. exists n, pn. split; [exact KD|exact FK]. }
  { unfold ever_scales. rewrite MD. change (event_of w) with ev. lia. }
  { unfold ever_gross. rewrite MD. change (event_of w) with ev. unfold rescale. change u128max with (2 ^ 128) in AB. change (wl_data (p_event w)) with ev in AB.
    destruct (Z.min 9 (wee_decimals ev) <? wee_decimals ev) eqn:X; [|replace (Z.min 9 (wee_decimals ev) - wee_decimals ev) with 0 by lia; change (10 ^ 0) with 1; lia].
    assert (TEN : 1 <= 10 ^ (wee_decimals ev - Z.min 9 (wee_decimals ev))) by (apply Z.pow_le_mono_r with (a := 10) (b := 0); lia).
    apply Z.le_lt_trans with (wee_amount ev); [|lia]. apply Z.div_le_upper_bound; [lia|]. clear - TEN AB. nia. }
  { rewrite G, T0. change (tk_fee_wdr ts) with (FeeInfo 5 10000). fold fee. lia. }
  { rewrite G. change (tk_fee_wdr ts) with (FeeInfo 5 10000). fold fee. change (tk_fee_supply ts) with 0. lia. }
  { rewrite G. split; [discriminate|exact FF]. }
  { rewrite G. change (tk_fee_wdr ts) with (FeeInfo 5 10000). fold fee. split; [exact MI|]. split; [exact MA|]. split; [rewrite MS; lia|].
    intros r TR. destruct TT as [_ TT], TR as [_ TR]. unfold tacc_in in *. rewrite TT in TR. injection TR as <-. exact TN. }
  { rewrite G. change (tk_fee_wdr ts) with (FeeInfo 5 10000). fold fee. exists t. split; [exact TT|]. split; [rewrite TST; discriminate|]. split; [exact TM|]. split; [rewrite TA; lia|].
    left. split; [exact PL|exact TO]. }
  assert (CALL : tp_call e ext c TpWithdrawEver s s').
  { apply call_go; [reflexivity|exact CK|reflexivity|]. apply sum_go; [|rewrite LS; exact LS0].
    cbn [tp_exec]. unfold tp_withdraw_ever. rewrite KY. cbv beta iota.
    pose proof BS as (_ & US & n2 & pd & pn2 & FS & FP & GK).
    assert (SI : tp_settings_in e tp_id s sk st pn2) by (split; [exact US|]; exists n2; split; [exact GK|exact FS]).
    eapply bind_go; [unfold check_rent; apply guard_go; apply keqb_refl|].
    eapply bind_go; [apply clock_go|]. cbv beta. eapply bind_go; [eapply live_go; [reflexivity|exact SI|exact GE]|].
    eapply bind_go; [apply wever_go; [reflexivity|exact WI]|]. cbv beta iota. eapply bind_go; [reflexivity|]. cbv beta.
    destruct VT as (VT & _). rewrite VT. cbn [Z.eqb]. cbv iota. eapply bind_go; [exact RG|]. rewrite <- NOW. exact EX. }
  destruct (C67_ever e ext c s s' k mint ata tsk CALL) as (w' & ts' & UW' & TAT & CASE); try reflexivity; try assumption.
  { apply VT. } { destruct VT as (_ & VT & _). rewrite VT. discriminate. }
  rewrite UW in UW'. injection UW' as <-. exists s', ts'. split; [exact CALL|]. split; [exact TAT|]. cbv zeta in CASE. fold ev in CASE.
  destruct CASE as [([X|X] & _)|(_ & _ & g & GE' & _ & DT & RQ' & PD)]; [contradiction|lia|]. specialize (GE' D47). fold gross in GE'. subst g.
  rewrite PL in RQ'. split; [exact DT|]. split; [exact RQ'|exact PD].
Qed.


(** A request with payload cannot even be filed before the token has a mint: the proxy account that is to receive the
    tokens could not be initialised. *)
Theorem C79_payload_blocked : forall e ext c ts lt conf token name symbol decimals recipient amount payload attached s s' mint proxy,
  tp_addr e (str "mint" ++ kb (token_hash e token)) mint -> tp_addr e (str "proxy" ++ kb mint ++ kb recipient) proxy -> payload <> [] ->
  mint <> native_mint -> own (accs s mint) <> spl_id -> dat (accs s proxy) = [] ->
  ~ tp_call e ext c (TpWithdrawEverRequest ts lt conf token name symbol decimals recipient amount payload attached) s s'.
Proof.
  intros e ext c ts lt conf token name symbol decimals recipient amount payload attached s s' mint proxy (mn & FM) (pn & FP) NP NM OM DP C.
  apply tp_call_exec in C as (P & _ & _ & H). cbn [tp_exec] in H. unfold tp_withdraw_ever_request in H. destruct (c_keys c) eqn:EK; [discriminate H|]. mkeys H.
  apply bind_ok in H as (? & ? & G & H). unfold check_rent in G. apply guard_ok in G as [_ ->].
  apply bind_ok in H as (t & ? & G & H). unfold check_clock in G. apply bind_ok in G as (? & ? & G & G2). apply guard_ok in G as [_ ->]. injection G2 as _ <-.
  apply bind_ok in H as (? & ? & G & H). apply guard_ok in G as [_ ->]. apply bind_ok in H as (? & ? & G & H). apply guard_ok in G as [_ ->].
  apply bind_ok in H as (? & ? & G & H). apply guard_ok in G as [_ ->].
  apply bind_ok in H as (rls & ? & G & H). apply tp_valid_rl_settings_ok in G as [-> _].
  apply bind_ok in H as (rr & ? & G & H). apply tp_valid_round_ok in G as [-> _].
  apply bind_ok in H as (? & ? & G & H). apply guard_ok in G as [_ ->].
  apply bind_ok in H as (pn' & s1 & G & _). unfold request_proxy in G. destruct payload as [|px pr]; [contradiction|]. cbn [nil_b] in G. mkeys G.
  apply bind_ok in G as (mk & ? & G1 & G). apply lift_ok in G1 as [G1 ->]. rewrite P in G1. unfold sd_mint in G1. rewrite FM in G1. cbn [rbind] in G1. injection G1 as <-.
  apply bind_ok in G as (? & ? & G1 & G). apply guard_ok in G1 as [G1 ->]. apply keqb_eq in G1. subst.
  apply bind_ok in G as (n & ? & G & _). unfold create_proxy_account in G. rewrite P in G.
  apply bind_ok in G as (v & ? & G1 & G). apply lift_ok in G1 as [G1 ->]. unfold sd_proxy in G1. rewrite FP in G1. injection G1 as <-. cbv beta iota in G.
  apply bind_ok in G as (? & ? & G1 & G). apply guard_ok in G1 as [G1 ->]. apply keqb_eq in G1. subst.
  apply bind_ok in G as (a & ? & G1 & G). injection G1 as <- <-.
  apply bind_ok in G as (? & ? & G1 & G). apply guard_ok in G1 as [_ ->]. rewrite DP in G. cbn [nil_b] in G.
  apply bind_ok in G as (? & s2 & G1 & G). apply create_pda_account_ok in G1 as ((M1 & M2 & M3 & M4 & M5) & _).
  apply bind_ok in G as (? & ? & G1 & G). apply guard_ok in G1 as [_ ->].
  apply bind_ok in G as (? & ? & G1 & G). apply invoke_init_immutable_ok in G1. subst.
  apply bind_ok in G as (? & ? & G1 & _). apply invoke_init_account3_ok in G1 as (t0 & _ & _ & MI & _). destruct (MI NM) as (m & OMI & UMI).
  match type of M1 with own (accs _ ?px) = _ => match type of NM with ?mk <> _ => destruct (key_dec mk px) as [E|E] end end.
  - rewrite E in UMI. unfold tmint_in in UMI. rewrite M4 in UMI. apply unpack_len in UMI; [|typeclasses eauto]. vm_compute in UMI. discriminate UMI.
  - destruct (M5 _ E) as [X _]. apply OM. rewrite <- X. exact OMI.
Qed.


Definition fk : list key := [tset; tw5; tmintE; ttsE; trecvE; tfunder].
Definition xc5 : list acct := Eval vm_compute in map (accs tc5) fk.
Lemma xc5_is : map (accs tc5) fk = xc5. Proof. vm_compute. reflexivity. Qed.
Lemma atc n k : nth_error fk n = Some k -> accs tc5 k = nth n xc5 no_acct.
Proof. intros H. pose proof (map_nth_error (accs tc5) n fk H) as M. rewrite xc5_is in M. symmetry. apply nth_error_nth. exact M. Qed.
Definition w5c : wever := Eval vm_compute in the_wever tc5 tw5.
Ltac in_first a := cbv zeta; unfold ever_filed, bridge_settings, vacant, unused, has_lamports, the_wever, the_wreq;
  rewrite ?(a 0%nat tset eq_refl), ?(a 1%nat tw5 eq_refl), ?(a 2%nat tmintE eq_refl), ?(a 3%nat ttsE eq_refl), ?(a 4%nat trecvE eq_refl), ?(a 5%nat tfunder eq_refl).

(** FALSE of the code: a confirmed withdrawal of a new Ever token cannot always be executed.  Whoever sends one lamport
    to the address of the token's settings beforehand stops it: every call that names the request fails or changes
    nothing, with whatever accounts and signatures, now and forever ([C78_withdraw]). *)
Theorem C79_refuted : exists e s0 s funder k w mint tsk ata sk mn tn an,
  let ev := event_of w in
  genesis e tp_id s0 /\ tp_later e s0 s /\ clock_ok s /\ ever_filed e s k w /\ status_of w = WNew /\ p_required w <= confirmed (p_signers w) /\
  wee_payload ev = [] /\ wee_decimals ev = 9 /\ wee_amount ev = 80000 /\
  (exists st, bridge_settings e s sk st /\ gs_emergency st = false) /\
  find_pda e (str "mint" ++ kb (token_hash e (wee_token ev))) tp_id = Ok (mint, mn) /\ find_pda e (str "settings" ++ kb (token_hash e (wee_token ev))) tp_id = Ok (tsk, tn) /\
  find_pda e (kb (wee_recipient ev) ++ kb spl_id ++ kb mint) ata_id = Ok (ata, an) /\
  vacant s mint /\ accs s tsk = Acct 1 sys_id [] /\ unused s ata /\ has_lamports s funder (mint_price e + token_price e + record_price e) /\
  forall ext c s', tp_call e ext c TpWithdrawEver s s' -> nth_error (c_keys c) 0 = Some k -> s' = s.
Proof.
  exists te, tc0, tc5, tfunder, tw5, w5c, tmintE, ttsE, trecvE, tset, 255, 255, 255. cbv zeta.
  split; [apply demo_genesis; vm_compute; reflexivity|]. split; [exact tc_later|]. split; [vm_compute; split; [discriminate|reflexivity]|].
  assert (LT : accs tc5 ttsE = Acct 1 sys_id []) by (in_first atc; reflexivity).
  assert (UW : unpack c_wever TP_LEN (@p_init _ _) (dat (accs tc5 tw5)) = Ok w5c) by (in_first atc; ex_vm).
  split; [in_first atc; ex_request|]. do 5 (split; [ex_vm|]). split; [in_first atc; eexists; split; [ex_bridge|reflexivity]|].
  do 3 (split; [ex_vm|]). split; [in_first atc; split; [ex_vm|split; ex_vm]|]. split; [exact LT|].
  split; [in_first atc; split; [ex_vm|split; ex_vm]|]. split; [in_first atc; split; [ex_vm|split; ex_vm]|].
  intros ext c s' C KN. eapply (C78_withdraw te (wee_token (event_of w5c)) ttsE 255 tmintE 255 ttsE tc5 tc5 ext c TpWithdrawEver tw5 w5c s');
    [ex_vm|ex_vm|left; reflexivity|exact ttsE_plain|rewrite LT; reflexivity|rewrite LT; reflexivity|rewrite LT; reflexivity|apply tl_refl|exact UW|reflexivity|left; split; [reflexivity|exact KN]|exact C].
Qed.

(** * Examples *)

(** The demo Ever token is unknown in state [ts7]; the confirmed withdrawal of 80000 pays 79960 to the recipient. *)
Definition x7 : list acct := Eval vm_compute in map (accs ts7) fk.
Lemma x7_is : map (accs ts7) fk = x7. Proof. vm_compute. reflexivity. Qed.
Lemma at7 n k : nth_error fk n = Some k -> accs ts7 k = nth n x7 no_acct.
Proof. intros H. pose proof (map_nth_error (accs ts7) n fk H) as M. rewrite x7_is in M. symmetry. apply nth_error_nth. exact M. Qed.
Example C79_first_ex : let w := the_wever ts7 tw5 in let ev := event_of w in
  let gross := rescale (wee_amount ev) (wee_decimals ev) (Z.min 9 (wee_decimals ev)) mod 2 ^ 64 in let fee := fee_on (FeeInfo 5 10000) gross in
  clock_ok ts7 /\ ever_filed te ts7 tw5 w /\ status_of w = WNew /\ p_required w <= confirmed (p_signers w) /\ wee_payload ev = [] /\
  wee_decimals ev = 9 /\ wee_name ev = str "Ever Token" /\ wee_symbol ev = str "EVT" /\ gross = 80000 /\ fee = 40 /\
  (exists st, bridge_settings te ts7 tset st /\ gs_emergency st = false) /\
  find_pda te (str "mint" ++ kb (token_hash te (wee_token ev))) tp_id = Ok (tmintE, 255) /\ find_pda te (str "settings" ++ kb (token_hash te (wee_token ev))) tp_id = Ok (ttsE, 255) /\
  find_pda te (kb (wee_recipient ev) ++ kb spl_id ++ kb tmintE) ata_id = Ok (trecvE, 255) /\
  vacant ts7 tmintE /\ vacant ts7 ttsE /\ unused ts7 trecvE /\ lam (accs ts7 trecvE) = 0 /\
  tmintE <> ttsE /\ tmintE <> trecvE /\ ttsE <> trecvE /\ tfunder <> trecvE /\ tmintE <> native_mint /\
  has_lamports ts7 tfunder (mint_price te + token_price te + record_price te).
Proof.
  cbv zeta. split; [vm_compute; split; [discriminate|reflexivity]|]. in_first at7. split; [ex_request|]. do 8 (split; [ex_vm|]).
  split; [eexists; split; [ex_bridge|reflexivity]|]. do 3 (split; [ex_vm|]). do 3 (split; [split; [ex_vm|split; ex_vm]|]). do 6 (split; [ex_vm|]). split; [ex_vm|split; ex_vm].
Qed.
(** The same request with payload is refused in state [ts7] and accepted in [ts8], when the token is registered. *)
Definition treqP := treqE trecv tw6 tround 57 tev6 [ww tproxyE; ro tmintE; ro spl_id].
Example C79_payload_ex : tp_addr te (str "mint" ++ kb (token_hash te tever)) tmintE /\ tp_addr te (str "proxy" ++ kb tmintE ++ kb trecv) tproxyE /\
  wee_payload tev6 <> [] /\ tmintE <> native_mint /\ own (accs ts7 tmintE) <> spl_id /\ dat (accs ts7 tproxyE) = [] /\
  is_ok (tstp ts7 treqP) = false /\ is_ok (tstp ts8 treqP) = true.
Proof. split; [exists 255; vm_compute; reflexivity|]. split; [exists 255; vm_compute; reflexivity|]. do 3 (split; [vm_compute; discriminate|]). vm_compute. repeat split; reflexivity. Qed.

Print Assumptions C79_first_partial.
Print Assumptions C79_payload_blocked.
Print Assumptions C79_refuted.
