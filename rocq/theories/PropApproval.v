(** Property C85: a withdrawal above the limits is paid after one approval, and does not count against the day's limit any more. *)

From Coq Require Import Strings.String ZifyBool ZifyNat ZifyN.
From Verif Require Import TpDemoLaws TpFlow TpOk TpDeposit TpEffects PropTpReq PropTpFlow PropTpPay PropTpMoney PropTpMisc PropTpOutcome PropTpDaily PropLive PropExec PropBridge PropKinds.
Open Scope Z_scope.
Open Scope list_scope.
Ltac Zify.zify_post_hook ::= Z.div_mod_to_equations.

(** * Lemmas *)

(** Nothing but the records [k] and [tsk] changes. *)
Definition only (k tsk : key) (s s' : state) : Prop :=
  (forall j, j <> k -> j <> tsk -> same_od s s' j) /\ (forall j, lam (accs s' j) = lam (accs s j)) /\ own (accs s' k) = own (accs s k) /\
  own (accs s' tsk) = own (accs s tsk) /\ now s' = now s.

Lemma settled_only {A} c (cw : codec A) s s' tsk ts2 k w' l : settled c cw s s s' tsk (Some ts2) k w' l -> only k tsk s s'.
Proof.
  intros (NE & W & _ & [WT _] & OD & L & _ & NW). split; [intros j J1 J2; apply OD; assumption|]. split; [exact L|].
  split; [destruct W; congruence|]. split; [destruct WT; congruence|exact NW].
Qed.

Lemma dest_not_waits e pid s kind pl mint rcp dst st : dest e pid s kind pl mint rcp dst st -> st <> WWaitApprove.
Proof. intros [(_ & -> & _)|(_ & -> & _)]; discriminate. Qed.

Lemma waits_sol e ext c s s' k tsk w : tp_call e ext c TpWithdrawSol s s' -> nth_error (c_keys c) 0 = Some k -> nth_error (c_keys c) 3 = Some tsk ->
  sol_request e s k w -> status_of w = WNew -> sol_request e s' k (w_set_status w WWaitApprove) -> only k tsk s s'.
Proof.
  intros C K0 K3 RQ ST RQ'.
  apply tp_call_exec in C as (Hp & _ & CK & H). cbn [tp_exec] in H.
  apply tp_withdraw_sol_ok in H as (k' & vault' & dst & tsk' & pm & sk & x & y & rest & w' & gs & pn & K & WI & VS & GE & E).
  rewrite Hp in *. rewrite K in *. cbn [nth_error] in *. injection K0 as ->. injection K3 as ->.
  assert (w' = w). { destruct WI as [U _], RQ as (_ & U' & _). pose proof (eq_trans (eq_sym U) U') as E'. injection E' as E'. exact E'. } subst w'.
  destruct E as (ts' & vn & sv & V & KT & EM & PV' & CASE). rewrite Hp in *.
  destruct CASE as [[-> _]|(_ & fee & net & st & s1 & F & NE & N0 & CASE)].
  { split; [intros; apply same_od_refl|]. repeat split; reflexivity. }
  change (status_of w) with (w_status w) in ST.
  pose proof (wsol_in_len _ _ _ _ _ WI) as LW.
  assert (SAME : forall l, settled c c_wsol s s1 s' tsk l k (w_set_status w st) [enc c_ev_status (EvStatus k st)] -> st = WWaitApprove).
  { intros l SE. destruct RQ' as (_ & U2 & _). destruct SE as (_ & WR & _).
    assert (U1 : unpack c_wsol TP_LEN (@p_init _ _) (dat (accs s' k)) = Ok (w_set_status w st)).
    { destruct RQ as (_ & U' & _). apply unpack_init; [|apply unpack_ok in U' as (r & _ & _ & _ & I0); [exact I0|typeclasses eauto]].
      eapply wrote_unpack; [typeclasses eauto|exact WR|exact LW|]. apply unpack_ok in U' as (r & _ & OK & _); [|typeclasses eauto].
      apply okb_set_status; exact OK. }
    pose proof (eq_trans (eq_sym U1) U2) as Q. exact (f_equal (fun r => match r with Ok a => w_status a | _ => WNew end) Q). }
  destruct CASE as [(_ & _ & _ & CS & SE)|[(X & _)|(X & _)]]; [|congruence|congruence].
  pose proof (SAME _ SE) as ->. destruct CS as [(_ & _ & ->)|(_ & _ & v & _ & [(X & _)|(_ & _ & D & _)])].
  - exact (settled_only _ _ _ _ _ _ _ _ _ SE).
  - discriminate.
  - exfalso. exact (dest_not_waits _ _ _ _ _ _ _ _ _ D eq_refl).
Qed.

Lemma waits_ever e ext c s s' k tsk w : tp_call e ext c TpWithdrawEver s s' -> nth_error (c_keys c) 0 = Some k -> nth_error (c_keys c) 3 = Some tsk ->
  lam (accs s tsk) <> 0 -> ever_request e s k w -> status_of w = WNew -> ever_request e s' k (w_set_status w WWaitApprove) -> only k tsk s s'.
Proof.
  intros C K0 K3 LT RQ ST RQ'.
  apply tp_call_exec in C as (Hp & _ & CK & H). cbn [tp_exec] in H.
  apply tp_withdraw_ever_ok in H as (k' & mint' & dst & tsk' & sk & x & y & z & u & rest & w' & t & K & -> & WI & _ & E).
  rewrite Hp in *. rewrite K in *. cbn [nth_error] in *. injection K0 as ->. injection K3 as ->.
  assert (w' = w). { destruct WI as [U _], RQ as (_ & U' & _). pose proof (eq_trans (eq_sym U) U') as E'. injection E' as E'. exact E'. } subst w'.
  destruct E as [(X & _)|[(_ & E)|(X & _)]]; [contradiction| |contradiction].
  destruct E as (ts' & mn & m & dec_ & md & V & KT & EM & PM & TM & CASE). rewrite Hp in *.
  destruct CASE as [[-> _]|(_ & _ & amount & fee & net & st & s1 & GA & F & NE & N0 & _ & _ & CS & SE)].
  { split; [intros; apply same_od_refl|]. repeat split; reflexivity. }
  pose proof (wever_in_len _ _ _ _ _ WI) as LW.
  assert (st = WWaitApprove) as ->.
  { destruct RQ' as (_ & U2 & _). destruct SE as (_ & WR & _).
    assert (U1 : unpack c_wever TP_LEN (@p_init _ _) (dat (accs s' k)) = Ok (w_set_status w st)).
    { destruct RQ as (_ & U' & _). apply unpack_init; [|apply unpack_ok in U' as (r & _ & _ & _ & I0); [exact I0|typeclasses eauto]].
      eapply wrote_unpack; [typeclasses eauto|exact WR|exact LW|]. apply unpack_ok in U' as (r & _ & OK & _); [|typeclasses eauto].
      apply okb_set_status; exact OK. }
    pose proof (eq_trans (eq_sym U1) U2) as Q. exact (f_equal (fun r => match r with Ok a => w_status a | _ => WNew end) Q). }
  destruct CS as [(_ & _ & ->)|(_ & _ & _ & D & _)].
  - exact (settled_only _ _ _ _ _ _ _ _ _ SE).
  - exfalso. exact (dest_not_waits _ _ _ _ _ _ _ _ _ D eq_refl).
Qed.

Lemma only_od k tsk s s' j : only k tsk s s' -> j <> k -> j <> tsk -> own (accs s' j) = own (accs s j) /\ dat (accs s' j) = dat (accs s j).
Proof. intros (H & _) A B. exact (H j A B). Qed.
Lemma only_nonneg k tsk s s' : only k tsk s s' -> nonneg s -> nonneg s'.
Proof. intros (_ & L & _) N j. rewrite L. apply N. Qed.
(** The program-data account holds no record of the bridge. *)
Lemma program_data_kind e s a pd n : find_pda e (kb tp_id) loader_id = Ok (pd, n) -> tp_authority_is e s a -> kind_at (dat (accs s pd)) = None.
Proof. intros F (pd' & n' & slot & rest & F' & _ & D). rewrite F in F'. injection F' as <- <-. rewrite D. reflexivity. Qed.
Lemma acts_same e k tsk s s' role a x : only k tsk s s' -> kind_at (dat (accs s k)) <> None -> kind_at (dat (accs s tsk)) <> None -> acts e s role a x -> acts e s' role a x.
Proof.
  intros O KK KT A. destruct A as [|a pd n w AU FP]; [apply acts_role|]. refine (acts_owner _ _ _ _ pd n w _ FP).
  pose proof (program_data_kind _ _ _ _ _ FP AU) as KP.
  destruct AU as (pd' & n' & slot & rest & F & L & D). rewrite FP in F. injection F as <- <-.
  exists pd, n, slot, rest. split; [exact FP|]. split; [exact L|].
  rewrite (proj2 (only_od _ _ _ _ pd O ltac:(congruence) ltac:(congruence))). exact D.
Qed.
Lemma bridge_same e k tsk s s' sk st : only k tsk s s' -> kind_at (dat (accs s k)) <> kind_at (dat (accs s sk)) -> kind_at (dat (accs s tsk)) <> kind_at (dat (accs s sk)) ->
  bridge_settings e s sk st -> bridge_settings e s' sk st.
Proof.
  intros O KK KT B. destruct (only_od _ _ _ _ sk O ltac:(congruence) ltac:(congruence)) as [E1 E2].
  unfold bridge_settings in *. rewrite E1, E2. exact B.
Qed.
Lemma today_pos e s tsk ts : token_at e s tsk ts -> 0 <= today ts s.
Proof.
  intros [_ U]. apply unpack_ok in U as (r & _ & OK & _); [|typeclasses eauto]. apply okb_ts in OK. unfold today. destruct (_ =? _); lia.
Qed.

(** * C85 A withdrawal above the limits is paid after one approval *)

(** What the day's amount is after the approval, if it was [n] before the execution. *)
Definition counts (request_day day n net : Z) : Z := if request_day =? day then n else n + net.

(** A confirmed request above the limits: anyone executes it, which moves no token and makes it wait; the withdrawal manager (or the
    upgrade authority) approves it, with the accounts of the bindings, and it is paid.  The fee is booked once.  If the request was
    filed today, the amount of the day is what it was before. *)
Theorem C85_sol_partial : forall e ext s k w vault dst tsk ts sk st a x, nonneg s -> clock_ok s -> sol_filed e s k w -> status_of w = WNew ->
  p_required w <= confirmed (p_signers w) ->
  let mint := wse_mint (event_of w) in let gross := wse_amount (event_of w) mod 2 ^ 64 in
  let fee := fee_on (tk_fee_wdr ts) gross in let net := gross - fee in
  sol_listed e s mint vault tsk ts -> bridge_settings e s sk st -> gs_emergency st = false -> tk_emergency ts = false -> fee_fits (tk_fee_wdr ts) gross ->
  today ts s + net < 2 ^ 64 -> tk_fee_supply ts + fee < 2 ^ 64 -> vault <> dst -> vault_ready s mint vault dst net ->
  can_receive e s (p_kind w) (wse_payload (event_of w)) mint (wse_recipient (event_of w)) dst net ->
  over_limit ts s net -> net <= balance s vault -> acts e s (gs_wmanager st) a x ->
  exists s1 s2 ts2, tp_call e ext (sol_accounts k vault dst tsk mint sk) TpWithdrawSol s s1 /\ spl_still s s1 /\ sol_request e s1 k (w_set_status w WWaitApprove) /\
    tp_call e ext (approve_accounts a vault k dst tsk sk x) TpApproveSol s1 s2 /\ sol_paid_to e s1 s2 w vault dst net /\
    sol_request e s2 k (w_set_status w (settled_status (wse_payload (event_of w)))) /\ token_at e s2 tsk ts2 /\
    booked ts ts2 (tk_fee_supply ts + fee) (day_of (now s)) (counts (wm_epoch (wl_data (p_meta w))) (day_of (now s)) (today ts s) net).
Proof.
  intros e ext s k w vault dst tsk ts sk st a x NN CK RQ ST QU mint gross fee net LI BS GE TE FF B1 B2 NE VR CR OV NB AC.
  destruct (C72_sol e ext s k w vault dst tsk ts sk NN CK RQ ST QU LI (conj (ex_intro _ st (conj BS GE)) TE) FF B1 B2 NE VR CR) as (s1 & st1 & ts1 & C1 & TA1 & BK1 & RQ1 & OVR & _).
  fold mint in C1. fold gross in BK1, OVR. fold fee in BK1, OVR. fold net in BK1, OVR. destruct (OVR OV) as [-> SS].
  pose proof (waits_sol e ext _ s s1 k tsk w C1 eq_refl eq_refl (filed_sol _ _ _ _ RQ) ST RQ1) as ON.
  pose proof RQ as (RO & RU & rn & rpn & RK & RA). pose proof LI as ((TO & TU & tn & tvn & TK & TP) & KT & LV).
  assert (KK : kind_at (dat (accs s k)) = Some (KProposal rn rpn)) by (rewrite <- RK; eapply kind_prop; [typeclasses eauto|typeclasses eauto|exact RU]).
  assert (KTS : kind_at (dat (accs s tsk)) = Some (KTokenSettings tn tvn)) by (rewrite <- TK; eapply kind_token_settings; exact TU).
  assert (KS : exists sn spn, kind_at (dat (accs s sk)) = Some (KSettings sn spn)).
  { destruct BS as (_ & BU & n & pd & pn & _ & _ & BK). exists n, pn. rewrite <- BK. eapply kind_tp_settings. exact BU. }
  destruct KS as (sn & spn & KS).
  assert (BS1 : bridge_settings e s1 sk st) by (eapply bridge_same; [exact ON| | |exact BS]; congruence).
  assert (AC1 : acts e s1 (gs_wmanager st) a x) by (eapply acts_same; [exact ON| | |exact AC]; congruence).
  pose proof ON as (OD & LM & OK1 & OT1 & NW).
  assert (SPL : forall j, own (accs s j) = spl_id -> own (accs s1 j) = own (accs s j) /\ dat (accs s1 j) = dat (accs s j)).
  { intros j J. apply (only_od _ _ _ _ _ ON); intros ->; [rewrite RO in J|rewrite TO in J]; discriminate. }
  destruct VR as (v & TV & V1 & V2 & V3 & V4 & V5). destruct (SPL vault (proj1 TV)) as [SV1 SV2].
  destruct CR as (r & TR & R1 & R2 & R3 & R4). destruct (SPL dst (proj1 TR)) as [SD1 SD2].
  assert (TS1 : today ts1 s1 = today ts s + net). { rewrite BK1. unfold today. cbn [tk_wepoch tk_wdamount]. rewrite NW, Z.eqb_refl. reflexivity. }
  assert (RF1 : sol_filed e s1 k (w_set_status w WWaitApprove)).
  { destruct RQ1 as (O1 & U1 & _). split; [exact O1|]. split; [exact U1|]. exists rn, rpn. split; [exact RK|exact RA]. }
  assert (LI1 : sol_listed e s1 mint vault tsk ts1).
  { split; [split; [congruence|]; split; [apply TA1|]|]. all: rewrite BK1. exists tn, tvn. split; [exact TK|exact TP]. split; [exact KT|exact LV]. }
  assert (FE : tk_fee_wdr ts1 = tk_fee_wdr ts) by (rewrite BK1; reflexivity).
  assert (NP : 0 <= today ts s) by (apply (today_pos e s tsk); apply settings_token; apply LI).
  destruct (C72_approve_sol e ext s1 k (w_set_status w WWaitApprove) vault dst tsk ts1 sk st a x) as (s2 & st2 & ts2 & C2 & TA2 & BK2 & RQ2 & _ & PAY);
    rewrite ?FE; change (event_of (w_set_status w WWaitApprove)) with (event_of w) in *; try fold mint; try fold gross; try fold fee; try fold net; try assumption; try reflexivity.
  - eapply only_nonneg; [exact ON|exact NN].
  - unfold clock_ok in *. rewrite NW. exact CK.
  - rewrite BK1. exact TE.
  - intros _. rewrite BK1. cbn [tk_wdamount]. lia.
  - exists v. split; [eapply same_tok; [exact SV1|exact SV2|exact TV]|]. rewrite !LM. auto.
  - exists r. split; [eapply same_tok; [exact SD1|exact SD2|exact TR]|]. auto.
  - rewrite FE in PAY. destruct PAY as [-> PAY]; [rewrite (same_balance s s1 vault SV1 SV2); exact NB|].
    exists s1, s2, ts2. split; [exact C1|]. split; [exact SS|]. split; [exact RQ1|]. split; [exact C2|]. split; [exact PAY|]. split; [exact RQ2|]. split; [exact TA2|].
    rewrite FE in BK2. fold gross in BK2. fold fee in BK2. fold net in BK2. rewrite BK2. rewrite BK1. unfold booked, counts, after_approval. cbn [tk_init tk_akind tk_kind tk_name tk_symbol tk_dlimit tk_wlimit tk_wdlimit tk_wdamount tk_wepoch tk_emergency tk_fee_supply tk_fee_dep tk_fee_wdr].
    rewrite NW. change (wm_epoch (wl_data (p_meta (w_set_status w WWaitApprove)))) with (wm_epoch (wl_data (p_meta w))).
    destruct (wm_epoch (wl_data (p_meta w)) =? day_of (now s)); f_equal; lia.
Qed.

(** The same for a request to mint. *)
Theorem C85_ever_partial : forall e ext s k w mint md dst tsk ts sk st a x, nonneg s -> clock_ok s -> ever_filed e s k w -> status_of w = WNew ->
  p_required w <= confirmed (p_signers w) -> ever_scales w md -> ever_gross w md < 2 ^ 128 ->
  let gross := ever_gross w md mod 2 ^ 64 in let fee := fee_on (tk_fee_wdr ts) gross in let net := gross - fee in
  ever_listed e s (wee_token (event_of w)) mint tsk ts -> bridge_settings e s sk st -> gs_emergency st = false -> tk_emergency ts = false -> fee_fits (tk_fee_wdr ts) gross ->
  today ts s + net < 2 ^ 64 -> tk_fee_supply ts + fee < 2 ^ 64 -> mint_ready s mint dst md net ->
  can_receive e s (p_kind w) (wee_payload (event_of w)) mint (wee_recipient (event_of w)) dst net ->
  over_limit ts s net -> acts e s (gs_wmanager st) a x ->
  exists s1 s2 ts2, tp_call e ext (ever_accounts k mint dst tsk sk) TpWithdrawEver s s1 /\
    (forall j, supply s1 j = supply s j) /\ (forall j, own (accs s j) = spl_id -> same_od s s1 j) /\ ever_request e s1 k (w_set_status w WWaitApprove) /\
    tp_call e ext (approve_accounts a mint k dst tsk sk x) TpApproveEver s1 s2 /\ ever_paid e s1 s2 w mint dst net /\
    ever_request e s2 k (w_set_status w (settled_status (wee_payload (event_of w)))) /\ token_at e s2 tsk ts2 /\
    booked ts ts2 (tk_fee_supply ts + fee) (day_of (now s)) (counts (wm_epoch (wl_data (p_meta w))) (day_of (now s)) (today ts s) net).
Proof.
  intros e ext s k w mint md dst tsk ts sk st a x NN CK RQ ST QU SC GR gross fee net LI BS GE TE FF B1 B2 MR CR OV AC.
  destruct (C72_ever e ext s k w mint md dst tsk ts sk CK RQ ST QU SC GR LI (conj (ex_intro _ st (conj BS GE)) TE) FF B1 B2 MR CR) as (s1 & st1 & ts1 & C1 & TA1 & BK1 & RQ1 & OVR & _).
  fold gross in BK1, OVR. fold fee in BK1, OVR. fold net in BK1, OVR. destruct (OVR OV) as (-> & SU & SR).
  pose proof RQ as (RO & RU & rn & rpn & RK & RA). pose proof LI as ((TO & TU & tn & tvn & TK & TP) & LT & KT & LV).
  pose proof (waits_ever e ext _ s s1 k tsk w C1 eq_refl eq_refl LT (filed_ever _ _ _ _ RQ) ST RQ1) as ON.
  assert (KK : kind_at (dat (accs s k)) = Some (KProposal rn rpn)) by (rewrite <- RK; eapply kind_prop; [typeclasses eauto|typeclasses eauto|exact RU]).
  assert (KTS : kind_at (dat (accs s tsk)) = Some (KTokenSettings tn tvn)) by (rewrite <- TK; eapply kind_token_settings; exact TU).
  assert (KS : exists sn spn, kind_at (dat (accs s sk)) = Some (KSettings sn spn)).
  { destruct BS as (_ & BU & n & pd & pn & _ & _ & BK). exists n, pn. rewrite <- BK. eapply kind_tp_settings. exact BU. }
  destruct KS as (sn & spn & KS).
  assert (BS1 : bridge_settings e s1 sk st) by (eapply bridge_same; [exact ON| | |exact BS]; congruence).
  assert (AC1 : acts e s1 (gs_wmanager st) a x) by (eapply acts_same; [exact ON| | |exact AC]; congruence).
  pose proof ON as (OD & LM & OK1 & OT1 & NW).
  destruct MR as (MI & MA & MS & MN). destruct (SR mint (proj1 MI) (fun F => F)) as [SV1 SV2].
  destruct CR as (r & TR & R1 & R2 & R3 & R4). destruct (SR dst (proj1 TR) (fun F => F)) as [SD1 SD2].
  assert (RF1 : ever_filed e s1 k (w_set_status w WWaitApprove)).
  { destruct RQ1 as (O1 & U1 & _). split; [exact O1|]. split; [exact U1|]. exists rn, rpn. split; [exact RK|exact RA]. }
  assert (LI1 : ever_listed e s1 (wee_token (event_of w)) mint tsk ts1).
  { split; [split; [congruence|]; split; [apply TA1|]|]. all: rewrite BK1. exists tn, tvn. split; [exact TK|exact TP]. rewrite LM. split; [exact LT|]. split; [exact KT|exact LV]. }
  assert (FE : tk_fee_wdr ts1 = tk_fee_wdr ts) by (rewrite BK1; reflexivity).
  assert (NP : 0 <= today ts s) by (apply (today_pos e s tsk); apply settings_token; apply LI).
  destruct (C72_approve_ever e ext s1 k (w_set_status w WWaitApprove) mint md dst tsk ts1 sk st a x) as (s2 & ts2 & C2 & TA2 & BK2 & RQ2 & PAY);
    rewrite ?FE; change (event_of (w_set_status w WWaitApprove)) with (event_of w) in *; change (ever_gross (w_set_status w WWaitApprove) md) with (ever_gross w md) in *; try fold gross; try fold fee; try fold net; try assumption; try reflexivity.
  - unfold clock_ok in *. rewrite NW. exact CK.
  - rewrite BK1. exact TE.
  - intros _. rewrite BK1. cbn [tk_wdamount]. lia.
  - split; [eapply same_mint; [exact SV1|exact SV2|exact MI]|]. split; [exact MA|]. split; [exact MS|].
    intros r' TR'. apply MN. destruct TR' as [X Y]. unfold tok_in, tacc_in in *. rewrite SD1, SD2 in *. auto.
  - exists r. split; [eapply same_tok; [exact SD1|exact SD2|exact TR]|]. auto.
  - rewrite FE in PAY. exists s1, s2, ts2. split; [exact C1|]. split; [exact SU|]. split; [intros j J; exact (SR j J (fun F => F))|]. split; [exact RQ1|]. split; [exact C2|]. split; [exact PAY|]. split; [exact RQ2|]. split; [exact TA2|].
    rewrite FE in BK2. fold gross in BK2. fold fee in BK2. fold net in BK2. rewrite BK2. rewrite BK1. unfold booked, counts, after_approval. cbn [tk_init tk_akind tk_kind tk_name tk_symbol tk_dlimit tk_wlimit tk_wdlimit tk_wdamount tk_wepoch tk_emergency tk_fee_supply tk_fee_dep tk_fee_wdr].
    rewrite NW. change (wm_epoch (wl_data (p_meta (w_set_status w WWaitApprove)))) with (wm_epoch (wl_data (p_meta w))).
    destruct (wm_epoch (wl_data (p_meta w)) =? day_of (now s)); f_equal; lia.
Qed.

(** The full statement - an approved withdrawal does not count against the limit of the day - is false: the approval takes the amount
    back only from the day on which the request was filed.  A request of 50000, filed yesterday, executed and approved today, still
    fills the limit of 40000: every further withdrawal of the day has to be approved, whatever its amount.  Before, amounts up to
    10000 passed. *)
Definition ta0 := later 86400 ts4.
Definition ta1 := unres (tstp ta0 (tadmT tman ttsS (TpChangeWithdrawalLimits (Some 10000) (Some 40000)))).
Definition ta2 := unres (tstp ta1 (texecS tw1 trecvS tmintS)).
Definition ta3 := unres (tstp ta2 xapprS).
Definition ta_list := [is_ok (tstp ta0 (tadmT tman ttsS (TpChangeWithdrawalLimits (Some 10000) (Some 40000)))); is_ok (tstp ta1 (texecS tw1 trecvS tmintS));
  is_ok (tstp ta2 xapprS); now ta0 =? 1700086400; now ta1 =? 1700086400; now ta2 =? 1700086400; now ta3 =? 1700086400; balance ta3 trecvS =? balance ta1 trecvS + 49975].
Lemma ta_runs : forallb (fun b => b) ta_list = true.
Proof. vm_compute. reflexivity. Qed.
Lemma ta_run n b : nth_error ta_list n = Some b -> b = true.
Proof. intros H. apply nth_error_In in H. exact (proj1 (forallb_forall _ _) ta_runs b H). Qed.
Definition xa1 := Eval vm_compute in dat (accs ta1 ttsS).
Definition xa3 := Eval vm_compute in dat (accs ta3 ttsS).
Lemma xa_is : (dat (accs ta1 ttsS), dat (accs ta3 ttsS)) = (xa1, xa3).
Proof. vm_compute. reflexivity. Qed.
Theorem C85_refuted : exists s k vault dst tsk sk mint a ts s1 s2 ts2, reached s /\ status_of (the_wsol s k) = WNew /\ token_at te s tsk ts /\
  (forall n, 0 <= n <= 10000 -> ~ over_limit ts s n) /\
  tp_call te no_ext (sol_accounts k vault dst tsk mint sk) TpWithdrawSol s s1 /\
  tp_call te no_ext (approve_accounts a vault k dst tsk sk []) TpApproveSol s1 s2 /\ balance s2 dst = balance s dst + 49975 /\
  token_at te s2 tsk ts2 /\ (forall n, 0 <= n -> over_limit ts2 s2 n).
Proof.
  pose proof (ta_run 0 _ eq_refl) as R1. pose proof (ta_run 1 _ eq_refl) as R2. pose proof (ta_run 2 _ eq_refl) as R3. pose proof (ta_run 3 _ eq_refl) as N0.
  pose proof (ta_run 4 _ eq_refl) as N1. pose proof (ta_run 5 _ eq_refl) as N2. pose proof (ta_run 6 _ eq_refl) as N3. pose proof (ta_run 7 _ eq_refl) as B.
  apply Z.eqb_eq in N0, N1, N2, N3, B.
  exists ta1, tw1, tvault, trecvS, ttsS, tset, tmintS, twman, (the_token ta1 ttsS), ta2, ta3, (the_token ta3 ttsS).
  split.
  { unfold reached, ta1. apply tstp_more; [|vm_compute; reflexivity|vm_compute; reflexivity|unfold clock_ok; rewrite N0; split; [discriminate|reflexivity]|exact R1|reflexivity|exact Logic.I].
    apply (same_hist _ _ _ _ ts4); [|reflexivity]. demo_ts4; unfold ts3; demo_more; unfold ts2; demo_more; unfold ts1; demo_more; apply h_refl. }
  pose proof xa_is as X. apply pair_equal_spec in X as [X1 X3].
  split; [vm_compute; reflexivity|].
  split; [split; unfold the_token; rewrite X1; [exists 255; vm_compute; reflexivity|vm_compute; reflexivity]|].
  split.
  { intros n I [O|O]; unfold today, the_token in O; rewrite X1 in O; [|rewrite N1 in O].
    - change (10000 < n) in O. lia.
    - change (40000 < 0 + n) in O. lia. }
  split; [apply (tstp_call ta1 (texecS tw1 trecvS tmintS)); [vm_compute; reflexivity|unfold clock_ok; rewrite N1; split; [discriminate|reflexivity]|exact R2]|].
  split; [apply (tstp_call ta2 xapprS); [vm_compute; reflexivity|unfold clock_ok; rewrite N2; split; [discriminate|reflexivity]|exact R3]|].
  split; [exact B|].
  split; [split; unfold the_token; rewrite X3; [exists 255; vm_compute; reflexivity|vm_compute; reflexivity]|].
  intros n I. right. unfold today, the_token. rewrite X3, N3. change (40000 < 49975 + n). lia.
Qed.

(** * Examples *)

(** [tw1] in state [ts15]; [tw7] in state [ts27]: confirmed and above the limits. *)
Definition xa_tw1 := Eval vm_compute in accs ts15 tw1.
Definition xa_ttsS := Eval vm_compute in accs ts15 ttsS.
Definition xa_tset := Eval vm_compute in accs ts15 tset.
Definition xa_tvault := Eval vm_compute in accs ts15 tvault.
Definition xa_trecvS := Eval vm_compute in accs ts15 trecvS.
Lemma xa15_is : accs ts15 tw1 = xa_tw1 /\ accs ts15 ttsS = xa_ttsS /\ accs ts15 tset = xa_tset /\ accs ts15 tvault = xa_tvault /\ accs ts15 trecvS = xa_trecvS.
Proof. apply (@eqs_5 acct). vm_compute. reflexivity. Qed.
Example C85_sol_ex : let w := the_wsol ts15 tw1 in let ts := the_token ts15 ttsS in let gross := wse_amount (event_of w) mod 2 ^ 64 in
  let net := gross - fee_on (tk_fee_wdr ts) gross in let st := TpSettings true (KSettings 255 254) false tguard tman twman in
  sol_filed te ts15 tw1 w /\ status_of w = WNew /\ p_required w <= confirmed (p_signers w) /\
  sol_listed te ts15 (wse_mint (event_of w)) tvault ttsS ts /\ bridge_settings te ts15 tset st /\ gs_emergency st = false /\ tk_emergency ts = false /\ fee_fits (tk_fee_wdr ts) gross /\
  vault_ready ts15 (wse_mint (event_of w)) tvault trecvS net /\
  can_receive te ts15 (p_kind w) (wse_payload (event_of w)) (wse_mint (event_of w)) (wse_recipient (event_of w)) trecvS net /\
  tk_wlimit ts < net /\ net <= balance ts15 tvault /\ acts te ts15 (gs_wmanager st) twman [].
Proof.
  pose proof xa15_is as E. ex_in E. split; [ex_request|]. split; [ex_vm|]. split; [ex_vm|]. split; [ex_sol|]. split; [ex_bridge|]. split; [ex_vm|]. split; [ex_vm|].
  split; [split; ex_vm|]. split; [ex_vault|]. split; [ex_dst|]. split; [ex_vm|]. split; [ex_vm|]. apply acts_role.
Qed.
Example C85_ever_ex : let w := the_wever ts27 tw7 in let md := the_mint ts27 tmintE in let ts := the_token ts27 ttsE in let gross := ever_gross w md mod 2 ^ 64 in
  let net := gross - fee_on (tk_fee_wdr ts) gross in let st := TpSettings true (KSettings 255 254) false tguard tman twman in
  ever_filed te ts27 tw7 w /\ status_of w = WNew /\ p_required w <= confirmed (p_signers w) /\ ever_scales w md /\ ever_gross w md < 2 ^ 128 /\
  ever_listed te ts27 (wee_token (event_of w)) tmintE ttsE ts /\ bridge_settings te ts27 tset st /\ fee_fits (tk_fee_wdr ts) gross /\
  mint_in ts27 tmintE md /\ tm_auth md = (true, tmintE) /\ fst (ta_native (the_tok ts27 trecvE)) = false /\
  can_receive te ts27 (p_kind w) (wee_payload (event_of w)) tmintE (wee_recipient (event_of w)) trecvE net /\
  tk_wlimit ts < net /\ acts te ts27 (gs_wmanager st) twman [].
Proof.
  pose proof x27_is as E. ex_in E. split; [ex_request|]. split; [ex_vm|]. split; [ex_vm|]. split; [ex_vm|]. split; [ex_vm|].
  split; [ex_ever|]. split; [ex_bridge|]. split; [split; ex_vm|]. split; [split; ex_vm|]. split; [ex_vm|]. split; [ex_vm|]. split; [ex_dst|].
  split; [ex_vm|]. apply acts_role.
Qed.
Print Assumptions C85_sol_partial.
Print Assumptions C85_ever_partial.
Print Assumptions C85_refuted.
