(** Property C81: whoever has the tokens can fill pending withdrawals, any number at once. *)

From Coq Require Import Strings.String ZifyBool ZifyNat ZifyN.
From Verif Require Import TpDemoLaws SysGo TpDeposit TpPending PropTpReq PropTpFlow PropTpPay PropTpMoney PropTpMisc PropTpOutcome PropTpAdmin PropTpDaily PropLive PropExec PropExits PropDeposits.
Local Notation total := PropTpMoney.total.
Local Notation shift := TpFlow.shift.
Open Scope Z_scope.
Open Scope list_scope.
Ltac Zify.zify_post_hook ::= Z.div_mod_to_equations.

(** * Vocabulary *)

(** The account list of the Rust bindings (token-proxy/src/bindings.rs:1155-1218). *)
Definition fill_accounts (funder author src mint dep sk tsk mv : key) (fl : list filling) (vault : key) : ctx := ctx_of tp_id
  ([Meta funder true true; Meta author true true; Meta src false true; Meta mint false true; Meta dep false true; Meta sk false false;
    Meta sys_id false false; Meta tsk false false; Meta spl_id false false; Meta rent_id false false; Meta mv false true]
   ++ map (fun k => Meta k false true) (keys_of fl) ++ [Meta vault false true]).
(** [x] is a pending request for tokens [mint]; the fee is defined, fee and bounty are not above the amount; its account
    is a token account of the event's recipient that is not frozen. *)
Definition fillable (e : env) (s : state) (mint : key) (fi : fee_info) (x : filling) : Prop :=
  sol_filed e s (f_request x) (f_w x) /\ status_of (f_w x) = WPending /\ wse_mint (event_of (f_w x)) = mint /\
  f_gross x < 2 ^ 64 /\ fee_fits fi (f_gross x) /\ 0 <= f_out fi x /\
  exists r, tok_in s (f_account x) r /\ ta_state r <> TFrozen /\ ta_mint r = mint /\ ta_owner r = wse_recipient (event_of (f_w x)).

(** * Lemmas *)

Lemma tok_same s k a b : tok_in s k a -> tok_in s k b -> a = b.
Proof. intros [_ A] [_ B]. unfold tacc_in in *. congruence. Qed.
Lemma tok_accs s s' k t : accs s' k = accs s k -> tok_in s k t -> tok_in s' k t.
Proof. unfold tok_in, tacc_in. intros ->. auto. Qed.

Definition f_net (fi : fee_info) (x : filling) : Z := f_gross x - f_fee fi x.

Section Loop.
Variables (e : env) (c : ctx) (author src mint dk : key) (fi : fee_info) (dsts : list key).
Hypothesis P : c_pid c = tp_id.
Hypothesis SA : c_sg c author = true.
Hypothesis IA : In author (c_keys c).
Hypothesis IS : In src (c_keys c).
Hypothesis WS : c_wr c src = true.
Hypothesis IT : In spl_id (c_keys c).
Hypothesis ND : ~ In src dsts.
Hypothesis FM : 0 <= fi_mul fi.
Hypothesis FD : 0 <= fi_div fi.

(** The provider can still pay [n] tokens to each of [dsts]. *)
Definition funded (s : state) (n : Z) : Prop := nonneg s /\ forall d, In d dsts -> can_send s mint src author d n /\ accepts s mint d n.
(** No owner changes, token accounts keep owner, state and mint. *)
Definition kept (s s' : state) : Prop := (forall j, own (accs s' j) = own (accs s j)) /\
  (forall j t, tok_in s j t -> exists t', tok_in s' j t' /\ ta_state t' = ta_state t /\ ta_mint t' = ta_mint t /\ ta_owner t' = ta_owner t) /\
  lam_sum (c_keys c) s' = lam_sum (c_keys c) s /\ now s' = now s.

Lemma fill_one_go s n x : funded s n -> fillable e s mint fi x -> In (f_account x) dsts -> f_net fi x <= n ->
  In (f_account x) (c_keys c) -> c_wr c (f_account x) = true -> c_wr c (f_request x) = true ->
  exists s', fill_one e c author src mint dk fi (f_request x) (f_account x) s = Ok ((f_fee fi x, f_net fi x), s') /\
    funded s' (n - f_net fi x) /\ kept s s' /\ (forall j, j <> src -> j <> f_account x -> j <> f_request x -> accs s' j = accs s j).
Proof.
  intros [NN FU] (RQ & ST & EM & GU & FF & OUT & r & TR & SR & MR & OR) ID NL IK WK WR.
  pose proof (sol_filed_in _ _ _ _ RQ) as WI. destruct RQ as (OW & UW & _).
  set (out := f_out fi x) in *. pose proof (FU _ ID) as [CS AC]. pose proof CS as (v & TV & SV & MV & OV & DV & AV & NV).
  assert (NSD : src <> f_account x) by (intros E; apply ND; rewrite E; exact ID).
  assert (B0 : 0 <= f_bounty x).
  { unfold f_bounty. apply unpack_ok in UW as (rr & _ & OKW & _); [|typeclasses eauto]. revert OKW. unfold c_wsol, c_prop. clear. intros H.
    destruct (f_w x) as [i0 kd au rd rq pd_ ev [ln [st_ b_ ep_]] sg]. cbn [c_iso okb c_pair fst snd p_init p_kind p_author p_round p_required p_pda p_event p_meta p_signers c_withlen wl_len wl_data] in *.
    unfold c_wmeta in H. cbn [c_iso okb c_pair fst snd wm_bounty wm_status wm_epoch] in *. rewrite !andb_true_iff in H. destruct H as (_ & _ & _ & _ & _ & _ & _ & (_ & (_ & H & _)) & _).
    apply okb_u64 in H. lia. }
  assert (G0 : 0 <= f_gross x).
  { unfold f_gross. apply unpack_ok in UW as (rr & _ & OKW & _); [|typeclasses eauto]. revert OKW. unfold event_of, c_wsol, c_prop. clear. intros H.
    destruct (f_w x) as [i0 kd au rd rq pd_ [ln ev] mt sg]. cbn [c_iso okb c_pair fst snd p_init p_kind p_author p_round p_required p_pda p_event p_meta p_signers c_withlen wl_len wl_data] in *.
    unfold c_wsol_event in H. cbn [c_iso okb c_pair fst snd] in H. rewrite !andb_true_iff in H. destruct H as (_ & _ & _ & _ & _ & _ & (_ & (_ & H & _)) & _). apply okb_u128 in H. lia. }
  assert (ON : out <= f_net fi x) by (unfold out, f_out, f_net; lia).
  assert (O0 : out <= n) by lia.
  destruct (send_go c src author (f_account x) mint out [] s) as (s1 & SEND & (SO & A1 & LG & T1) & LS1); try assumption; try (left; assumption).
  { exists v. do 5 (split; [assumption|]). split; [lia|]. intros Q. specialize (NV Q). lia. }
  { destruct AC as (r2 & Q1 & Q2 & Q3 & Q4). exists r2. do 3 (split; [assumption|]). lia. }
  pose proof SEND as MV1. apply invoke_tok_transfer_moved in MV1; [|exact OUT]. destruct MV1 as ((a & b & dl & da & TA & TB & _ & _ & MS & _ & NE & OTH & SE & DL) & _).
  destruct (NE NSD) as [TA1 TB1]. assert (a = v) by (eapply tok_same; eassumption). assert (b = r) by (eapply tok_same; eassumption). subst a b.
  assert (DEL : dl = ta_delegate v) by (destruct MS as [(D & _)|(_ & _ & D & _)]; [rewrite D in DV; discriminate DV|exact D]).
  assert (WN : f_request x <> src /\ f_request x <> f_account x).
  { split; intros E; rewrite E in OW; [destruct TV as [Q _]|destruct TR as [Q _]]; rewrite Q in OW; discriminate. }
  destruct WN as [WN1 WN2]. set (s2 := put_log s1 (enc c_ev_status (EvStatus (f_request x) WProcessed))).
  set (s3 := written c_wsol s2 (f_request x) (w_set_status (f_w x) WProcessed)).
  assert (LEN : blen (dat (accs s (f_request x))) = TP_LEN /\ blen (enc c_wsol (f_w x)) <= TP_LEN).
  { apply unpack_ok in UW as (rr & D & _ & L & _); [|typeclasses eauto]. split; [exact L|]. rewrite D, blen_app in L. pose proof (blen_nonneg rr). unfold c_wsol in *. clear - L H. lia. }
  destruct LEN as [LEN LE2].
  assert (PK : pack_at c c_wsol TP_LEN (f_request x) (w_set_status (f_w x) WProcessed) s2 = Ok (tt, s3)).
  { apply pack_at_go; [rewrite P; cbn [s2 put_log accs]; rewrite SO; exact OW|exact WR|cbn [s2 put_log accs]; rewrite A1 by assumption; exact LEN|].
    pose proof (status_size (c_withlen c_wsol_event) (f_w x) WProcessed) as Z. unfold wsol, c_wsol in *. rewrite Z. exact LE2. }
  exists (put_log s3 (enc c_ev_liq (EvLiq dk (f_request x)))).
  assert (OTH3 : forall j, j <> f_request x -> accs s3 j = accs s1 j) by (intros j J; unfold s3, written; rewrite accs_put_dat_other by exact J; reflexivity).
  assert (LAM3 : forall j, lam (accs s3 j) = lam (accs s j) + (if fst (ta_native v) then at_key (f_account x) out j - at_key src out j else 0)).
  { intros j. unfold s3. rewrite (lam_same_only (f_request x) s2) by apply written_only. change (accs s2) with (accs s1). apply DL. }
  assert (TOK : forall j t, tok_in s j t -> tok_in s3 j (ta_with t (ta_amount t + (if keqb j (f_account x) then out else 0) - (if keqb j src then out else 0)) (ta_delegate t) (if keqb j src then da else ta_damount t))).
  { intros j t T. assert (J : j <> f_request x) by (intros E; rewrite E in T; destruct T as [T _]; rewrite T in OW; discriminate).
    apply (tok_accs s1); [apply OTH3; exact J|]. destruct (keqb j src) eqn:E1; [apply keqb_eq in E1|].
    - rewrite E1 in *. rewrite (proj2 (keqb_neq _ _) NSD). assert (t = v) by (eapply tok_same; eassumption). subst t. rewrite DEL in TA1. rewrite Z.add_0_r. exact TA1.
    - apply keqb_neq in E1. destruct (keqb j (f_account x)) eqn:E2; [apply keqb_eq in E2|].
      + rewrite E2 in *. assert (t = r) by (eapply tok_same; eassumption). subst t. rewrite Z.sub_0_r. exact TB1.
      + apply keqb_neq in E2. rewrite Z.add_0_r, Z.sub_0_r. replace (ta_with t _ _ _) with t by (destruct t; reflexivity). apply (tok_accs s); [apply A1; assumption|exact T]. }
  split; [|split; [|split]].
  - unfold fill_one. eapply bind_go; [apply wsol_go; [exact P|exact WI]|]. cbv beta iota zeta.
    eapply bind_go; [apply guard_go; change (w_status (f_w x)) with (status_of (f_w x)); rewrite ST; reflexivity|].
    eapply bind_go; [apply guard_go; change (wl_data (p_event (f_w x))) with (event_of (f_w x)); rewrite EM; apply keqb_refl|].
    eapply bind_go. { unfold check_recipient. destruct TR as [_ TR]. eapply bind_go; [apply tacc_go; exact TR|]. cbv beta. apply guard_go. rewrite OR. apply keqb_refl. }
    eapply bind_go; [reflexivity|]. cbv beta. eapply bind_go; [apply guard_go; destruct TR as [-> _]; apply keqb_refl|].
    eapply bind_go; [apply guard_go; apply Z.ltb_lt; exact GU|].
    eapply bind_go; [apply lift_go; apply (fee_go fi (f_gross x)); auto|]. cbv beta.
    eapply bind_go; [apply lift_go; unfold csub; change (wse_amount (wl_data (p_event (f_w x)))) with (f_gross x); replace (fee_on fi (f_gross x) <=? f_gross x) with true by (destruct FF as [_ FF]; lia); reflexivity|]. cbv beta.
    eapply bind_go; [apply lift_go; unfold csub; change (wm_bounty (wl_data (p_meta (f_w x)))) with (f_bounty x); replace (f_bounty x <=? f_gross x - fee_on fi (f_gross x)) with true by (unfold out, f_out, f_fee in OUT; lia); reflexivity|]. cbv beta.
    change (f_gross x - fee_on fi (f_gross x) - f_bounty x) with out.
    eapply bind_go; [exact SEND|]. eapply bind_go; [reflexivity|]. eapply bind_go; [exact PK|]. eapply bind_go; [reflexivity|]. reflexivity.
  - split.
    { intros j. change (0 <= lam (accs s3 j)). rewrite LAM3. pose proof (NN j). destruct (fst (ta_native v)) eqn:Q; [|lia]. unfold at_key. destruct (keqb j src) eqn:E; [apply keqb_eq in E; rewrite E in *; specialize (NV eq_refl)|]; destruct (keqb _ (f_account x)); lia. }
    intros d I. destruct (FU d I) as [(v' & TV' & SV' & MV' & OV' & DV' & AV' & NV') (r' & TR' & SR' & MR' & UR')].
    assert (v' = v) by (eapply tok_same; eassumption). subst v'.
    assert (DS : d <> src) by (intros E; apply ND; rewrite <- E; exact I).
    split.
    + exists (ta_with v (ta_amount v + (if keqb src (f_account x) then out else 0) - (if keqb src src then out else 0)) (ta_delegate v) (if keqb src src then da else ta_damount v)).
      split; [apply TOK; exact TV|]. cbn [ta_with ta_state ta_mint ta_owner ta_delegate ta_amount ta_native]. rewrite keqb_refl, (proj2 (keqb_neq _ _) NSD).
      do 4 (split; [assumption|]). split; [lia|]. intros Q. specialize (NV' Q). change (n - f_net fi x <= lam (accs s3 src) /\ lam (accs s3 d) + (n - f_net fi x) < 2 ^ 64).
      rewrite !LAM3, Q. unfold at_key. rewrite keqb_refl, (proj2 (keqb_neq _ _) NSD), (proj2 (keqb_neq _ _) DS). destruct (keqb d (f_account x)); lia.
    + eexists. split; [apply TOK; exact TR'|]. cbn [ta_with ta_state ta_mint ta_amount]. rewrite (proj2 (keqb_neq _ _) DS). do 2 (split; [assumption|]). destruct (keqb d (f_account x)); lia.
  - split; [|split; [|split]].
    + intros j. change (own (accs s3 j) = own (accs s j)). unfold s3. rewrite written_own. apply SO.
    + intros j t T. eexists. split; [apply TOK; exact T|]. cbn [ta_with ta_state ta_mint ta_owner]. auto.
    + change (lam_sum (c_keys c) s3 = lam_sum (c_keys c) s). unfold s3. rewrite lam_sum_written. exact LS1.
    + exact T1.
  - intros j J1 J2 J3. change (accs s3 j = accs s j). rewrite OTH3 by exact J3. apply A1; assumption.
Qed.

Lemma kept_refl s : kept s s.
Proof. split; [auto|]. split; [intros j t T; exists t; auto|]. auto. Qed.
Lemma kept_trans s1 s2 s3 : kept s1 s2 -> kept s2 s3 -> kept s1 s3.
Proof.
  intros (A1 & A2 & A3 & A4) (B1 & B2 & B3 & B4). split; [intros j; rewrite B1; apply A1|]. split; [|split; congruence].
  intros j t T. destruct (A2 j t T) as (t1 & T1 & E1 & E2 & E3). destruct (B2 j t1 T1) as (t2 & T2 & F1 & F2 & F3). exists t2. split; [exact T2|]. split; [|split]; congruence.
Qed.

Lemma fill_loop_go unread : (List.length unread < 2)%nat -> forall fl s n fees nets, funded s n -> NoDup (map f_request fl) -> Forall (fillable e s mint fi) fl ->
  incl (map f_account fl) dsts -> total (f_net fi) fl <= n -> Forall (fun k => In k (c_keys c) /\ c_wr c k = true) (keys_of fl) ->
  0 <= fees -> 0 <= nets -> fees + nets + total f_gross fl < 2 ^ 64 ->
  exists s', fill_loop e c author src mint dk fi fees nets (keys_of fl ++ unread) s = Ok ((fees + total (f_fee fi) fl, nets + total (f_net fi) fl, unread), s') /\
    funded s' (n - total (f_net fi) fl) /\ kept s s' /\ (forall j, j <> src -> ~ In j (keys_of fl) -> accs s' j = accs s j).
Proof.
  intros UN. induction fl as [|x fl IH]; intros s n fees nets FU NDP FO IN NL KE F0 N0 S0.
  - exists s. cbn [keys_of flat_map app total fold_right]. rewrite !Z.add_0_r, Z.sub_0_r. split; [|split; [exact FU|split; [apply kept_refl|auto]]].
    destruct unread as [|u [|u2 r]]; [reflexivity|reflexivity|cbn [List.length] in UN; lia].
  - apply Forall_inv in FO as FX. apply Forall_inv_tail in FO as FT. cbn [map] in NDP, IN. inversion_clear NDP as [|? ? NI NDT].
    cbn [total fold_right] in NL, S0. fold (total (f_net fi) fl) in NL. fold (total f_gross fl) in S0.
    cbn [keys_of flat_map app] in KE. fold (keys_of fl) in KE. rewrite !Forall_cons_iff in KE. destruct KE as ([K1 K2] & [K3 K4] & KE).
    assert (POS : forall y, fillable e s mint fi y -> 0 <= f_net fi y /\ 0 <= f_fee fi y /\ f_net fi y + f_fee fi y = f_gross y).
    { intros y (RQ & _ & _ & _ & [D0 FF] & OUT & _). unfold f_net, f_fee. split; [lia|]. split; [unfold fee_on; lia|lia]. }
    assert (TP : 0 <= total (f_net fi) fl /\ 0 <= total f_gross fl).
    { clear - FT POS. induction FT as [|y l H _ IHl]; cbn [total fold_right]; [lia|]. fold (total (f_net fi) l). fold (total f_gross l). specialize (POS _ H). lia. }
    pose proof (POS _ FX) as (PX1 & PX2 & PX3).
    destruct (fill_one_go s n x) as (s1 & R1 & FU1 & KP1 & A1); try assumption; [apply IN; left; reflexivity|lia|].
    destruct (IH s1 (n - f_net fi x) (fees + f_fee fi x) (nets + f_net fi x)) as (s2 & R2 & FU2 & KP2 & A2); try assumption; try lia.
    + rewrite Forall_forall in *. intros y I. destruct (FT y I) as ((OW & UW & WA) & ST & EM & GU & FF & OUT & r & TR & SR & MR & OR).
      destruct FX as (_ & _ & _ & _ & _ & _ & rx & TX & _). destruct (proj2 FU (f_account x)) as [(v & TV & _) _]; [apply IN; left; reflexivity|].
      assert (J : accs s1 (f_request y) = accs s (f_request y)).
      { apply A1; intros E; [rewrite E in OW; destruct TV as [Q _]; rewrite Q in OW; discriminate|rewrite E in OW; destruct TX as [Q _]; rewrite Q in OW; discriminate|].
        apply NI. rewrite <- E. apply in_map. exact I. }
      split; [unfold sol_filed; rewrite J; auto|]. do 5 (split; [assumption|]).
      destruct KP1 as (_ & KT & _). destruct (KT _ _ TR) as (r' & TR' & E1 & E2 & E3). exists r'. split; [exact TR'|]. rewrite E1, E2, E3. auto.
    + intros k I. apply IN. right. exact I.
    + exists s2. cbn [keys_of flat_map app]. fold (keys_of fl). split; [|split; [|split]].
      * cbn [fill_loop]. eapply bind_go; [exact R1|]. cbv beta iota.
        assert (W1 : wrap64 (fees + f_fee fi x) = fees + f_fee fi x) by (unfold wrap64, u64max; apply Z.mod_small; lia).
        assert (W2 : wrap64 (nets + f_net fi x) = nets + f_net fi x) by (unfold wrap64, u64max; apply Z.mod_small; lia).
        rewrite W1, W2, R2. cbn [total fold_right]. fold (total (f_net fi) fl). fold (total (f_fee fi) fl). do 3 f_equal. f_equal; lia.
      * cbn [total fold_right]. fold (total (f_net fi) fl). rewrite Z.sub_add_distr. exact FU2.
      * exact (kept_trans _ _ _ KP1 KP2).
      * intros j J1 J2. cbn [In] in J2. rewrite A2 by tauto. apply A1; [exact J1| |]; intros E; apply J2; subst j; tauto.
Qed.
End Loop.

Lemma wr_in p ms k sg : In (Meta k sg true) ms -> c_wr (ctx_of p ms) k = true.
Proof. intros I. cbn [ctx_of c_wr]. apply existsb_exists. exists (Meta k sg true). split; [exact I|]. cbn [m_key m_wr]. rewrite keqb_refl. reflexivity. Qed.
Lemma fee_parts_wdr ts : okb c_token_settings ts = true -> 0 <= fi_mul (tk_fee_wdr ts) /\ 0 <= fi_div (tk_fee_wdr ts).
Proof.
  intros TO. apply okb_ts in TO. destruct TO as (_ & _ & _ & _ & _ & _ & _ & _ & _ & _ & _ & FDP).
  unfold c_fee_info in FDP. cbn [c_iso okb c_pair fst snd] in FDP. apply andb_true_iff in FDP as [A B]. apply okb_u64 in A, B. lia.
Qed.
Lemma ix_value_fill seed r amount v ev p : okb c_tp_ix (TpFill seed r amount v ev p) = true -> 0 <= v < 2 ^ 64 /\ 0 <= amount < 2 ^ 64.
Proof.
  intros O. change (okb c_u128 seed && (okb c_ever r && (okb c_u64 amount && (okb c_u64 v && (true && okb c_bytes p)))) = true) in O.
  rewrite !andb_true_iff in O. change (2 ^ 64) with u64max. rewrite <- !okb_u64. tauto.
Qed.
Lemma keys_of_eq e s s' mint m fi fi' : forall fl fl', keys_of fl' = keys_of fl -> Forall (fillable e s mint fi) fl -> Forall (filled e s s' m fi') fl' -> fl' = fl.
Proof.
  induction fl as [|x fl IH]; intros [|y fl'] E F1 F2; try discriminate E; [reflexivity|].
  cbn [keys_of flat_map app] in E. injection E as E1 E2 E3. rewrite Forall_cons_iff in F1, F2. destruct F1 as [F1 F1'], F2 as [F2 F2'].
  f_equal; [|apply IH; assumption]. destruct F1 as ((_ & U1 & _) & _), F2 as ((_ & U2 & _) & _). rewrite E1 in U2. rewrite U1 in U2. injection U2 as U2.
  destruct x as [x1 x2 x3], y as [y1 y2 y3]. cbn in E1, E2, U2. congruence.
Qed.

(** * C81 *)

(** Whoever has [amount] tokens can fill any list [fl] of different pending withdrawals of the token whose amounts add
    up to [amount] or less, as long as bridge and token are not stopped, the vault keeps the deposit limit, the fee is
    defined and not above the amounts, and name, symbol and payload fit into the record.  Each request is finished and
    paid, the rest goes to the vault and [amount] less fee becomes a deposit. *)
Theorem C81_fill : forall e ext s funder author src vault dep mint mv tsk sk ts md fl seed recipient amount value evers payload,
  let fi := tk_fee_wdr ts in let dsts := vault :: map f_account fl in
  clock_ok s -> nonneg s -> sol_listed e s mint vault tsk ts -> running e s sk ts -> tmint_in s mint md ->
  can_pay e s funder mv dep seed value 0 ->
  NoDup (map f_request fl) -> Forall (fillable e s mint fi) fl -> total f_gross fl <= amount ->
  ~ In src dsts -> ~ In vault (map f_account fl) -> (forall d, In d dsts -> can_send s mint src author d amount /\ accepts s mint d amount) ->
  balance s vault + amount <= tk_dlimit ts -> fee_fits fi amount ->
  okb c_tp_ix (TpFill seed recipient amount value evers payload) = true -> blen (tk_name ts) + blen (tk_symbol ts) + blen payload <= 806 ->
  exists s', tp_call e ext (fill_accounts funder author src mint dep sk tsk mv fl vault) (TpFill seed recipient amount value evers payload) s s' /\
    Forall (fun x => sol_request e s' (f_request x) (w_set_status (f_w x) WProcessed)) fl /\
    (forall j, balance s' j = balance s j + payments fi src fl j + shift src vault (amount - total (fun x => f_gross x - f_fee fi x) fl) j) /\
    lam (accs s' mv) = lam (accs s mv) + value /\
    sol_deposit e s' dep author seed (DSolEvent mint (tk_name ts) (tk_symbol ts) (tm_decimals md) (amount - fee_on fi amount) recipient value evers payload).
Proof.
  intros e ext s funder author src vault dep mint mv tsk sk ts md fl seed recipient amount value evers payload fi dsts
    CK NN LI ([stt [BS GE]] & TE) TM (MV & MU & HL & VA & dn & FD) ND FO TG NS NV CS DL FF OI SZ.
  set (c := fill_accounts funder author src mint dep sk tsk mv fl vault). set (i := TpFill seed recipient amount value evers payload) in *.
  destruct LI as (TS & [v0 KT] & n & vn & KA & PV). pose proof (ts_in _ _ _ _ _ _ TS KA) as TI. pose proof (token_len _ _ _ _ TS) as (TL & TB & TO). pose proof TS as (OT & UT & _).
  destruct (bridge_set _ _ _ _ BS) as (pd & pn & SI & FP).
  assert (KY : c_keys c = funder :: author :: src :: mint :: dep :: sk :: sys_id :: tsk :: spl_id :: rent_id :: mv :: keys_of fl ++ [vault]).
  { unfold c, fill_accounts. cbn [ctx_of c_keys app map m_key]. rewrite map_app, map_map. cbn [map m_key]. rewrite map_id. reflexivity. }
  assert (WS : c_sg c funder = true /\ c_wr c funder = true /\ c_sg c author = true /\ c_wr c src = true /\ c_wr c dep = true /\ c_wr c mv = true).
  { unfold c, fill_accounts. cbn [app]. repeat split; metas. }
  destruct WS as (SF & WF & SA & WC & WD & WM).
  assert (WX : forall k, In k (keys_of fl ++ [vault]) -> c_wr c k = true).
  { intros k I. unfold c, fill_accounts. apply (wr_in _ _ _ false). apply in_or_app. right. apply in_or_app. apply in_app_or in I as [I|[<-|[]]]; [left|right; left; reflexivity].
    apply in_map_iff. exists k. split; [reflexivity|exact I]. }
  assert (WV : c_wr c vault = true) by (apply WX; apply in_or_app; right; left; reflexivity).
  assert (IV : In vault (c_keys c)) by (rewrite KY; do 11 right; apply in_or_app; right; left; reflexivity).
  destruct (ix_value_fill _ _ _ _ _ _ OI) as [V0 AM]. destruct (fee_parts_wdr ts TO) as [FP1 FP2].
  assert (PR : 0 < record_price e < u64max) by (unfold record_price, u64max; lia).
  pose proof HL as (HL1 & HL2 & HL3).
  assert (FM : funder <> mv) by (intros E; destruct MV as [MO _]; rewrite <- E, HL2 in MO; discriminate).
  destruct (pay_go c funder mv value s) as (s1 & PAY & B1 & B2 & A1 & LG1 & T1); try assumption; try (rewrite KY; cbn [In]; tauto); try lia.
  { split; [lia|auto]. } { apply NN. }
  assert (SO : forall j, own (accs s1 j) = own (accs s j) /\ dat (accs s1 j) = dat (accs s j)).
  { intros j. destruct (key_dec j mv) as [J|J]; [rewrite J, B1; auto|]. destruct (key_dec j funder) as [J2|J2]; [rewrite J2, B2, HL2, HL3; auto|]. rewrite A1 by assumption. auto. }
  assert (TK1 : forall j, own (accs s j) = spl_id -> accs s1 j = accs s j).
  { intros j O. apply A1; intros E; rewrite E in O; [rewrite HL2 in O|destruct MV as [MO _]; rewrite MO in O]; discriminate. }
  assert (LS1 : lam_sum (c_keys c) s1 = lam_sum (c_keys c) s).
  { apply (two_sum _ s s1 mv funder value); try (rewrite KY; cbn [In]; tauto); [congruence|rewrite B1; reflexivity|rewrite B2; reflexivity|]. intros j J1 J2. rewrite A1 by assumption. reflexivity. }
  assert (NN1 : nonneg s1).
  { intros j. destruct (key_dec j mv) as [J|J]; [rewrite J, B1; cbn [lam]; pose proof (NN mv); lia|]. destruct (key_dec j funder) as [J2|J2]; [rewrite J2, B2; cbn [lam]; lia|]. rewrite A1 by assumption. apply NN. }
  assert (OS : own (accs s src) = spl_id) by (destruct (CS vault) as [(v & [O _] & _) _]; [left; reflexivity|exact O]).
  assert (OD : forall d, In d dsts -> own (accs s d) = spl_id) by (intros d I; destruct (CS d I) as [_ (r & [O _] & _)]; exact O).
  assert (FU1 : funded author src mint dsts s1 amount).
  { split; [exact NN1|]. intros d I. pose proof (TK1 _ OS) as E1. pose proof (TK1 _ (OD d I)) as E2. destruct (CS d I) as [C1 C2].
    unfold can_send, accepts, tok_in, tacc_in in *. rewrite E1, E2. split; [exact C1|exact C2]. }
  assert (FO1 : Forall (fillable e s1 mint fi) fl).
  { rewrite Forall_forall in *. intros x I. destruct (FO x I) as ((O1 & O2 & O3) & Q1 & Q2 & Q3 & Q4 & Q5 & r & TR & Q6).
    destruct (SO (f_request x)) as [E1 E2]. split; [unfold sol_filed; rewrite E1, E2; auto|]. do 5 (split; [assumption|]). exists r. split; [|exact Q6].
    apply (tok_accs s); [apply TK1; apply TR|exact TR]. }
  assert (NET : 0 <= total (f_net fi) fl /\ 0 <= total (f_fee fi) fl /\ total (f_net fi) fl + total (f_fee fi) fl = total f_gross fl).
  { clear - FO. induction FO as [|x l H _ IHl]; cbn [total fold_right]; [lia|]. fold (total (f_net fi) l). fold (total f_gross l). fold (total (f_fee fi) l).
    destruct H as (_ & _ & _ & _ & [D0 F1] & _). unfold f_net, f_fee in *. assert (0 <= fee_on fi (f_gross x)) by (unfold fee_on; lia). lia. }
  destruct NET as (NT0 & NF0 & NTE).
  destruct (fill_loop_go e c author src mint dep fi dsts eq_refl SA) with (unread := [vault]) (fl := fl) (s := s1) (n := amount) (fees := 0) (nets := 0)
    as (s2 & LOOP & [NN2 FU2] & (SO2 & TK2 & LS2 & T2) & A2); try assumption; try (rewrite KY; cbn [In]; tauto); try lia.
  { cbn [List.length]. lia. }
  { intros k I. right. exact I. }
  { apply Forall_forall. intros k I. split; [rewrite KY; do 11 right; apply in_or_app; left; exact I|apply WX; apply in_or_app; left; exact I]. }
  rewrite !Z.add_0_l in LOOP.
  assert (KIN : forall k, In k (keys_of fl) -> In k (map f_account fl) \/ own (accs s k) = tp_id).
  { intros k I. unfold keys_of in I. apply in_flat_map in I as (x & I1 & [<-|[<-|[]]]); [right|left; apply in_map; exact I1]. rewrite Forall_forall in FO. apply (FO x I1). }
  assert (KEEP : forall k, own (accs s k) = sys_id -> accs s2 k = accs s1 k).
  { intros k O. apply A2; [intros E; rewrite E, OS in O; discriminate|]. intros I. apply KIN in I as [I|I]; [|rewrite I in O; discriminate].
    rewrite (OD k) in O by (right; exact I). discriminate. }
  pose proof VA as (VA1 & VA2 & VA3).
  assert (ND1 : dep <> funder) by (intros E; rewrite E in *; lia).
  assert (ND2 : dep <> mv) by (intros E; rewrite E in VA2; destruct MV as [MO _]; rewrite MO in VA2; discriminate).
  destruct (new_deposit_go e c funder dep seed dn s2) as (s3 & CR & O3 & D3 & A3 & LS3 & T3); try assumption; try reflexivity; try (rewrite KY; cbn [In]; tauto).
  { unfold vacant. rewrite KEEP by exact VA2. rewrite A1 by assumption. exact VA. }
  { unfold has_lamports. rewrite KEEP by exact HL2. rewrite B2. cbn [lam own dat]. split; [lia|auto]. }
  assert (TK3 : forall j, own (accs s j) = spl_id -> accs s3 j = accs s2 j).
  { intros j O. apply A3; intros E; rewrite E in O; [rewrite HL2 in O|rewrite VA2 in O]; discriminate. }
  destruct (FU2 vault (or_introl eq_refl)) as [CS2 AC2].
  assert (VKEEP : accs s2 vault = accs s vault).
  { rewrite A2; [apply TK1, OD; left; reflexivity|intros E; apply NS; left; exact E|]. intros I. apply KIN in I as [I|I]; [exact (NV I)|]. rewrite (OD vault) in I by (left; reflexivity). discriminate. }
  pose proof (OD vault (or_introl eq_refl)) as OV.
  destruct (CS vault (or_introl eq_refl)) as [_ (vt & [_ UV] & _ & _ & UVA)].
  assert (NN3 : nonneg s3).
  { assert (VA4 : vacant s2 dep) by (unfold vacant; rewrite KEEP by exact VA2; rewrite A1 by assumption; exact VA).
    assert (HL4 : has_lamports s2 funder (record_price e)) by (unfold has_lamports; rewrite KEEP by exact HL2; rewrite B2; cbn [lam own dat]; split; [lia|auto]).
    destruct (create_go e c funder dep (record_price e) TP_LEN tp_id (with_bump (sd_deposit seed) dn) s2) as (s3' & C & X1 & X2 & X3 & _); try assumption; try (rewrite KY; cbn [In]; tauto); try congruence.
    { apply find_pda_some in FD as [FD _]. exact FD. } { unfold TP_LEN, MAX_DATA. lia. } { discriminate. }
    unfold create_deposit in CR. change (invoke_create e c funder dep (record_price e) TP_LEN tp_id (with_bump (sd_deposit seed) dn) s2 = Ok (tt, s3)) in CR.
    rewrite C in CR. injection CR as ->. intros j. destruct (key_dec j dep) as [J|J]; [rewrite J, X1; cbn [lam]; lia|].
    destruct (key_dec j funder) as [J2|J2]; [rewrite J2, X2; cbn [lam]; destruct HL4; lia|]. rewrite X3 by assumption. apply NN2. }
  destruct (send_go c src author vault mint (amount - total (f_net fi) fl) [] s3) as (s4 & SEND & (SO4 & A4 & LG4 & T4) & LS4); try assumption; try (rewrite KY; cbn [In]; tauto); try (left; assumption); try lia.
  { intros E. apply NS. left. congruence. }
  { unfold can_send, tok_in, tacc_in in *. rewrite (TK3 src OS), (TK3 vault OV). exact CS2. }
  { unfold accepts, tok_in, tacc_in in *. rewrite (TK3 vault OV). exact AC2. }
  set (fee := fee_on fi amount) in *.
  assert (FE : fee_of u64max fi amount = Ok fee) by (apply fee_go; assumption).
  assert (CN : csub amount fee = Ok (amount - fee)) by (unfold csub; replace (fee <=? amount) with true by (destruct FF as [_ FF]; unfold fee; lia); reflexivity).
  set (ev := DSolEvent mint (tk_name ts) (tk_symbol ts) (tm_decimals md) (amount - fee) recipient value evers payload).
  set (rec := Dep true (KDeposit dn) author (dsol_event_new ev) (dep_meta_new seed)).
  set (lg := enc c_ev_deposit (EvDeposit dep recipient (amount - fee) seed value evers (kb (e_hash e (enc c_dsol_event ev))))).
  set (s5 := put_log s4 lg).
  assert (RS : blen (enc c_dsol rec) <= TP_LEN).
  { unfold c_dsol. pose proof (size_dep (c_withlen c_dsol_event) (c_withlen c_u128) rec) as Z. unfold dsol in *. rewrite Z. cbn [rec d_kind d_event d_meta kind_len dsol_event_new dep_meta_new].
    unfold c_withlen. cbn [c_iso enc wl_len wl_data]. rewrite !blen_pair, !blen_u32, size_dsol_event, blen_u128. unfold ev, dsol_event_new. cbn [wl_data dse_name dse_symbol dse_payload].
    unfold TP_LEN. lia. }
  set (s6 := written c_dsol s5 dep rec).
  assert (DK4 : accs s4 dep = accs s3 dep) by (apply A4; intros E; rewrite E in VA2; [rewrite OS in VA2|rewrite OV in VA2]; discriminate).
  assert (W0 : wrap64 (total (f_fee fi) fl + total (f_net fi) fl) = total f_gross fl) by (unfold wrap64, u64max; rewrite Z.mod_small; lia).
  assert (W1 : wrap64 (amount - total (f_net fi) fl) = amount - total (f_net fi) fl) by (unfold wrap64, u64max; rewrite Z.mod_small; lia).
  assert (B0 : ta_amount vt + amount <= tk_dlimit ts). { revert DL. unfold balance. unfold tacc_in in UV. rewrite OV, keqb_refl, UV. auto. }
  assert (R : tp_call e ext c i s s6).
  { apply call_go; [reflexivity|exact CK|exact OI|]. apply sum_go.
    - cbn [tp_exec i]. unfold tp_fill. rewrite KY. cbv beta iota. eapply bind_go; [apply guard_go; apply keqb_refl|].
      eapply bind_go; [apply guard_go; exact SA|]. eapply bind_go; [eapply live_go; [reflexivity|exact SI|exact GE]|].
      eapply bind_go; [eapply ts_sol_go; [reflexivity|exact TI|exact KT]|]. cbv beta iota. eapply bind_go; [unfold token_live; apply guard_go; rewrite TE; reflexivity|].
      eapply bind_go; [apply multivault_go; [reflexivity|exact MV]|]. eapply bind_go; [exact PAY|]. eapply bind_go; [reflexivity|]. cbv beta.
      eapply bind_go; [apply guard_go; rewrite keqb_refl; reflexivity|].
      eapply bind_go. { apply tmint_go. unfold tmint_in in *. destruct (SO mint) as [_ ->]. exact TM. }
      cbv beta.
      eapply bind_go. { unfold deposit_address. eapply bind_go; [apply lift_go; exact FD|]. cbv beta iota. eapply bind_go; [apply guard_go; apply keqb_refl|]. reflexivity. }
      cbv beta iota. eapply bind_go; [exact LOOP|]. cbv beta iota. eapply bind_go; [exact CR|].
      eapply bind_go; [apply guard_go; rewrite W0; apply Z.leb_le; exact TG|].
      eapply bind_go; [apply lift_go; apply pda_go; exact PV|].
      eapply bind_go. { apply tacc_go. unfold tacc_in in *. rewrite (TK3 vault OV), VKEEP. exact UV. }
      cbv beta. eapply bind_go; [apply lift_go; unfold cadd; replace (ta_amount vt + amount <? u64max) with true by (symmetry; apply Z.ltb_lt; exact UVA); reflexivity|]. cbv beta.
      eapply bind_go; [apply guard_go; apply Z.leb_le; exact B0|].
      rewrite W1. eapply bind_go; [exact SEND|]. eapply bind_go; [apply lift_go; exact FE|]. cbv beta. eapply bind_go; [apply lift_go; exact CN|]. cbv beta zeta.
      eapply bind_go; [unfold emit_deposit; reflexivity|].
      apply (pack_at_go c c_dsol TP_LEN dep rec s5); [change (accs s5) with (accs s4); rewrite DK4; exact O3|exact WD|change (accs s5) with (accs s4); rewrite DK4; exact D3|exact RS].
    - unfold s6. rewrite lam_sum_written. change (lam_sum (c_keys c) s5) with (lam_sum (c_keys c) s4). rewrite LS4, LS3, LS2. exact LS1. }
  exists s6. split; [exact R|].
  destruct (C44_partial e ext c seed recipient amount value evers payload s s6 R) as (f' & a' & src' & m' & d' & sk' & x & t' & y & z & mv' & fl' & vault' & ts' & m & v' & md' & t & vt' & KE & (_ & UT') & KT' & _ & _ & FI & _ & _ & _ & _ & _ & _ & BAL & _ & _ & _ & TM' & SD & _ & _ & _ & LM).
  rewrite KY in KE. injection KE as <- <- <- <- <- <- <- <- <- <- <- KE. apply app_inj_tail in KE as [KE <-].
  rewrite UT in UT'. injection UT' as <-. rewrite KT in KT'. injection KT' as <- <-. unfold tmint_in in *. rewrite TM in TM'. injection TM' as <-.
  assert (fl' = fl) by (eapply keys_of_eq; [symmetry; exact KE|exact FO|exact FI]). subst fl'.
  cbv zeta in BAL. destruct BAL as [BAL BA2]. destruct BA2 as (_ & BA2 & _); [lia|]. rewrite BA2 in BAL.
  split; [|split; [exact BAL|split; [exact LM|exact SD]]].
  rewrite Forall_forall in *. intros w I. destruct (FI w I) as (_ & _ & _ & _ & _ & _ & Q). exact Q.
Qed.

(** The deposit limit is checked as if all of [amount] entered the vault, although only the part that is not given to
    the recipients does. *)
Theorem C81_limit : forall e ext s s' funder author src vault dep mint mv tsk sk ts fl seed recipient amount value evers payload,
  tp_call e ext (fill_accounts funder author src mint dep sk tsk mv fl vault) (TpFill seed recipient amount value evers payload) s s' ->
  token_at e s tsk ts -> src <> vault -> ~ In vault (map f_account fl) -> balance s vault + amount <= tk_dlimit ts.
Proof.
  intros e ext s s' funder author src vault dep mint mv tsk sk ts fl seed recipient amount value evers payload CALL [_ UT] NS NV.
  apply tp_call_exec in CALL as (Hp & OI & _ & H). cbn [tp_exec] in H.
  apply tp_fill_ok in H as (f & a & src' & mint' & dk & sk' & x & tsk' & y & z & mv' & rest & K & B).
  assert (KY : c_keys (fill_accounts funder author src mint dep sk tsk mv fl vault) = funder :: author :: src :: mint :: dep :: sk :: sys_id :: tsk :: spl_id :: rent_id :: mv :: keys_of fl ++ [vault]).
  { unfold fill_accounts. cbn [ctx_of c_keys app map m_key]. rewrite map_app, map_map. cbn [map m_key]. rewrite map_id. reflexivity. }
  rewrite KY in K. injection K as <- <- <- <- <- <- <- <- <- <- <- <-.
  destruct B as (st & pn & ts' & vn & m & sv & md & dn & fees & nets & vk & unread & vt & fee & amt & s1 & s2 & s3 & s4 & S & VS & GE & V & KT & EM & VM & MM & TM & PD & PV & LP & FR & (CR & _ & _ & DC) & WR & TV & DL1 & DL2 & (MV & SG & _) & _).
  rewrite Hp in *. destruct V as [UT' _]. rewrite UT in UT'. injection UT' as <-.
  destruct (fill_run_list _ _ _ _ _ _ _ _ _ _ _ _ _ _ _ Hp FR) as (fl' & EL & LL & _ & _ & BA & _).
  destruct unread as [|u unread]; [|cbn [List.length] in LL; lia]. apply app_inj_tail in EL as [EL <-].
  pose proof (nospl_lpaid _ _ _ _ _ _ LP) as N1. pose proof (nospl_created _ _ _ _ CR) as N3.
  destruct (nospl_still _ _ N1) as (B1 & _ & _). destruct (nospl_still _ _ N3) as (B3 & _ & _).
  pose proof MV as (ta & tb & dl & da & T1 & [T2O T2] & _).
  assert (tb = vt) by (unfold tacc_in in *; congruence). subst tb.
  assert (BV : balance s3 vault = ta_amount vt) by (unfold balance, tacc_in in *; rewrite T2O, keqb_refl, T2; reflexivity).
  assert (PZ : payments (tk_fee_wdr ts) src fl' vault = 0).
  { unfold payments. assert (Q : keqb vault src = false) by (apply keqb_neq; congruence). rewrite Q.
    assert (NV' : ~ In vault (map f_account fl')).
    { replace (map f_account fl') with (map f_account fl); [exact NV|]. clear - EL. revert fl' EL.
      induction fl as [|x fl IH]; intros [|y fl'] E; try discriminate E; [reflexivity|]. cbn [keys_of flat_map app] in E. injection E as E1 E2 E3. cbn [map]. rewrite E2. f_equal. apply IH. exact E3. }
    clear - NV'. induction fl' as [|y fl' IH]; [reflexivity|]. cbn [total fold_right map In] in *.
    assert (Q : keqb vault (f_account y) = false) by (apply keqb_neq; intros E; apply NV'; left; congruence). rewrite Q.
    fold (total (fun x => if keqb vault (f_account x) then f_out (tk_fee_wdr ts) x else 0) fl'). specialize (IH (fun I => NV' (or_intror I))). lia. }
  rewrite B3, BA, PZ, B1 in BV. lia.
Qed.

(** * Examples *)

(** A vault of 1000 tokens and two pending withdrawals: [tw1] of 50000 and [tw2] of 700000. *)
Definition tg1 := unres (tstp ts1 (tdep tuser tuserS tvault td1 tmintS 1 1000)).
Definition tg2 := unres (tstps tg1 (treqS trecv tw1 tround 7 tev1 [] :: tvotes tw1 tround ++ [texecS tw1 trecvS tmintS])).
Definition tg3 := unres (tstps tg2 (treqS trecv tw2 tround 17 tev2 [] :: tvotes tw2 tround ++ [texecS tw2 trecvS tmintS])).
(** The deposit limit is lowered to 400000. *)
Definition tg4 := unres (tstp tg3 (tadmT tman ttsS (TpChangeDepositLimit 400000))).
Definition gk : list key := [tw1; tw2; ttsS; tset; tmv; tvault; trecvS; tmintS; td2; tfunder; tstrS].
Definition xg3 : list acct := Eval vm_compute in map (accs tg3) gk.
Definition xg4 : list acct := Eval vm_compute in map (accs tg4) gk.
Lemma xg_is : (map (accs tg3) gk, map (accs tg4) gk) = (xg3, xg4). Proof. vm_compute. reflexivity. Qed.
Lemma xg3_is : map (accs tg3) gk = xg3. Proof. exact (f_equal fst xg_is). Qed.
Lemma xg4_is : map (accs tg4) gk = xg4. Proof. exact (f_equal snd xg_is). Qed.
Lemma atg3 n k : nth_error gk n = Some k -> accs tg3 k = nth n xg3 no_acct.
Proof. intros H. pose proof (map_nth_error (accs tg3) n gk H) as M. rewrite xg3_is in M. symmetry. apply nth_error_nth. exact M. Qed.
Lemma atg4 n k : nth_error gk n = Some k -> accs tg4 k = nth n xg4 no_acct.
Proof. intros H. pose proof (map_nth_error (accs tg4) n gk H) as M. rewrite xg4_is in M. symmetry. apply nth_error_nth. exact M. Qed.
Ltac in_fill a := cbv zeta; unfold can_pay, fillable, the_wsol, the_wreq, the_req, the_token, the_tok, the_mint, sol_filed, sol_listed, running, bridge_settings, token_settings_of, token_at,
  can_send, accepts, multivault_stands, tok_in, mint_in, tacc_in, tmint_in, balance, supply, vacant, has_lamports; cbn [f_request f_account f_w];
  rewrite ?(a 0%nat tw1 eq_refl), ?(a 1%nat tw2 eq_refl), ?(a 2%nat ttsS eq_refl), ?(a 3%nat tset eq_refl), ?(a 4%nat tmv eq_refl),
    ?(a 5%nat tvault eq_refl), ?(a 6%nat trecvS eq_refl), ?(a 7%nat tmintS eq_refl), ?(a 8%nat td2 eq_refl), ?(a 9%nat tfunder eq_refl), ?(a 10%nat tstrS eq_refl).
Lemma fineg3 : fine tg3.
Proof. unfold tg3; fine_step. unfold tg2; fine_step. unfold tg1; fine_step. unfold ts1; fine_step. exact fine0. Qed.
Lemma fineg4 : fine tg4.
Proof. unfold tg4; fine_step. exact fineg3. Qed.

(** What C81_fill asks for, but for the deposit limit, of [tstranger] who fills both withdrawals with 750000 tokens. *)
Definition fill_demo (s : state) : Prop := let ts := the_token s ttsS in let fi := tk_fee_wdr ts in
  let fl := [Filling tw1 trecvS (the_wsol s tw1); Filling tw2 trecvS (the_wsol s tw2)] in
  fine s /\ sol_listed te s tmintS tvault ttsS ts /\ running te s tset ts /\ tmint_in s tmintS (the_mint s tmintS) /\
  can_pay te s tfunder tmv td2 2 3000 0 /\ NoDup (map f_request fl) /\ Forall (fillable te s tmintS fi) fl /\ total f_gross fl = 750000 /\
  ~ In tstrS (tvault :: map f_account fl) /\ ~ In tvault (map f_account fl) /\
  (forall d, In d (tvault :: map f_account fl) -> can_send s tmintS tstrS tstranger d 750000 /\ accepts s tmintS d 750000) /\
  balance s tvault + (750000 - total (fun x => f_gross x - f_fee fi x) fl) = 1375 /\ balance s tvault = 1000 /\ fee_fits fi 750000 /\
  okb c_tp_ix (TpFill 2 teverX 750000 3000 (knum 72) []) = true /\ blen (tk_name ts) + blen (tk_symbol ts) + 0 <= 806.
Ltac ex_fillable := split; [ex_request|]; split; [ex_vm|]; split; [ex_vm|]; split; [ex_vm|]; split; [split; ex_vm|]; split; [ex_vm|]; eexists; split; [split; ex_vm|]; split; [ex_vm|]; split; ex_vm.
Ltac ex_filling := split; [ex_sol|]; split; [split; [eexists; split; [ex_bridge|reflexivity]|ex_vm]|]; split; [ex_vm|]; split; [ex_pay|];
  split; [(apply NoDup_cons; [|apply NoDup_cons; [intros []|apply NoDup_nil]]; intros [X|[]]; discriminate X)|];
  split; [(apply Forall_cons; [ex_fillable|]; apply Forall_cons; [ex_fillable|]; apply Forall_nil)|]; split; [ex_vm|].
Ltac ex_rest a := split; [intros [X|[X|[X|[]]]]; discriminate X|]; split; [intros [X|[X|[]]]; discriminate X|];
  split; [(intros d [<-|[<-|[<-|[]]]]; in_fill a; (split; [ex_send|ex_accept]))|]; split; [ex_vm|]; split; [ex_vm|]; split; [split; ex_vm|]; split; ex_vm.
(** So both can be filled, the vault being unlimited. *)
Example C81_fill_ex : fill_demo tg3 /\ tk_dlimit (the_token tg3 ttsS) = 2 ^ 64 - 1.
Proof. unfold fill_demo. cbv zeta. split; [split; [exact fineg3|]|]; in_fill atg3; [ex_filling; ex_rest atg3|ex_vm]. Qed.

(** FALSE of the code: that withdrawals can be filled whenever the vault stays within the deposit limit.  The limit is
    400000, the vault would have 1375 tokens afterwards; but the fill is refused, whatever programs may be called. *)
Theorem C81_refuted : exists s ts fl, let fi := tk_fee_wdr ts in
  reached s /\ fill_demo s /\ token_at te s ttsS ts /\ fl = [Filling tw1 trecvS (the_wsol s tw1); Filling tw2 trecvS (the_wsol s tw2)] /\
  balance s tvault + (750000 - total (fun x => f_gross x - f_fee fi x) fl) < tk_dlimit ts /\
  forall ext s', ~ tp_call te ext (fill_accounts tfunder tstranger tstrS tmintS td2 tset ttsS tmv fl tvault) (TpFill 2 teverX 750000 3000 (knum 72) []) s s'.
Proof.
  exists tg4, (the_token tg4 ttsS), [Filling tw1 trecvS (the_wsol tg4 tw1); Filling tw2 trecvS (the_wsol tg4 tw2)]. cbv zeta.
  split; [unfold reached, tg4; demo_more; unfold tg3; demo_votes; unfold tg2; demo_votes; unfold tg1; demo_more; unfold ts1; demo_more; apply h_refl|].
  assert (TA : token_at te tg4 ttsS (the_token tg4 ttsS)) by (in_fill atg4; split; [exists 255; ex_vm|ex_vm]).
  split; [unfold fill_demo; cbv zeta; split; [exact fineg4|]; in_fill atg4; ex_filling; ex_rest atg4|].
  split; [exact TA|]. split; [reflexivity|]. split; [in_fill atg4; ex_vm|].
  intros ext s' CALL. eapply C81_limit in CALL; [|exact TA|discriminate|intros [X|[X|[]]]; discriminate X].
  revert CALL. in_fill atg4. vm_compute. intros X. apply X. reflexivity.
Qed.
Print Assumptions C81_fill.
Print Assumptions C81_limit.
Print Assumptions C81_refuted.
