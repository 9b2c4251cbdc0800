(** What cancelling and filling pending withdrawals, and payload execution, do when they succeed. *)

From Coq Require Import ZifyBool ZifyNat ZifyN.
From Verif Require Export TpRequest.
Ltac Zify.zify_post_hook ::= Z.div_mod_to_equations.

Lemma sod_mint s s' k m : sod s s' -> tmint_in s' k m -> tmint_in s k m.
Proof. intros S. unfold tmint_in. destruct (S k) as [_ D]. rewrite D. auto. Qed.

Definition cancel_eff (e : env) (c : ctx) (seed : Z) (recipient : ever) (value : Z) (evers : key) (payload : bytes)
  (funder author mint withdrawal deposit settings tsk multivault : key) (s s' : state) : Prop :=
  exists st pn w ts vn svault md dn fee amt s1 s2,
    c_sg c author = true /\
    tp_settings_in e (c_pid c) s settings st pn /\ gs_emergency st = false /\
    wsol_in e (c_pid c) s withdrawal w /\ p_author w = author /\ w_status w = WPending /\
    token_in e (c_pid c) s tsk ts vn /\ tk_kind ts = TKSol (wse_mint (wl_data (p_event w))) svault /\ tk_emergency ts = false /\
    multivault_in e (c_pid c) s multivault /\
    (mint = wse_mint (wl_data (p_event w)) \/ own (accs s mint) = spl_id) /\ tmint_in s mint md /\
    find_pda e (sd_deposit seed) (c_pid c) = Ok (deposit, dn) /\
    fee_of u128max (tk_fee_dep ts) (wse_amount (wl_data (p_event w))) = Ok fee /\ fee < u64max /\
    amt = wse_amount (wl_data (p_event w)) - fee /\ 0 <= amt /\
    let ev := DSolEvent (wse_mint (wl_data (p_event w))) (tk_name ts) (tk_symbol ts) (tm_decimals md) amt recipient value evers payload in
    lpaid c s s1 funder multivault value /\
    recorded e c c_dsol (Dep true (KDeposit dn) author (dsol_event_new ev) (dep_meta_new seed)) funder deposit
      [dep_log e withdrawal recipient amt seed value evers (enc c_dsol_event ev)] s1 s2 /\
    packed c c_wsol TP_LEN (put_log s2 (enc c_ev_status (EvStatus withdrawal WCancelled))) s' withdrawal (w_set_status w WCancelled).

Lemma tp_cancel_ok e c seed recipient value evers payload s a s' :
  tp_cancel e c seed recipient value evers payload s = Ok (a, s') ->
  exists funder author mint withdrawal deposit settings tsk x y multivault rest,
    c_keys c = funder :: author :: mint :: withdrawal :: deposit :: settings :: tsk :: x :: y :: multivault :: rest /\
    cancel_eff e c seed recipient value evers payload funder author mint withdrawal deposit settings tsk multivault s s'.
Proof.
  unfold tp_cancel, cancel_eff, create_deposit, emit_deposit. intros H. mkeys H. do 9 tstep H.
  apply bind_ok in H as (u1 & s1 & B1 & H). cbv beta in H. apply invoke_transfer_lpaid in B1.
  pose proof B1 as (_ & _ & _ & SO & _).
  apply bind_ok in H as (am & s1' & B2 & H). cbv beta in H. apply get_ok in B2 as [-> ->].
  apply bind_ok in H as (u2 & s1' & B2 & H). cbv beta in H. apply guard_ok in B2 as [G2 ->]. apply nand_or in G2. rewrite !keqb_eq in G2.
  apply bind_ok in H as (md & s1' & B2 & H). cbv beta in H. apply tmint_at_ok in B2 as [TMD ->].
  apply bind_ok in H as (u3 & s1' & B2 & H). cbv beta in H. apply guard_ok in B2 as [G3 ->]. apply keqb_eq in G3. rewrite G3 in *. clear G3.
  apply bind_ok in H as ([dk dn] & s1' & B3 & H). cbv beta iota in H. apply deposit_address_ok in B3 as (-> & E1 & PD). cbn [fst snd] in E1, PD.
  apply bind_ok in H as (u4 & s2 & CR & H). cbv beta zeta in H.
  apply bind_ok in H as (fee & s2' & B3 & H). cbv beta in H. apply lift_ok in B3 as [HF ->].
  apply bind_ok in H as (u5 & s2' & B3 & H). cbv beta in H. apply guard_ok in B3 as [G4 ->]. apply Z.ltb_lt in G4.
  apply bind_ok in H as (fs & s2' & B3 & H). cbv beta in H. apply lift_ok in B3 as [_ ->].
  apply bind_ok in H as (amt & s2' & B3 & H). cbv beta in H. apply lift_ok in B3 as [B3 ->]. apply csub_ok in B3 as [EP LP]. cbv zeta in H.
  apply bind_ok in H as (u6 & s3 & B4 & H). cbv beta in H. apply emit_ok in B4.
  apply bind_ok in H as (u7 & s4 & B5 & H). cbv beta in H. apply pack_at_packed in B5.
  apply bind_ok in H as (u8 & s5 & B6 & H). cbv beta in H. apply emit_ok in B6. apply pack_at_packed in H.
  do 11 eexists. split; [reflexivity|]. exists st, pn, w, ts, vn, svault, md, dn, fee, amt, s1, s4. mfacts.
  split; [assumption|]. split; [exact VS|]. split; [exact LV|]. split; [exact VW|]. split; [assumption|]. split; [assumption|].
  split; [exact VT|]. split; [exact KT|]. split; [exact LT|]. split; [exact VM|]. split.
  { destruct G2 as [G2|G2]; [left; exact G2|right]. destruct (SO k1) as [O _]. rewrite <- O. exact G2. }
  split; [eapply sod_mint; [exact SO|exact TMD]|]. split; [exact PD|]. split; [exact HF|]. split; [exact G4|]. split; [exact EP|].
  split; [lia|]. cbv zeta. split; [exact B1|]. split; [eapply record_ok; [exact CR|exact B4|exact B5]|].
  rewrite B6 in H. exact H.
Qed.

(** ** Fill *)
Definition fill_one_eff (e : env) (c : ctx) (author author_token smint dk : key) (f : fee_info) (withdrawal rt : key)
  (fee net : Z) (s s' : state) : Prop :=
  exists w r out s1 s2,
    wsol_in e (c_pid c) s withdrawal w /\ w_status w = WPending /\ wse_mint (wl_data (p_event w)) = smint /\
    tok_in s rt r /\ ta_owner r = wse_recipient (wl_data (p_event w)) /\
    wse_amount (wl_data (p_event w)) < u64max /\
    fee_of u64max f (wse_amount (wl_data (p_event w))) = Ok fee /\ net = wse_amount (wl_data (p_event w)) - fee /\ 0 <= net /\
    out = net - wm_bounty (wl_data (p_meta w)) /\ 0 <= out /\
    moved_sg c s s1 author_token rt author out /\
    packed c c_wsol TP_LEN (put_log s1 (enc c_ev_status (EvStatus withdrawal WProcessed))) s2 withdrawal (w_set_status w WProcessed) /\
    s' = put_log s2 (enc c_ev_liq (EvLiq dk withdrawal)).

Lemma fill_one_ok e c author author_token smint dk f withdrawal rt s r s' :
  fill_one e c author author_token smint dk f withdrawal rt s = Ok (r, s') ->
  fill_one_eff e c author author_token smint dk f withdrawal rt (fst r) (snd r) s s'.
Proof.
  unfold fill_one, fill_one_eff. intros H. do 3 tstep H.
  apply bind_ok in H as (u0 & s0 & B0 & H). cbv beta in H. apply check_recipient_ok in B0 as [-> (rr & R1 & R2)].
  do 3 tstep H. 
  apply bind_ok in H as (fee & s2' & B3 & H). cbv beta in H. apply lift_ok in B3 as [HF ->].
  apply bind_ok in H as (net & s2' & B3 & H). cbv beta in H. apply lift_ok in B3 as [B3 ->]. apply csub_ok in B3 as [EN LN].
  apply bind_ok in H as (out & s2' & B3 & H). cbv beta in H. apply lift_ok in B3 as [B3 ->]. apply csub_ok in B3 as [EO LO].
  apply bind_ok in H as (u6 & s1 & B4 & H). cbv beta in H. apply invoke_tok_transfer_moved in B4; [|lia].
  apply bind_ok in H as (u7 & s2 & B5 & H). cbv beta in H. apply emit_ok in B5.
  apply bind_ok in H as (u8 & s3 & B6 & H). cbv beta in H. apply pack_at_packed in B6.
  apply bind_ok in H as (u9 & s4 & B7 & H). cbv beta in H. apply emit_ok in B7. apply ret_ok in H as [-> ->]. cbn [fst snd].
  exists w, rr, out, s1, s3. mfacts. split; [exact VW|]. split; [assumption|]. split; [symmetry; assumption|].
  split; [split; assumption|]. split; [exact R2|]. split; [match goal with X : (_ <? u64max) = true |- _ => apply Z.ltb_lt in X; exact X end|].
  split; [exact HF|]. split; [exact EN|]. split; [lia|]. split; [exact EO|]. split; [lia|]. split; [exact B4|].
  split; [rewrite <- B5; exact B6|exact B7].
Qed.

(** The loop: pairs of a request and a recipient account, with the wrapped sums of fees and net
    amounts; [unread] accounts are left. *)
Inductive fill_run (e : env) (c : ctx) (author author_token smint dk : key) (f : fee_info) :
  Z -> Z -> list key -> state -> Z -> Z -> list key -> state -> Prop :=
| fr_stop fees nets l s : (length l < 2)%nat -> fill_run e c author author_token smint dk f fees nets l s fees nets l s
| fr_step fees nets withdrawal rt l s fee net s1 fees' nets' l' s' :
    fill_one_eff e c author author_token smint dk f withdrawal rt fee net s s1 ->
    fill_run e c author author_token smint dk f (wrap64 (fees + fee)) (wrap64 (nets + net)) l s1 fees' nets' l' s' ->
    fill_run e c author author_token smint dk f fees nets (withdrawal :: rt :: l) s fees' nets' l' s'.

Lemma fill_loop_ok e c author author_token smint dk f : forall n l fees nets s r s', (length l <= n)%nat ->
  fill_loop e c author author_token smint dk f fees nets l s = Ok (r, s') ->
  fill_run e c author author_token smint dk f fees nets l s (fst (fst r)) (snd (fst r)) (snd r) s'.
Proof.
  induction n as [|n IH]; intros l fees nets s r s' L H.
  - destruct l as [|x l]; [|cbn [length] in L; lia]. cbn [fill_loop] in H. apply ret_ok in H as [-> ->]. cbn [fst snd]. apply fr_stop. cbn. lia.
  - destruct l as [|x [|y l]].
    + cbn [fill_loop] in H. apply ret_ok in H as [-> ->]. apply fr_stop. cbn. lia.
    + cbn [fill_loop] in H. apply ret_ok in H as [-> ->]. apply fr_stop. cbn. lia.
    + cbn [fill_loop] in H. apply bind_ok in H as ([fee net] & s1 & B & H). cbv beta iota in H. apply fill_one_ok in B. cbn [fst snd] in B.
      eapply fr_step; [exact B|]. apply IH; [cbn [length] in L; lia|exact H].
Qed.

Definition fill_eff (e : env) (c : ctx) (seed : Z) (recipient : ever) (amount value : Z) (evers : key) (payload : bytes)
  (funder author author_token mint deposit settings tsk multivault : key) (rest : list key) (s s' : state) : Prop :=
  exists st pn ts vn smint svault md dn fees nets vault unread v fee amt s1 s2 s3 s4,
    c_sg c author = true /\
    tp_settings_in e (c_pid c) s settings st pn /\ gs_emergency st = false /\
    token_in e (c_pid c) s tsk ts vn /\ tk_kind ts = TKSol smint svault /\ tk_emergency ts = false /\
    multivault_in e (c_pid c) s multivault /\
    (mint = smint \/ own (accs s mint) = spl_id) /\ tmint_in s mint md /\
    find_pda e (sd_deposit seed) (c_pid c) = Ok (deposit, dn) /\
    find_pda e (sd_vault smint) (c_pid c) = Ok (vault, vn) /\
    lpaid c s s1 funder multivault value /\
    fill_run e c author author_token smint deposit (tk_fee_wdr ts) 0 0 rest s1 fees nets (vault :: unread) s2 /\
    (created s2 s3 deposit (c_pid c) TP_LEN /\ same_env s2 s3 /\ c_wr c deposit = true /\
     dlam s2 s3 (fun j => at_key deposit (Z.max 1 (rent_min e TP_LEN)) j - at_key funder (Z.max 1 (rent_min e TP_LEN)) j)) /\
    wrap64 (fees + nets) <= amount /\
    tacc_in s3 vault v /\ ta_amount v + amount <= tk_dlimit ts /\ ta_amount v + amount < u64max /\
    moved_sg c s3 s4 author_token vault author (wrap64 (amount - nets)) /\
    fee_of u64max (tk_fee_wdr ts) amount = Ok fee /\ amt = amount - fee /\ 0 <= amt /\
    let ev := DSolEvent smint (tk_name ts) (tk_symbol ts) (tm_decimals md) amt recipient value evers payload in
    packed c c_dsol TP_LEN (put_log s4 (dep_log e deposit recipient amt seed value evers (enc c_dsol_event ev))) s' deposit
      (Dep true (KDeposit dn) author (dsol_event_new ev) (dep_meta_new seed)).

Lemma tp_fill_ok e c seed recipient amount value evers payload s a s' :
  tp_fill e c seed recipient amount value evers payload s = Ok (a, s') ->
  exists funder author author_token mint deposit settings x tsk y z multivault rest,
    c_keys c = funder :: author :: author_token :: mint :: deposit :: settings :: x :: tsk :: y :: z :: multivault :: rest /\
    fill_eff e c seed recipient amount value evers payload funder author author_token mint deposit settings tsk multivault rest s s'.
Proof.
  unfold tp_fill, fill_eff, create_deposit, emit_deposit. intros H. mkeys H. do 6 tstep H.
  apply bind_ok in H as (u1 & s1 & B1 & H). cbv beta in H. apply invoke_transfer_lpaid in B1.
  pose proof B1 as (_ & _ & _ & SO & _).
  apply bind_ok in H as (am & s1' & B2 & H). cbv beta in H. apply get_ok in B2 as [-> ->].
  apply bind_ok in H as (u2 & s1' & B2 & H). cbv beta in H. apply guard_ok in B2 as [G2 ->]. apply nand_or in G2. rewrite !keqb_eq in G2.
  apply bind_ok in H as (md & s1' & B2 & H). cbv beta in H. apply tmint_at_ok in B2 as [TMD ->].
  apply bind_ok in H as ([dk dn] & s1' & B3 & H). cbv beta iota in H. apply deposit_address_ok in B3 as (-> & E1 & PD). cbn [fst snd] in E1, PD.
  rewrite E1 in H. clear E1 dk.
  apply bind_ok in H as ([[fees nets] unread0] & s2 & FL & H). cbv beta iota in H. apply (fill_loop_ok _ _ _ _ _ _ _ (length l)) in FL; [|lia]. cbn [fst snd] in FL.
  apply bind_ok in H as (u4 & s3 & CR & H). cbv beta zeta in H. apply invoke_create_ok in CR as (C & CE & CD & _ & _ & _ & CW & _).
  apply bind_ok in H as (u5 & s3' & B3 & H). cbv beta in H. apply guard_ok in B3 as [G4 ->]. apply Z.leb_le in G4.
  destruct unread0 as [|vault unread]; [discriminate H|].
  apply bind_ok in H as (vk & s3' & B3 & H). cbv beta in H. apply lift_ok in B3 as [B3 ->]. apply validate_pda_ok in B3 as [_ PV].
  apply bind_ok in H as (v' & s3' & B3 & H). cbv beta in H. apply tacc_at_ok in B3 as [TV ->].
  apply bind_ok in H as (total & s3' & B3 & H). cbv beta in H. apply lift_ok in B3 as [B3 ->]. apply cadd_ok in B3 as [ET LTT].
  apply bind_ok in H as (u6 & s3' & B3 & H). cbv beta in H. apply guard_ok in B3 as [G5 ->]. apply Z.leb_le in G5.
  apply bind_ok in H as (u7 & s4 & B4 & H). cbv beta in H. apply invoke_tok_transfer_moved in B4; [|apply wrap64_range].
  apply bind_ok in H as (fee & s2' & B3 & H). cbv beta in H. apply lift_ok in B3 as [HF ->].
  apply bind_ok in H as (amt & s2' & B3 & H). cbv beta in H. apply lift_ok in B3 as [B3 ->]. apply csub_ok in B3 as [EP LP]. cbv zeta in H.
  apply bind_ok in H as (u8 & s5 & B5 & H). cbv beta in H. apply emit_ok in B5. apply pack_at_packed in H.
  do 12 eexists. split; [reflexivity|]. exists st, pn, ts, vn, smint, svault, md, dn, fees, nets, vault, unread, v', fee, amt, s1, s2, s3, s4.
  split; [assumption|]. split; [exact VS|]. split; [exact LV|]. split; [exact VT|]. split; [exact KT|]. split; [exact LT|]. split; [exact VM|].
  split.
  { destruct G2 as [G2|G2]; [left; exact G2|right]. destruct (SO k2) as [O _]. rewrite <- O. exact G2. }
  split; [eapply sod_mint; [exact SO|exact TMD]|]. split; [exact PD|]. split; [exact PV|]. split; [exact B1|]. split; [exact FL|].
  split; [split; [exact C|]; split; [exact CE|]; split; [exact CW|exact CD]|].
  split; [exact G4|]. split; [exact TV|]. split; [lia|]. split; [lia|]. split; [exact B4|]. split; [exact HF|]. split; [exact EP|]. split; [lia|].
  cbv zeta. rewrite B5 in H. exact H.
Qed.

(** ** Payload execution *)

(** The nested calls: each runs with the privileges of this instruction plus those of the proxy. *)
Inductive nested_run (e : env) (ext : extern) (c : ctx) (proxy : key) : list instr -> state -> state -> Prop :=
| nr_nil s : nested_run e ext c proxy [] s s
| nr_cons i l s s1 s2 x : cpi c (c_keys c) (i_pid i) (i_metas i) [proxy] (fun c' => ext c' (i_data i)) s = Ok (x, s1) ->
    nested_run e ext c proxy l s1 s2 -> nested_run e ext c proxy (i :: l) s s2.
Lemma invoke_all_ok e ext c seeds : forall l s a s', invoke_all e ext c seeds l s = Ok (a, s') ->
  (l = [] /\ s' = s) \/ exists proxy, e_pda e seeds (c_pid c) = Some proxy /\ nested_run e ext c proxy l s s'.
Proof.
  induction l as [|i l IH]; intros s a s' H; cbn [invoke_all] in H.
  - apply ret_ok in H. left. tauto.
  - right. apply bind_ok in H as (p & s0 & B & H). apply pda_signer_ok in B as [B ->].
    apply bind_ok in H as (u & s1 & B1 & H). cbv beta in H. exists p. split; [exact B|].
    apply IH in H as [[-> ->]|(p' & P1 & P2)].
    + eapply nr_cons; [exact B1|apply nr_nil].
    + assert (p' = p) by congruence. subst p'. eapply nr_cons; [exact B1|exact P2].
Qed.

Definition payload_eff {E} (e : env) (ext : extern) (c : ctx) (cw : codec (prop E (withlen wmeta)))
  (withdrawal : key) (w : prop E (withlen wmeta)) (mintk : res key) (recipient : key) (payload : bytes) (s s' : state) : Prop :=
  (w_status w <> WWaitExecute /\ s' = s) \/
  (w_status w = WWaitExecute /\ exists mint n pn l s1,
    mintk = Ok mint /\ p_kind w = KProposal n pn /\ payload_instrs payload = Ok l /\
    (l = [] /\ s1 = s \/
     exists proxy, e_pda e (with_bump (sd_proxy mint recipient) (opt_or pn 0)) (c_pid c) = Some proxy /\
       nested_run e ext c proxy l s s1) /\
    packed c cw TP_LEN s1 s' withdrawal (w_set_status w WProcessed)).
Lemma execute_payload_ok {E} e ext c (cw : codec (prop E (withlen wmeta))) withdrawal w mintk recipient payload s a s' :
  execute_payload e ext c cw withdrawal w mintk recipient payload s = Ok (a, s') ->
  payload_eff e ext c cw withdrawal w mintk recipient payload s s'.
Proof.
  unfold execute_payload, payload_eff. intros H. destruct (wstatus_eqb (w_status w) WWaitExecute) eqn:EW.
  - right. apply wstatus_eqb_eq in EW. split; [exact EW|].
    apply bind_ok in H as (mint & s0 & B & H). apply lift_ok in B as [B ->].
    apply bind_ok in H as ([n pn] & s0 & B1 & H). cbv beta iota in H. apply lift_ok in B1 as [B1 ->]. apply into_proposal_ok in B1.
    apply bind_ok in H as (l & s0 & B2 & H). apply lift_ok in B2 as [B2 ->].
    apply bind_ok in H as (u & s1 & B3 & H). apply invoke_all_ok in B3. apply pack_at_packed in H.
    exists mint, n, pn, l, s1. auto.
  - left. apply wstatus_eqb_neq in EW. apply ret_ok in H. tauto.
Qed.
Lemma tp_execute_payload_ever_ok e ext c s a s' : tp_execute_payload_ever e ext c s = Ok (a, s') ->
  exists withdrawal rest w, c_keys c = withdrawal :: rest /\
    unpack c_wever TP_LEN (@p_init _ _) (dat (accs s withdrawal)) = Ok w /\
    payload_eff e ext c c_wever withdrawal w
      (rbind (find_pda e (sd_mint (token_hash e (wee_token (wl_data (p_event w))))) (c_pid c)) (fun '(k, _) => Ok k))
      (wee_recipient (wl_data (p_event w))) (wee_payload (wl_data (p_event w))) s s'.
Proof.
  unfold tp_execute_payload_ever, wever_at. intros H. mkeys H. mstep H. cbv zeta in H. apply execute_payload_ok in H.
  do 3 eexists. split; [reflexivity|]. split; [eassumption|exact H].
Qed.
Lemma tp_execute_payload_sol_ok e ext c s a s' : tp_execute_payload_sol e ext c s = Ok (a, s') ->
  exists withdrawal rest w, c_keys c = withdrawal :: rest /\
    unpack c_wsol TP_LEN (@p_init _ _) (dat (accs s withdrawal)) = Ok w /\
    payload_eff e ext c c_wsol withdrawal w (Ok (wse_mint (wl_data (p_event w))))
      (wse_recipient (wl_data (p_event w))) (wse_payload (wl_data (p_event w))) s s'.
Proof.
  unfold tp_execute_payload_sol, wsol_at. intros H. mkeys H. mstep H. cbv zeta in H. apply execute_payload_ok in H.
  do 3 eexists. split; [reflexivity|]. split; [eassumption|exact H].
Qed.
