(** What the deposit instructions do when they succeed. *)

From Coq Require Import ZifyBool ZifyNat ZifyN.
From Verif Require Export TpMisc.
Ltac Zify.zify_post_hook ::= Z.div_mod_to_equations.

(** Exactly [amount] tokens of [mint] in [src] are destroyed by the power of [auth]. *)
Definition burned (s s' : state) (src mint auth : key) (amount : Z) : Prop :=
  exists a m dl da,
    tok_in s src a /\ mint_in s mint m /\ mint <> src /\ ta_mint a = mint /\ amount <= ta_amount a /\ amount <= tm_supply m /\
    ((ta_owner a = sys_id \/ ta_owner a = incinerator_id) /\ dl = ta_delegate a /\ da = ta_damount a \/
     may_spend a auth amount dl da) /\
    tok_in s' src (ta_with a (ta_amount a - amount) dl da) /\
    mint_in s' mint (tm_with_supply m (tm_supply m - amount)) /\
    (forall k, k <> mint -> k <> src -> same_od s s' k) /\ same_env s s' /\
    (forall k, lam (accs s' k) = lam (accs s k)).
Lemma burned_step s s' src mint auth amount : burned s s' src mint auth amount -> spl_step s s'.
Proof.
  intros (a & m & dl & da & T1 & T2 & _ & _ & _ & _ & _ & _ & _ & F & _) k B. apply F; intros ->.
  - apply mint_len in T2. rewrite T2 in B. discriminate.
  - apply tok_len in T1. rewrite T1 in B. discriminate.
Qed.

(** [amt] lamports move from the signer [from] to [to]; nothing else changes. *)
Definition lpaid (c : ctx) (s s' : state) (from to : key) (amt : Z) : Prop :=
  c_sg c from = true /\ amt <= lam (accs s from) /\ dat (accs s from) = [] /\
  sod s s' /\ same_env s s' /\ dlam s s' (fun k => at_key to amt k - at_key from amt k) /\
  c_wr c from = true /\ c_wr c to = true.
Lemma invoke_transfer_lpaid c from to amt s a s' : invoke_transfer c from to amt s = Ok (a, s') -> lpaid c s s' from to amt.
Proof. intros H. apply invoke_transfer_ok in H as (A & B & C & D & E & F & G & I & _). repeat (split; [assumption|]). exact I. Qed.

(** A new record [x] at [k], paid for by [funder], with the log record [l]. *)
Definition recorded {A} (e : env) (c : ctx) (cd : codec A) (x : A) (funder k : key) (l : list bytes) (s s' : state) : Prop :=
  new_record cd TP_LEN x (c_pid c) s s' k /\ lam (accs s k) <= 0 /\ (forall j, j <> k -> same_od s s' j) /\
  dlam s s' (fun j => at_key k (Z.max 1 (rent_min e TP_LEN)) j - at_key funder (Z.max 1 (rent_min e TP_LEN)) j) /\
  logs s' = logs s ++ l /\ now s' = now s /\ c_wr c k = true.
Lemma record_ok {A} e c (cd : codec A) x funder k sd l s a s1 s2 s' :
  invoke_create e c funder k (Z.max 1 (rent_min e TP_LEN)) TP_LEN (c_pid c) sd s = Ok (a, s1) ->
  s2 = St (accs s1) (logs s1 ++ l) (now s1) -> packed c cd TP_LEN s2 s' k x ->
  recorded e c cd x funder k l s s'.
Proof.
  intros C E2 P. apply invoke_create_ok in C as (C & E & D & _ & _ & _ & W & _).
  assert (A2 : accs s2 = accs s1) by (rewrite E2; reflexivity).
  assert (S2 : same_od s1 s2 k) by (split; rewrite A2; reflexivity).
  split; [exact (created_packed _ _ _ _ _ _ _ _ _ _ C S2 P)|]. destruct C as (C1 & C2 & C3 & C4 & C5 & C6).
  split; [exact C3|]. split; [|split; [|split; [|split; [|exact W]]]].
  - intros j N. eapply same_od_trans; [apply C6; exact N|]. eapply same_od_trans; [|eapply packed_od; [exact P|exact N]].
    split; rewrite A2; reflexivity.
  - intros j. rewrite (packed_lam _ _ _ _ _ _ _ P), A2. apply D.
  - destruct (packed_env _ _ _ _ _ _ _ P) as [-> _]. rewrite E2. cbn [logs]. destruct E as [-> _]. reflexivity.
  - destruct (packed_env _ _ _ _ _ _ _ P) as [_ ->]. rewrite E2. cbn [now]. destruct E as [_ ->]. reflexivity.
Qed.

Lemma deposit_address_ok e c seed deposit s r s' : deposit_address e c seed deposit s = Ok (r, s') ->
  s' = s /\ fst r = deposit /\ find_pda e (sd_deposit seed) (c_pid c) = Ok (deposit, snd r).
Proof.
  unfold deposit_address. intros H. do 3 mstep H. msimple H. mfacts. subst. cbn [fst snd].
  split; [reflexivity|]. split; [reflexivity|]. pdaok.
Qed.

Definition dep_log (e : env) (k : key) (recipient : ever) (amt seed value : Z) (evers : key) (evb : bytes) : bytes :=
  enc c_ev_deposit (EvDeposit k recipient amt seed value evers (kb (e_hash e evb))).

Definition deposit_ever_eff (e : env) (c : ctx) (seed amount : Z) (recipient : ever) (value : Z) (evers : key) (payload : bytes)
  (funder creator creator_token deposit mint multivault tsk settings : key) (s s' : state) : Prop :=
  exists st pn ts mn m token dec_ md dn fee pure_ amt s1 s2 s3,
    c_sg c creator = true /\
    tp_settings_in e (c_pid c) s settings st pn /\ gs_emergency st = false /\
    token_in e (c_pid c) s tsk ts mn /\ tk_kind ts = TKEver m token dec_ /\ tk_emergency ts = false /\
    find_pda e (sd_mint (token_hash e token)) (c_pid c) = Ok (mint, mn) /\ tmint_in s mint md /\
    multivault_in e (c_pid c) s multivault /\
    find_pda e (sd_deposit seed) (c_pid c) = Ok (deposit, dn) /\
    fee_of u64max (tk_fee_dep ts) amount = Ok fee /\ pure_ = amount - fee /\ 0 <= pure_ /\
    tk_fee_supply ts + fee < u64max /\ get_deposit_amount pure_ dec_ (tm_decimals md) = Ok amt /\
    let ev := DEverEvent token amt recipient value evers payload in
    burned s s1 creator_token mint creator amount /\ c_wr c mint = true /\ c_wr c creator_token = true /\
    recorded e c c_dever (Dep true (KDeposit dn) creator (dever_event_new ev) (dep_meta_new seed)) funder deposit
      [dep_log e deposit recipient amt seed value evers (enc c_dever_event ev)] s1 s2 /\
    packed c c_token_settings TP_LEN s2 s3 tsk (tk_set_fee_supply ts (tk_fee_supply ts + fee)) /\
    lpaid c s3 s' funder multivault value.

Lemma tp_deposit_ever_ok e c seed amount recipient value evers payload s a s' : 0 <= amount ->
  tp_deposit_ever e c seed amount recipient value evers payload s = Ok (a, s') ->
  exists funder creator creator_token deposit mint multivault tsk settings x y z rest,
    c_keys c = funder :: creator :: creator_token :: deposit :: mint :: multivault :: tsk :: settings :: x :: y :: z :: rest /\
    deposit_ever_eff e c seed amount recipient value evers payload funder creator creator_token deposit mint multivault tsk settings s s'.
Proof.
  unfold tp_deposit_ever, deposit_ever_eff, create_deposit, emit_deposit. intros Ha H. mkeys H. do 8 tstep H.
  apply bind_ok in H as (u1 & s1 & B1 & H). cbv beta in H.
  apply invoke_tok_burn_ok in B1 as (ta & m1 & dl & da & T1 & T2 & T3 & T4 & T5 & T6 & T7 & T8 & T9 & T10 & T11 & T12 & T13 & T14 & T15 & _); [|exact Ha].
  apply bind_ok in H as ([dk dn] & s1' & B2 & H). cbv beta iota in H. apply deposit_address_ok in B2 as (-> & E1 & PD). cbn [fst snd] in E1, PD.
  rewrite E1 in H. clear E1 dk.
  apply bind_ok in H as (u2 & s2 & CR & H). cbv beta in H.
  apply bind_ok in H as (fee & s2' & B3 & H). cbv beta in H. apply lift_ok in B3 as [HF ->].
  apply bind_ok in H as (fs & s2' & B3 & H). cbv beta in H. apply lift_ok in B3 as [B3 ->]. apply cadd_ok in B3 as [-> LS].
  apply bind_ok in H as (pure_ & s2' & B3 & H). cbv beta in H. apply lift_ok in B3 as [B3 ->]. apply csub_ok in B3 as [EP LP].
  apply bind_ok in H as (amt & s2' & B3 & H). cbv beta in H. apply lift_ok in B3 as [GA ->]. cbv zeta in H.
  apply bind_ok in H as (u3 & s3 & B4 & H). cbv beta in H. apply emit_ok in B4.
  apply bind_ok in H as (u4 & s4 & B5 & H). cbv beta in H. apply pack_at_packed in B5.
  apply bind_ok in H as (u5 & s5 & B6 & H). cbv beta in H. apply pack_at_packed in B6.
  apply invoke_transfer_lpaid in H.
  match goal with X : validate_pda _ _ _ _ _ = _ |- _ => apply validate_pda_ok in X as [_ PM] end.
  match goal with X : tmint_in s _ ?x |- _ => rename x into md; rename X into TMD end.
  do 12 eexists. split; [reflexivity|]. exists st, pn, ts, mn, m, token, dec_, md, dn, fee, pure_, amt, s1, s4, s5.
  split; [assumption|]. split; [exact VS|]. split; [exact LV|]. split; [exact VT|]. split; [exact KT|]. split; [exact LT|].
  split; [exact PM|]. split; [exact TMD|]. split; [exact VM|]. split; [exact PD|]. split; [exact HF|]. split; [exact EP|]. split; [lia|].
  split; [exact LS|]. split; [exact GA|]. cbv zeta. split.
  { exists ta, m1, dl, da. split; [exact T1|]. split; [exact T2|]. split; [exact T3|]. split; [exact T4|]. split; [exact T5|].
    split; [exact T10|]. split; [exact T7|]. split; [exact T8|]. split; [exact T9|]. split; [exact T11|]. split; [exact T12|exact T13]. }
  split; [exact T14|]. split; [exact T15|]. split; [|split; [exact B6|exact H]].
  eapply record_ok; [exact CR|exact B4|exact B5].
Qed.

(** ** Registration of a Solana token *)
Definition registered_sol (e : env) (c : ctx) (funder vault mint tsk : key) (name symbol : bytes) (s s' : state) : Prop :=
  exists vn tn t,
    find_pda e (sd_vault mint) (c_pid c) = Ok (vault, vn) /\
    find_pda e (sd_ts_sol mint) (c_pid c) = Ok (tsk, tn) /\ vault <> tsk /\
    own (accs s vault) = sys_id /\ dat (accs s vault) = [] /\
    tok_in s' vault t /\ ta_mint t = mint /\ ta_owner t = vault /\ fst (ta_delegate t) = false /\ fst (ta_close t) = false /\
    (mint <> native_mint -> ta_amount t = 0 /\ exists m, mint_in s' mint m) /\
    new_record c_token_settings TP_LEN (new_token_settings (KTokenSettings tn vn) (TKSol mint vault) name symbol)
      (c_pid c) s s' tsk /\
    (forall k, k <> vault -> k <> tsk -> same_od s s' k) /\
    dlam s s' (fun k =>
       at_key vault (Z.max 1 (rent_min e TACC_LEN)) k + at_key tsk (Z.max 1 (rent_min e TP_LEN)) k
       - at_key funder (Z.max 1 (rent_min e TACC_LEN) + Z.max 1 (rent_min e TP_LEN)) k) /\
    logs s' = logs s ++ [enc c_ev_token (EvToken tsk symbol name mint (Some vault) None None None default_fee)] /\
    now s' = now s /\ c_wr c vault = true /\ c_wr c tsk = true.

Lemma register_sol_ok e c funder vault mint tsk name symbol s a s' :
  register_sol e c funder vault mint tsk name symbol s = Ok (a, s') -> registered_sol e c funder vault mint tsk name symbol s s'.
Proof.
  unfold register_sol, registered_sol. intros H.
  apply bind_ok in H as ([vk vn] & s0 & B1 & H). apply lift_ok in B1 as [PV ->]. cbv beta iota in H.
  apply bind_ok in H as (u0 & s0 & B1 & H). apply guard_ok in B1 as [G1 ->]. apply keqb_eq in G1. rewrite G1 in *. clear G1 vk.
  apply bind_ok in H as (u1 & s1 & C1 & H). cbv beta in H. apply invoke_create_ok in C1 as (C1 & E1 & D1 & _ & _ & _ & W1 & _).
  mstep H.
  apply bind_ok in H as (u2 & s2 & I2 & H). cbv beta in H.
  apply invoke_init_account3_ok in I2 as (t0 & U0 & _ & MM & T2). cbv zeta in T2. destruct T2 as (E2 & T2 & O2).
  apply bind_ok in H as ([tk tn] & s3 & B2 & H). apply lift_ok in B2 as [PT ->]. cbv beta iota in H.
  apply bind_ok in H as (u3 & s3 & B2 & H). apply guard_ok in B2 as [G2 ->]. apply keqb_eq in G2. rewrite G2 in *. clear G2 tk.
  apply bind_ok in H as (u4 & s4 & C4 & H). cbv beta in H. 
  apply bind_ok in H as (u5 & s5 & E5 & H). cbv beta in H. apply emit_ok in E5. apply pack_at_packed in H.
  assert (R : recorded e c c_token_settings (new_token_settings (KTokenSettings tn vn) (TKSol mint vault) name symbol) funder tsk
     [enc c_ev_token (EvToken tsk symbol name mint (Some vault) None None None default_fee)] s2 s').
  { eapply record_ok; [exact C4|exact E5|exact H]. }
  clear C4 E5 H. destruct R as (R1 & R2 & R3 & R4 & R5 & R6 & R7).
  pose proof C1 as (C11 & C12 & C13 & C14 & C15 & C16).
  assert (N : vault <> tsk). { intros X. destruct R1 as (_ & D & _). rewrite <- X in D. apply tok_len in T2. rewrite D in T2. discriminate. }
  assert (N' : tsk <> vault) by (intros X; apply N; rewrite X; reflexivity).
  assert (F : forall k, k <> vault -> same_od s s2 k).
  { intros k K. eapply same_od_trans; [apply C16; exact K|]. rewrite E2. apply same_od_put_dat_other. exact K. }
  exists vn, tn. eexists. split; [exact PV|]. split; [exact PT|]. split; [exact N|]. split; [exact C11|]. split; [exact C12|].
  split; [eapply same_od_tok; [apply R3; exact N|exact T2]|]. split; [reflexivity|]. split; [reflexivity|]. split; [reflexivity|].
  split; [reflexivity|]. split.
  { intros NM. split; [cbn [ta_new ta_amount]; rewrite keqb_ne by exact NM; reflexivity|].
    destruct (MM NM) as (m & MI). exists m. eapply same_od_mint; [|exact MI]. 
    assert (M1 : mint <> vault). { intros X. rewrite X in MI. apply mint_len in MI. rewrite C15 in MI. discriminate. }
    assert (Q : same_od s1 s2 mint) by (rewrite E2; apply same_od_put_dat_other; exact M1).
    eapply same_od_trans; [exact Q|]. apply R3. intros X. destruct R1 as (_ & D & _). rewrite <- X in D. destruct Q as [_ Q].
    rewrite Q in D. apply mint_len in MI. rewrite D in MI. discriminate. }
  split; [eapply new_record_same_od; [apply F; exact N'|exact R1|apply same_od_refl]|].
  split; [intros k K1 K2; eapply same_od_trans; [apply F; exact K1|apply R3; exact K2]|]. split.
  { intros k. rewrite R4, E2, lam_put_dat, D1. unfold at_key. destruct (keqb k vault), (keqb k tsk), (keqb k funder); lia. }
  split; [rewrite R5, E2; cbn [put_dat put logs]; destruct E1 as [-> _]; reflexivity|].
  split; [rewrite R6, E2; cbn [put_dat put now]; destruct E1 as [_ ->]; reflexivity|]. auto.
Qed.

Definition moved_sg (c : ctx) (s s' : state) (src dst auth : key) (amount : Z) : Prop :=
  moved s s' src dst auth amount /\ c_sg c auth = true /\ c_wr c src = true /\ c_wr c dst = true.
Lemma invoke_tok_transfer_moved c src dst auth amount s x s' : 0 <= amount ->
  invoke_tok_transfer c src dst auth amount [] s = Ok (x, s') -> moved_sg c s s' src dst auth amount.
Proof.
  intros Ha H. apply invoke_tok_transfer_ok in H as (a & b & dl & da & T1 & T2 & T3 & T4 & T5 & T6 & T7 & T8 & T9 & T10 & T11 & T12 & T13 & _); [|exact Ha].
  split; [|split; [destruct T5 as [T5|[]]; exact T5|auto]].
  exists a, b, dl, da. repeat (split; [assumption|]). assumption.
Qed.

(** ** Deposits of Solana tokens *)
Definition deposit_sol_eff (e : env) (c : ctx) (seed amount : Z) (recipient : ever) (value : Z) (evers : key) (payload : bytes)
  (funder creator creator_token vault deposit mint multivault tsk : key) (s s' : state) : Prop :=
  exists ts vn smint svault md v dn fee amt s1 s2 s3,
    token_in e (c_pid c) s tsk ts vn /\ tk_kind ts = TKSol smint svault /\ tk_emergency ts = false /\
    (mint = smint \/ own (accs s mint) = spl_id) /\ tmint_in s mint md /\
    (vault = svault \/ own (accs s vault) = spl_id) /\ tacc_in s vault v /\
    ta_amount v + amount <= tk_dlimit ts /\ ta_amount v + amount < u64max /\
    multivault_in e (c_pid c) s multivault /\
    find_pda e (sd_deposit seed) (c_pid c) = Ok (deposit, dn) /\
    fee_of u64max (tk_fee_dep ts) amount = Ok fee /\ amt = amount - fee /\ 0 <= amt /\ tk_fee_supply ts + fee < u64max /\
    let ev := DSolEvent mint (tk_name ts) (tk_symbol ts) (tm_decimals md) amt recipient value evers payload in
    moved_sg c s s1 creator_token vault creator amount /\
    lpaid c s1 s2 funder multivault value /\
    recorded e c c_dsol (Dep true (KDeposit dn) creator (dsol_event_new ev) (dep_meta_new seed)) funder deposit
      [dep_log e deposit recipient amt seed value evers (enc c_dsol_event ev)] s2 s3 /\
    packed c c_token_settings TP_LEN s3 s' tsk (tk_set_fee_supply ts (tk_fee_supply ts + fee)).

Lemma nand_or a b : negb (negb a && negb b) = true -> a = true \/ b = true.
Proof. destruct a, b; auto. Qed.

Lemma tp_deposit_sol_ok e c seed name symbol amount recipient value evers payload s a s' : 0 <= amount ->
  tp_deposit_sol e c seed name symbol amount recipient value evers payload s = Ok (a, s') ->
  exists funder creator creator_token vault deposit mint multivault tsk settings x y z rest st pn s0,
    c_keys c = funder :: creator :: creator_token :: vault :: deposit :: mint :: multivault :: tsk :: settings :: x :: y :: z :: rest /\
    c_sg c creator = true /\ tp_settings_in e (c_pid c) s settings st pn /\ gs_emergency st = false /\
    blen name <= 32 /\ blen symbol <= 32 /\
    ((lam (accs s tsk) <> 0 /\ s0 = s) \/
     (lam (accs s tsk) = 0 /\ registered_sol e c funder vault mint tsk name symbol s s0)) /\
    deposit_sol_eff e c seed amount recipient value evers payload funder creator creator_token vault deposit mint multivault tsk s0 s'.
Proof.
  unfold tp_deposit_sol, deposit_sol_eff, create_deposit, emit_deposit. intros Ha H. mkeys H. do 6 tstep H.
  apply bind_ok in H as (u0 & s0 & B0 & H). cbv beta in H.
  do 12 eexists. exists l. exists st, pn, s0. split; [reflexivity|]. split; [assumption|]. split; [exact VS|]. split; [exact LV|].
  split; [unfold MAX_NAME_LEN in *; lia|]. split; [unfold MAX_SYMBOL_LEN in *; lia|]. split.
  { destruct (lam (accs s k6) =? 0) eqn:L.
    - right. split; [lia|]. apply register_sol_ok in B0. exact B0.
    - left. split; [lia|]. apply ret_ok in B0. apply B0. }
  clear B0. do 11 tstep H.
  match goal with X : cadd _ _ _ = Ok ?x |- _ => rename x into total; apply cadd_ok in X as [ET LTT] end.
  match goal with X : tacc_in s0 _ ?x |- _ => rename x into va; rename X into TV end.
  match goal with X : tmint_in s0 _ ?x |- _ => rename x into md; rename X into TMD end.
  repeat match goal with X : negb (negb _ && negb _) = true |- _ => apply nand_or in X; rewrite !keqb_eq in X end.
  apply bind_ok in H as (u1 & s1 & B1 & H). cbv beta in H. apply invoke_tok_transfer_moved in B1; [|exact Ha].
  apply bind_ok in H as (u2 & s2 & B2 & H). cbv beta in H. apply invoke_transfer_lpaid in B2.
  apply bind_ok in H as ([dk dn] & s2' & B3 & H). cbv beta iota in H. apply deposit_address_ok in B3 as (-> & E1 & PD). cbn [fst snd] in E1, PD.
  rewrite E1 in H. clear E1 dk.
  apply bind_ok in H as (u3 & s3 & CR & H). cbv beta in H.
  apply bind_ok in H as (fee & s3' & B3 & H). cbv beta in H. apply lift_ok in B3 as [HF ->].
  apply bind_ok in H as (fs & s3' & B3 & H). cbv beta in H. apply lift_ok in B3 as [B3 ->]. apply cadd_ok in B3 as [-> LS].
  apply bind_ok in H as (amt & s3' & B3 & H). cbv beta in H. apply lift_ok in B3 as [B3 ->]. apply csub_ok in B3 as [EP LP]. cbv zeta in H.
  apply bind_ok in H as (u4 & s4 & B4 & H). cbv beta in H. apply emit_ok in B4.
  apply bind_ok in H as (u5 & s5 & B5 & H). cbv beta in H. apply pack_at_packed in B5. apply pack_at_packed in H.
  exists ts, vn, smint, svault, md, va, dn, fee, amt, s1, s2, s5.
  split; [exact VT|]. split; [exact KT|]. split; [exact LT|]. split; [assumption|]. split; [exact TMD|]. split; [assumption|].
  split; [exact TV|]. split; [lia|]. split; [lia|]. split; [exact VM|]. split; [exact PD|]. split; [exact HF|]. split; [exact EP|].
  split; [lia|]. split; [lia|]. cbv zeta. split; [exact B1|]. split; [exact B2|]. split; [|exact H].
  eapply record_ok; [exact CR|exact B4|exact B5].
Qed.
