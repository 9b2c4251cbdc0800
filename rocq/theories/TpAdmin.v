(** What the administrative instructions of the token proxy do when they succeed. *)

From Coq Require Import ZifyBool ZifyNat ZifyN.
From Verif Require Export TpValid.
Ltac Zify.zify_post_hook ::= Z.div_mod_to_equations.

(** Steps through the validation blocks. *)
Ltac tblocks :=
  repeat match goal with
  | X : tp_valid_settings _ _ _ _ = Ok (?v, _) |- _ =>
      let V := fresh "VS" in let E := fresh "E" in let st := fresh "st" in let pn := fresh "pn" in
      apply tp_valid_settings_ok in X; destruct X as [E V]; destruct v as [st pn]; cbn [fst snd] in V; subst
  | X : tp_live_settings _ _ _ _ = Ok (?v, _) |- _ =>
      let V := fresh "VS" in let L := fresh "LV" in let E := fresh "E" in let st := fresh "st" in let pn := fresh "pn" in
      apply tp_live_settings_ok in X; destruct X as (E & V & L); destruct v as [st pn]; cbn [fst snd] in V, L; subst
  | X : valid_ts_ever _ _ _ _ = Ok (?v, _) |- _ =>
      let ts := fresh "ts" in let tok := fresh "token" in let d := fresh "dec_" in let mn := fresh "mn" in
      let m := fresh "m" in let V := fresh "VT" in let K := fresh "KT" in let E := fresh "E" in
      destruct v as [[[ts tok] d] mn];
      apply valid_ts_ever_ok in X; destruct X as (E & V & m & K); subst
  | X : valid_ts_sol _ _ _ _ = Ok (?v, _) |- _ =>
      let ts := fresh "ts" in let mint := fresh "smint" in let va := fresh "svault" in let vn := fresh "vn" in
      let V := fresh "VT" in let K := fresh "KT" in let E := fresh "E" in
      destruct v as [[[ts mint] va] vn];
      apply valid_ts_sol_ok in X; destruct X as (E & V & K); subst
  | X : valid_ts_any _ _ _ _ = Ok (?v, _) |- _ =>
      let ts := fresh "ts" in let tk := fresh "tk" in let vn := fresh "vn" in
      let V := fresh "VT" in let E := fresh "E" in let E2 := fresh "E" in
      destruct v as [ts tk];
      apply valid_ts_any_ok in X; destruct X as (E & E2 & vn & V); subst
  | X : token_live _ _ = Ok _ |- _ =>
      let L := fresh "LT" in let E := fresh "E" in apply token_live_ok in X; destruct X as (E & L); subst
  | X : valid_multivault _ _ _ _ = Ok _ |- _ =>
      let V := fresh "VM" in let E := fresh "E" in apply valid_multivault_ok in X; destruct X as (E & V); subst
  | X : valid_wever _ _ _ _ = Ok (?v, _) |- _ =>
      let w := fresh "w" in let wk := fresh "wk" in let V := fresh "VW" in let E := fresh "E" in let E2 := fresh "E" in
      destruct v as [w wk]; apply valid_wever_ok in X; destruct X as (E & E2 & V); subst
  | X : valid_wsol _ _ _ _ = Ok (?v, _) |- _ =>
      let w := fresh "w" in let wk := fresh "wk" in let V := fresh "VW" in let E := fresh "E" in let E2 := fresh "E" in
      destruct v as [w wk]; apply valid_wsol_ok in X; destruct X as (E & E2 & V); subst
  | X : tp_valid_prop _ _ _ _ _ _ = Ok _ |- _ =>
      let V := fresh "VP" in let E := fresh "E" in let E2 := fresh "E" in
      apply tp_valid_prop_ok in X; destruct X as (E & E2 & V); subst
  | X : tp_valid_round _ _ _ = Ok (?v, _) |- _ =>
      let V := fresh "VR" in let E := fresh "E" in let rr := fresh "rr" in
      rename v into rr; apply tp_valid_round_ok in X; destruct X as (E & V); subst
  | X : tp_valid_rl_settings _ _ _ = Ok (?v, _) |- _ =>
      let V := fresh "VL" in let E := fresh "E" in let rls := fresh "rls" in let pn := fresh "rpn" in
      rename v into rls; apply tp_valid_rl_settings_ok in X; destruct X as (E & pn & V); subst
  | X : check_authority _ _ _ _ _ _ _ = Ok _ |- _ =>
      let V := fresh "VA" in let E := fresh "E" in
      apply check_authority_ok in X; destruct X as (E & V); subst
  | X : tacc_at _ _ = Ok (?v, _) |- _ =>
      let V := fresh "TA" in let E := fresh "E" in
      apply tacc_at_ok in X; destruct X as (V & E); subst
  | X : tmint_at _ _ = Ok (?v, _) |- _ =>
      let V := fresh "TM" in let E := fresh "E" in
      apply tmint_at_ok in X; destruct X as (V & E); subst
  end.
Ltac tstep H := mstep H; tblocks.

(** [s'] is [s] with the record [x] written at [k]. *)
Definition packed {A} (c : ctx) (cd : codec A) (LEN : Z) (s s' : state) (k : key) (x : A) : Prop :=
  s' = put_dat s k (enc cd x ++ skipn (length (enc cd x)) (dat (accs s k))) /\
  blen (dat (accs s k)) = LEN /\ blen (enc cd x) <= LEN /\
  (dat (accs s' k) = dat (accs s k) \/ own (accs s k) = c_pid c /\ c_wr c k = true).

Lemma pack_at_packed {A} c (cd : codec A) LEN k x s a s' :
  pack_at c cd LEN k x s = Ok (a, s') -> packed c cd LEN s s' k x.
Proof.
  intros H. apply pack_at_eff in H as (-> & B1 & B2 & B3 & W). cbv zeta in *. split; [reflexivity|]. split; [exact B1|].
  split; [exact B3|]. rewrite dat_put_dat. destruct W as [W|W]; [left; symmetry; exact W|right; exact W].
Qed.
Section Packed.
  Context {A : Type} (c : ctx) (cd : codec A) (LEN : Z) (s s' : state) (k : key) (x : A).
  Hypothesis (P : packed c cd LEN s s' k x).
  Lemma packed_other j : j <> k -> accs s' j = accs s j.
  Proof. destruct P as [-> _]. intros N. unfold put_dat. apply accs_put_other. exact N. Qed.
  Lemma packed_own j : own (accs s' j) = own (accs s j).
  Proof. destruct P as [-> _]. apply own_put_dat. Qed.
  Lemma packed_lam j : lam (accs s' j) = lam (accs s j).
  Proof. destruct P as [-> _]. apply lam_put_dat. Qed.
  Lemma packed_env : same_env s s'.
  Proof. destruct P as [-> _]. split; reflexivity. Qed.
  Lemma packed_od j : j <> k -> same_od s s' j.
  Proof. intros N. rewrite (same_od_refl s j) || idtac. split; rewrite packed_other by exact N; reflexivity. Qed.
  Lemma packed_wrote : wrote cd s s' k x.
  Proof.
    destruct P as (-> & B1 & B2 & _). split; [apply own_put_dat|]. split; [apply dat_put_dat|]. lia.
  Qed.
  Lemma packed_unpack (L : Lawful cd) : okb cd x = true -> unpack_unchecked cd LEN (dat (accs s' k)) = Ok x.
  Proof. intros O. eapply wrote_unpack; [exact L|exact packed_wrote|apply P|exact O]. Qed.
  Lemma packed_changed (L : Lawful cd) y : unpack_unchecked cd LEN (dat (accs s k)) = Ok y -> okb cd x = true -> x <> y ->
    own (accs s k) = c_pid c /\ c_wr c k = true.
  Proof.
    intros U O N. destruct P as (E & _ & _ & [W|W]); [exfalso|exact W]. apply N. symmetry.
    apply (prop_bytes_eq cd _ _ _ _ _ U O). rewrite <- W at 1. rewrite E. apply dat_put_dat.
  Qed.
End Packed.

Lemma admin_settings_ok e c f s a s' : admin_settings e c f s = Ok (a, s') ->
  exists authority settings rest st pn,
    c_keys c = authority :: settings :: rest /\ c_sg c authority = true /\
    tp_settings_in e (c_pid c) s settings st pn /\ upgrade_auth e (c_pid c) s authority /\
    packed c c_tp_settings TP_LEN s s' settings (f st).
Proof.
  unfold admin_settings. intros H. mkeys H. repeat tstep H. apply pack_at_packed in H. mfacts.
  exists k, k0. do 3 eexists. split; [reflexivity|]. split; [pdaok|]. split; [exact VS|]. split; [|exact H].
  do 2 eexists. split; [pdaok|]. assumption.
Qed.

Lemma tp_enable_emergency_ok e c s a s' : tp_enable_emergency e c s = Ok (a, s') ->
  exists authority settings rest st pn,
    c_keys c = authority :: settings :: rest /\ c_sg c authority = true /\
    tp_settings_in e (c_pid c) s settings st pn /\ entitled e (c_pid c) s (gs_guardian st) authority /\
    packed c c_tp_settings TP_LEN s s' settings
      (gs_set st true (gs_guardian st) (gs_manager st) (gs_wmanager st)).
Proof.
  unfold tp_enable_emergency. intros H. mkeys H. repeat tstep H. apply pack_at_packed in H.
  exists k, k0. do 3 eexists. split; [reflexivity|]. split; [pdaok|]. split; [exact VS|]. split; [exact VA|exact H].
Qed.

Lemma admin_token_ok e c role f s a s' : admin_token e c role f s = Ok (a, s') ->
  exists authority tsk settings rest st pn ts vn ts' s1,
    c_keys c = authority :: tsk :: settings :: rest /\ c_sg c authority = true /\
    tp_settings_in e (c_pid c) s settings st pn /\ entitled e (c_pid c) s (role st) authority /\
    token_in e (c_pid c) s tsk ts vn /\ f tsk ts s = Ok (ts', s1) /\
    packed c c_token_settings TP_LEN s1 s' tsk ts'.
Proof.
  unfold admin_token. intros H. mkeys H. repeat tstep H. apply pack_at_packed in H.
  exists k, k0, k1. do 7 eexists. split; [reflexivity|]. split; [pdaok|]. split; [exact VS|]. split; [exact VA|].
  split; [exact VT|]. split; [eassumption|exact H].
Qed.

Lemma tp_disable_token_emergency_ok e c s a s' : tp_disable_token_emergency e c s = Ok (a, s') ->
  exists authority tsk settings rest st pn ts vn,
    c_keys c = authority :: tsk :: settings :: rest /\ c_sg c authority = true /\
    tp_settings_in e (c_pid c) s settings st pn /\ upgrade_auth e (c_pid c) s authority /\
    token_in e (c_pid c) s tsk ts vn /\
    packed c c_token_settings TP_LEN s s' tsk (tk_set_emergency ts false).
Proof.
  unfold tp_disable_token_emergency. intros H. mkeys H. repeat tstep H. apply pack_at_packed in H. mfacts.
  exists k, k0, k1. do 5 eexists. split; [reflexivity|]. split; [pdaok|]. split; [exact VS|].
  split; [do 2 eexists; split; [pdaok|assumption]|]. split; [exact VT|exact H].
Qed.

(** The token instructions of the manager and guardian. *)
Definition token_change (i : tp_ix) (ts ts' : token_settings) : Prop :=
  match i with
  | TpChangeDepositLimit l => ts' = tk_set_limits ts l (tk_wlimit ts) (tk_wdlimit ts)
  | TpChangeWithdrawalLimits l d =>
      ts' = tk_set_limits ts (tk_dlimit ts) (opt_or l (tk_wlimit ts)) (opt_or d (tk_wdlimit ts))
  | TpEnableTokenEmergency => ts' = tk_set_emergency ts true
  | TpUpdateFee FDeposit m d => ts' = tk_set_fees ts (FeeInfo m d) (tk_fee_wdr ts)
  | TpUpdateFee FWithdrawal m d => ts' = tk_set_fees ts (tk_fee_dep ts) (FeeInfo m d)
  | TpUpdateTokenName symbol name => ts' = tk_set_names ts name symbol /\ exists m v, tk_kind ts = TKSol m v
  | _ => False
  end.
Definition token_role (i : tp_ix) (st : tp_settings) : key :=
  match i with TpEnableTokenEmergency => gs_guardian st | _ => gs_manager st end.
Definition token_log (i : tp_ix) (tsk : key) : list bytes :=
  match i with
  | TpUpdateFee t m d => [enc c_ev_fee (EvFee tsk t m d)]
  | TpUpdateTokenName symbol name => [enc c_ev_name (EvName tsk symbol name)]
  | _ => [] end.

Lemma token_admin_ok e ext c i s a s' : tp_exec e ext c i s = Ok (a, s') ->
  match i with TpChangeDepositLimit _ | TpChangeWithdrawalLimits _ _ | TpEnableTokenEmergency
             | TpUpdateFee _ _ _ | TpUpdateTokenName _ _ => True | _ => False end ->
  exists authority tsk settings rest st pn ts vn ts' s1,
    c_keys c = authority :: tsk :: settings :: rest /\ c_sg c authority = true /\
    tp_settings_in e (c_pid c) s settings st pn /\ entitled e (c_pid c) s (token_role i st) authority /\
    token_in e (c_pid c) s tsk ts vn /\ token_change i ts ts' /\
    s1 = St (accs s) (logs s ++ token_log i tsk) (now s) /\
    packed c c_token_settings TP_LEN s1 s' tsk ts'.
Proof.
  destruct i; try contradiction; intros H _; cbn [tp_exec] in H;
  unfold tp_change_deposit_limit, tp_change_withdrawal_limits, tp_enable_token_emergency, tp_update_fee, tp_update_token_name in H;
  apply admin_token_ok in H as (authority & tsk & settings & rest & st & pn & ts & vn & ts' & s1 & K & S & VS & VA & VT & F & P);
  exists authority, tsk, settings, rest, st, pn, ts, vn, ts', s1;
  (split; [exact K|]); (split; [exact S|]); (split; [exact VS|]); (split; [exact VA|]); (split; [exact VT|]); (split; [|split; [|exact P]]);
  minv F; cbn [token_change token_log]; mfacts.
  all: try reflexivity.
  all: try (match goal with |- ?x = St (accs ?x) (logs ?x ++ []) (now ?x) => rewrite app_nil_r; destruct x; reflexivity end).
  - destruct t; reflexivity.
  - split; [reflexivity|]. destruct v; mfacts; eauto.
Qed.

(** ** Initialisation *)
Lemma tp_initialize_ok e c g m w s a s' : tp_initialize e c g m w s = Ok (a, s') ->
  exists funder ini settings multivault programdata system rest sn pn mn,
    c_keys c = funder :: ini :: settings :: multivault :: programdata :: system :: rent_id :: rest /\
    c_sg c ini = true /\
    find_pda e (sd_programdata (c_pid c)) loader_id = Ok (programdata, pn) /\
    upgrade_authority (dat (accs s programdata)) = Some ini /\
    find_pda e sd_settings (c_pid c) = Ok (settings, sn) /\
    find_pda e sd_multivault (c_pid c) = Ok (multivault, mn) /\ settings <> multivault /\
    fresh_record c_tp_settings TP_LEN (TpSettings true (KSettings sn pn) false g m w) (c_pid c) s s' settings /\
    fresh_record c_multi_vault TP_LEN (MultiVault true (KMultiVault mn)) (c_pid c) s s' multivault /\
    (forall k, k <> settings -> k <> multivault -> same_od s s' k) /\ same_env s s' /\
    let r := Z.max 1 (rent_min e TP_LEN) in
    dlam s s' (fun k => at_key settings r k + at_key multivault r k - at_key funder (2 * r) k) /\
    c_wr c settings = true /\ c_wr c multivault = true.
Proof.
  unfold tp_initialize. intros H. mkeys H. repeat (mstep H; try match goal with X : invoke_create _ _ _ _ _ _ _ _ _ = _ |- _ =>
     let Y := fresh "IC" in pose proof X as Y; apply invoke_create_ok in Y; clear X end).
  mfacts. subst.
  match goal with X : created s ?s0 k1 _ _ /\ _ |- _ => destruct X as (C1 & E1 & D1 & G1 & _ & _ & W1 & _) end.
  match goal with X : created ?s1 ?s2 k2 _ _ /\ _ |- _ => destruct X as (C2 & E2 & D2 & G2 & _ & _ & W2 & _) end.
  match goal with X : pack_at _ _ _ k1 _ _ = _ |- _ => rename X into P1 end.
  pose proof (created_pack _ _ _ _ _ _ _ _ _ _ _ C1 (same_od_refl _ _) P1) as [F1 _]. apply pack_at_packed in P1.
  pose proof (created_pack _ _ _ _ _ _ _ _ _ _ _ C2 (same_od_refl _ _) H) as [F2 _]. apply pack_at_packed in H.
  assert (N : k1 <> k2).
  { intros ->. destruct C2 as (C2 & C2' & _). destruct P1 as (P1 & B & _). rewrite P1, dat_put_dat in C2'.
    apply (f_equal (@length _)) in C2'. rewrite app_length in C2'. destruct (enc c_tp_settings _) eqn:E; [discriminate E|].
    cbn [length Nat.add] in C2'. discriminate. }
  exists k, k0, k1, k2, k3, k4. do 4 eexists. split; [reflexivity|]. split; [pdaok|]. split; [pdaok|].
  split; [assumption|]. split; [pdaok|]. split; [pdaok|]. split; [exact N|].
  destruct C2 as (C21 & C22 & C23 & C24 & C25 & C26).
  destruct C1 as (C11 & C12 & C13 & C14 & C15 & C16).
  split; [|split; [|split; [|split; [|split; [|split; [exact W1|exact W2]]]]]].
  - destruct F1 as (X & Y & r & Z1 & Z2 & Z3). split; [exact X|].
    destruct (C26 k1 N) as [O1 O2].
    rewrite (packed_other _ _ _ _ _ _ _ H) by exact N. rewrite O1, O2. split; [exact Y|]. exists r. auto.
  - destruct F2 as ((X1 & X2 & X3) & Y). split; [|exact Y].
    rewrite (packed_other _ _ _ _ _ _ _ P1) in X1, X2 by congruence.
    destruct (C16 k2) as [O1 O2]; [congruence|]. rewrite O1 in X1. rewrite O2 in X2. split; [exact X1|]. split; [exact X2|].
    rewrite (packed_lam _ _ _ _ _ _ _ P1) in X3. rewrite D1 in X3. rewrite at_other in X3 by congruence. unfold at_key in X3.
    destruct (keqb k2 k) eqn:E; [|lia].
    mfacts. subst. rewrite (packed_lam _ _ _ _ _ _ _ P1), D1 in G2.
    rewrite (at_other k1), at_same in G2 by congruence. lia.
  - intros j N1 N2. eapply same_od_trans; [apply C16; exact N1|]. eapply same_od_trans; [eapply packed_od; [exact P1|exact N1]|].
    eapply same_od_trans; [apply C26; exact N2|]. eapply packed_od; [exact H|exact N2].
  - eapply same_env_trans; [exact E1|]. eapply same_env_trans; [eapply packed_env; exact P1|].
    eapply same_env_trans; [exact E2|]. eapply packed_env; exact H.
  - intros j. rewrite (packed_lam _ _ _ _ _ _ _ H), D2, (packed_lam _ _ _ _ _ _ _ P1), D1. unfold at_key.
    destruct (keqb j k), (keqb j k1), (keqb j k2); lia.
Qed.
