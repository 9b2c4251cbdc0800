(** Properties C23, C24, C25 and C36: administration of the token proxy. *)

From Coq Require Import Strings.String ZifyBool ZifyNat ZifyN.
From Verif Require Import TpDemoLaws.
Open Scope Z_scope.
Open Scope list_scope.
Ltac Zify.zify_post_hook ::= Z.div_mod_to_equations.

(** * Vocabulary of the statements *)

(** [k] is the token proxy's settings account with record [st]. *)
Definition live_settings (e : env) (s : state) (k : key) (st : tp_settings) : Prop :=
  own (accs s k) = tp_id /\ settings_at e s k st /\ exists n pn, gs_kind st = KSettings n pn.
(** [k] is a token settings account of the token proxy with record [ts]. *)
Definition live_token (e : env) (s : state) (k : key) (ts : token_settings) : Prop :=
  own (accs s k) = tp_id /\ token_at e s k ts /\ exists n vn, tk_akind ts = KTokenSettings n vn.

(** * Bridging lemmas *)

Lemma tp_call_effect e ext c i s s' k : tp_call e ext c i s s' -> is_payload i = false -> tp_effect e c i s s' k.
Proof.
  intros C P. apply tp_call_exec in C as (Hp & Oi & CK & H). eapply tp_exec_effect; eassumption.
Qed.

Lemma sets_step e ext c i s s' k st : tp_call e ext c i s s' -> ext_outside ext -> live_settings e s k st ->
  exists st', live_settings e s' k st' /\ (st' = st \/ settings_cause e c i s st st').
Proof.
  intros C X (O & [A U] & n & pn & K). pose proof (kind_tp_settings _ _ _ _ U) as KD. rewrite K in KD.
  assert (S : same_od s s' k -> exists st', live_settings e s' k st' /\ (st' = st \/ settings_cause e c i s st st')).
  { intros [O' D']. exists st. split; [|left; reflexivity]. split; [congruence|]. split; [split; [exact A|rewrite D'; exact U]|eauto]. }
  destruct (is_payload i) eqn:P.
  - apply S. apply tp_call_exec in C as (Hp & _ & _ & H). eapply payload_same; try eassumption. intros a b E. rewrite KD in E. discriminate.
  - destruct (effect_kind _ _ _ _ _ _ _ (tp_call_effect _ _ _ _ _ _ k C P) O KD) as [Q|(x & st' & q & A1 & A2 & A3 & A4)]; [apply S; exact Q|].
    destruct A1 as [_ A1]. assert (x = st) by congruence. subst x. exists st'. split; [|right; exact A4].
    destruct A2 as [O2 U2]. split; [exact O2|]. split; [split; [exact A|exact U2]|]. exists n, pn. rewrite (settings_cause_kind _ _ _ _ _ _ A4). exact K.
Qed.

Lemma token_step e ext c i s s' k ts : tp_call e ext c i s s' -> ext_outside ext -> live_token e s k ts ->
  exists ts', live_token e s' k ts' /\ (ts' = ts \/ token_cause e c i s ts ts').
Proof.
  intros C X (O & [A U] & n & vn & K). pose proof (kind_token_settings _ _ _ _ U) as KD. rewrite K in KD.
  assert (S : same_od s s' k -> exists ts', live_token e s' k ts' /\ (ts' = ts \/ token_cause e c i s ts ts')).
  { intros [O' D']. exists ts. split; [|left; reflexivity]. split; [congruence|]. split; [split; [exact A|rewrite D'; exact U]|eauto]. }
  destruct (is_payload i) eqn:P.
  - apply S. apply tp_call_exec in C as (Hp & _ & _ & H). eapply payload_same; try eassumption. intros a b E. rewrite KD in E. discriminate.
  - destruct (effect_kind _ _ _ _ _ _ _ (tp_call_effect _ _ _ _ _ _ k C P) O KD) as [Q|(x & ts' & q & A1 & A2 & A3 & A4)]; [apply S; exact Q|].
    destruct A1 as [_ A1]. assert (x = ts) by congruence. subst x. exists ts'. split; [|right; exact A4].
    destruct A2 as [O2 U2]. destruct (token_cause_core _ _ _ _ _ _ A4) as [E1 E2]. split; [exact O2|]. split.
    + split; [rewrite E2; exact A|exact U2].
    + exists n, vn. rewrite E1. exact K.
Qed.

Lemma packed_only {A} c (cd : codec A) (L : Lawful cd) ini s s' k x : packed c cd TP_LEN s s' k x -> okb cd x = true -> ini x = true ->
  only_data_of k s s' /\ logs s' = logs s /\ now s' = now s /\ unpack cd TP_LEN ini (dat (accs s' k)) = Ok x.
Proof.
  intros P O I. split; [split; [apply (packed_lam _ _ _ _ _ _ _ P)|split; [apply (packed_own _ _ _ _ _ _ _ P)|intros j; apply (packed_other _ _ _ _ _ _ _ P)]]|].
  destruct (packed_env _ _ _ _ _ _ _ P) as [-> ->]. split; [reflexivity|]. split; [reflexivity|].
  apply unpack_init; [|exact I]. eapply packed_unpack; eassumption.
Qed.

(** * C23 Administration is reserved to the upgrade authority *)

Theorem C23_initialize : forall e ext c g m w s s', tp_call e ext c (TpInitialize g m w) s s' ->
  authority_signed e c s /\
  exists k mv n pn,
    live_settings e s' k (TpSettings true (KSettings n pn) false g m w) /\
    (own (accs s k) = sys_id /\ dat (accs s k) = [] /\ lam (accs s k) <= 0) /\
    tp_addr e (str "multivault") mv /\ (own (accs s mv) = sys_id /\ dat (accs s mv) = [] /\ lam (accs s mv) <= 0) /\
    (forall j, j <> k -> j <> mv -> own (accs s' j) = own (accs s j) /\ dat (accs s' j) = dat (accs s j)).
Proof.
  intros e ext c g m w s s' C. apply tp_call_exec in C as (Hp & _ & _ & H). cbn [tp_exec] in H.
  apply tp_initialize_ok in H as (f & ini & sk & mv & pd & sys & rest & sn & pn & mn & K & S & P & U & PS & PM & N & F1 & F2 & SO & _).
  rewrite Hp in *. split; [eapply authority_signed_spec; [exact S|exists pd, pn; auto]|].
  exists sk, mv, sn, pn. destruct F1 as ((A1 & A2 & A3) & A4 & r & A5 & A6 & A7), F2 as ((B1 & B2 & B3) & _).
  split; [|split; [auto|split; [exists mn; exact PM|split; [auto|exact SO]]]].
  split; [exact A4|]. split; [split; [exists sn; exact PS|]|exists sn, pn; reflexivity].
  apply unpack_init; [|reflexivity]. rewrite A5. apply unpack_unchecked_enc; [typeclasses eauto| |rewrite <- A5; exact A7].
  apply okb_gs. cbn [gs_kind]. apply ok_kind_2; eapply bump_ok; eassumption.
Qed.

(** Once initialised, the settings stay in existence in every history, whatever payloads and nested
    calls do, so the token proxy is never initialised a second time. *)
Theorem C23_once : forall e n ext c g m w s0 s s1, nonneg s0 -> tp_call e ext c (TpInitialize g m w) s0 s ->
  tp_hist e n s s1 ->
  (exists k st, live_settings e s1 k st /\ 1 <= lam (accs s1 k)) /\
  (forall ext' c' g' m' w' s2, ~ tp_call e ext' c' (TpInitialize g' m' w') s1 s2).
Proof.
  intros e n ext c g m w s0 s s1 N C H.
  assert (Q : exists k st pn, tp_sets s k st /\ tp_settings_in e tp_id s k st pn /\ 1 <= lam (accs s k) /\ nonneg s).
  { apply tp_call_exec in C as (Hp & _ & _ & C). cbn [tp_exec] in C. pose proof C as C0.
    apply tp_initialize_ok in C as (f & ini & sk & mv & pd & sys & rest & sn & pn & mn & K & S & P & U & PS & PM & NE & F1 & F2 & SO & _).
    rewrite Hp in *. pose proof (lam_tp_exec e ext c (TpInitialize g m w) eq_refl _ _ _ C0 N) as [NN L].
    destruct F1 as ((A1 & A2 & A3) & A4 & r & A5 & A6 & A7).
    assert (U1 : unpack c_tp_settings TP_LEN gs_init (dat (accs s sk)) = Ok (TpSettings true (KSettings sn pn) false g m w)).
    { apply unpack_init; [|reflexivity]. rewrite A5. apply unpack_unchecked_enc; [typeclasses eauto| |rewrite <- A5; exact A7].
      apply okb_gs. cbn [gs_kind]. apply ok_kind_2; eapply bump_ok; eassumption. }
    exists sk, (TpSettings true (KSettings sn pn) false g m w), pn. split; [split; assumption|].
    split; [split; [exact U1|exists sn; auto]|]. split; [|exact NN].
    apply (L sk); [rewrite A1; discriminate|exact A4]. }
  destruct Q as (k & st & pn & T & V & Z & N1).
  destruct (settings_kept _ _ _ _ _ _ _ H N1 T V Z) as (st' & T' & V' & _ & Z'). split.
  - exists k, st'. split; [|exact Z']. split; [apply T'|]. split; [eapply settings_spec; exact V'|].
    destruct V' as (_ & x & K & _). eauto.
  - intros ext' c' g' m' w' s2 C2. apply C23_initialize in C2 as (_ & k' & mv & a & b & (_ & [A _] & _) & (_ & D & _) & _).
    destruct V' as (U & x & _ & P).
    assert (k' = k) by (eapply tp_addr_fun; [|exact A]; exists x; exact P). subst k'.
    apply unpack_len in U; [|typeclasses eauto]. rewrite D in U. discriminate.
Qed.

(** The settings after a change of role. *)
Definition role_changed (i : tp_ix) (st st' : tp_settings) : Prop :=
  match i with
  | TpChangeGuardian x => st' = TpSettings (gs_init st) (gs_kind st) (gs_emergency st) x (gs_manager st) (gs_wmanager st)
  | TpChangeManager x => st' = TpSettings (gs_init st) (gs_kind st) (gs_emergency st) (gs_guardian st) x (gs_wmanager st)
  | TpChangeWithdrawalManager x => st' = TpSettings (gs_init st) (gs_kind st) (gs_emergency st) (gs_guardian st) (gs_manager st) x
  | _ => False
  end.
Theorem C23_role : forall e ext c i s s', tp_call e ext c i s s' ->
  (exists x, i = TpChangeGuardian x \/ i = TpChangeManager x \/ i = TpChangeWithdrawalManager x) ->
  authority_signed e c s /\
  exists k st st', settings_at e s k st /\ settings_at e s' k st' /\ role_changed i st st' /\
    only_data_of k s s' /\ logs s' = logs s /\ now s' = now s.
Proof.
  intros e ext c i s s' C I. apply tp_call_exec in C as (Hp & _ & _ & H).
  assert (Q : exists f, admin_settings e c f s = Ok (tt, s') /\ (forall st, gs_init (f st) = gs_init st) /\
     (forall st, gs_kind (f st) = gs_kind st) /\ (forall st, role_changed i st (f st))).
  { destruct I as (x & [->|[->| ->]]); cbn [tp_exec] in H; unfold tp_change_guardian, tp_change_manager, tp_change_withdrawal_manager in H;
      (eexists; split; [exact H|]); repeat split. }
  clear H I. destruct Q as (f & H & F1 & F2 & F3).
  apply admin_settings_ok in H as (a & sk & rest & st & pn & K & S & V & U & P). rewrite Hp in *.
  split; [eapply authority_signed_spec; eassumption|]. exists sk, st, (f st).
  pose proof (settings_ok _ _ _ _ _ _ V) as O. pose proof (settings_init _ _ _ _ _ _ V) as I.
  assert (O2 : okb c_tp_settings (f st) = true) by (apply okb_gs; rewrite F2; apply okb_gs; exact O).
  destruct (packed_only c c_tp_settings _ gs_init _ _ _ _ P O2) as (D & L & W & U2); [rewrite F1; exact I|].
  pose proof (settings_spec _ _ _ _ _ V) as SA. split; [exact SA|]. split; [split; [apply SA|exact U2]|]. auto.
Qed.

(** Nothing else changes a role, and nobody else. *)
Theorem C23_only : forall e ext c i s s' k st, tp_call e ext c i s s' -> ext_outside ext -> live_settings e s k st ->
  exists st', live_settings e s' k st' /\
    ((gs_guardian st', gs_manager st', gs_wmanager st') <> (gs_guardian st, gs_manager st, gs_wmanager st) ->
     authority_signed e c s /\ role_changed i st st').
Proof.
  intros e ext c i s s' k st C X L. destruct (sets_step _ _ _ _ _ _ _ _ C X L) as (st' & L' & [E|SC]); exists st'.
  - split; [exact L'|]. congruence.
  - split; [exact L'|]. intros N. destruct SC as [a S U [(x & -> & ->)|[(x & -> & ->)|[(x & -> & ->)|[-> ->]]]]|a S U -> ->].
    + split; [eapply authority_signed_spec; eassumption|reflexivity].
    + split; [eapply authority_signed_spec; eassumption|reflexivity].
    + split; [eapply authority_signed_spec; eassumption|reflexivity].
    + exfalso. apply N. reflexivity.
    + exfalso. apply N. reflexivity.
Qed.

Example C23_example :
  (* initialised once by the upgrade authority; a stranger or a second attempt fails *)
  is_ok (tstp ts0 tinit) = true /\ is_ok (tstp ts1 tinit) = false /\
  is_ok (tstp ts0 ([sw tfunder; sw tstranger; ww tset; ww tmv; ro tpd; ro sys_id; ro rent_id], TpInitialize tguard tman twman)) = false /\
  (* still there after a history with deposits, requests, votes and payments *)
  rbind (tstp ts11 (tadmS tauth (TpChangeManager tstranger))) (fun s => unpack c_tp_settings TP_LEN gs_init (dat (accs s tset)))
    = Ok (TpSettings true (KSettings 255 254) false tguard tstranger twman) /\
  is_ok (tstp ts11 (tadmS tman (TpChangeManager tstranger))) = false /\
  is_ok (tstp ts11 tinit) = false /\
  own (accs ts11 tset) = tp_id.
Proof. vm_compute. repeat split; reflexivity. Qed.

(** * C24 Emergency mode stops the bridge *)

(** Deposits, execution, approval, cancellation and fill of withdrawals. *)
Definition stoppable (i : tp_ix) : Prop :=
  match i with
  | TpDepositEver _ _ _ _ _ _ | TpDepositSol _ _ _ _ _ _ _ _ | TpWithdrawEver | TpWithdrawSol
  | TpApproveEver | TpApproveSol | TpCancel _ _ _ _ _ | TpFill _ _ _ _ _ _ => True
  | _ => False
  end.

Lemma amount_dep_ever a b d f g h : okb c_tp_ix (TpDepositEver a b d f g h) = true -> 0 <= b.
Proof. intros O. apply ix_deposit_ever in O. lia. Qed.
Lemma amount_dep_sol a n y b d f g h : okb c_tp_ix (TpDepositSol a n y b d f g h) = true -> 0 <= b.
Proof. intros O. apply ix_deposit_sol in O as [O _]. lia. Qed.

Theorem C24_global : forall e ext c i s s' k st, settings_at e s k st -> gs_emergency st = true -> stoppable i ->
  ~ tp_call e ext c i s s'.
Proof.
  intros e ext c i s s' k st SA E ST C. apply tp_call_exec in C as (Hp & Oi & CK & H).
  assert (Q : exists k' st' pn, tp_settings_in e tp_id s k' st' pn /\ gs_emergency st' = false).
  { destruct i; try contradiction; cbn [tp_exec] in H.
    - apply tp_withdraw_ever_ok in H as (? & ? & ? & ? & ? & ? & ? & ? & ? & ? & ? & ? & _ & _ & _ & (? & ? & H) & _). rewrite Hp in H. destruct H. eauto.
    - apply tp_withdraw_sol_ok in H as (? & ? & ? & ? & ? & ? & ? & ? & ? & ? & ? & ? & _ & _ & H1 & H2 & _). rewrite Hp in H1. eauto.
    - apply tp_deposit_ever_ok in H; [|eapply amount_dep_ever; exact Oi].
      destruct H as (? & ? & ? & ? & ? & ? & ? & sk & ? & ? & ? & ? & _ & ? & ? & ? & ? & ? & ? & ? & ? & ? & ? & ? & ? & ? & ? & ? & H). rewrite Hp in H. destruct H as (_ & H1 & H2 & _). eauto.
    - apply tp_deposit_sol_ok in H; [|eapply amount_dep_sol; exact Oi].
      destruct H as (? & ? & ? & ? & ? & ? & ? & ? & ? & ? & ? & ? & ? & ? & ? & ? & _ & H). rewrite Hp in H. destruct H as (_ & H1 & H2 & _). eauto.
    - apply tp_approve_ever_ok in H as (? & ? & ? & ? & ? & ? & ? & ? & ? & ? & _ & ? & ? & ? & ? & ? & ? & ? & _ & H1 & H2 & _). rewrite Hp in H1. eauto.
    - apply tp_approve_sol_ok in H as (? & ? & ? & ? & ? & ? & ? & ? & ? & ? & _ & ? & ? & ? & ? & ? & _ & H1 & H2 & _). rewrite Hp in H1. eauto.
    - apply tp_cancel_ok in H as (? & ? & ? & ? & ? & ? & ? & ? & ? & ? & ? & _ & ? & ? & ? & ? & ? & ? & ? & ? & ? & ? & ? & ? & _ & H1 & H2 & _). rewrite Hp in H1. eauto.
    - apply tp_fill_ok in H as (? & ? & ? & ? & ? & ? & ? & ? & ? & ? & ? & ? & _ & ? & ? & ? & ? & ? & ? & ? & ? & ? & ? & ? & ? & ? & ? & ? & ? & ? & ? & ? & _ & H1 & H2 & _). rewrite Hp in H1. eauto. }
  destruct Q as (k' & st' & pn & V & F). destruct (settings_at_in _ _ _ _ _ _ _ SA V) as [-> ->]. congruence.
Qed.

(** The flag is switched on only by the guardian or the upgrade authority, off only by the latter,
    and by no other instruction. *)
Theorem C24_switch : forall e ext c i s s' k st, tp_call e ext c i s s' -> ext_outside ext -> live_settings e s k st ->
  exists st', live_settings e s' k st' /\
    (gs_emergency st = false -> gs_emergency st' = true -> i = TpEnableEmergency /\ signed_for e c s (gs_guardian st)) /\
    (gs_emergency st = true -> gs_emergency st' = false -> i = TpDisableEmergency /\ authority_signed e c s).
Proof.
  intros e ext c i s s' k st C X L. destruct (sets_step _ _ _ _ _ _ _ _ C X L) as (st' & L' & [E|SC]); exists st'.
  - split; [exact L'|]. subst st'. split; congruence.
  - split; [exact L'|]. destruct SC as [a S U [(x & -> & ->)|[(x & -> & ->)|[(x & -> & ->)|[-> ->]]]]|a S U -> ->];
      cbn [gs_set gs_emergency]; try (split; congruence).
    + split; [congruence|]. intros _ _. split; [reflexivity|]. eapply authority_signed_spec; eassumption.
    + split; [|congruence]. intros _ _. split; [reflexivity|]. eapply entitled_spec; eassumption.
Qed.
Theorem C24_switch_effect : forall e ext c i s s', tp_call e ext c i s s' -> i = TpEnableEmergency \/ i = TpDisableEmergency ->
  exists k st, settings_at e s k st /\ only_data_of k s s' /\ logs s' = logs s /\
    (i = TpEnableEmergency -> signed_for e c s (gs_guardian st)) /\ (i = TpDisableEmergency -> authority_signed e c s) /\
    settings_at e s' k (TpSettings (gs_init st) (gs_kind st) (match i with TpEnableEmergency => true | _ => false end)
                          (gs_guardian st) (gs_manager st) (gs_wmanager st)).
Proof.
  intros e ext c i s s' C I. apply tp_call_exec in C as (Hp & _ & _ & H). destruct I as [-> | ->]; cbn [tp_exec] in H.
  - apply tp_enable_emergency_ok in H as (a & sk & rest & st & pn & K & S & V & U & P). rewrite Hp in *.
    exists sk, st. pose proof (settings_spec _ _ _ _ _ V) as SA. split; [exact SA|].
    destruct (packed_only c c_tp_settings _ gs_init _ _ _ _ P) as (D & L & W & U2); [apply gs_set_ok; eapply settings_ok; exact V|rewrite gs_set_init; eapply settings_init; exact V|].
    split; [exact D|]. split; [exact L|]. split; [intros _; eapply entitled_spec; eassumption|]. split; [discriminate|].
    split; [apply SA|exact U2].
  - unfold tp_disable_emergency in H. apply admin_settings_ok in H as (a & sk & rest & st & pn & K & S & V & U & P). rewrite Hp in *.
    exists sk, st. pose proof (settings_spec _ _ _ _ _ V) as SA. split; [exact SA|].
    destruct (packed_only c c_tp_settings _ gs_init _ _ _ _ P) as (D & L & W & U2); [apply gs_set_ok; eapply settings_ok; exact V|rewrite gs_set_init; eapply settings_init; exact V|].
    split; [exact D|]. split; [exact L|]. split; [discriminate|]. split; [intros _; eapply authority_signed_spec; eassumption|].
    split; [apply SA|exact U2].
Qed.

(** A token's own flag.  The instruction is about the token with settings account [k] and record
    [ts]: the request it handles is for this token, or, for deposits, [k] is the token settings
    account given. *)
Definition for_ever (s : state) (wk : option key) (ts : token_settings) : Prop :=
  exists k w m d, wk = Some k /\ unpack c_wever TP_LEN (@p_init _ _) (dat (accs s k)) = Ok w /\
    tk_kind ts = TKEver m (wee_token (wl_data (p_event w))) d.
Definition for_sol (s : state) (wk : option key) (ts : token_settings) : Prop :=
  exists k w v, wk = Some k /\ unpack c_wsol TP_LEN (@p_init _ _) (dat (accs s k)) = Ok w /\
    tk_kind ts = TKSol (wse_mint (wl_data (p_event w))) v.
Definition about (i : tp_ix) (c : ctx) (s : state) (k : key) (ts : token_settings) : Prop :=
  match i with
  | TpWithdrawEver => for_ever s (nth_error (c_keys c) 0) ts
  | TpApproveEver => for_ever s (nth_error (c_keys c) 2) ts
  | TpWithdrawSol => for_sol s (nth_error (c_keys c) 0) ts
  | TpApproveSol => for_sol s (nth_error (c_keys c) 2) ts
  | TpCancel _ _ _ _ _ => for_sol s (nth_error (c_keys c) 3) ts
  | TpFill _ _ _ _ _ _ =>
      exists n rt, nth_error (c_keys c) (12 + 2 * n) = Some rt /\ for_sol s (nth_error (c_keys c) (11 + 2 * n)) ts
  | TpDepositEver _ _ _ _ _ _ => nth_error (c_keys c) 6 = Some k
  | TpDepositSol _ _ _ _ _ _ _ _ => nth_error (c_keys c) 7 = Some k
  | _ => False
  end.

Lemma token_same e s k ts k' ts' vn : token_at e s k ts -> token_in e tp_id s k' ts' vn ->
  (match tk_kind ts, tk_kind ts' with
   | TKEver _ a _, TKEver _ b _ => a = b | TKSol a _, TKSol b _ => a = b | _, _ => False end) -> k' = k /\ ts' = ts.
Proof.
  intros [A U] V M. pose proof (token_spec _ _ _ _ _ V) as [A' U'].
  assert (k' = k).
  { eapply tp_addr_fun; [exact A|]. destruct (tk_kind ts), (tk_kind ts'); try contradiction; subst; exact A'. }
  subst k'. split; [reflexivity|]. congruence.
Qed.

Lemma fill_run_mint e c au at_ smint dk f fees nets l s fees' nets' l' s' :
  c_pid c = tp_id -> fill_run e c au at_ smint dk f fees nets l s fees' nets' l' s' ->
  forall n wk rt w, nth_error l (2 * n) = Some wk -> nth_error l (S (2 * n)) = Some rt ->
    unpack c_wsol TP_LEN (@p_init _ _) (dat (accs s wk)) = Ok w -> wse_mint (wl_data (p_event w)) = smint.
Proof.
  intros Hp R. induction R as [fees nets l s L|fees nets wd rt0 l s fee net s1 fees' nets' l' s' F R IH].
  - intros n wk rt w A B. assert (S (2 * n) < List.length l)%nat by (apply nth_error_Some; congruence). lia.
  - intros n wk rt w A B U.
    destruct F as (w0 & r & out & s2 & s3 & [U0 RA] & ST & MI & TK & _ & _ & _ & _ & _ & _ & _ & [MV _] & PK & ->).
    destruct (key_dec wk wd) as [->|NE]; [congruence|].
    destruct n as [|n]; [cbn in A; congruence|].
    replace (2 * S n)%nat with (S (S (2 * n))) in A, B by lia. cbn [nth_error] in A, B.
    apply (IH n wk rt w A B). cbn [put_log accs]. rewrite (packed_other _ _ _ _ _ _ _ PK) by exact NE. cbn [put_log accs].
    pose proof (unpack_len c_wsol _ _ _ _ _ U) as BL.
    destruct (moved_step _ _ _ _ _ _ MV wk BL) as [_ ->]. exact U.
Qed.

Theorem C24_token_partial : forall e ext c i s s' k ts, token_at e s k ts -> tk_emergency ts = true -> about i c s k ts ->
  tp_call e ext c i s s' ->
  (* only the execution of an Everscale withdrawal can return without an error, and then it did nothing *)
  i = TpWithdrawEver /\ s' = s.
Proof.
  intros e ext c i s s' k ts TA E AB C. apply tp_call_exec in C as (Hp & Oi & CK & H).
  assert (Q : i = TpWithdrawEver /\ s' = s \/ exists k' ts' vn, token_in e tp_id s k' ts' vn /\ tk_emergency ts' = false /\
    (k' = k \/ match tk_kind ts, tk_kind ts' with
     | TKEver _ a _, TKEver _ b _ => a = b | TKSol a _, TKSol b _ => a = b | _, _ => False end)).
  { destruct i; try contradiction; cbn [tp_exec] in H; cbn [about] in AB.
    - apply tp_withdraw_ever_ok in H as (wd & mint & ? & tsk & ? & ? & ? & ? & ? & rest & w & t & K & _ & [U RA] & _ & H).
      rewrite K in AB. cbn [nth_error] in AB. destruct AB as (? & w1 & m & d & X & U1 & TK). injection X as <-. rewrite U in U1. injection U1 as <-.
      destruct H as [(_ & _ & ->)|[(_ & H)|(_ & fu & rest' & s0 & _ & R & _ & _)]]; [left; auto| |].
      + right. destruct H as (ts' & mn & m' & dc & md & V & TK' & EM & _). rewrite Hp in V. exists tsk, ts', mn. split; [exact V|]. split; [exact EM|].
        right. rewrite TK, TK'. reflexivity.
      + destruct R as (mn & tn & ata & an & m0 & t0 & _ & PT & _ & _ & _ & _ & _ & _ & _ & _ & _ & _ & _ & _ & _ & _ & _ & _ & _ & (_ & D & _) & _).
        destruct TA as [A U2]. rewrite TK in A. rewrite Hp in PT.
        assert (tsk = k) by (eapply tp_addr_fun; [exact A|exists tn; exact PT]). subst tsk.
        apply unpack_len in U2; [|typeclasses eauto]. rewrite D in U2. discriminate.
    - right. apply tp_withdraw_sol_ok in H as (wd & ? & ? & tsk & ? & ? & ? & ? & ? & w & ? & ? & K & [U RA] & _ & _ & ts' & vn & sv & V & TK' & EM & _).
      rewrite K in AB. cbn [nth_error] in AB. destruct AB as (? & w1 & v & X & U1 & TK). injection X as <-. rewrite U in U1. injection U1 as <-.
      rewrite Hp in V. exists tsk, ts', vn. split; [exact V|]. split; [exact EM|]. right. rewrite TK, TK'. reflexivity.
    - right. apply tp_deposit_ever_ok in H; [|eapply amount_dep_ever; exact Oi].
      destruct H as (? & ? & ? & ? & ? & ? & tsk & sk & ? & ? & ? & ? & K & ? & ? & ts' & vn & ? & ? & ? & ? & ? & ? & ? & ? & ? & ? & ? & H).
      rewrite K in AB. cbn [nth_error] in AB. injection AB as ->. rewrite Hp in H. destruct H as (_ & _ & _ & H1 & _ & H2 & _). eauto 8.
    - right. apply tp_deposit_sol_ok in H; [|eapply amount_dep_sol; exact Oi].
      destruct H as (? & ? & ? & ? & ? & ? & ? & tsk & ? & ? & ? & ? & ? & ? & ? & s0 & K & _ & _ & _ & _ & _ & R & ts' & vn & ? & ? & ? & ? & ? & ? & ? & ? & ? & ? & H).
      rewrite K in AB. cbn [nth_error] in AB. injection AB as ->. rewrite Hp in H. destruct H as (H1 & _ & H2 & _).
      destruct R as [[_ ->]|[_ (vn' & tn & t & _ & _ & _ & _ & _ & _ & _ & _ & _ & _ & _ & (_ & D & _) & _)]]; [eauto 8|].
      destruct TA as [_ U]. apply unpack_len in U; [|typeclasses eauto]. rewrite D in U. discriminate.
    - right. apply tp_approve_ever_ok in H as (? & ? & wd & ? & tsk & ? & ? & ? & ? & w & K & ts' & mn & m' & dc & ? & ? & ? & _ & _ & _ & _ & [U RA] & _ & V & TK' & EM & _).
      rewrite K in AB. cbn [nth_error] in AB. destruct AB as (? & w1 & m & d & X & U1 & TK). injection X as <-. rewrite U in U1. injection U1 as <-.
      rewrite Hp in V. exists tsk, ts', mn. split; [exact V|]. split; [exact EM|]. right. rewrite TK, TK'. reflexivity.
    - right. apply tp_approve_sol_ok in H as (? & ? & wd & ? & tsk & ? & ? & ? & ? & w & K & ts' & vn & sv & ? & ? & _ & _ & _ & _ & [U RA] & _ & V & TK' & EM & _).
      rewrite K in AB. cbn [nth_error] in AB. destruct AB as (? & w1 & v & X & U1 & TK). injection X as <-. rewrite U in U1. injection U1 as <-.
      rewrite Hp in V. exists tsk, ts', vn. split; [exact V|]. split; [exact EM|]. right. rewrite TK, TK'. reflexivity.
    - right. apply tp_cancel_ok in H as (? & ? & ? & wd & ? & ? & tsk & ? & ? & ? & ? & K & ? & ? & w & ts' & vn & sv & ? & ? & ? & ? & ? & ? & _ & _ & _ & [U RA] & _ & _ & V & TK' & EM & _).
      rewrite K in AB. cbn [nth_error] in AB. destruct AB as (? & w1 & v & X & U1 & TK). injection X as <-. rewrite U in U1. injection U1 as <-.
      rewrite Hp in V. exists tsk, ts', vn. split; [exact V|]. split; [exact EM|]. right. rewrite TK, TK'. reflexivity.
    - right. apply tp_fill_ok in H as (? & ? & ? & ? & ? & ? & ? & tsk & ? & ? & ? & rest & K & ? & ? & ts' & vn & sm & sv & ? & ? & ? & ? & ? & ? & ? & ? & ? & s1 & ? & ? & ? & _ & _ & _ & V & TK' & EM & _ & _ & _ & _ & _ & LP & R & _).
      destruct AB as (n & rt & N2 & wk & w & v & N1 & U & TK). rewrite K in N1, N2.
      change (12 + 2 * n)%nat with (S (S (S (S (S (S (S (S (S (S (S (S (2 * n))))))))))))) in N2.
      change (11 + 2 * n)%nat with (S (S (S (S (S (S (S (S (S (S (S (2 * n)))))))))))) in N1.
      rewrite Hp in V. exists tsk, ts', vn. split; [exact V|]. split; [exact EM|]. right. rewrite TK, TK'.
      cbn [nth_error] in N1, N2. eapply (fill_run_mint _ _ _ _ _ _ _ _ _ _ _ _ _ _ _ Hp R n wk rt w N1 N2).
      destruct LP as (_ & _ & _ & SO & _). destruct (SO wk) as [_ ->]. exact U. }
  destruct Q as [Q|(k' & ts' & vn & V & F & M)]; [exact Q|]. exfalso.
  assert (ts' = ts).
  { destruct M as [->|M]; [|eapply token_same; eassumption]. destruct TA as [_ U], V as [U' _]. congruence. }
  congruence.
Qed.

(** A token's flag is switched on only by the guardian or the upgrade authority and off only by the
    latter, by the instructions meant for it. *)
Theorem C24_token_switch : forall e ext c i s s' k ts, tp_call e ext c i s s' -> ext_outside ext -> live_token e s k ts ->
  exists ts', live_token e s' k ts' /\
    (tk_emergency ts = false -> tk_emergency ts' = true ->
       i = TpEnableTokenEmergency /\ exists sk st, settings_at e s sk st /\ signed_for e c s (gs_guardian st)) /\
    (tk_emergency ts = true -> tk_emergency ts' = false -> i = TpDisableTokenEmergency /\ authority_signed e c s).
Proof.
  intros e ext c i s s' k ts C X L. destruct (token_step _ _ _ _ _ _ _ _ C X L) as (ts' & L' & [E|TC]); exists ts'.
  { split; [exact L'|]. subst ts'. split; congruence. }
  split; [exact L'|]. destruct TC as [a st S SO EN CH|a S U -> ->|am fe _ _ _ _ ->|fe ne _ _ _ _ _ _ ->|a st ne _ _ _ _ _ _ ->|a st am _ _ _ _ _ ->];
    unfold charge; cbn [tk_set_emergency tk_set_fee_supply tk_set_daily tk_emergency]; try (split; congruence).
  - destruct (settings_of_spec _ _ _ SO) as (sk & SA). destruct i; try contradiction; cbn [token_change token_role] in *.
    + subst ts'. cbn [tk_set_limits tk_emergency]. split; congruence.
    + subst ts'. cbn [tk_set_limits tk_emergency]. split; congruence.
    + subst ts'. cbn [tk_set_emergency tk_emergency]. split; [|congruence]. intros _ _. split; [reflexivity|].
      exists sk, st. split; [exact SA|eapply entitled_spec; eassumption].
    + destruct t; subst ts'; cbn [tk_set_fees tk_emergency]; split; congruence.
    + destruct CH as [-> _]. cbn [tk_set_names tk_emergency]. split; congruence.
  - split; [congruence|]. intros _ _. split; [reflexivity|eapply authority_signed_spec; eassumption].
Qed.

(** The full statement, that a stopped token cannot be deposited, is false of the code: the vault
    and mint checks of a deposit of a Solana token are joined by "and" with the ownership check, so a
    deposit of the stopped token [T] can be made with the settings account of another token [S]. *)
Definition tsT := unres (tstps ts2
  [tdepX ttsT tuser tuserT tvaultT td2 tmintT 2 1000; tadmT tguard ttsT TpEnableTokenEmergency]).
Theorem C24_token_refuted : exists e ext c i s s' k ts mint vault amount t t',
  token_at e s k ts /\ tk_kind ts = TKSol mint vault /\ tk_emergency ts = true /\
  (* a deposit of [amount] of the stopped token succeeds and [amount] of it is put into its vault *)
  (exists seed name symbol r v ev p, i = TpDepositSol seed name symbol amount r v ev p) /\
  nth_error (c_keys c) 3 = Some vault /\ nth_error (c_keys c) 5 = Some mint /\
  tp_call e ext c i s s' /\
  tok_in s vault t /\ tok_in s' vault t' /\ ta_mint t = mint /\ 0 < amount /\ ta_amount t' = ta_amount t + amount.
Proof.
  pose (x := tdepX ttsS tuser tuserT tvaultT td4 tmintT 4 500).
  exists te, no_ext, (ctx_of tp_id (fst x)), (snd x), tsT, (unres (tstp tsT x)), ttsT.
  exists (the_token tsT ttsT), tmintT, tvaultT, 500, (the_tok tsT tvaultT), (the_tok (unres (tstp tsT x)) tvaultT).
  split; [split; [exists 255; vm_compute; reflexivity|vm_compute; reflexivity]|].
  split; [vm_compute; reflexivity|]. split; [vm_compute; reflexivity|].
  split; [do 7 eexists; reflexivity|]. split; [reflexivity|]. split; [reflexivity|].
  split; [demo_call|].
  split; [split; vm_compute; reflexivity|]. split; [split; vm_compute; reflexivity|].
  split; [vm_compute; reflexivity|]. split; vm_compute; reflexivity.
Qed.

Example C24_example :
  (* running: all of these work *)
  is_ok (tstp ts2 (tdep tuser tuserS tvault td2 tmintS 2 100)) = true /\ is_ok (tstp ts4 (texecS tw1 trecvS tmintS)) = true /\
  is_ok (tstp ts16 (tapprS twman tw1 trecvS)) = true /\ is_ok (tstp ts11 (tcancel trecv tw2)) = true /\
  is_ok (tstp ts11 (tfill tstranger tstrS td3 3 800000 [tw2; trecvS])) = true /\
  is_ok (tstp ts7 (texecE tw5 trecvE tregE)) = true /\ is_ok (tstp ts8 (tdepE 3 400)) = true /\
  (* stopped by the guardian: none of them *)
  (let stop s := unres (tstp s (tadmS tguard TpEnableEmergency)) in
   is_ok (tstp ts2 (tadmS tguard TpEnableEmergency)) = true /\
   is_ok (tstp (stop ts2) (tdep tuser tuserS tvault td2 tmintS 2 100)) = false /\ is_ok (tstp (stop ts4) (texecS tw1 trecvS tmintS)) = false /\
   is_ok (tstp (stop ts16) (tapprS twman tw1 trecvS)) = false /\ is_ok (tstp (stop ts11) (tcancel trecv tw2)) = false /\
   is_ok (tstp (stop ts11) (tfill tstranger tstrS td3 3 800000 [tw2; trecvS])) = false /\
   is_ok (tstp (stop ts7) (texecE tw5 trecvE tregE)) = false /\ is_ok (tstp (stop ts8) (tdepE 3 400)) = false /\
   (* the guardian cannot switch it off again, the upgrade authority can *)
   is_ok (tstp (stop ts2) (tadmS tguard TpDisableEmergency)) = false /\
   is_ok (tstp (stop ts2) (tadmS tauth TpDisableEmergency)) = true) /\
  (* the same for one token *)
  (let stop s := unres (tstp s (tadmT tguard ttsS TpEnableTokenEmergency)) in
   is_ok (tstp (stop ts2) (tdep tuser tuserS tvault td2 tmintS 2 100)) = false /\ is_ok (tstp (stop ts4) (texecS tw1 trecvS tmintS)) = false /\
   is_ok (tstp (stop ts16) (tapprS twman tw1 trecvS)) = false /\ is_ok (tstp (stop ts11) (tcancel trecv tw2)) = false /\
   is_ok (tstp (stop ts11) (tfill tstranger tstrS td3 3 800000 [tw2; trecvS])) = false /\
   is_ok (tstp (stop ts8) (tdepE 3 400)) = true /\
   is_ok (tstp (stop ts2) (tadmT tguard ttsS TpDisableTokenEmergency)) = false /\
   is_ok (tstp (stop ts2) (tadmT tauth ttsS TpDisableTokenEmergency)) = true).
Proof. vm_compute. repeat split; reflexivity. Qed.

(** * C25 Token parameters change only by the manager *)

(** What each instruction makes of a token's record [ts], field by field. *)
Definition param_changed (i : tp_ix) (ts ts' : token_settings) : Prop :=
  match i with
  | TpChangeDepositLimit l =>
      ts' = TokenSettings (tk_init ts) (tk_akind ts) (tk_kind ts) (tk_name ts) (tk_symbol ts) l (tk_wlimit ts) (tk_wdlimit ts)
              (tk_wdamount ts) (tk_wepoch ts) (tk_emergency ts) (tk_fee_supply ts) (tk_fee_dep ts) (tk_fee_wdr ts)
  | TpChangeWithdrawalLimits l d =>
      ts' = TokenSettings (tk_init ts) (tk_akind ts) (tk_kind ts) (tk_name ts) (tk_symbol ts) (tk_dlimit ts)
              (match l with Some x => x | None => tk_wlimit ts end) (match d with Some x => x | None => tk_wdlimit ts end)
              (tk_wdamount ts) (tk_wepoch ts) (tk_emergency ts) (tk_fee_supply ts) (tk_fee_dep ts) (tk_fee_wdr ts)
  | TpUpdateFee t m d =>
      ts' = TokenSettings (tk_init ts) (tk_akind ts) (tk_kind ts) (tk_name ts) (tk_symbol ts) (tk_dlimit ts) (tk_wlimit ts)
              (tk_wdlimit ts) (tk_wdamount ts) (tk_wepoch ts) (tk_emergency ts) (tk_fee_supply ts)
              (match t with FDeposit => FeeInfo m d | FWithdrawal => tk_fee_dep ts end)
              (match t with FDeposit => tk_fee_wdr ts | FWithdrawal => FeeInfo m d end)
  | TpUpdateTokenName symbol name =>
      ts' = TokenSettings (tk_init ts) (tk_akind ts) (tk_kind ts) name symbol (tk_dlimit ts) (tk_wlimit ts) (tk_wdlimit ts)
              (tk_wdamount ts) (tk_wepoch ts) (tk_emergency ts) (tk_fee_supply ts) (tk_fee_dep ts) (tk_fee_wdr ts)
  | _ => False
  end.
Definition param_ix (i : tp_ix) : Prop :=
  match i with TpChangeDepositLimit _ | TpChangeWithdrawalLimits _ _ | TpUpdateFee _ _ _ | TpUpdateTokenName _ _ => True | _ => False end.
(** The event announcing the change, for fees and names. *)
Definition param_event (i : tp_ix) (k : key) : list bytes :=
  match i with
  | TpUpdateFee t m d => [enc c_ev_fee (EvFee k t m d)]
  | TpUpdateTokenName symbol name => [enc c_ev_name (EvName k symbol name)]
  | _ => [] end.

Lemma param_change i ts ts' : token_change i ts ts' -> param_ix i -> param_changed i ts ts'.
Proof.
  destruct i; try contradiction; cbn [token_change param_changed param_ix].
  - intros -> _. reflexivity.
  - intros -> _. destruct limit, daily; reflexivity.
  - destruct t; intros -> _; reflexivity.
  - intros [-> _] _. reflexivity.
Qed.

Theorem C25_change : forall e ext c i s s', tp_call e ext c i s s' -> param_ix i ->
  exists k ts ts' sk st, nth_error (c_keys c) 1 = Some k /\ token_at e s k ts /\ token_at e s' k ts' /\ param_changed i ts ts' /\
    settings_at e s sk st /\ signed_for e c s (gs_manager st) /\
    only_data_of k s s' /\ logs s' = logs s ++ param_event i k /\ now s' = now s.
Proof.
  intros e ext c i s s' C PI. apply tp_call_exec in C as (Hp & Oi & _ & H).
  apply token_admin_ok in H; [|destruct i; try contradiction; exact Logic.I].
  destruct H as (a & tsk & sk & rest & st & pn & ts & vn & ts' & s1 & K & S & VS & EN & VT & CH & E1 & P). rewrite Hp in *.
  exists tsk, ts, ts', sk, st. split; [rewrite K; reflexivity|]. pose proof (token_spec _ _ _ _ _ VT) as TA. split; [exact TA|].
  pose proof (param_change _ _ _ CH PI) as PC.
  assert (TK : tk_kind ts' = tk_kind ts) by (destruct i; try contradiction; cbn [param_changed] in PC; subst ts'; reflexivity).
  destruct (packed_only c c_token_settings _ tk_init _ _ _ _ P) as (D & L & W & U);
    [eapply token_change_ok; [exact Oi|exact CH|eapply token_ok; exact VT]|rewrite (token_change_init _ _ _ CH); eapply token_init; exact VT|].
  split; [split; [rewrite TK; apply TA|exact U]|]. split; [exact PC|]. split; [eapply settings_spec; exact VS|].
  split; [eapply entitled_spec; [exact S|]; destruct i; try contradiction; exact EN|].
  subst s1. split; [exact D|]. split; [|exact W]. rewrite L. cbn [logs]. f_equal.
Qed.

(** No other instruction changes a parameter of an existing token, and nobody else. *)
Definition params (ts : token_settings) :=
  (tk_name ts, tk_symbol ts, tk_dlimit ts, tk_wlimit ts, tk_wdlimit ts, tk_fee_dep ts, tk_fee_wdr ts).
Theorem C25_only : forall e ext c i s s' k ts, tp_call e ext c i s s' -> ext_outside ext -> live_token e s k ts ->
  exists ts', live_token e s' k ts' /\
    (params ts' <> params ts ->
     param_ix i /\ param_changed i ts ts' /\ exists sk st, settings_at e s sk st /\ signed_for e c s (gs_manager st)).
Proof.
  intros e ext c i s s' k ts C X L. destruct (token_step _ _ _ _ _ _ _ _ C X L) as (ts' & L' & [E|TC]); exists ts'.
  { split; [exact L'|]. subst ts'. congruence. }
  split; [exact L'|]. intros N.
  destruct TC as [a st S SO EN CH|a S U -> ->|am fe _ _ _ _ ->|fe ne _ _ _ _ _ _ ->|a st ne _ _ _ _ _ _ ->|a st am _ _ _ _ _ ->];
    try (exfalso; apply N; reflexivity).
  destruct (settings_of_spec _ _ _ SO) as (sk & SA).
  assert (PI : param_ix i) by (destruct i; try contradiction; try exact Logic.I; cbn [token_change] in CH; subst ts'; exfalso; apply N; reflexivity).
  split; [exact PI|]. split; [apply param_change; assumption|]. exists sk, st. split; [exact SA|].
  eapply entitled_spec; [exact S|]. destruct i; try contradiction; exact EN.
Qed.

Example C25_example :
  let t := the_token ts2 ttsS in
  let after a i := rbind (tstp ts2 (tadmT a ttsS i)) (fun s => unpack c_token_settings TP_LEN tk_init (dat (accs s ttsS))) in
  after tman (TpChangeDepositLimit 777) = Ok (tk_set_limits t 777 (tk_wlimit t) (tk_wdlimit t)) /\ tk_dlimit t <> 777 /\
  after tman (TpChangeWithdrawalLimits None (Some 9)) = Ok (tk_set_limits t (tk_dlimit t) (tk_wlimit t) 9) /\ tk_wdlimit t <> 9 /\
  after tauth (TpUpdateFee FWithdrawal 3 100) = Ok (tk_set_fees t (tk_fee_dep t) (FeeInfo 3 100)) /\
  after tman (TpUpdateTokenName (str "NEW") (str "New Name")) = Ok (tk_set_names t (str "New Name") (str "NEW")) /\
  is_ok (after tguard (TpChangeDepositLimit 777)) = false /\ is_ok (after tstranger (TpUpdateFee FDeposit 0 1)) = false.
Proof. vm_compute. repeat split; (reflexivity || discriminate). Qed.

Print Assumptions C23_initialize. Print Assumptions C23_once. Print Assumptions C23_role. Print Assumptions C23_only.
Print Assumptions C24_global. Print Assumptions C24_switch. Print Assumptions C24_switch_effect.
Print Assumptions C24_token_partial. Print Assumptions C24_token_switch. Print Assumptions C24_token_refuted.
Print Assumptions C25_change. Print Assumptions C25_only.
