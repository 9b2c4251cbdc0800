(** Property C70: the bridge can be stopped and administered at any time. *)

From Coq Require Import Strings.String ZifyBool ZifyNat ZifyN.
From Verif Require Import TpDemoLaws PropTpAdmin Progress.
Open Scope Z_scope.
Open Scope list_scope.
Ltac Zify.zify_post_hook ::= Z.div_mod_to_equations.

(** * Vocabulary *)

(** [k] is the settings account of the token proxy with record [st], which carries the bumps of its own
    address and of the program-data account's. *)
Definition bridge_settings (e : env) (s : state) (k : key) (st : tp_settings) : Prop :=
  own (accs s k) = tp_id /\ unpack c_tp_settings TP_LEN gs_init (dat (accs s k)) = Ok st /\
  exists n pd pn, find_pda e (str "settings") tp_id = Ok (k, n) /\ find_pda e (kb tp_id) loader_id = Ok (pd, pn) /\ gs_kind st = KSettings n pn.
(** [k] is the settings account of a token with record [ts], which carries the bump of its address. *)
Definition token_settings_of (e : env) (s : state) (k : key) (ts : token_settings) : Prop :=
  own (accs s k) = tp_id /\ unpack c_token_settings TP_LEN tk_init (dat (accs s k)) = Ok ts /\
  exists n vn, tk_akind ts = KTokenSettings n vn /\
    find_pda e (str "settings" ++ match tk_kind ts with TKEver _ token _ => kb (token_hash e token) | TKSol mint _ => kb mint end) tp_id = Ok (k, n).

(** [a], signing, holds [role]; or it is the upgrade authority and the program-data account follows. *)
Inductive acts (e : env) (s : state) (role : key) : key -> list meta -> Prop :=
| acts_role : acts e s role role []
| acts_owner a pd n w : tp_authority_is e s a -> find_pda e (kb tp_id) loader_id = Ok (pd, n) -> acts e s role a [Meta pd false w].

(** Instructions that change the settings [st] at [k] to [st']; account lists as in the Rust bindings. *)
Inductive change_settings (e : env) (s : state) (k : key) (st : tp_settings) : list meta -> tp_ix -> tp_settings -> Prop :=
| cs_stop a w x : acts e s (gs_guardian st) a x ->
    change_settings e s k st (Meta a true w :: Meta k false true :: x) TpEnableEmergency
      (TpSettings (gs_init st) (gs_kind st) true (gs_guardian st) (gs_manager st) (gs_wmanager st))
| cs_owner a w i st' pd n v : tp_authority_is e s a -> find_pda e (kb tp_id) loader_id = Ok (pd, n) ->
    i = TpDisableEmergency /\ st' = TpSettings (gs_init st) (gs_kind st) false (gs_guardian st) (gs_manager st) (gs_wmanager st) \/
    role_changed i st st' ->
    change_settings e s k st [Meta a true w; Meta k false true; Meta pd false v] i st'.

(** Instructions that change the settings [ts] of a token at [tsk] to [ts']. *)
Definition token_with (ts : token_settings) (dl wl wdl : Z) (stopped : bool) (fd fw : fee_info) : token_settings :=
  TokenSettings (tk_init ts) (tk_akind ts) (tk_kind ts) (tk_name ts) (tk_symbol ts) dl wl wdl (tk_wdamount ts) (tk_wepoch ts) stopped (tk_fee_supply ts) fd fw.
Definition u64_range (z : Z) : Prop := 0 <= z < 2 ^ 64.
Inductive change_token (e : env) (s : state) (k : key) (st : tp_settings) (tsk : key) (ts : token_settings) : list meta -> tp_ix -> token_settings -> Prop :=
| ct_guardian a w v x ts' : acts e s (gs_guardian st) a x -> ts' = token_with ts (tk_dlimit ts) (tk_wlimit ts) (tk_wdlimit ts) true (tk_fee_dep ts) (tk_fee_wdr ts) ->
    change_token e s k st tsk ts (Meta a true w :: Meta tsk false true :: Meta k false v :: x) TpEnableTokenEmergency ts'
| ct_owner a w v pd n u ts' : tp_authority_is e s a -> find_pda e (kb tp_id) loader_id = Ok (pd, n) -> ts' = token_with ts (tk_dlimit ts) (tk_wlimit ts) (tk_wdlimit ts) false (tk_fee_dep ts) (tk_fee_wdr ts) ->
    change_token e s k st tsk ts [Meta a true w; Meta tsk false true; Meta k false v; Meta pd false u] TpDisableTokenEmergency ts'
| ct_dlimit a w v x z ts' : acts e s (gs_manager st) a x -> u64_range z -> ts' = token_with ts z (tk_wlimit ts) (tk_wdlimit ts) (tk_emergency ts) (tk_fee_dep ts) (tk_fee_wdr ts) ->
    change_token e s k st tsk ts (Meta a true w :: Meta tsk false true :: Meta k false v :: x) (TpChangeDepositLimit z) ts'
| ct_wlimits a w v x y z ts' : acts e s (gs_manager st) a x -> u64_range y -> u64_range z -> ts' = token_with ts (tk_dlimit ts) y z (tk_emergency ts) (tk_fee_dep ts) (tk_fee_wdr ts) ->
    change_token e s k st tsk ts (Meta a true w :: Meta tsk false true :: Meta k false v :: x) (TpChangeWithdrawalLimits (Some y) (Some z)) ts'
| ct_fee a w v x t y z ts' : acts e s (gs_manager st) a x -> u64_range y -> u64_range z ->
    ts' = token_with ts (tk_dlimit ts) (tk_wlimit ts) (tk_wdlimit ts) (tk_emergency ts)
            (match t with FDeposit => FeeInfo y z | FWithdrawal => tk_fee_dep ts end) (match t with FDeposit => tk_fee_wdr ts | FWithdrawal => FeeInfo y z end) ->
    change_token e s k st tsk ts (Meta a true w :: Meta tsk false true :: Meta k false v :: x) (TpUpdateFee t y z) ts'.

(** * Lemmas *)

Lemma bridge_in e s k st : bridge_settings e s k st -> exists pd pn, tp_sets s k st /\ tp_settings_in e tp_id s k st pn /\ find_pda e (kb tp_id) loader_id = Ok (pd, pn).
Proof.
  intros (O & U & n & pd & pn & F & G & K). exists pd, pn. split; [split; assumption|]. split; [|exact G]. split; [exact U|]. exists n. split; [exact K|exact F].
Qed.
Lemma token_of_in e s k ts : token_settings_of e s k ts -> exists vn, tp_token s k ts /\ token_in e tp_id s k ts vn.
Proof.
  intros (O & U & n & vn & K & F). exists vn. split; [split; assumption|]. split; [exact U|]. exists n. split; [exact K|].
  unfold ts_seeds. destruct (tk_kind ts); exact F.
Qed.
Lemma in_token_of e s k ts vn : tp_token s k ts -> token_in e tp_id s k ts vn -> token_settings_of e s k ts.
Proof.
  intros [O U] (_ & n & K & F). split; [exact O|]. split; [exact U|]. exists n, vn. split; [exact K|].
  unfold ts_seeds in F. destruct (tk_kind ts); exact F.
Qed.
Lemma acts_backed e s role a x : acts e s role a x -> backed e s role a (map m_key x).
Proof. intros [|a' pd n w A F]; [left; reflexivity|right]. exists pd, n. auto. Qed.

Ltac metas := cbn [ctx_of c_sg c_wr existsb m_key m_sg m_wr]; rewrite ?keqb_refl, ?andb_true_r, ?andb_true_l; cbn [andb orb]; rewrite ?orb_true_r, ?orb_true_l; reflexivity.

Lemma settings_exec e ext s k st ms i st' : bridge_settings e s k st -> clock_ok s -> change_settings e s k st ms i st' ->
  exists s', tp_call e ext (ctx_of tp_id ms) i s s' /\ bridge_settings e s' k st' /\ only_data_of k s s' /\ logs s' = logs s /\ now s' = now s.
Proof.
  intros B CK H. destruct (bridge_in _ _ _ _ B) as (pd & pn & [O U] & V & F). pose proof U as U0. apply unpack_ok in U0 as (r & D & OK & LEN & I0); [|typeclasses eauto].
  set (s' := written c_tp_settings s k st').
  assert (SAME : gs_kind st' = gs_kind st /\ gs_init st' = gs_init st).
  { destruct H as [a w x Y|a w i st' pd' n v A F' [[_ ->]|R]]; try (split; reflexivity).
    destruct i; try contradiction; cbn [role_changed] in R; rewrite R; split; reflexivity. }
  destruct SAME as [SK SI].
  assert (SZ : blen (enc c_tp_settings st') <= TP_LEN).
  { rewrite size_tp_settings, SK. destruct V as (_ & n & K & _). rewrite K. unfold kind_len, TP_LEN. lia. }
  assert (P : c_wr (ctx_of tp_id ms) k = true -> pack_at (ctx_of tp_id ms) c_tp_settings TP_LEN k st' s = Ok (tt, s')).
  { intros W. apply pack_at_go; [exact O|exact W|exact LEN|exact SZ]. }
  assert (EX : tp_exec e ext (ctx_of tp_id ms) i s = Ok (tt, s') /\ okb c_tp_ix i = true).
  { destruct H as [a w x Y|a w i st' pd' n v A F' X].
    - split; [|reflexivity]. cbn [tp_exec]. unfold tp_enable_emergency. cbn [ctx_of c_keys map m_key].
      eapply bind_go; [apply guard_go; metas|]. eapply bind_go; [apply settings_go; [reflexivity|exact V]|]. cbv beta iota.
      eapply bind_go; [eapply authority_go; [reflexivity|exact F|apply acts_backed; exact Y]|]. apply P. metas.
    - rewrite F in F'. injection F' as <- <-.
      assert (Q : forall f, f st = st' -> admin_settings e (ctx_of tp_id [Meta a true w; Meta k false true; Meta pd false v]) f s = Ok (tt, s')).
      { intros f E. unfold admin_settings. cbn [ctx_of c_keys map m_key].
        eapply bind_go; [apply guard_go; metas|]. eapply bind_go; [apply settings_go; [reflexivity|exact V]|]. cbv beta iota.
        eapply bind_go; [apply lift_go, pd_go; exact F|]. eapply bind_go; [reflexivity|]. cbv beta.
        eapply bind_go; [apply lift_go; eapply authority_back; eassumption|]. rewrite E. apply P. metas. }
      destruct X as [[-> E]|X]; [split; [|reflexivity]; cbn [tp_exec]; unfold tp_disable_emergency; apply Q; symmetry; exact E|].
      destruct i; try contradiction; cbn [role_changed] in X; (split; [|reflexivity]); cbn [tp_exec]; unfold tp_change_guardian, tp_change_manager, tp_change_withdrawal_manager;
        apply Q; symmetry; exact X. }
  destruct EX as [EX OI]. exists s'. destruct (written_only c_tp_settings s k st') as (W1 & W2 & W3). split; [|split; [|split; [exact W1|split; [exact W2|exact W3]]]].
  - apply call_go; [reflexivity|exact CK|exact OI|]. apply run_go; [exact EX|]. eapply lam_same_only. exact W1.
  - destruct B as (_ & _ & n & pd' & pn' & F1 & F2 & K). split; [destruct W1 as (_ & W & _); unfold s'; rewrite W; exact O|]. split.
    + apply written_reads; [typeclasses eauto|exact LEN|exact SZ| |].
      * apply okb_gs. rewrite SK. apply okb_gs. exact OK.
      * congruence.
    + exists n, pd', pn'. repeat split; try assumption. congruence.
Qed.

Lemma token_exec e ext s k st tsk ts ms i ts' : bridge_settings e s k st -> token_settings_of e s tsk ts -> clock_ok s -> change_token e s k st tsk ts ms i ts' ->
  exists s', tp_call e ext (ctx_of tp_id ms) i s s' /\ token_settings_of e s' tsk ts' /\ only_data_of tsk s s' /\ now s' = now s.
Proof.
  intros B T CK H. destruct (bridge_in _ _ _ _ B) as (pd & pn & [O U] & V & F). destruct (token_of_in _ _ _ _ T) as (vn & [OT UT] & VT).
  pose proof UT as U0. apply unpack_ok in U0 as (r & D & OK & LEN & I0); [|typeclasses eauto].
  assert (SAME : tk_akind ts' = tk_akind ts /\ tk_kind ts' = tk_kind ts /\ tk_name ts' = tk_name ts /\ tk_symbol ts' = tk_symbol ts /\ tk_init ts' = tk_init ts /\
     okb c_token_settings ts' = true).
  { pose proof OK as OK0. apply okb_ts in OK. assert (FI : forall y z, u64_range y -> u64_range z -> okb c_fee_info (FeeInfo y z) = true).
    { intros y z Y Z. change (okb c_fee_info (FeeInfo y z)) with (okb c_u64 y && okb c_u64 z). rewrite andb_true_iff, !okb_u64. split; [exact Y|exact Z]. }
    destruct H as [a w v x ts' A ->|a w v pd' n u ts' A F' ->|a w v x z ts' A Z ->|a w v x y z ts' A Y Z ->|a w v x t y z ts' A Y Z ->];
      repeat (split; [reflexivity|]); apply okb_ts; unfold token_with;
      cbn [tk_akind tk_kind tk_name tk_symbol tk_dlimit tk_wlimit tk_wdlimit tk_wdamount tk_wepoch tk_fee_supply tk_fee_dep tk_fee_wdr];
      try (change u64max with (2 ^ 64) in *; unfold u64_range in *; tauto).
    specialize (FI y z Y Z). destruct t; tauto. }
  destruct SAME as (SA & SK & SN & SS & SI & OK').
  assert (SZ : blen (enc c_token_settings ts') <= TP_LEN).
  { rewrite size_token_settings, SA, SK, SN, SS, <- size_token_settings. rewrite D, blen_app in LEN. pose proof (blen_nonneg r). lia. }
  assert (P : forall l, c_wr (ctx_of tp_id ms) tsk = true -> pack_at (ctx_of tp_id ms) c_token_settings TP_LEN tsk ts' (St (accs s) l (now s)) = Ok (tt, written c_token_settings (St (accs s) l (now s)) tsk ts')).
  { intros l W. apply pack_at_go; [exact OT|exact W|exact LEN|exact SZ]. }
  assert (Q : exists l, let s1 := St (accs s) l (now s) in tp_exec e ext (ctx_of tp_id ms) i s = Ok (tt, written c_token_settings s1 tsk ts') /\ okb c_tp_ix i = true).
  { assert (ADM : forall role a w v x f l, acts e s (role st) a x ->
       f tsk ts s = Ok (ts', St (accs s) l (now s)) -> ms = Meta a true w :: Meta tsk false true :: Meta k false v :: x ->
       admin_token e (ctx_of tp_id ms) role f s = Ok (tt, written c_token_settings (St (accs s) l (now s)) tsk ts')).
    { intros role a w v x f l A E ->. unfold admin_token. cbn [ctx_of c_keys map m_key].
      eapply bind_go; [apply guard_go; metas|]. eapply bind_go; [apply settings_go; [reflexivity|exact V]|]. cbv beta iota.
      eapply bind_go; [eapply authority_go; [reflexivity|exact F|apply acts_backed; exact A]|]. cbv beta.
      eapply bind_go; [eapply ts_any_go; [reflexivity|exact VT]|]. cbv beta iota.
      eapply bind_go; [exact E|]. cbv beta. apply P. metas. }
    assert (SE : s = St (accs s) (logs s) (now s)) by (destruct s; reflexivity).
    destruct H as [a w v x ts' A ->|a w v pd' n u ts' A F' ->|a w v x z ts' A Z ->|a w v x y z ts' A Y Z ->|a w v x t y z ts' A Y Z ->].
    - exists (logs s). split; [|reflexivity]. eapply (ADM gs_guardian); [exact A| |reflexivity]. rewrite <- SE. reflexivity.
    - exists (logs s). split; [|reflexivity]. rewrite F in F'. injection F' as <- <-. cbn [tp_exec]. unfold tp_disable_token_emergency. cbn [ctx_of c_keys map m_key].
      eapply bind_go; [apply guard_go; metas|]. eapply bind_go; [apply settings_go; [reflexivity|exact V]|]. cbv beta iota.
      eapply bind_go; [apply lift_go, pd_go; exact F|]. eapply bind_go; [reflexivity|]. cbv beta.
      eapply bind_go; [apply lift_go; eapply authority_back; eassumption|]. cbv beta.
      eapply bind_go; [eapply ts_any_go; [reflexivity|exact VT]|]. cbv beta iota. rewrite SE at 1. apply P. metas.
    - exists (logs s). split; [|apply okb_u64; exact Z]. eapply (ADM gs_manager); [exact A| |reflexivity]. rewrite <- SE. reflexivity.
    - exists (logs s). split.
      + eapply (ADM gs_manager); [exact A| |reflexivity]. rewrite <- SE. reflexivity.
      + change (okb c_tp_ix (TpChangeWithdrawalLimits (Some y) (Some z))) with (okb c_u64 y && okb c_u64 z).
        rewrite andb_true_iff, !okb_u64. split; [exact Y|exact Z].
    - exists (logs s ++ [enc c_ev_fee (EvFee tsk t y z)]). split.
      + eapply (ADM gs_manager); [exact A| |reflexivity]. destruct t; reflexivity.
      + change (okb c_tp_ix (TpUpdateFee t y z)) with (okb c_fee_type t && (okb c_u64 y && okb c_u64 z)).
        rewrite !andb_true_iff, !okb_u64. split; [destruct t; reflexivity|]. split; [exact Y|exact Z]. }
  destruct Q as (l & EX & OI). set (s1 := St (accs s) l (now s)) in *. exists (written c_token_settings s1 tsk ts').
  destruct (written_only c_token_settings s1 tsk ts') as (W1 & _ & W3). split; [|split; [|split; [exact W1|exact W3]]].
  - apply call_go; [reflexivity|exact CK|exact OI|]. apply run_go; [exact EX|]. apply (lam_same_only tsk s1). exact W1.
  - destruct T as (_ & _ & n & vn' & K & F1). split; [destruct W1 as (_ & W & _); rewrite W; exact OT|]. split.
    + apply written_reads; [typeclasses eauto|exact LEN|exact SZ|exact OK'|congruence].
    + exists n, vn'. rewrite SA, SK. split; assumption.
Qed.

(** * C70 The bridge can be stopped and administered at any time *)

(** Once the token proxy is initialised - by the first instruction, in [s] - the guardian can stop the bridge
    and each of its tokens, the upgrade authority can do so and start them again and replace guardian, manager and
    withdrawal manager, and the manager can change limits and fees: in every later state, whatever instructions,
    payloads and nested calls came in between.  Such an instruction changes nothing but the one record. *)
Theorem C70 : forall e n ext c g m w s0 s s1, nonneg s0 -> tp_call e ext c (TpInitialize g m w) s0 s -> tp_hist e n s s1 -> clock_ok s1 ->
  exists k st, bridge_settings e s1 k st /\
    (forall ext' ms i st', change_settings e s1 k st ms i st' ->
       exists s2, tp_call e ext' (ctx_of tp_id ms) i s1 s2 /\ bridge_settings e s2 k st' /\ only_data_of k s1 s2 /\ logs s2 = logs s1 /\ now s2 = now s1) /\
    (forall ext' tsk ts ms i ts', token_settings_of e s1 tsk ts -> change_token e s1 k st tsk ts ms i ts' ->
       exists s2, tp_call e ext' (ctx_of tp_id ms) i s1 s2 /\ token_settings_of e s2 tsk ts' /\ only_data_of tsk s1 s2 /\ now s2 = now s1).
Proof.
  intros e n ext c g m w s0 s s1 N C H CK.
  assert (Q : exists k st pd pn, tp_sets s k st /\ tp_settings_in e tp_id s k st pn /\ find_pda e (kb tp_id) loader_id = Ok (pd, pn) /\ 1 <= lam (accs s k) /\ nonneg s).
  { apply tp_call_exec in C as (Hp & _ & _ & C). cbn [tp_exec] in C. pose proof C as C0.
    apply tp_initialize_ok in C as (f & ini & sk & mv & pd & sys & rest & sn & pn & mn & K & S & P & U & PS & PM & NE & F1 & F2 & SO & _).
    rewrite Hp in *. pose proof (lam_tp_exec e ext c (TpInitialize g m w) eq_refl _ _ _ C0 N) as [NN L].
    destruct F1 as ((A1 & A2 & A3) & A4 & r & A5 & A6 & A7).
    assert (U1 : unpack c_tp_settings TP_LEN gs_init (dat (accs s sk)) = Ok (TpSettings true (KSettings sn pn) false g m w)).
    { apply unpack_init; [|reflexivity]. rewrite A5. apply unpack_unchecked_enc; [typeclasses eauto| |rewrite <- A5; exact A7].
      apply okb_gs. cbn [gs_kind]. apply ok_kind_2; eapply bump_ok; eassumption. }
    exists sk, (TpSettings true (KSettings sn pn) false g m w), pd, pn. split; [split; assumption|].
    split; [split; [exact U1|exists sn; auto]|]. split; [exact P|]. split; [|exact NN].
    apply (L sk); [rewrite A1; discriminate|exact A4]. }
  destruct Q as (k & st & pd & pn & T & V & F & Z & N1).
  destruct (settings_kept _ _ _ _ _ _ _ H N1 T V Z) as (st' & [O U] & (_ & x & K & P) & _ & _).
  assert (B : bridge_settings e s1 k st') by (split; [exact O|split; [exact U|exists x, pd, pn; auto]]).
  exists k, st'. split; [exact B|]. split.
  - intros ext' ms i st2 CS. eapply settings_exec; eassumption.
  - intros ext' tsk ts ms i ts' TS CT. eapply token_exec; eassumption.
Qed.

(** Settings of a token last. *)
Theorem C70_token_lasts : forall e n s s1 tsk ts, nonneg s -> token_settings_of e s tsk ts -> 1 <= lam (accs s tsk) -> tp_hist e n s s1 ->
  exists ts', token_settings_of e s1 tsk ts' /\ tk_kind ts' = tk_kind ts /\ 1 <= lam (accs s1 tsk).
Proof.
  intros e n s s1 tsk ts N T L H. destruct (token_of_in _ _ _ _ T) as (vn & T0 & V0).
  destruct (token_kept _ _ _ _ _ _ _ H N T0 V0 L) as (ts' & T1 & V1 & _ & K & L1). exists ts'. split; [eapply in_token_of; eassumption|]. auto.
Qed.

(** The demo bridge after a deposit, a request and its votes: all hypotheses hold; stopped by the guardian alone,
    started again and given a new manager by the upgrade authority, the token's fee set by the manager. *)
Example C70_ex : nonneg ts0 /\ tp_call te no_ext (ctx_of tp_id (fst tinit)) (snd tinit) ts0 ts1 /\ tp_hist te 0 ts1 ts4 /\ clock_ok ts4 /\
  let st := TpSettings true (KSettings 255 254) false tguard tman twman in let ts := the_token ts4 ttsS in
  bridge_settings te ts4 tset st /\ token_settings_of te ts4 ttsS ts /\ 1 <= lam (accs ts4 ttsS) /\
  change_settings te ts4 tset st [sw tguard; ww tset] TpEnableEmergency (TpSettings true (KSettings 255 254) true tguard tman twman) /\
  change_settings te ts4 tset st [sw tauth; ww tset; ro tpd] (TpChangeManager tstranger) (TpSettings true (KSettings 255 254) false tguard tstranger twman) /\
  change_token te ts4 tset st ttsS ts [sw tman; ww ttsS; ro tset] (TpUpdateFee FDeposit 3 100)
    (token_with ts (tk_dlimit ts) (tk_wlimit ts) (tk_wdlimit ts) false (FeeInfo 3 100) (tk_fee_wdr ts)).
Proof.
  split; [apply demo_nonneg; vm_compute; reflexivity|]. split; [unfold ts1; demo_call|].
  split; [apply (same_hist _ _ _ _ ts4r); [|apply ts4_same]; unfold ts4r; apply tstps_hist; [|vm_compute; reflexivity|demo_now|demo_ok]; unfold ts3; apply tstp_hist;
    [|vm_compute; reflexivity|vm_compute; repeat split; discriminate|vm_compute; reflexivity]; unfold ts2; apply tstp_hist;
    [apply h_refl|vm_compute; reflexivity|vm_compute; repeat split; discriminate|vm_compute; reflexivity]|].
  split; [vm_compute; repeat split; discriminate|]. cbv zeta.
  assert (A : tp_authority_is te ts4 tauth) by (exists tpd, 254, (firstn 8 (skipn 4 (dat (accs ts4 tpd)))), (skipn 45 (dat (accs ts4 tpd))); repeat split; vm_compute; reflexivity).
  assert (F : find_pda te (kb tp_id) loader_id = Ok (tpd, 254)) by (vm_compute; reflexivity).
  split; [split; [vm_compute; reflexivity|]; split; [vm_compute; reflexivity|]; exists 255, tpd, 254; split; [vm_compute; reflexivity|]; split; [exact F|reflexivity]|].
  split; [split; [vm_compute; reflexivity|]; split; [vm_compute; reflexivity|]; exists 255, 255; split; vm_compute; reflexivity|].
  split; [vm_compute; discriminate|].
  split; [apply (cs_stop te ts4 tset (TpSettings true (KSettings 255 254) false tguard tman twman) tguard true []); apply acts_role|].
  split; [apply (cs_owner te ts4 tset _ tauth true _ _ tpd 254 false A F); right; vm_compute; tauto|].
  apply (ct_fee te ts4 tset _ ttsS _ tman true false [] FDeposit 3 100); [apply acts_role|split; reflexivity || discriminate| |vm_compute; reflexivity].
  split; reflexivity || discriminate.
Qed.

Print Assumptions C70. Print Assumptions C70_token_lasts.
