(** Property C74: nothing is locked in: pending withdrawals can be cancelled, records closed, proxy balances,
    fees and multi-vault lamports taken out. *)

From Coq Require Import Strings.String ZifyBool ZifyNat ZifyN.
From Verif Require Import TpDemoLaws SysGo PropTpReq PropTpFlow PropTpPay PropTpMoney PropTpMisc PropTpOutcome PropTpAdmin PropTpDaily PropLive PropExec.
Open Scope Z_scope.
Open Scope list_scope.
Ltac Zify.zify_post_hook ::= Z.div_mod_to_equations.

(** * Vocabulary *)

(** [k] is the multi-vault; its record carries the bump of its address. *)
Definition multivault_stands (e : env) (s : state) (k : key) : Prop :=
  own (accs s k) = tp_id /\ exists mv n, unpack c_multi_vault TP_LEN mv_init (dat (accs s k)) = Ok mv /\ mv_kind mv = KMultiVault n /\
  find_pda e (str "multivault") tp_id = Ok (k, n).
(** [k] is the deposit account number [seed] of [author]. *)
Definition deposit_stands (e : env) (s : state) (k author : key) (seed : Z) : Prop :=
  own (accs s k) = tp_id /\ 0 <= seed < 2 ^ 128 /\ exists g n, unpack_from_slice c_gdep (dat (accs s k)) = Ok g /\ d_author g = author /\
    d_meta g = le 16 seed /\ d_kind g = KDeposit n /\ find_pda e (str "deposit" ++ le 16 seed) tp_id = Ok (k, n).
(** [dst] can receive [n] tokens of [mint]. *)
Definition accepts (s : state) (mint dst : key) (n : Z) : Prop := exists r,
  tok_in s dst r /\ ta_state r <> TFrozen /\ ta_mint r = mint /\ ta_amount r + n < 2 ^ 64.
(** [src] is a token account of [owner] for [mint] with [n] tokens, which can be sent to [dst]. *)
Definition can_send (s : state) (mint src owner dst : key) (n : Z) : Prop := exists v,
  tok_in s src v /\ ta_state v <> TFrozen /\ ta_mint v = mint /\ ta_owner v = owner /\ fst (ta_delegate v) = false /\ n <= ta_amount v /\
  (fst (ta_native v) = true -> n <= lam (accs s src) /\ lam (accs s dst) + n < 2 ^ 64).
(** What the creation of an account of the token proxy costs. *)
Definition record_price (e : env) : Z := Z.max 1 (e_rent e 1000 mod 2 ^ 64).

(** The account lists of the Rust bindings (token-proxy/src/bindings.rs:1036-1153, 1220-1301); [x] is the
    program-data account if the upgrade authority acts. *)
Definition bounty_accounts (a k : key) : ctx := ctx_of tp_id [Meta a true true; Meta k false true].
Definition cancel_accounts (funder author mint k dep sk tsk mv : key) : ctx := ctx_of tp_id
  [Meta funder true true; Meta author true true; Meta mint false true; Meta k false true; Meta dep false true; Meta sk false false;
   Meta tsk false false; Meta sys_id false false; Meta rent_id false false; Meta mv false true].
Definition close_dep_accounts (author k : key) : ctx := ctx_of tp_id [Meta author true true; Meta k false true].
Definition close_accounts (k author : key) : ctx := ctx_of tp_id [Meta k false true; Meta author false true].
Definition proxy_accounts (owner dst proxy mint : key) : ctx := ctx_of tp_id
  [Meta owner true true; Meta dst false true; Meta proxy false true; Meta mint false false; Meta spl_id false false].
Definition sol_fee_accounts (a vault tsk dst sk : key) (x : list meta) : ctx := ctx_of tp_id
  (Meta a true true :: Meta vault false true :: Meta tsk false true :: Meta dst false true :: Meta sk false false :: Meta spl_id false false :: x).
Definition ever_fee_accounts (a mint dst tsk sk : key) (x : list meta) : ctx := ctx_of tp_id
  (Meta a true true :: Meta mint false true :: Meta dst false true :: Meta tsk false true :: Meta sk false false :: Meta spl_id false false :: x).
Definition multivault_accounts (a dst mv sk : key) (x : list meta) : ctx := ctx_of tp_id
  (Meta a true true :: Meta dst false true :: Meta mv false true :: Meta sk false false :: x).

(** * Lemmas *)

Lemma two_sum l s s' a b z : In a l -> In b l -> a <> b -> lam (accs s' a) = lam (accs s a) + z -> lam (accs s' b) = lam (accs s b) - z ->
  (forall j, j <> a -> j <> b -> lam (accs s' j) = lam (accs s j)) -> lam_sum l s' = lam_sum l s.
Proof.
  intros A B NE E1 E2 E3. apply (lam_sum_pay s s' a b z); [|exact A|exact B]. intros j. unfold at_key.
  destruct (key_dec j a) as [J|J].
  - rewrite J, keqb_refl, keqb_ne by congruence. rewrite E1. lia.
  - rewrite (keqb_ne j a) by congruence. destruct (key_dec j b) as [J2|J2].
    + rewrite J2, keqb_refl, E2. lia.
    + rewrite keqb_ne by congruence. rewrite E3 by assumption. lia.
Qed.
Lemma lam_sum_same l s s' : (forall j, lam (accs s' j) = lam (accs s j)) -> lam_sum l s' = lam_sum l s.
Proof. intros H. unfold lam_sum. induction (dedup l) as [|x r IH]; [reflexivity|]. cbn [fold_right]. rewrite IH, H. reflexivity. Qed.

Lemma multivault_go e c s k : c_pid c = tp_id -> multivault_stands e s k -> valid_multivault e c k s = Ok (tt, s).
Proof.
  intros P (_ & mv & n & U & K & F). unfold valid_multivault, multi_vault_at. eapply bind_go; [apply unpack_at_go; exact U|]. cbv beta.
  eapply bind_go; [apply lift_go; rewrite K; reflexivity|]. cbv beta. eapply bind_go; [apply lift_go; rewrite P; apply pda_go; exact F|]. reflexivity.
Qed.

Lemma delete_go c k a s : c_wr c k = true -> c_wr c a = true -> own (accs s k) = c_pid c -> a <> k -> nonneg s ->
  lam (accs s a) + lam (accs s k) < 2 ^ 64 ->
  exists s', delete_account c k a s = Ok (tt, s') /\ (forall l, In k l -> In a l -> lam_sum l s' = lam_sum l s).
Proof.
  intros W1 W2 O NE NN U. set (s1 := put_lam s a (lam (accs s a) + lam (accs s k))). set (s2 := put_lam s1 k 0).
  set (s3 := put_dat s2 k (repeat x00 (List.length (dat (accs s k))))). set (s4 := put_own s3 k sys_id).
  exists s4. split.
  - unfold delete_account. eapply bind_go; [reflexivity|]. cbv beta. eapply bind_go; [reflexivity|]. cbv beta.
    eapply bind_go; [apply guard_go; apply Z.ltb_lt; exact U|].
    apply (bind_go _ _ s tt s1). { apply set_lam_go; [pose proof (NN a); pose proof (NN k); lia|exact W2|left; pose proof (NN k); lia]. }
    apply (bind_go _ _ s1 tt s2). { apply set_lam_go; [lia|exact W1|right]. unfold s1. rewrite own_put_lam. exact O. }
    apply (bind_go _ _ s2 tt s3). { unfold set_data. assert (OO : own (accs s2 k) = c_pid c) by (unfold s2, s1; rewrite !own_put_lam; exact O). rewrite OO, keqb_refl, W1. cbn [andb]. rewrite orb_true_r. reflexivity. }
    unfold set_own. assert (OO : own (accs s3 k) = c_pid c) by (unfold s3, s2, s1; rewrite own_put_dat, !own_put_lam; exact O).
    rewrite OO, keqb_refl, W1. assert (DD : dat (accs s3 k) = repeat x00 (List.length (dat (accs s k)))) by (unfold s3; rewrite dat_put_dat; reflexivity).
    rewrite DD, repeat_zero. cbn [andb]. rewrite orb_true_r. reflexivity.
  - intros l I1 I2.
    assert (L : forall j, lam (accs s4 j) = if keqb j k then 0 else lam (accs s1 j)).
    { intros j. unfold s4, put_own. rewrite accs_put. destruct (keqb j k) eqn:E.
      - apply keqb_eq in E. cbn [lam]. unfold s3. rewrite lam_put_dat. unfold s2, put_lam. rewrite accs_put, keqb_refl. reflexivity.
      - assert (J : j <> k) by (intros J; rewrite J, keqb_refl in E; discriminate). unfold s3. rewrite lam_put_dat. unfold s2, put_lam. rewrite accs_put, E. reflexivity. }
    apply (two_sum l s s4 a k (lam (accs s k))); try assumption.
    + rewrite L, keqb_ne by exact NE. unfold s1, put_lam. rewrite accs_put, keqb_refl. reflexivity.
    + rewrite L, keqb_refl. lia.
    + intros j J1 J2. rewrite L, keqb_ne by exact J2. unfold s1, put_lam. rewrite accs_put, keqb_ne by exact J1. reflexivity.
Qed.

(** A transfer between token accounts as a call of the token program. *)
Lemma send_go c src owner dst mint n pdas s : In src (c_keys c) -> In dst (c_keys c) -> In owner (c_keys c) -> In spl_id (c_keys c) ->
  c_wr c src = true -> c_wr c dst = true -> c_sg c owner = true \/ In owner pdas -> nonneg s -> 0 <= n -> src <> dst ->
  can_send s mint src owner dst n -> accepts s mint dst n ->
  exists s', invoke_tok_transfer c src dst owner n pdas s = Ok (tt, s') /\ only_two src dst s s' /\ lam_sum (c_keys c) s' = lam_sum (c_keys c) s.
Proof.
  intros I1 I2 I3 I4 W1 W2 SG NN N0 NE (v & TV & FV & MV & OV & DV & AV & NV) (r & TR & FR & MR & UR).
  assert (FV' : ta_frozen v = false) by (unfold ta_frozen; destruct (ta_state v); congruence).
  assert (FR' : ta_frozen r = false) by (unfold ta_frozen; destruct (ta_state r); congruence).
  destruct (transfer_go (ctx_of spl_id [Meta src false true; Meta dst false true; Meta owner false false; Meta owner true false]) src dst owner n s v r)
    as (s1 & T1 & O1 & D1); try assumption; try reflexivity; try lia; try congruence.
  - cbn [ctx_of c_wr existsb m_key m_wr]. rewrite keqb_refl. reflexivity.
  - cbn [ctx_of c_wr existsb m_key m_wr]. rewrite keqb_refl. cbn [andb]. apply orb_true_r.
  - cbn [ctx_of c_sg existsb m_key m_sg]. rewrite !keqb_refl, !andb_false_r. reflexivity.
  - exists s1. split; [|split; [exact O1|]].
    + unfold invoke_tok_transfer. apply cpi_go; [exact I4| |exact T1].
      repeat (apply Forall_cons; [cbn [m_key m_sg m_wr]; (split; [assumption|split; [assumption|split; intros X; [try discriminate X; assumption|try discriminate X; assumption]]])|]). apply Forall_nil.
    + unfold native_moves in D1. destruct (fst (ta_native v)).
      * eapply lam_sum_pay; [exact D1|exact I2|exact I1].
      * apply lam_sum_same. intros j. rewrite D1. lia.
Qed.

Lemma ts_in e s k ts n vn : token_settings_of e s k ts -> tk_akind ts = KTokenSettings n vn -> token_in e tp_id s k ts vn.
Proof.
  intros (_ & U & n1 & vn1 & K1 & F) K. rewrite K in K1. injection K1 as <- <-.
  split; [exact U|]. exists n. split; [exact K|]. unfold ts_seeds. destruct (tk_kind ts); exact F.
Qed.
Lemma bridge_set e s k st : bridge_settings e s k st -> exists pd pn, tp_settings_in e tp_id s k st pn /\ find_pda e (kb tp_id) loader_id = Ok (pd, pn).
Proof. intros (_ & U & n & pd & pn & F & FP & K). exists pd, pn. split; [|exact FP]. split; [exact U|]. exists n. auto. Qed.

Lemma bounty_size {E} (ce : codec E) (w : prop E (withlen wmeta)) b :
  blen (enc (c_prop ce (c_withlen c_wmeta)) (w_set_bounty w b)) = blen (enc (c_prop ce (c_withlen c_wmeta)) w).
Proof.
  rewrite !size_prop. cbn [w_set_bounty p_with_meta p_kind p_event p_meta p_signers].
  assert (X : forall y, blen (enc (c_withlen c_wmeta) y) = 21); [|rewrite !X; reflexivity].
  intros y. unfold c_withlen. cbn [c_iso enc]. rewrite blen_pair, blen_u32, blen_wmeta. reflexivity.
Qed.

(** * C74 *)

(** The author or the recipient of a pending withdrawal can set any bounty. *)
Theorem C74_bounty : forall e ext s k w a bounty, clock_ok s -> sol_filed e s k w -> status_of w = WPending ->
  a = p_author w \/ a = wse_recipient (event_of w) -> 0 <= bounty < 2 ^ 64 ->
  exists s', tp_call e ext (bounty_accounts a k) (TpChangeBounty bounty) s s' /\
    sol_filed e s' k (p_with_meta w (WithLen (wl_len (p_meta w)) (WMeta WPending bounty (wm_epoch (wl_data (p_meta w)))))) /\
    only_data_of k s s' /\ logs s' = logs s /\ now s' = now s.
Proof.
  intros e ext s k w a bounty CK RQ ST A B. set (c := bounty_accounts a k). pose proof (sol_filed_in _ _ _ _ RQ) as WI.
  destruct RQ as (O & U & n & pn & K & F). pose proof U as U0. apply unpack_ok in U0 as (r & D & OK & LEN & I0); [|typeclasses eauto].
  assert (E : p_with_meta w (WithLen (wl_len (p_meta w)) (WMeta WPending bounty (wm_epoch (wl_data (p_meta w))))) = w_set_bounty w bounty)
    by (unfold w_set_bounty; rewrite <- ST; reflexivity).
  rewrite E. clear E. set (s' := written c_wsol s k (w_set_bounty w bounty)).
  assert (SZ : blen (enc c_wsol (w_set_bounty w bounty)) <= TP_LEN).
  { assert (X : blen (enc c_wsol (w_set_bounty w bounty)) = blen (enc c_wsol w)).
    { apply bounty_size. }
    rewrite X. rewrite D, blen_app in LEN. pose proof (blen_nonneg r). lia. }
  assert (OB : okb c_wsol (w_set_bounty w bounty) = true) by (apply okb_set_bounty; [exact B|exact OK]).
  exists s'. split; [|split; [|apply written_only]].
  - apply call_go; [reflexivity|exact CK|cbn [okb c_tp_ix]; apply okb_u64; exact B|].
    apply sum_go; [|unfold s'; apply lam_sum_written]. cbn [tp_exec]. unfold tp_change_bounty. change (c_keys c) with [a; k]. cbv beta iota.
    eapply bind_go; [apply guard_go; unfold c, bounty_accounts; metas|]. eapply bind_go; [apply wsol_go; [reflexivity|exact WI]|]. cbv beta iota.
    eapply bind_go; [apply guard_go; change (w_status w) with (status_of w); rewrite ST; reflexivity|].
    eapply bind_go; [apply guard_go|]. { apply orb_true_iff. unfold event_of in A. destruct A as [-> | ->]; [left|right]; apply keqb_refl. }
    apply pack_at_go; [exact O|unfold c, bounty_accounts; metas|exact LEN|exact SZ].
  - split; [unfold s'; rewrite written_own; exact O|]. split; [|exists n, pn; split; [exact K|exact F]].
    apply written_reads; [typeclasses eauto|exact LEN|exact SZ|exact OB|exact I0].
Qed.

(** Anybody can close a finished request; its lamports go to its author. *)
Theorem C74_close : forall e ext s k g m, clock_ok s -> nonneg s -> request_at e s k g m -> wm_status m = WProcessed \/ wm_status m = WCancelled ->
  p_author g <> k -> lam (accs s (p_author g)) + lam (accs s k) < 2 ^ 64 ->
  exists s', tp_call e ext (close_accounts k (p_author g)) TpCloseWithdrawal s s' /\ wiped s s' k (p_author g).
Proof.
  intros e ext s k g m CK NN (O & U & PM & OM & n & pn & K & F) ST NE LU. set (c := close_accounts k (p_author g)).
  assert (U1 : unpack_from_slice c_gprop (dat (accs s k)) = Ok g).
  { revert U. clear. with_strategy transparent [unpack] unfold unpack. with_strategy transparent [unpack_unchecked] unfold unpack_unchecked. intros H.
    destruct (blen (dat (accs s k)) =? TP_LEN); [|discriminate]. destruct (unpack_from_slice c_gprop (dat (accs s k))) as [x|]; [|discriminate]. cbn [rbind] in H.
    destruct (p_init x); [exact H|discriminate]. }
  destruct (delete_go c k (p_author g) s) as (s' & DE & SU); try assumption; try (unfold c, close_accounts; metas).
  assert (R : tp_call e ext c TpCloseWithdrawal s s').
  { apply call_go; [reflexivity|exact CK|reflexivity|]. apply sum_go; [|apply SU; unfold c, close_accounts; cbn [ctx_of c_keys map m_key In]; tauto].
    cbn [tp_exec]. unfold tp_close_withdrawal. change (c_keys c) with [k; p_author g]. cbv beta iota.
    eapply bind_go; [reflexivity|]. cbv beta. eapply bind_go; [apply lift_go; exact U1|]. cbv beta.
    eapply bind_go. { unfold tp_valid_prop. eapply bind_go; [apply lift_go; rewrite K; reflexivity|]. cbv beta iota. apply lift_go. apply pda_go. exact F. }
    eapply bind_go; [apply guard_go; apply keqb_refl|].
    eapply bind_go. { apply lift_go. rewrite PM. rewrite try_from_slice_rt; [reflexivity|typeclasses eauto|exact OM]. }
    cbv beta. eapply bind_go; [apply guard_go; destruct ST as [-> | ->]; reflexivity|]. exact DE. }
  exists s'. split; [exact R|]. destruct (C47_close_withdrawal e ext c s s' R) as (k' & rest & g' & m' & KE & U' & _ & _ & W).
  injection KE as <- KA _. rewrite U1 in U'. injection U' as <-. exact W.
Qed.

(** The author of a deposit can close its record and gets its lamports. *)
Theorem C74_close_deposit : forall e ext s k author seed, clock_ok s -> nonneg s -> deposit_stands e s k author seed ->
  author <> k -> lam (accs s author) + lam (accs s k) < 2 ^ 64 ->
  exists s', tp_call e ext (close_dep_accounts author k) TpCloseDeposit s s' /\ wiped s s' k author.
Proof.
  intros e ext s k author seed CK NN (O & SB & g & n & U & A & M & K & F) NE LU. set (c := close_dep_accounts author k).
  destruct (delete_go c k author s) as (s' & DE & SU); try assumption; try (unfold c, close_dep_accounts; metas).
  assert (R : tp_call e ext c TpCloseDeposit s s').
  { apply call_go; [reflexivity|exact CK|reflexivity|]. apply sum_go; [|apply SU; unfold c, close_dep_accounts; cbn [ctx_of c_keys map m_key In]; tauto].
    cbn [tp_exec]. unfold tp_close_deposit. change (c_keys c) with [author; k]. cbv beta iota.
    eapply bind_go; [apply guard_go; unfold c, close_dep_accounts; metas|].
    eapply bind_go; [reflexivity|]. cbv beta. eapply bind_go; [apply lift_go; exact U|]. cbv beta.
    eapply bind_go. { apply lift_go. rewrite M. change (le 16 seed) with (enc c_u128 seed). rewrite try_from_slice_rt; [reflexivity|typeclasses eauto|apply okb_u128; exact SB]. }
    cbv beta. eapply bind_go; [apply lift_go; rewrite K; reflexivity|]. cbv beta. eapply bind_go; [apply lift_go; apply pda_go; exact F|].
    eapply bind_go; [apply guard_go; rewrite A; apply keqb_refl|]. exact DE. }
  exists s'. split; [exact R|]. destruct (C47_close_deposit e ext c s s' R) as (k' & rest & g' & n' & KE & U' & _ & _ & W).
  injection KE as KA <- _. rewrite U in U'. injection U' as <-. rewrite A in W. exact W.
Qed.

(** Everybody can take tokens out of their own proxy accounts. *)
Theorem C74_proxy : forall e ext s owner dst proxy mint b n, clock_ok s -> nonneg s -> find_pda e (str "proxy" ++ kb mint ++ kb owner) tp_id = Ok (proxy, b) ->
  0 <= n < 2 ^ 64 -> proxy <> dst -> can_send s mint proxy proxy dst n -> accepts s mint dst n ->
  exists s', tp_call e ext (proxy_accounts owner dst proxy mint) (TpWithdrawProxy n) s s' /\
    balance s' proxy = balance s proxy - n /\ balance s' dst = balance s dst + n.
Proof.
  intros e ext s owner dst proxy mint b n CK NN F NB NE CS AC. set (c := proxy_accounts owner dst proxy mint).
  assert (IN : forall x, In x [owner; dst; proxy; mint; spl_id] -> In x (c_keys c)) by (intros x; exact (fun i => i)).
  destruct (send_go c proxy proxy dst mint n [proxy] s) as (s' & T & _ & LS); try assumption; try lia; try (apply IN; cbn [In]; tauto); try (unfold c, proxy_accounts; metas); try (right; left; reflexivity).
  assert (R : tp_call e ext c (TpWithdrawProxy n) s s').
  { apply call_go; [reflexivity|exact CK|cbn [okb c_tp_ix]; apply okb_u64; exact NB|]. apply sum_go; [|exact LS].
    cbn [tp_exec]. unfold tp_withdraw_proxy. change (c_keys c) with [owner; dst; proxy; mint; spl_id]. cbv beta iota.
    eapply bind_go; [apply guard_go; unfold c, proxy_accounts; metas|]. eapply bind_go; [apply lift_go; exact F|]. cbv beta iota.
    eapply bind_go; [apply guard_go; apply keqb_refl|].
    eapply bind_go. { unfold pda_signer. apply find_pda_some in F as [F _]. apply lift_go. unfold with_bump, sd_proxy in *. cbn [c_pid c proxy_accounts ctx_of]. rewrite F. reflexivity. }
    cbv beta. exact T. }
  exists s'. split; [exact R|]. destruct (C45 e ext c n s s' R) as (o' & d' & p' & m' & E1 & E2 & E3 & _ & _ & _ & _ & X & _).
  injection E1 as <-. injection E2 as <-. injection E3 as <-. apply X. exact NE.
Qed.

(** The manager, or the upgrade authority, can take the lamports out of the multi-vault. *)
Theorem C74_multivault : forall e ext s sk st mv a x dst n, clock_ok s -> nonneg s -> bridge_settings e s sk st -> multivault_stands e s mv ->
  acts e s (gs_manager st) a x -> 0 <= n <= lam (accs s mv) -> n < 2 ^ 64 -> dst <> mv -> lam (accs s dst) + n < 2 ^ 64 ->
  exists s', tp_call e ext (multivault_accounts a dst mv sk x) (TpWithdrawMultiVault n) s s' /\
    lam (accs s' mv) = lam (accs s mv) - n /\ lam (accs s' dst) = lam (accs s dst) + n.
Proof.
  intros e ext s sk st mv a x dst n CK NN BS MV AC NB N64 NE LU. set (c := multivault_accounts a dst mv sk x).
  destruct (bridge_set _ _ _ _ BS) as (pd & pn & SI & FP).
  set (s1 := put_lam s mv (lam (accs s mv) - n)). set (s' := put_lam s1 dst (lam (accs s1 dst) + n)).
  assert (D1 : accs s1 dst = accs s dst) by (unfold s1; apply accs_put_lam_other; exact NE).
  assert (KY : c_keys c = a :: dst :: mv :: sk :: map m_key x) by reflexivity.
  assert (WS : c_sg c a = true /\ c_wr c mv = true /\ c_wr c dst = true) by (unfold c, multivault_accounts; split; [metas|split; metas]). destruct WS as (SG & W1 & W2).
  assert (BK : check_authority e c (gs_manager st) a pn (map m_key x) s = Ok (tt, s)).
  { eapply authority_go; [reflexivity|exact FP|]. destruct AC as [|a0 pd0 n0 w0 A0 F0]; [left; reflexivity|right]. exists pd0, n0. split; [exact F0|]. split; [exact A0|reflexivity]. }
  assert (R : tp_call e ext c (TpWithdrawMultiVault n) s s').
  { apply call_go; [reflexivity|exact CK|cbn [okb c_tp_ix]; apply okb_u64; unfold u64max; lia|].
    apply sum_go.
    - cbn [tp_exec]. unfold tp_withdraw_multi_vault. rewrite KY. cbv beta iota. eapply bind_go; [apply guard_go; exact SG|].
      eapply bind_go; [apply settings_go; [reflexivity|exact SI]|]. cbv beta iota. eapply bind_go; [exact BK|].
      eapply bind_go; [apply multivault_go; [reflexivity|exact MV]|]. unfold move_lam. eapply bind_go; [reflexivity|]. cbv beta.
      eapply bind_go; [apply guard_go; apply Z.leb_le; lia|].
      apply (bind_go _ _ s tt s1). { apply set_lam_go; [lia|exact W1|right; destruct MV as [O _]; exact O]. }
      eapply bind_go; [reflexivity|]. cbv beta. eapply bind_go; [apply guard_go; rewrite D1; apply Z.ltb_lt; exact LU|].
      apply set_lam_go; [rewrite D1; pose proof (NN dst); lia|exact W2|left; lia].
    - apply (two_sum _ s s' dst mv n); try (rewrite KY; cbn [In]; tauto); try assumption.
      + unfold s', put_lam. rewrite accs_put, keqb_refl. cbn [lam]. rewrite D1. reflexivity.
      + unfold s'. rewrite accs_put_lam_other by congruence. unfold s1, put_lam. rewrite accs_put, keqb_refl. reflexivity.
      + intros j J1 J2. unfold s', s1. rewrite !accs_put_lam_other by assumption. reflexivity. }
  exists s'. split; [exact R|]. destruct (C48_withdraw e ext c n s s' R) as (a' & d' & m' & k' & st' & (rest & KE) & _ & _ & _ & _ & X & _).
  rewrite KY in KE. injection KE as <- <- <- <- _. apply X. exact NE.
Qed.

(** ** Fees *)

(** The manager, or the upgrade authority, can take collected fees of a Solana token out of its vault. *)
Theorem C74_sol_fee : forall e ext s sk st a x mint vault tsk ts dst n, clock_ok s -> nonneg s -> bridge_settings e s sk st -> acts e s (gs_manager st) a x ->
  sol_listed e s mint vault tsk ts -> 0 <= n <= tk_fee_supply ts -> vault <> dst -> can_send s mint vault vault dst n -> accepts s mint dst n ->
  exists s' ts', tp_call e ext (sol_fee_accounts a vault tsk dst sk x) (TpWithdrawSolFee n) s s' /\
    token_at e s' tsk ts' /\ ts' = tk_set_fee_supply ts (tk_fee_supply ts - n) /\
    balance s' vault = balance s vault - n /\ balance s' dst = balance s dst + n.
Proof.
  intros e ext s sk st a x mint vault tsk ts dst n CK NN BS AC LI NB NE CS AP. set (c := sol_fee_accounts a vault tsk dst sk x).
  destruct (bridge_set _ _ _ _ BS) as (pd & pn & SI & FP). destruct LI as (TS & [v0 KT] & n0 & vn & KA & PV).
  pose proof (ts_in _ _ _ _ _ _ TS KA) as TI. pose proof (token_len _ _ _ _ TS) as (TL & TB & TO). pose proof TS as (OT & UT & _).
  apply okb_ts in TO. destruct TO as (_ & _ & _ & _ & _ & _ & _ & _ & _ & FSU & _).
  assert (KY : c_keys c = a :: vault :: tsk :: dst :: sk :: spl_id :: map m_key x) by reflexivity.
  assert (WS : c_sg c a = true /\ c_wr c vault = true /\ c_wr c dst = true /\ c_wr c tsk = true) by (unfold c, sol_fee_accounts; split; [metas|split; [metas|split; metas]]).
  destruct WS as (SG & W1 & W2 & W3).
  assert (BK : check_authority e c (gs_manager st) a pn (map m_key x) s = Ok (tt, s)).
  { eapply authority_go; [reflexivity|exact FP|]. destruct AC as [|a0 pd0 n1 w0 A0 F0]; [left; reflexivity|right]. exists pd0, n1. split; [exact F0|]. split; [exact A0|reflexivity]. }
  destruct (send_go c vault vault dst mint n [vault] s) as (s1 & T & (_ & O1 & _) & LS); try assumption; try lia; try (rewrite KY; cbn [In]; tauto); try (right; left; reflexivity).
  pose proof CS as (v & [OV UV] & _ & _ & _ & _ & AV & _). pose proof AP as (r & [OR UR] & _).
  assert (TK : accs s1 tsk = accs s tsk) by (apply O1; intros E; rewrite E in OT; rewrite OT in *; discriminate).
  set (ts1 := tk_set_fee_supply ts (tk_fee_supply ts - n)).
  assert (SZ : blen (enc c_token_settings ts1) <= TP_LEN) by (rewrite size_token_settings in *; exact TB).
  assert (R : tp_call e ext c (TpWithdrawSolFee n) s (written c_token_settings s1 tsk ts1)).
  { apply call_go; [reflexivity|exact CK|cbn [okb c_tp_ix]; apply okb_u64; unfold u64max in *; lia|].
    apply sum_go; [|rewrite lam_sum_written; exact LS].
    cbn [tp_exec]. unfold tp_withdraw_sol_fee. rewrite KY. cbv beta iota. eapply bind_go; [apply guard_go; exact SG|].
    eapply bind_go; [apply settings_go; [reflexivity|exact SI]|]. cbv beta iota. eapply bind_go; [exact BK|].
    eapply bind_go; [eapply ts_sol_go; [reflexivity|exact TI|exact KT]|]. cbv beta iota. eapply bind_go; [apply lift_go, pda_go; exact PV|].
    eapply bind_go; [reflexivity|]. cbv beta. eapply bind_go; [apply guard_go; rewrite OV; apply keqb_refl|].
    eapply bind_go; [reflexivity|]. cbv beta. eapply bind_go; [apply guard_go; rewrite OR; apply keqb_refl|].
    eapply bind_go; [apply guard_go; apply Z.leb_le; lia|]. eapply bind_go; [apply tacc_go; exact UV|]. cbv beta.
    eapply bind_go; [apply guard_go; apply Z.leb_le; lia|].
    eapply bind_go. { unfold make_sol_transfer. eapply bind_go; [|exact T]. unfold pda_signer. apply lift_go. apply find_pda_some in PV as [PV _]. unfold with_bump, sd_vault. cbn [c_pid c sol_fee_accounts ctx_of]. rewrite PV. reflexivity. }
    eapply bind_go; [apply lift_go; unfold csub; replace (n <=? tk_fee_supply ts) with true by lia; reflexivity|]. cbv beta.
    apply pack_at_go; [rewrite TK; exact OT|exact W3|rewrite TK; exact TL|exact SZ]. }
  exists (written c_token_settings s1 tsk ts1). destruct (C40_sol e ext c n _ _ R) as (a' & v' & d' & t' & k' & st' & ts0 & ts' & m0 & v1 & (rest & KE) & _ & _ & TA & _ & _ & _ & TA' & TE & _ & X & _).
  rewrite KY in KE. injection KE as <- <- <- <- <- _. destruct TA as [_ TA]. rewrite UT in TA. injection TA as <-.
  exists ts'. split; [exact R|]. split; [exact TA'|]. split; [exact TE|]. apply X. exact NE.
Qed.

(** The same for an Ever token; the fees are minted. *)
Theorem C74_ever_fee : forall e ext s sk st a x token mint md tsk ts dst n, clock_ok s -> bridge_settings e s sk st -> acts e s (gs_manager st) a x ->
  ever_listed e s token mint tsk ts -> 0 <= n <= tk_fee_supply ts -> mint_ready s mint dst md n -> accepts s mint dst n ->
  exists s' ts', tp_call e ext (ever_fee_accounts a mint dst tsk sk x) (TpWithdrawEverFee n) s s' /\
    token_at e s' tsk ts' /\ ts' = tk_set_fee_supply ts (tk_fee_supply ts - n) /\
    supply s' mint = supply s mint + n /\ balance s' dst = balance s dst + n.
Proof.
  intros e ext s sk st a x token mint md tsk ts dst n CK BS AC LI NB (TM & AU & SU & NA) AP. set (c := ever_fee_accounts a mint dst tsk sk x).
  destruct (bridge_set _ _ _ _ BS) as (pd & pn & SI & FP). destruct LI as (TS & LT & (m0 & d0 & KT) & n0 & mn & KA & PM).
  pose proof (ts_in _ _ _ _ _ _ TS KA) as TI. pose proof (token_len _ _ _ _ TS) as (TL & TB & TO). pose proof TS as (OT & UT & _).
  apply okb_ts in TO. destruct TO as (_ & _ & _ & _ & _ & _ & _ & _ & _ & FSU & _).
  assert (KY : c_keys c = a :: mint :: dst :: tsk :: sk :: spl_id :: map m_key x) by reflexivity.
  assert (WS : c_sg c a = true /\ c_wr c mint = true /\ c_wr c dst = true /\ c_wr c tsk = true) by (unfold c, ever_fee_accounts; split; [metas|split; [metas|split; metas]]).
  destruct WS as (SG & W1 & W2 & W3).
  assert (BK : check_authority e c (gs_manager st) a pn (map m_key x) s = Ok (tt, s)).
  { eapply authority_go; [reflexivity|exact FP|]. destruct AC as [|a0 pd0 n1 w0 A0 F0]; [left; reflexivity|right]. exists pd0, n1. split; [exact F0|]. split; [exact A0|reflexivity]. }
  pose proof AP as (r & TR & FR & MR & UR). pose proof TR as [OR UR']. pose proof TM as [OM UM].
  assert (FR' : ta_frozen r = false) by (unfold ta_frozen; destruct (ta_state r); congruence).
  destruct (mint_go (ctx_of spl_id [Meta mint false true; Meta dst false true; Meta mint false false; Meta mint true false]) mint dst mint n s md r)
    as (s1 & T1 & (_ & O1 & _) & D1); try assumption; try reflexivity; try lia.
  { cbn [ctx_of c_wr existsb m_key m_wr]. rewrite keqb_refl. reflexivity. }
  { cbn [ctx_of c_wr existsb m_key m_wr]. rewrite keqb_refl. cbn [andb]. apply orb_true_r. }
  { cbn [ctx_of c_sg existsb m_key m_sg]. rewrite !keqb_refl, !andb_false_r. reflexivity. }
  { apply NA. exact TR. }
  assert (TK : accs s1 tsk = accs s tsk) by (apply O1; intros E; rewrite E in OT; rewrite OT in *; discriminate).
  set (ts1 := tk_set_fee_supply ts (tk_fee_supply ts - n)).
  assert (SZ : blen (enc c_token_settings ts1) <= TP_LEN) by (rewrite size_token_settings in *; exact TB).
  assert (R : tp_call e ext c (TpWithdrawEverFee n) s (written c_token_settings s1 tsk ts1)).
  { apply call_go; [reflexivity|exact CK|cbn [okb c_tp_ix]; apply okb_u64; unfold u64max in *; lia|].
    apply sum_go; [|rewrite lam_sum_written; apply lam_sum_same; exact D1].
    cbn [tp_exec]. unfold tp_withdraw_ever_fee. rewrite KY. cbv beta iota. eapply bind_go; [apply guard_go; exact SG|].
    eapply bind_go; [apply settings_go; [reflexivity|exact SI]|]. cbv beta iota. eapply bind_go; [exact BK|].
    eapply bind_go; [eapply ts_ever_go; [reflexivity|exact TI|exact KT]|]. cbv beta iota. eapply bind_go; [apply lift_go, pda_go; exact PM|].
    eapply bind_go; [reflexivity|]. cbv beta. eapply bind_go; [apply guard_go; rewrite OM; apply keqb_refl|].
    eapply bind_go; [reflexivity|]. cbv beta. eapply bind_go; [apply guard_go; rewrite OR; apply keqb_refl|].
    eapply bind_go; [apply guard_go; apply Z.leb_le; lia|].
    eapply bind_go. { unfold make_ever_transfer. eapply bind_go. { unfold pda_signer. apply lift_go. apply find_pda_some in PM as [PM _]. unfold with_bump, sd_mint. cbn [c_pid c ever_fee_accounts ctx_of]. rewrite PM. reflexivity. }
      cbv beta. unfold invoke_tok_mint_to. apply cpi_go; [rewrite KY; cbn [In]; tauto| |exact T1].
      repeat (apply Forall_cons; [cbn [m_key m_sg m_wr]; (split; [rewrite KY; cbn [In]; tauto|split; [rewrite KY; cbn [In]; tauto|split; intros X; [try discriminate X; right; left; reflexivity|try discriminate X; assumption]]])|]). apply Forall_nil. }
    eapply bind_go; [apply lift_go; unfold csub; replace (n <=? tk_fee_supply ts) with true by lia; reflexivity|]. cbv beta.
    apply pack_at_go; [rewrite TK; exact OT|exact W3|rewrite TK; exact TL|exact SZ]. }
  exists (written c_token_settings s1 tsk ts1). destruct (C40_ever e ext c n _ _ R) as (a' & v' & d' & t' & k' & st' & ts0 & ts' & m1 & tk1 & v1 & (rest & KE) & _ & _ & TA & _ & _ & _ & TA' & TE & _ & X1 & X2 & _).
  rewrite KY in KE. injection KE as <- <- <- <- <- _. destruct TA as [_ TA]. rewrite UT in TA. injection TA as <-.
  exists ts'. split; [exact R|]. split; [exact TA'|]. split; [exact TE|]. split; [exact X1|exact X2].
Qed.

(** ** Cancelling *)

Lemma pay_same c from to z s : In from (c_keys c) -> In to (c_keys c) -> In sys_id (c_keys c) ->
  c_sg c from = true -> c_wr c from = true -> c_wr c to = true -> has_lamports s from z -> from <> to -> 0 <= z -> 0 <= lam (accs s to) ->
  lam (accs s to) + z < 2 ^ 64 ->
  exists s', invoke_transfer c from to z s = Ok (tt, s') /\ (forall j, own (accs s' j) = own (accs s j) /\ dat (accs s' j) = dat (accs s j)) /\
    lam (accs s' from) = lam (accs s from) - z /\ (forall j, j <> from -> j <> to -> accs s' j = accs s j) /\ lam_sum (c_keys c) s' = lam_sum (c_keys c) s /\ now s' = now s.
Proof.
  intros I1 I2 I3 SG W1 W2 HL NE Z0 T0 TU. pose proof HL as (_ & HO & HD).
  destruct (pay_go c from to z s) as (s' & P & A1 & A2 & A3 & L & T); try assumption. exists s'. split; [exact P|].
  split; [|split; [rewrite A2; reflexivity|split; [exact A3|split; [|exact T]]]].
  - intros j. destruct (key_dec j to) as [J|J]; [rewrite J, A1; auto|]. destruct (key_dec j from) as [J2|J2]; [rewrite J2, A2, HO, HD; auto|].
    rewrite A3 by assumption. auto.
  - apply (two_sum _ s s' to from z); try assumption; try congruence; [rewrite A1; reflexivity|rewrite A2; reflexivity|].
    intros j J1 J2. rewrite A3 by assumption. reflexivity.
Qed.
(** The creation of a deposit account. *)
Lemma new_deposit_go e c funder dep seed dn s : c_pid c = tp_id -> In funder (c_keys c) -> In dep (c_keys c) -> In sys_id (c_keys c) ->
  c_sg c funder = true -> c_wr c funder = true -> c_wr c dep = true -> find_pda e (str "deposit" ++ le 16 seed) tp_id = Ok (dep, dn) ->
  vacant s dep -> has_lamports s funder (record_price e) ->
  exists s', create_deposit e c funder dep seed dn s = Ok (tt, s') /\ own (accs s' dep) = tp_id /\ blen (dat (accs s' dep)) = TP_LEN /\
    (forall j, j <> funder -> j <> dep -> accs s' j = accs s j) /\ lam_sum (c_keys c) s' = lam_sum (c_keys c) s /\ now s' = now s.
Proof.
  intros P I1 I2 I3 SG W1 W2 F VA HL.
  assert (PR : 0 < record_price e < u64max) by (unfold record_price, u64max; lia).
  assert (NE : funder <> dep) by (intros E; rewrite E in *; destruct VA as (VA & _), HL as (HL & _); lia).
  destruct (create_go e c funder dep (record_price e) TP_LEN tp_id (with_bump (sd_deposit seed) dn) s) as (s' & C & A1 & A2 & A3 & L & T); try assumption.
  { apply find_pda_some in F as [F _]. rewrite P. exact F. }
  { unfold TP_LEN, MAX_DATA. lia. }
  { discriminate. }
  exists s'. split; [unfold create_deposit; rewrite P; exact C|]. split; [rewrite A1; reflexivity|].
  split; [rewrite A1; cbn [dat]; unfold blen; rewrite repeat_length; reflexivity|]. split; [exact A3|]. split; [|exact T].
  apply (two_sum _ s s' dep funder (record_price e)); try assumption; try congruence.
  - rewrite A1. cbn [lam]. destruct VA as (-> & _). lia.
  - rewrite A2. reflexivity.
  - intros j J1 J2. rewrite A3 by assumption. reflexivity.
Qed.
Lemma fee_go128 f gross : 0 <= gross < 2 ^ 128 -> 0 <= fi_mul f -> 0 <= fi_div f -> fee_fits f gross -> fee_of u128max f gross = Ok (fee_on f gross).
Proof.
  intros G M D [D0 F]. unfold fee_of, cdiv. replace (fi_div f =? 0) with false by lia. cbn [rbind]. unfold cmul.
  unfold fee_on in *. change u128max with (2 ^ 128). replace (gross / fi_div f * fi_mul f <? 2 ^ 128) with true by lia. reflexivity.
Qed.

(** The author of a pending withdrawal can cancel it and so turn it into a deposit, to any recipient, as long as
    bridge and token are not stopped, the deposit fee is defined, not above the amount, and leaves room in the
    64-bit fee counter, and name, symbol and payload fit into the record. *)
Theorem C74_cancel : forall e ext s k w md sk tsk ts vault mv funder dep dn seed recipient value evers payload,
  let mint := wse_mint (event_of w) in let amount := wse_amount (event_of w) in let fee := fee_on (tk_fee_dep ts) amount in
  clock_ok s -> nonneg s -> sol_filed e s k w -> status_of w = WPending -> sol_listed e s mint vault tsk ts -> running e s sk ts ->
  tmint_in s mint md -> fee_fits (tk_fee_dep ts) amount -> tk_fee_supply ts + fee < 2 ^ 64 ->
  multivault_stands e s mv -> lam (accs s mv) + value < 2 ^ 64 -> has_lamports s funder (value + record_price e) ->
  find_pda e (str "deposit" ++ le 16 seed) tp_id = Ok (dep, dn) -> vacant s dep ->
  okb c_tp_ix (TpCancel seed recipient value evers payload) = true -> blen (tk_name ts) + blen (tk_symbol ts) + blen payload <= 806 ->
  exists s', tp_call e ext (cancel_accounts funder (p_author w) mint k dep sk tsk mv) (TpCancel seed recipient value evers payload) s s' /\
    sol_request e s' k (p_with_meta w (WithLen (wl_len (p_meta w)) (WMeta WCancelled (wm_bounty (wl_data (p_meta w))) (wm_epoch (wl_data (p_meta w)))))) /\
    sol_deposit e s' dep (p_author w) seed (DSolEvent mint (tk_name ts) (tk_symbol ts) (tm_decimals md) (amount - fee) recipient value evers payload).
Proof.
  intros e ext s k w md sk tsk ts vault mv funder dep dn seed recipient value evers payload mint amount fee
    CK NN RQ ST LI ([stt [BS GE]] & TE) TM FF FU MV MU HL FD VA OI SZ.
  set (c := cancel_accounts funder (p_author w) mint k dep sk tsk mv). set (i := TpCancel seed recipient value evers payload) in *.
  pose proof (sol_filed_in _ _ _ _ RQ) as WI. destruct RQ as (OK_ & UW & _).
  destruct LI as (TS & [v0 KT] & n & vn & KA & PV). pose proof (ts_in _ _ _ _ _ _ TS KA) as TI. pose proof (token_len _ _ _ _ TS) as (TL & TB & TO). pose proof TS as (OT & UT & _).
  destruct (bridge_set _ _ _ _ BS) as (pd & pn & SI & FP).
  assert (KY : c_keys c = [funder; p_author w; mint; k; dep; sk; tsk; sys_id; rent_id; mv]) by reflexivity.
  assert (WS : c_sg c funder = true /\ c_wr c funder = true /\ c_sg c (p_author w) = true /\ c_wr c k = true /\ c_wr c dep = true /\ c_wr c mv = true)
    by (unfold c, cancel_accounts; repeat split; metas).
  destruct WS as (SF & WF & SA & WK & WD & WM).
  assert (V0 : 0 <= value < 2 ^ 64) by (change (okb c_u128 seed && (okb c_ever recipient && (okb c_u64 value && (true && okb c_bytes payload))) = true) in OI; rewrite !andb_true_iff in OI; change (2 ^ 64) with u64max; rewrite <- okb_u64; tauto).
  assert (PR : 0 < record_price e < u64max) by (unfold record_price, u64max; lia).
  pose proof HL as (HL1 & HL2 & HL3).
  assert (FM : funder <> mv) by (intros E; destruct MV as [MO _]; rewrite <- E, HL2 in MO; discriminate).
  destruct (pay_same c funder mv value s) as (s1 & PAY & SO & L1 & A1 & LS1 & T1); try assumption; try (rewrite KY; cbn [In]; tauto); try lia.
  { split; [lia|auto]. } { apply NN. }
  assert (AMT : 0 <= amount < 2 ^ 128).
  { apply unpack_ok in UW as (r & _ & OKW & _); [|typeclasses eauto]. revert OKW. unfold amount, event_of, c_wsol, c_prop. clear. intros H.
    destruct w as [i0 kd au rd rq pd_ [ln ev] mt sg]. cbn [c_iso okb c_pair fst snd p_init p_kind p_author p_round p_required p_pda p_event p_meta p_signers c_withlen wl_len wl_data] in *.
    unfold c_wsol_event in H. cbn [c_iso okb c_pair fst snd] in H. rewrite !andb_true_iff in H. change (2 ^ 128) with u128max. rewrite <- okb_u128. tauto. }
  apply okb_ts in TO. destruct TO as (_ & _ & _ & _ & _ & _ & _ & DA & _ & FSU & FDP & FW).
  assert (FMD : 0 <= fi_mul (tk_fee_dep ts) /\ 0 <= fi_div (tk_fee_dep ts)).
  { clear - FDP. unfold c_fee_info in FDP. cbn [c_iso okb c_pair fst snd] in FDP. apply andb_true_iff in FDP as [A B]. apply okb_u64 in A, B. lia. }
  assert (FE : fee_of u128max (tk_fee_dep ts) amount = Ok fee) by (apply fee_go128; [exact AMT|apply FMD|apply FMD|exact FF]).
  assert (F0 : 0 < fee) by (unfold fee, fee_on; lia).
  assert (CN : csub amount fee = Ok (amount - fee)) by (unfold csub; replace (fee <=? amount) with true by (destruct FF as [_ FF]; unfold fee; lia); reflexivity).
  assert (VA1 : vacant s1 dep).
  { unfold vacant. rewrite A1; [exact VA| |].
    - intros E. rewrite <- E in HL1. destruct VA as (VA & _). lia.
    - intros E. destruct MV as [MO _]. rewrite <- E in MO. destruct VA as (_ & VO & _). rewrite VO in MO. discriminate. }
  destruct (new_deposit_go e c funder dep seed dn s1) as (s2 & CR & O2 & D2 & A2 & LS2 & T2); try assumption; try reflexivity; try (rewrite KY; cbn [In]; tauto).
  { destruct (SO funder) as [X Y]. unfold has_lamports. rewrite L1, X, Y. split; [lia|auto]. }
  set (ev := DSolEvent mint (tk_name ts) (tk_symbol ts) (tm_decimals md) (amount - fee) recipient value evers payload).
  set (rec := Dep true (KDeposit dn) (p_author w) (dsol_event_new ev) (dep_meta_new seed)).
  set (lg := enc c_ev_deposit (EvDeposit k recipient (amount - fee) seed value evers (kb (e_hash e (enc c_dsol_event ev))))).
  set (s3 := put_log s2 lg).
  assert (RS : blen (enc c_dsol rec) <= TP_LEN).
  { unfold c_dsol. pose proof (size_dep (c_withlen c_dsol_event) (c_withlen c_u128) rec) as Z. unfold dsol in *. rewrite Z. cbn [rec d_kind d_event d_meta kind_len dsol_event_new dep_meta_new].
    unfold c_withlen. cbn [c_iso enc wl_len wl_data]. rewrite !blen_pair, !blen_u32, size_dsol_event, blen_u128. unfold ev, dsol_event_new. cbn [wl_data dse_name dse_symbol dse_payload].
    unfold TP_LEN. lia. }
  set (s4 := written c_dsol s3 dep rec).
  assert (DK : k <> dep) by (intros E; rewrite E in OK_; destruct VA as (_ & VO & _); rewrite VO in OK_; discriminate).
  assert (FK : k <> funder) by (intros E; rewrite E in OK_; rewrite HL2 in OK_; discriminate).
  assert (K4 : own (accs s4 k) = tp_id /\ dat (accs s4 k) = dat (accs s k)).
  { unfold s4, written. rewrite own_put_dat, accs_put_dat_other by exact DK. change (accs s3) with (accs s2). rewrite A2 by assumption. destruct (SO k) as [-> ->]. auto. }
  destruct K4 as [K4 K5].
  destruct (status_go (c_withlen c_wsol_event) c s s4 k w WCancelled k eq_refl WK K4) as (s' & E1 & E2); [|typeclasses eauto|exact UW|].
  { rewrite K5. apply unpack_ok in UW as (r & _ & _ & L & _); [exact L|typeclasses eauto]. }
  assert (R : tp_call e ext c i s s').
  { apply call_go; [reflexivity|exact CK|exact OI|]. apply sum_go.
    - cbn [tp_exec i]. unfold tp_cancel. rewrite KY. cbv beta iota. eapply bind_go; [apply guard_go; apply keqb_refl|].
      eapply bind_go; [apply guard_go; exact SA|]. eapply bind_go; [eapply live_go; [reflexivity|exact SI|exact GE]|].
      eapply bind_go; [apply wsol_go; [reflexivity|exact WI]|]. cbv beta iota. eapply bind_go; [apply guard_go; apply keqb_refl|].
      eapply bind_go; [apply guard_go; change (w_status w) with (status_of w); rewrite ST; reflexivity|].
      eapply bind_go; [eapply ts_sol_go; [reflexivity|exact TI|exact KT]|]. cbv beta iota. eapply bind_go; [unfold token_live; apply guard_go; rewrite TE; reflexivity|].
      eapply bind_go; [apply multivault_go; [reflexivity|exact MV]|]. eapply bind_go; [exact PAY|]. eapply bind_go; [reflexivity|]. cbv beta.
      eapply bind_go; [apply guard_go; rewrite keqb_refl; reflexivity|].
      eapply bind_go. { apply tmint_go. unfold tmint_in in *. destruct (SO mint) as [_ ->]. exact TM. }
      cbv beta. eapply bind_go; [apply guard_go; apply keqb_refl|].
      eapply bind_go. { unfold deposit_address. eapply bind_go; [apply lift_go; exact FD|]. cbv beta iota. eapply bind_go; [apply guard_go; apply keqb_refl|]. reflexivity. }
      cbv beta iota. eapply bind_go; [exact CR|]. cbv zeta. eapply bind_go; [apply lift_go; exact FE|]. cbv beta.
      eapply bind_go; [apply guard_go; unfold u64max; lia|].
      eapply bind_go; [apply lift_go; unfold cadd; replace (tk_fee_supply ts + fee <? u64max) with true by (symmetry; apply Z.ltb_lt; exact FU); reflexivity|].
      eapply bind_go; [apply lift_go; exact CN|]. cbv beta.
      eapply bind_go; [unfold emit_deposit; reflexivity|].
      apply (bind_go _ _ s3 tt s4). { apply (pack_at_go c c_dsol TP_LEN dep rec s3); [exact O2|exact WD|exact D2|exact RS]. }
      exact E1.
    - rewrite E2. unfold s4. rewrite lam_sum_written. change (lam_sum (c_keys c) s3) with (lam_sum (c_keys c) s2). rewrite LS2. exact LS1. }
  exists s'. split; [exact R|].
  destruct (C64_cancel e ext c seed recipient value evers payload s s' R) as (f' & a' & m' & k' & d' & sk' & t' & x & y & mv' & w' & ts' & v' & md' & rent & (rest & KE) & _ & (_ & UW' & _) & _ & _ & (_ & UT') & _ & TM' & (_ & SD) & _ & SR & _).
  rewrite KY in KE. injection KE as <- <- <- <- <- <- <- <- <- <- _.
  rewrite UW in UW'. injection UW' as <-. rewrite UT in UT'. injection UT' as <-. unfold tmint_in in *. fold mint in TM'. rewrite TM in TM'. injection TM' as <-.
  split; [exact SR|exact SD].
Qed.

(** * Examples *)

(** Demo states have non-negative balances and a sound clock, whatever the calls give. *)
Definition fine (s : state) : Prop := nonneg s /\ clock_ok s.
Lemma fine_nil : fine (demo_state []).
Proof. split; [apply demo_nonneg; reflexivity|]. vm_compute. split; [discriminate|reflexivity]. Qed.
Lemma fine0 : fine ts0.
Proof. split; [apply demo_nonneg; vm_compute; reflexivity|]. vm_compute. split; [discriminate|reflexivity]. Qed.
Lemma fine_tstp s x : fine s -> plain_call x = true -> fine (unres (tstp s x)).
Proof.
  intros [N CK] B. destruct (is_ok (tstp s x)) eqn:O.
  - split; [apply nonneg_tstp; assumption|]. unfold plain_call in B. rewrite !andb_true_iff in B. destruct B as [[B1 _] _].
    unfold clock_ok in *. rewrite (tstp_now s x B1 CK O). exact CK.
  - destruct (tstp s x); [discriminate O|]. exact fine_nil.
Qed.
Lemma fine_tstps l : forall s, fine s -> forallb plain_call l = true -> fine (unres (tstps s l)).
Proof.
  induction l as [|x l IH]; intros s F B; [exact F|]. cbn [forallb] in B. apply andb_true_iff in B as [B1 B2]. cbn [tstps].
  pose proof (fine_tstp s x F B1) as F1. destruct (tstp s x) as [s1|]; cbn [rbind]; [apply IH; [exact F1|exact B2]|exact fine_nil].
Qed.
Ltac fine_step := lazymatch goal with
  | |- fine (unres (tstp ?s ?x)) => refine (fine_tstp s x _ _); [|vm_compute; reflexivity]
  | |- fine (unres (tstps ?s ?l)) => refine (fine_tstps l s _ _); [|vm_compute; reflexivity] end.
Ltac fine_frozen := split; [apply frozen_nonneg; vm_compute; reflexivity|demo_now].
Lemma fine2 : fine ts2.
Proof. unfold ts2; fine_step. unfold ts1; fine_step. exact fine0. Qed.
Lemma fine11 : fine ts11.
Proof. fine_frozen. Qed.
Lemma fine14 : fine ts14.
Proof. fine_frozen. Qed.

(** The accounts of the demo states, computed once. *)
Definition keys11 : list key := [tw2; tw1; td1; ttsS; ttsE; tset; tmv; tvault; trecvS; tmintS; tmintE; trecvE; td2; tfunder; trecv; tuser; tpd; tman].
Definition x11 : list acct := Eval vm_compute in map (accs ts11) keys11.
Lemma x11_is : map (accs ts11) keys11 = x11.
Proof. vm_compute. reflexivity. Qed.
Definition no_acct : acct := Acct 0 key0 [].
Lemma at11 n k : nth_error keys11 n = Some k -> accs ts11 k = nth n x11 no_acct.
Proof. intros H. pose proof (map_nth_error (accs ts11) n keys11 H) as M. rewrite x11_is in M. symmetry. apply nth_error_nth. exact M. Qed.

Ltac in11 := cbv zeta; unfold the_wsol, the_wreq, the_req, the_meta, the_token, the_tok, the_mint, sol_filed, ever_filed, sol_listed, ever_listed, running, bridge_settings, token_settings_of,
  can_receive, mint_ready, can_send, accepts, deposit_stands, multivault_stands, request_at, tok_in, mint_in, tacc_in, tmint_in, balance, supply, vacant, has_lamports;
  rewrite ?(at11 0 tw2 eq_refl), ?(at11 1 tw1 eq_refl), ?(at11 2 td1 eq_refl), ?(at11 3 ttsS eq_refl), ?(at11 4 ttsE eq_refl), ?(at11 5 tset eq_refl), ?(at11 6 tmv eq_refl),
    ?(at11 7 tvault eq_refl), ?(at11 8 trecvS eq_refl), ?(at11 9 tmintS eq_refl), ?(at11 10 tmintE eq_refl), ?(at11 11 trecvE eq_refl), ?(at11 12 td2 eq_refl),
    ?(at11 13 tfunder eq_refl), ?(at11 14 trecv eq_refl), ?(at11 15 tuser eq_refl), ?(at11 16 tpd eq_refl), ?(at11 17 tman eq_refl).
Ltac ex_send := eexists; split; [split; ex_vm|]; split; [ex_vm|]; split; [ex_vm|]; split; [ex_vm|]; split; [ex_vm|]; split; [ex_vm|]; intros X; vm_compute in X; discriminate X.
Ltac ex_accept := eexists; split; [split; ex_vm|]; split; [ex_vm|]; split; ex_vm.

(** [tw2], pending in state [ts11], asked for by [trecv]. *)
Example C74_bounty_ex : let w := the_wsol ts11 tw2 in fine ts11 /\ sol_filed te ts11 tw2 w /\ status_of w = WPending /\ p_author w = trecv.
Proof. cbv zeta. split; [exact fine11|]. in11. split; [ex_request|]. split; ex_vm. Qed.
(** [tw1], paid, in state [ts11]. *)
Example C74_close_ex : let g := the_req ts11 tw1 in let m := the_meta ts11 tw1 in fine ts11 /\ request_at te ts11 tw1 g m /\ wm_status m = WProcessed /\
  p_author g = trecv /\ trecv <> tw1 /\ lam (accs ts11 trecv) + lam (accs ts11 tw1) < 2 ^ 64 /\ 0 < lam (accs ts11 tw1).
Proof.
  cbv zeta. split; [exact fine11|]. split; [demo_req|]. in11. split; [ex_vm|]. split; [ex_vm|]. split; [ex_vm|]. split; ex_vm.
Qed.
(** The deposit [td1] of [tuser]. *)
Example C74_close_deposit_ex : fine ts11 /\ deposit_stands te ts11 td1 tuser 1 /\ tuser <> td1 /\
  lam (accs ts11 tuser) + lam (accs ts11 td1) < 2 ^ 64 /\ 0 < lam (accs ts11 td1).
Proof.
  split; [exact fine11|]. in11. split.
  - split; [ex_vm|]. split; [ex_vm|]. eexists. exists 255. split; [ex_vm|]. split; [ex_vm|]. split; [ex_vm|]. split; ex_vm.
  - split; [ex_vm|]. split; ex_vm.
Qed.
(** The tokens in the proxy account [tproxyS] of [trecv] in state [ts14]. *)
Definition x14_tproxyS := Eval vm_compute in accs ts14 tproxyS.
Definition x14_trecvS := Eval vm_compute in accs ts14 trecvS.
Lemma x14_is : accs ts14 tproxyS = x14_tproxyS /\ accs ts14 trecvS = x14_trecvS.
Proof. apply (@pair_equal_spec acct acct). vm_compute. reflexivity. Qed.
Example C74_proxy_ex : fine ts14 /\ find_pda te (str "proxy" ++ kb tmintS ++ kb trecv) tp_id = Ok (tproxyS, 255) /\ tproxyS <> trecvS /\
  can_send ts14 tmintS tproxyS tproxyS trecvS 59970 /\ accepts ts14 tmintS trecvS 59970.
Proof.
  split; [exact fine14|]. destruct x14_is as [E1 E2]. unfold can_send, accepts, tok_in, tacc_in. rewrite ?E1, ?E2. clear.
  split; [ex_vm|]. split; [ex_vm|]. split; [ex_send|ex_accept].
Qed.
(** The manager takes 700 lamports out of the multi-vault, fees of 60 of the Solana token and of 40 of the
    Ever token. *)
Example C74_multivault_ex : fine ts11 /\ bridge_settings te ts11 tset (TpSettings true (KSettings 255 254) false tguard tman twman) /\ multivault_stands te ts11 tmv /\
  acts te ts11 tman tman [] /\ 700 <= lam (accs ts11 tmv) /\ tman <> tmv /\ lam (accs ts11 tman) + 700 < 2 ^ 64.
Proof.
  split; [exact fine11|]. in11. split; [ex_bridge|]. split; [split; [ex_vm|]; eexists; exists 255; split; [ex_vm|]; split; ex_vm|].
  split; [apply acts_role|]. split; [ex_vm|]. split; ex_vm.
Qed.
Example C74_sol_fee_ex : let ts := the_token ts11 ttsS in fine ts11 /\ bridge_settings te ts11 tset (TpSettings true (KSettings 255 254) false tguard tman twman) /\
  sol_listed te ts11 tmintS tvault ttsS ts /\ 60 <= tk_fee_supply ts /\ tvault <> trecvS /\ can_send ts11 tmintS tvault tvault trecvS 60 /\ accepts ts11 tmintS trecvS 60.
Proof.
  split; [exact fine11|]. in11. split; [ex_bridge|]. split; [ex_sol|]. split; [ex_vm|]. split; [ex_vm|]. split; [ex_send|ex_accept].
Qed.
Example C74_ever_fee_ex : let ts := the_token ts11 ttsE in let md := the_mint ts11 tmintE in fine ts11 /\
  bridge_settings te ts11 tset (TpSettings true (KSettings 255 254) false tguard tman twman) /\
  ever_listed te ts11 tever tmintE ttsE ts /\ 40 <= tk_fee_supply ts /\ mint_ready ts11 tmintE trecvE md 40 /\ accepts ts11 tmintE trecvE 40.
Proof.
  split; [exact fine11|]. in11. split; [ex_bridge|]. split; [ex_ever|]. split; [ex_vm|]. split; [|ex_accept].
  split; [split; ex_vm|]. split; [ex_vm|]. split; [ex_vm|]. intros r [_ R]. vm_compute in R. injection R as <-. reflexivity.
Qed.
(** [trecv] cancels [tw2] in state [ts11]: 700000 tokens become the deposit [td2]. *)
Example C74_cancel_ex : let w := the_wsol ts11 tw2 in let ts := the_token ts11 ttsS in let md := the_mint ts11 tmintS in
  let amount := wse_amount (event_of w) in
  fine ts11 /\ sol_filed te ts11 tw2 w /\ status_of w = WPending /\ wse_mint (event_of w) = tmintS /\ amount = 700000 /\ sol_listed te ts11 tmintS tvault ttsS ts /\ running te ts11 tset ts /\
  tmint_in ts11 tmintS md /\ fee_fits (tk_fee_dep ts) amount /\ tk_fee_supply ts + fee_on (tk_fee_dep ts) amount < 2 ^ 64 /\
  multivault_stands te ts11 tmv /\ lam (accs ts11 tmv) + 3000 < 2 ^ 64 /\ has_lamports ts11 tfunder (3000 + record_price te) /\
  find_pda te (str "deposit" ++ le 16 2) tp_id = Ok (td2, 255) /\ vacant ts11 td2 /\
  okb c_tp_ix (TpCancel 2 teverX 3000 (knum 72) []) = true /\ blen (tk_name ts) + blen (tk_symbol ts) + 0 <= 806.
Proof.
  cbv zeta. split; [exact fine11|]. in11. split; [ex_request|]. split; [ex_vm|]. split; [ex_vm|]. split; [ex_vm|]. split; [ex_sol|].
  split; [split; [eexists; split; [ex_bridge|reflexivity]|ex_vm]|]. split; [ex_vm|]. split; [split; ex_vm|]. split; [ex_vm|].
  split; [split; [ex_vm|]; eexists; exists 255; split; [ex_vm|]; split; ex_vm|]. split; [ex_vm|].
  split; [split; [ex_vm|]; split; ex_vm|]. split; [ex_vm|]. split; [split; [ex_vm|]; split; ex_vm|]. split; ex_vm.
Qed.
Print Assumptions C74_bounty.
Print Assumptions C74_close.
Print Assumptions C74_close_deposit.
Print Assumptions C74_proxy.
Print Assumptions C74_multivault.
Print Assumptions C74_sol_fee.
Print Assumptions C74_ever_fee.
Print Assumptions C74_cancel.
