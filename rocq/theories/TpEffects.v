(** One successful instruction of the token proxy seen from one account: the complete list of what
    can happen to the owner and data of the accounts of the token proxy.  Payload execution, which
    calls other programs, is treated in TpWorld. *)

From Coq Require Import ZifyBool ZifyNat ZifyN.
From Verif Require Export TpOk.
Ltac Zify.zify_post_hook ::= Z.div_mod_to_equations.

(** ** Records *)

(** The token proxy owns [k], which holds the record [x]. *)
Definition held {A} (cd : codec A) (ini : A -> bool) (s : state) (k : key) (x : A) : Prop :=
  own (accs s k) = tp_id /\ unpack cd TP_LEN ini (dat (accs s k)) = Ok x.
Definition tp_sets := held c_tp_settings gs_init.
Definition tp_mvault := held c_multi_vault mv_init.
Definition tp_token := held c_token_settings tk_init.
Definition tp_wever := held c_wever (@p_init _ _).
Definition tp_wsol := held c_wsol (@p_init _ _).
(** An address without data. *)
Definition unused (s : state) (k : key) : Prop := own (accs s k) = sys_id /\ dat (accs s k) = [].
(** [k] is not touched, or is and stays somebody else's. *)
Definition quietk (s s' : state) (k : key) : Prop :=
  same_od s s' k \/ (own (accs s k) <> tp_id /\ own (accs s' k) <> tp_id).

Lemma quietk_refl s k : quietk s s k.
Proof. left. apply same_od_refl. Qed.
Lemma quietk_same s s' k : same_od s s' k -> quietk s s' k.
Proof. left. assumption. Qed.
Lemma quietk_trans a b c k : quietk a b k -> quietk b c k -> quietk a c k.
Proof.
  intros [H|[H1 H2]] [G|[G1 G2]].
  - left. exact (same_od_trans _ _ _ _ H G).
  - right. destruct H as [H _]. rewrite <- H. auto.
  - right. destruct G as [G _]. rewrite G. auto.
  - right. auto.
Qed.
Lemma quietk_accs s s' k : accs s' k = accs s k -> quietk s s' k.
Proof. intros E. left. unfold same_od. rewrite E. auto. Qed.

Lemma minted_q s s' m d a k : minted s s' m d a -> quietk s s' k.
Proof.
  intros (b & mm & [T1 _] & [M1 _] & _ & _ & _ & [T2 _] & [M2 _] & SO & _).
  destruct (key_dec k m) as [->|N1]; [right; rewrite M1, M2; split; discriminate|].
  destruct (key_dec k d) as [->|N2]; [right; rewrite T1, T2; split; discriminate|].
  left. apply SO; assumption.
Qed.
Lemma moved_q s s' a b au z k : moved s s' a b au z -> quietk s s' k.
Proof.
  intros (x & y & dl & da & [T1 _] & [M1 _] & _ & _ & _ & E & D & SO & _).
  destruct (key_dec a b) as [X|N]; [rewrite (E X); apply quietk_refl|].
  destruct (D N) as [[T2 _] [M2 _]].
  destruct (key_dec k a) as [->|N1]; [right; rewrite T1, T2; split; discriminate|].
  destruct (key_dec k b) as [->|N2]; [right; rewrite M1, M2; split; discriminate|].
  left. apply SO; assumption.
Qed.
Lemma burned_q s s' a b au z k : burned s s' a b au z -> quietk s s' k.
Proof.
  intros (x & y & dl & da & [T1 _] & [M1 _] & _ & _ & _ & _ & _ & [T2 _] & [M2 _] & SO & _).
  destruct (key_dec k b) as [->|N1]; [right; rewrite M1, M2; split; discriminate|].
  destruct (key_dec k a) as [->|N2]; [right; rewrite T1, T2; split; discriminate|].
  left. apply SO; assumption.
Qed.
Lemma sol_paid_q e c w v d m sm vn a s s1 st k : sol_paid e c w v d m sm vn a s s1 st -> quietk s s1 k.
Proof. intros (t & _ & [(_ & -> & _)|(_ & M & _)]); [apply quietk_refl|]. eapply moved_q. exact M. Qed.
Lemma lpaid_q c s s' a b z k : lpaid c s s' a b z -> quietk s s' k.
Proof. intros (_ & _ & _ & SO & _). left. apply SO. Qed.
Lemma recorded_q {A} e c (cd : codec A) x f j l s s' k : recorded e c cd x f j l s s' -> k <> j -> quietk s s' k.
Proof. intros (_ & _ & SO & _) N. left. apply SO. exact N. Qed.
Lemma packed_q {A} c (cd : codec A) n s s' j x k : packed c cd n s s' j x -> k <> j -> quietk s s' k.
Proof. intros P N. left. eapply packed_od; eassumption. Qed.
Lemma registered_ever_q e c f m t ev s s' k : registered_ever e c f m t ev s s' -> k <> t -> quietk s s' k.
Proof.
  intros (mn & tn & ata & an & mm & tt_ & _ & _ & _ & _ & _ & _ & M1 & _ & [M2 _] & _ & _ & _ & _ & A1 & _ & [A2 _] & _ & _ & _ & _ & SO & _) N.
  destruct (key_dec k m) as [->|N1]; [right; rewrite M1, M2; split; discriminate|].
  destruct (key_dec k ata) as [->|N2]; [right; rewrite A1, A2; split; discriminate|].
  left. apply SO; assumption.
Qed.
Lemma registered_sol_q e c f v m t nm sy s s' k : registered_sol e c f v m t nm sy s s' -> k <> t -> quietk s s' k.
Proof.
  intros (vn & tn & tt_ & _ & _ & _ & V1 & _ & [V2 _] & _ & _ & _ & _ & _ & _ & SO & _) N.
  destruct (key_dec k v) as [->|N1]; [right; rewrite V1, V2; split; discriminate|].
  left. apply SO; assumption.
Qed.
Lemma proxy_eff_q e c p m r f a rest pn s s' k : proxy_eff e c p m r f a rest pn s s' -> quietk s s' k.
Proof.
  intros [(_ & _ & ->)|(_ & px & mint & tk & rr & n & s1 & _ & _ & _ & _ & O & M & L)]; [apply quietk_refl|].
  apply (quietk_trans s s1); [|eapply lpaid_q; exact L].
  destruct M as [(_ & (t & [T _] & _) & _ & SO & _)|[_ ->]]; [|apply quietk_refl].
  destruct (key_dec k px) as [->|N]; [right; rewrite O, T; split; discriminate|]. left. apply SO. exact N.
Qed.

(** A written record is the old bytes, or the token proxy's. *)
Lemma wrote_cases {A} c (cd : codec A) (L : Lawful cd) ini s s' k x y : c_pid c = tp_id ->
  wrote cd s s' k x -> (dat (accs s' k) = dat (accs s k) \/ own (accs s k) = c_pid c /\ c_wr c k = true) ->
  unpack cd TP_LEN ini (dat (accs s k)) = Ok y -> okb cd x = true -> ini x = true ->
  same_od s s' k \/ (held cd ini s k y /\ held cd ini s' k x).
Proof.
  intros Hp W [D|[O _]] U X I.
  - left. split; [apply W|exact D].
  - right. rewrite Hp in O. split; [split; assumption|]. split; [destruct W as [W _]; congruence|].
    apply unpack_init; [|exact I]. eapply wrote_unpack; [exact L|exact W| |exact X].
    eapply unpack_len; [exact L|exact U].
Qed.
Lemma packed_cases {A} c (cd : codec A) (L : Lawful cd) ini s s' k x y : c_pid c = tp_id ->
  packed c cd TP_LEN s s' k x ->
  unpack cd TP_LEN ini (dat (accs s k)) = Ok y -> okb cd x = true -> ini x = true ->
  same_od s s' k \/ (held cd ini s k y /\ held cd ini s' k x).
Proof.
  intros Hp P. eapply wrote_cases; [exact L|exact Hp|eapply packed_wrote; exact P|]. apply P.
Qed.
Lemma new_held {A} (cd : codec A) (L : Lawful cd) ini x s s' k :
  new_record cd TP_LEN x tp_id s s' k -> okb cd x = true -> ini x = true -> unused s k /\ held cd ini s' k x.
Proof.
  intros N X I. pose proof (new_unpack cd L _ _ _ _ _ _ N X) as U. destruct N as (A1 & A2 & A3 & _).
  split; [split; assumption|]. split; [exact A3|]. apply unpack_init; assumption.
Qed.
Lemma held_same {A} (cd : codec A) ini s s' k x : same_od s s' k -> held cd ini s k x -> held cd ini s' k x.
Proof. intros [O D] [H U]. unfold held. rewrite O, D. auto. Qed.
Lemma held_ok {A} (cd : codec A) (L : Lawful cd) ini s k x : held cd ini s k x -> okb cd x = true.
Proof. intros [_ U]. eapply okb_unpack; [exact L|exact U]. Qed.
Lemma held_init {A} (cd : codec A) (L : Lawful cd) ini s k x : held cd ini s k x -> ini x = true.
Proof. intros [_ U]. apply unpack_unchecked_init in U. apply U. Qed.

(** ** Causes *)

(** Settings account of the token proxy. *)
Definition settings_of (e : env) (s : state) (st : tp_settings) : Prop :=
  exists k pn, tp_settings_in e tp_id s k st pn.
(** Who may have changed the settings [st] to [st']. *)
Variant settings_cause (e : env) (c : ctx) (i : tp_ix) (s : state) (st st' : tp_settings) : Prop :=
| SC_role a : c_sg c a = true -> upgrade_auth e tp_id s a ->
    (exists g, i = TpChangeGuardian g /\ st' = gs_set st (gs_emergency st) g (gs_manager st) (gs_wmanager st)) \/
    (exists m, i = TpChangeManager m /\ st' = gs_set st (gs_emergency st) (gs_guardian st) m (gs_wmanager st)) \/
    (exists w, i = TpChangeWithdrawalManager w /\ st' = gs_set st (gs_emergency st) (gs_guardian st) (gs_manager st) w) \/
    (i = TpDisableEmergency /\ st' = gs_set st false (gs_guardian st) (gs_manager st) (gs_wmanager st)) ->
    settings_cause e c i s st st'
| SC_stop a : c_sg c a = true -> a = gs_guardian st \/ upgrade_auth e tp_id s a -> i = TpEnableEmergency ->
    st' = gs_set st true (gs_guardian st) (gs_manager st) (gs_wmanager st) ->
    settings_cause e c i s st st'.

Variant token_cause (e : env) (c : ctx) (i : tp_ix) (s : state) (ts ts' : token_settings) : Prop :=
| TC_admin a st : c_sg c a = true -> settings_of e s st -> entitled e tp_id s (token_role i st) a ->
    token_change i ts ts' -> token_cause e c i s ts ts'
| TC_start a : c_sg c a = true -> upgrade_auth e tp_id s a -> i = TpDisableTokenEmergency ->
    ts' = tk_set_emergency ts false -> token_cause e c i s ts ts'
| TC_deposit amount fee :
    ((exists seed r v ev p, i = TpDepositEver seed amount r v ev p) \/
     (exists seed n sy r v ev p, i = TpDepositSol seed n sy amount r v ev p)) ->
    fee_of u64max (tk_fee_dep ts) amount = Ok fee -> tk_fee_supply ts + fee < u64max -> tk_emergency ts = false ->
    ts' = tk_set_fee_supply ts (tk_fee_supply ts + fee) -> token_cause e c i s ts ts'
| TC_charge fee net : i = TpWithdrawEver \/ i = TpWithdrawSol ->
    0 <= net -> tk_fee_supply ts + fee < u64max -> spent ts (epoch_of (now s)) + net < u64max ->
    fee_of u64max (tk_fee_wdr ts) (fee + net) = Ok fee -> tk_emergency ts = false ->
    ts' = charge ts (epoch_of (now s)) fee net -> token_cause e c i s ts ts'
| TC_release a st net : i = TpApproveEver \/ i = TpApproveSol ->
    c_sg c a = true -> settings_of e s st -> entitled e tp_id s (gs_wmanager st) a ->
    0 <= net <= tk_wdamount ts -> tk_emergency ts = false ->
    ts' = tk_set_daily ts (tk_wepoch ts) (tk_wdamount ts - net) -> token_cause e c i s ts ts'
| TC_fee_out a st amount : i = TpWithdrawEverFee amount \/ i = TpWithdrawSolFee amount ->
    c_sg c a = true -> settings_of e s st -> entitled e tp_id s (gs_manager st) a ->
    0 <= amount <= tk_fee_supply ts -> ts' = tk_set_fee_supply ts (tk_fee_supply ts - amount) ->
    token_cause e c i s ts ts'.

(** Where new token settings [nt] at [k] come from. *)
Variant token_origin (e : env) (c : ctx) (i : tp_ix) (s : state) (k : key) (nt : token_settings) : Prop :=
| TO_ever withdrawal w tn mn mint : i = TpWithdrawEver -> hd_error (c_keys c) = Some withdrawal ->
    wever_in e tp_id s withdrawal w ->
    find_pda e (sd_ts_ever (token_hash e (wee_token (wl_data (p_event w))))) tp_id = Ok (k, tn) ->
    find_pda e (sd_mint (token_hash e (wee_token (wl_data (p_event w))))) tp_id = Ok (mint, mn) ->
    nt = new_token_settings (KTokenSettings tn mn)
           (TKEver mint (wee_token (wl_data (p_event w))) (wee_decimals (wl_data (p_event w))))
           (wee_name (wl_data (p_event w))) (wee_symbol (wl_data (p_event w))) ->
    token_origin e c i s k nt
| TO_sol seed name symbol amount recipient value evers payload tn vn mint vault :
    i = TpDepositSol seed name symbol amount recipient value evers payload ->
    find_pda e (sd_ts_sol mint) tp_id = Ok (k, tn) -> find_pda e (sd_vault mint) tp_id = Ok (vault, vn) ->
    nt = new_token_settings (KTokenSettings tn vn) (TKSol mint vault) name symbol ->
    token_origin e c i s k nt.

(** The status changes an instruction may make. *)
Definition wmove (i : tp_ix) (a b : wstatus) : bool :=
  match i, a, b with
  | TpWithdrawEver, WNew, (WProcessed | WWaitApprove | WWaitExecute) => true
  | TpWithdrawSol, WNew, (WProcessed | WPending | WWaitApprove | WWaitExecute) => true
  | TpWithdrawSol, WPending, (WProcessed | WWaitExecute) => true
  | TpApproveEver, WWaitApprove, (WProcessed | WWaitExecute) => true
  | TpApproveSol, WWaitApprove, (WProcessed | WPending | WWaitExecute) => true
  | TpCancel _ _ _ _ _, WPending, WCancelled => true
  | TpFill _ _ _ _ _ _, WPending, WProcessed => true
  | (TpExecutePayloadEver | TpExecutePayloadSol), WWaitExecute, WProcessed => true
  | _, _, _ => false
  end.
(** Position of the request in the account list. *)
Definition wpos (i : tp_ix) (c : ctx) (k : key) : Prop :=
  match i with
  | TpWithdrawEver | TpWithdrawSol | TpExecutePayloadEver | TpExecutePayloadSol => nth_error (c_keys c) 0 = Some k
  | TpApproveEver | TpApproveSol => nth_error (c_keys c) 2 = Some k
  | TpCancel _ _ _ _ _ => nth_error (c_keys c) 3 = Some k
  | TpFill _ _ _ _ _ _ => exists n, nth_error (c_keys c) (11 + 2 * n) = Some k
  | _ => False
  end.
Definition is_exec (i : tp_ix) : bool := match i with TpWithdrawEver | TpWithdrawSol => true | _ => false end.
Definition is_payload (i : tp_ix) : bool := match i with TpExecutePayloadEver | TpExecutePayloadSol => true | _ => false end.

(** Why an account may be closed. *)
Definition close_why (e : env) (c : ctx) (i : tp_ix) (s : state) (k author : key) : Prop :=
  (i = TpCloseDeposit /\ c_sg c author = true /\ exists g seed n,
     unpack_from_slice c_gdep (dat (accs s k)) = Ok g /\ try_from_slice c_u128 (d_meta g) = Some seed /\
     d_kind g = KDeposit n /\ find_pda e (sd_deposit seed) tp_id = Ok (k, n) /\ author = d_author g) \/
  (i = TpCloseWithdrawal /\ exists g m,
     unpack_from_slice c_gprop (dat (accs s k)) = Ok g /\ request_addr e tp_id k g (e_hash e (p_event g)) /\
     author = p_author g /\ try_from_slice c_wmeta (p_meta g) = Some m /\
     (wm_status m = WProcessed \/ wm_status m = WCancelled)).

Variant tp_effect (e : env) (c : ctx) (i : tp_ix) (s s' : state) (k : key) : Prop :=
| TE_quiet : quietk s s' k -> tp_effect e c i s s' k
| TE_init g m w auth sn pn : i = TpInitialize g m w -> c_sg c auth = true -> upgrade_auth e tp_id s auth ->
    find_pda e sd_settings tp_id = Ok (k, sn) -> unused s k ->
    tp_sets s' k (TpSettings true (KSettings sn pn) false g m w) -> tp_effect e c i s s' k
| TE_vault g m w mn : i = TpInitialize g m w -> find_pda e sd_multivault tp_id = Ok (k, mn) -> unused s k ->
    tp_mvault s' k (MultiVault true (KMultiVault mn)) -> tp_effect e c i s s' k
| TE_sets st st' pn : tp_sets s k st -> tp_sets s' k st' -> tp_settings_in e tp_id s k st pn ->
    settings_cause e c i s st st' -> tp_effect e c i s s' k
| TE_token_new nt ts' : unused s k -> tp_token s' k ts' -> token_origin e c i s k nt ->
    ts' = nt \/ token_cause e c i s nt ts' -> tp_effect e c i s s' k
| TE_token ts ts' vn : tp_token s k ts -> tp_token s' k ts' -> token_in e tp_id s k ts vn ->
    token_cause e c i s ts ts' -> tp_effect e c i s s' k
| TE_req_ever ts lt conf token name symbol decimals recipient amount payload attached author wn pn rls rr rlsk rpn rrk :
    i = TpWithdrawEverRequest ts lt conf token name symbol decimals recipient amount payload attached ->
    c_sg c author = true -> rl_settings_in e rl_id s rlsk rls rpn -> round_in e rl_id s rrk rr ->
    (let ev := WEverEvent token name symbol decimals amount recipient payload in
     find_pda e (sd_proposal (rr_number rr) ts lt conf (e_hash e (enc c_wever_event ev))) tp_id = Ok (k, wn) /\
     tp_wever s' k (new_request wn pn author rls rr ts lt conf (wever_event_new ev) (epoch_of (now s))) /\
     wl_len (wever_event_new ev) = blen (enc c_wever_event ev)) ->
    unused s k -> tp_effect e c i s s' k
| TE_req_sol ts lt conf recipient amount payload attached mint author wn pn rls rr rlsk rpn rrk tsk tks vn vault :
    i = TpWithdrawSolRequest ts lt conf recipient amount payload attached ->
    c_sg c author = true -> rl_settings_in e rl_id s rlsk rls rpn -> round_in e rl_id s rrk rr ->
    token_in e tp_id s tsk tks vn -> tk_kind tks = TKSol mint vault ->
    (let ev := WSolEvent mint amount recipient payload in
     find_pda e (sd_proposal (rr_number rr) ts lt conf (e_hash e (enc c_wsol_event ev))) tp_id = Ok (k, wn) /\
     tp_wsol s' k (new_request wn pn author rls rr ts lt conf (wsol_event_new ev) (epoch_of (now s))) /\
     wl_len (wsol_event_new ev) = blen (enc c_wsol_event ev)) ->
    unused s k -> tp_effect e c i s s' k
| TE_deposit seed dn : unused s k -> own (accs s' k) = tp_id -> find_pda e (sd_deposit seed) tp_id = Ok (k, dn) ->
    blen (dat (accs s' k)) = TP_LEN -> kind_at (dat (accs s' k)) = Some (KDeposit dn) -> tp_effect e c i s s' k
| TE_vote v relay rrk rest : i = TpVote v -> c_keys c = relay :: k :: rrk :: rest -> own (accs s k) = tp_id ->
    own (accs s' k) = tp_id -> vote_eff e c v relay k rrk s s' -> tp_effect e c i s s' k
| TE_bounty b w author : i = TpChangeBounty b -> c_sg c author = true ->
    author = p_author w \/ author = wse_recipient (wl_data (p_event w)) ->
    tp_wsol s k w -> request_addr e tp_id k w (wsol_hash e w) -> w_status w = WPending ->
    tp_wsol s' k (w_set_bounty w b) -> tp_effect e c i s s' k
| TE_ever w st' : tp_wever s k w -> request_addr e tp_id k w (wever_hash e w) ->
    wmove i (w_status w) st' = true -> wpos i c k -> (is_exec i = true -> p_required w <= w_confirms w) ->
    tp_wever s' k (w_set_status w st') -> tp_effect e c i s s' k
| TE_sol w st' : tp_wsol s k w -> request_addr e tp_id k w (wsol_hash e w) ->
    wmove i (w_status w) st' = true -> wpos i c k -> (is_exec i = true -> p_required w <= w_confirms w) ->
    tp_wsol s' k (w_set_status w st') -> tp_effect e c i s s' k
| TE_closed author : close_why e c i s k author -> own (accs s k) = tp_id ->
    deleted c s s' k author -> tp_effect e c i s s' k.

(** ** Administration *)

Lemma gs_set_ok st a b d f : okb c_tp_settings st = true -> okb c_tp_settings (gs_set st a b d f) = true.
Proof. rewrite !okb_gs. auto. Qed.
Lemma gs_set_init st a b d f : gs_init (gs_set st a b d f) = gs_init st.
Proof. reflexivity. Qed.
Lemma settings_init e pid s k st pn : tp_settings_in e pid s k st pn -> gs_init st = true.
Proof. intros [U _]. apply unpack_unchecked_init in U. apply U. Qed.
Lemma token_init e pid s k ts vn : token_in e pid s k ts vn -> tk_init ts = true.
Proof. intros [U _]. apply unpack_unchecked_init in U. apply U. Qed.

Lemma settings_packed e c i s s' sk st pn st' k : c_pid c = tp_id -> tp_settings_in e tp_id s sk st pn ->
  packed c c_tp_settings TP_LEN s s' sk st' -> okb c_tp_settings st' = true -> gs_init st' = true ->
  settings_cause e c i s st st' -> tp_effect e c i s s' k.
Proof.
  intros Hp V P X I C. destruct (key_dec k sk) as [->|N]; [|apply TE_quiet; eapply packed_q; eassumption].
  destruct (packed_cases c c_tp_settings _ gs_init s s' sk st' st Hp P (proj1 V) X I) as [Q|[H1 H2]].
  - apply TE_quiet. left. exact Q.
  - eapply TE_sets; eassumption.
Qed.
Lemma token_packed e c i s s1 s' tsk ts vn ts' k : c_pid c = tp_id -> token_in e tp_id s tsk ts vn ->
  (forall j, quietk s s1 j) -> same_od s s1 tsk ->
  packed c c_token_settings TP_LEN s1 s' tsk ts' -> okb c_token_settings ts' = true -> tk_init ts' = true ->
  token_cause e c i s ts ts' -> tp_effect e c i s s' k.
Proof.
  intros Hp V Q SO P X I C. destruct (key_dec k tsk) as [->|N].
  - assert (U : unpack c_token_settings TP_LEN tk_init (dat (accs s1 tsk)) = Ok ts) by (destruct SO as [_ ->]; apply V).
    destruct (packed_cases c c_token_settings _ tk_init s1 s' tsk ts' ts Hp P U X I) as [Q1|[H1 H2]].
    + apply TE_quiet. left. exact (same_od_trans _ _ _ _ SO Q1).
    + eapply TE_token; [|exact H2|exact V|exact C]. destruct SO as [O _]. split; [rewrite <- O; apply H1|apply V].
  - apply TE_quiet. apply (quietk_trans s s1); [apply Q|eapply packed_q; eassumption].
Qed.

Lemma admin_effect e c i f s s' k : c_pid c = tp_id ->
  admin_settings e c f s = Ok (tt, s') ->
  (forall st, okb c_tp_settings st = true -> okb c_tp_settings (f st) = true) ->
  (forall st, gs_init (f st) = gs_init st) ->
  (forall a st, c_sg c a = true -> upgrade_auth e tp_id s a -> settings_cause e c i s st (f st)) ->
  tp_effect e c i s s' k.
Proof.
  intros Hp H X I C. apply admin_settings_ok in H as (a & sk & rest & st & pn & K & S & V & U & P). rewrite Hp in *.
  eapply settings_packed; [exact Hp|exact V|exact P|apply X; eapply settings_ok; exact V|rewrite I; eapply settings_init; exact V|].
  eapply C; eassumption.
Qed.

Lemma enable_effect e c s s' k : c_pid c = tp_id -> tp_enable_emergency e c s = Ok (tt, s') ->
  tp_effect e c TpEnableEmergency s s' k.
Proof.
  intros Hp H. apply tp_enable_emergency_ok in H as (a & sk & rest & st & pn & K & S & V & U & P). rewrite Hp in *.
  eapply settings_packed; [exact Hp|exact V|exact P|apply gs_set_ok; eapply settings_ok; exact V|rewrite gs_set_init; eapply settings_init; exact V|].
  eapply SC_stop; [exact S|exact U|reflexivity|reflexivity].
Qed.

Lemma token_change_init i ts ts' : token_change i ts ts' -> tk_init ts' = tk_init ts.
Proof.
  destruct i; cbn [token_change]; try contradiction; try (intros ->; reflexivity).
  - destruct t; intros ->; reflexivity.
  - intros [-> _]; reflexivity.
Qed.

Lemma token_admin_effect e ext c i s s' k : c_pid c = tp_id -> okb c_tp_ix i = true -> tp_exec e ext c i s = Ok (tt, s') ->
  match i with TpChangeDepositLimit _ | TpChangeWithdrawalLimits _ _ | TpEnableTokenEmergency
             | TpUpdateFee _ _ _ | TpUpdateTokenName _ _ => True | _ => False end ->
  tp_effect e c i s s' k.
Proof.
  intros Hp Oi H M. apply token_admin_ok in H as (a & tsk & sk & rest & st & pn & ts & vn & ts' & s1 & K & S & VS & U & V & TC & E & P); [|exact M].
  rewrite Hp in *. eapply (token_packed e c i s s1 s' tsk ts vn ts'); [exact Hp|exact V| | |exact P| | |].
  - intros j. apply quietk_accs. rewrite E. reflexivity.
  - rewrite E. split; reflexivity.
  - eapply token_change_ok; [exact Oi|exact TC|eapply token_ok; exact V].
  - rewrite (token_change_init _ _ _ TC). eapply token_init. exact V.
  - eapply TC_admin; [exact S|exists sk, pn; exact VS|exact U|exact TC].
Qed.

Lemma disable_token_effect e c s s' k : c_pid c = tp_id -> tp_disable_token_emergency e c s = Ok (tt, s') ->
  tp_effect e c TpDisableTokenEmergency s s' k.
Proof.
  intros Hp H. apply tp_disable_token_emergency_ok in H as (a & tsk & sk & rest & st & pn & ts & vn & K & S & VS & U & V & P).
  rewrite Hp in *. eapply (token_packed e c _ s s s' tsk ts vn); [exact Hp|exact V| | |exact P| | |].
  - intros j. apply quietk_refl.
  - apply same_od_refl.
  - pose proof (token_ok _ _ _ _ _ _ V) as O. apply okb_ts in O. apply okb_ts. exact O.
  - change (tk_init ts = true). eapply token_init. exact V.
  - eapply TC_start; [exact S|exact U|reflexivity|reflexivity].
Qed.

Lemma initialize_effect e c g m w s s' k : c_pid c = tp_id -> tp_initialize e c g m w s = Ok (tt, s') ->
  tp_effect e c (TpInitialize g m w) s s' k.
Proof.
  intros Hp H. apply tp_initialize_ok in H as (f & ini & sk & mv & pd & sys & rest & sn & pn & mn & K & S & P & U & PS & PM & N & F1 & F2 & SO & _).
  rewrite Hp in *.
  assert (FN : forall A (cd : codec A) x j, fresh_record cd TP_LEN x tp_id s s' j -> new_record cd TP_LEN x tp_id s s' j).
  { intros A cd x j ((A1 & A2 & _) & A3 & A4). repeat split; assumption. }
  destruct (key_dec k sk) as [->|N1].
  { apply FN in F1. eapply TE_init; [reflexivity|exact S|exists pd, pn; auto|exact PS| |];
    eapply new_held in F1; try apply F1; try typeclasses eauto; try reflexivity;
    apply okb_gs; cbn [gs_kind]; apply ok_kind_2; eapply bump_ok; eassumption. }
  destruct (key_dec k mv) as [->|N2].
  { apply FN in F2. eapply TE_vault; [reflexivity|exact PM| |];
    eapply new_held in F2; try apply F2; try typeclasses eauto; try reflexivity;
    apply okb_mv; cbn [mv_kind]; apply ok_kind_1; eapply bump_ok; eassumption. }
  apply TE_quiet. left. apply SO; assumption.
Qed.

(** ** Fees and multi-vault *)
Lemma ix_amount_ever x : okb c_tp_ix (TpWithdrawEverFee x) = true -> 0 <= x < u64max.
Proof. cbn [okb c_tp_ix]. apply okb_u64. Qed.
Lemma ix_amount_sol x : okb c_tp_ix (TpWithdrawSolFee x) = true -> 0 <= x < u64max.
Proof. cbn [okb c_tp_ix]. apply okb_u64. Qed.
Lemma ix_amount_proxy x : okb c_tp_ix (TpWithdrawProxy x) = true -> 0 <= x < u64max.
Proof. cbn [okb c_tp_ix]. apply okb_u64. Qed.

Lemma ever_fee_effect e c x s s' k : c_pid c = tp_id -> 0 <= x < u64max -> tp_withdraw_ever_fee e c x s = Ok (tt, s') ->
  tp_effect e c (TpWithdrawEverFee x) s s' k.
Proof.
  intros Hp R H. apply tp_withdraw_ever_fee_ok in H as (a & mint & r & tsk & sk & y & rest & K & st & pn & ts & mn & m & tok & d & s1 & S & VS & U & V & KT & PM & _ & _ & LE & M & _ & _ & _ & P); [|lia].
  rewrite Hp in *. pose proof (token_ok _ _ _ _ _ _ V) as O.
  eapply (token_packed e c _ s s1 s' tsk ts mn); [exact Hp|exact V| | |exact P| | |].
  - intros j. eapply minted_q. exact M.
  - eapply minted_step; [exact M|eapply token_len; exact V].
  - apply fee_supply_ok; [exact O|]. apply okb_ts in O. lia.
  - change (tk_init ts = true). eapply token_init. exact V.
  - eapply TC_fee_out; [left; reflexivity|exact S|exists sk, pn; exact VS|exact U| |reflexivity]. lia.
Qed.
Lemma sol_fee_effect e c x s s' k : c_pid c = tp_id -> 0 <= x < u64max -> tp_withdraw_sol_fee e c x s = Ok (tt, s') ->
  tp_effect e c (TpWithdrawSolFee x) s s' k.
Proof.
  intros Hp R H. apply tp_withdraw_sol_fee_ok in H as (a & mint & tsk & r & sk & y & rest & K & st & pn & ts & mn & m & tok & s1 & S & VS & U & V & KT & PM & LE & M & _ & _ & _ & P); [|lia].
  rewrite Hp in *. pose proof (token_ok _ _ _ _ _ _ V) as O.
  eapply (token_packed e c _ s s1 s' tsk ts mn); [exact Hp|exact V| | |exact P| | |].
  - intros j. eapply moved_q. exact M.
  - eapply moved_step; [exact M|eapply token_len; exact V].
  - apply fee_supply_ok; [exact O|]. apply okb_ts in O. lia.
  - change (tk_init ts = true). eapply token_init. exact V.
  - eapply TC_fee_out; [right; reflexivity|exact S|exists sk, pn; exact VS|exact U| |reflexivity]. lia.
Qed.
Lemma multi_vault_effect e c x s s' k : tp_withdraw_multi_vault e c x s = Ok (tt, s') ->
  tp_effect e c (TpWithdrawMultiVault x) s s' k.
Proof.
  intros H. apply tp_withdraw_multi_vault_ok in H as (a & r & mv & sk & rest & st & pn & _ & _ & _ & _ & _ & _ & SO & _).
  apply TE_quiet. left. apply SO.
Qed.
Lemma proxy_effect e c x s s' k : 0 <= x -> tp_withdraw_proxy e c x s = Ok (tt, s') ->
  tp_effect e c (TpWithdrawProxy x) s s' k.
Proof.
  intros R H. apply tp_withdraw_proxy_ok in H as (a & r & px & mint & rest & n & _ & _ & _ & M & _); [|exact R].
  apply TE_quiet. eapply moved_q. exact M.
Qed.

(** ** Bounty, votes, closing *)
Lemma bounty_effect e c b s s' k : c_pid c = tp_id -> 0 <= b < u64max -> tp_change_bounty e c b s = Ok (tt, s') ->
  tp_effect e c (TpChangeBounty b) s s' k.
Proof.
  intros Hp R H. apply tp_change_bounty_ok in H as (a & wk & rest & w & K & S & V & ST & AU & P). rewrite Hp in *.
  destruct (key_dec k wk) as [->|N]; [|apply TE_quiet; eapply packed_q; eassumption].
  destruct V as [U RA]. pose proof (okb_unpack _ _ _ _ _ _ U) as O.
  assert (I : p_init w = true) by (apply unpack_unchecked_init in U; apply U).
  destruct (packed_cases c c_wsol _ (@p_init _ _) s s' wk _ w Hp P U (okb_set_bounty _ _ _ R O) I) as [Q|[H1 H2]].
  - apply TE_quiet. left. exact Q.
  - eapply TE_bounty; try eassumption. reflexivity.
Qed.
Lemma vote_effect e c v s s' k : c_pid c = tp_id -> tp_vote e c v s = Ok (tt, s') -> tp_effect e c (TpVote v) s s' k.
Proof.
  intros Hp H. apply tp_vote_ok in H as (r & wk & rrk & rest & K & V). pose proof V as V0.
  destruct V as (g & rr & n & old & S & NV & U & RA & RR & KR & PO & NE & [(_ & ->)|(-> & d & PK & D & OW & W & SO & _ & _ & _ & O & _)]).
  { apply TE_quiet. apply quietk_refl. }
  destruct (key_dec k wk) as [->|N]; [|apply TE_quiet; left; apply SO; exact N].
  rewrite Hp in O. eapply TE_vote; [reflexivity|exact K|exact O|congruence|exact V0].
Qed.
Lemma deleted_effect e c i s s' wk author k : c_pid c = tp_id -> close_why e c i s wk author ->
  deleted c s s' wk author -> tp_effect e c i s s' k.
Proof.
  intros Hp I D. destruct (key_dec k wk) as [->|N]; [|apply TE_quiet; left; apply D; exact N].
  pose proof D as D0. destruct D as (_ & O' & DD & _ & _ & _ & _ & [[O _]|Z]).
  - rewrite Hp in O. eapply TE_closed; eassumption.
  - destruct (key_dec (own (accs s wk)) tp_id) as [E|E].
    + eapply TE_closed; eassumption.
    + apply TE_quiet. right. split; [exact E|rewrite O'; discriminate].
Qed.
Lemma close_deposit_effect e c s s' k : c_pid c = tp_id -> tp_close_deposit e c s = Ok (tt, s') ->
  tp_effect e c TpCloseDeposit s s' k.
Proof.
  intros Hp H. apply tp_close_deposit_ok in H as (a & dk & rest & g & seed & n & K & S & U & T & KD & F & A & D). rewrite Hp in *.
  eapply deleted_effect; [exact Hp| |exact D]. left. split; [reflexivity|]. split; [exact S|]. exists g, seed, n. auto.
Qed.
Lemma close_withdrawal_effect e c s s' k : c_pid c = tp_id -> tp_close_withdrawal e c s = Ok (tt, s') ->
  tp_effect e c TpCloseWithdrawal s s' k.
Proof.
  intros Hp H. apply tp_close_withdrawal_ok in H as (wk & a & rest & g & m & K & U & RA & A & M & ST & D). rewrite Hp in *.
  eapply deleted_effect; [exact Hp| |exact D]. right. split; [reflexivity|]. exists g, m. auto.
Qed.

(** ** Executions and approvals *)

Lemma w_set_same {E} (w : prop E (withlen wmeta)) : w_set_status w (w_status w) = w.
Proof. destruct w as [a b d f g h i [l [x y z]] k]. reflexivity. Qed.
Lemma wrote_id {A} (cd : codec A) (L : Lawful cd) LEN ini s s' k x :
  unpack cd LEN ini (dat (accs s k)) = Ok x -> wrote cd s s' k x -> same_od s s' k.
Proof.
  intros U (O & D & _). split; [exact O|]. rewrite D. apply unpack_unchecked_init in U as [U _].
  apply unpack_unchecked_ok in U as (r & E & _); [|exact L]. rewrite E. f_equal.
  rewrite skipn_app, skipn_all, Nat.sub_diag. reflexivity.
Qed.

Lemma released_facts ts re ep net ts2 : released ts re ep net ts2 -> okb c_token_settings ts = true -> 0 <= net -> tk_init ts = true ->
  match ts2 with
  | None => True
  | Some t => t = tk_set_daily ts (tk_wepoch ts) (tk_wdamount ts - net) /\ 0 <= net <= tk_wdamount ts /\
              okb c_token_settings t = true /\ tk_init t = true end.
Proof.
  intros [[_ ->]|(_ & L & ->)] O N I; [exact Logic.I|]. split; [reflexivity|]. split; [lia|]. split; [|exact I].
  pose proof O as O2. apply okb_ts in O2. apply daily_ok; [exact O|apply O2|]. lia.
Qed.

(** Common shape: a payment [s -> s1], then token settings and request written. *)
Lemma settled_cases {E} (ce : codec E) (Le : Lawful ce) e c s s1 s' tsk ts vn ts2 wk (w : prop E (withlen wmeta)) st l k :
  c_pid c = tp_id -> token_in e tp_id s tsk ts vn ->
  unpack (c_prop ce (c_withlen c_wmeta)) TP_LEN (@p_init _ _) (dat (accs s wk)) = Ok w ->
  (forall j, quietk s s1 j) ->
  settled c (c_prop ce (c_withlen c_wmeta)) s s1 s' tsk ts2 wk (w_set_status w st) l ->
  match ts2 with None => True | Some t => okb c_token_settings t = true /\ tk_init t = true end ->
  quietk s s' k \/
  (k = wk /\ held (c_prop ce (c_withlen c_wmeta)) (@p_init _ _) s k w /\
     held (c_prop ce (c_withlen c_wmeta)) (@p_init _ _) s' k (w_set_status w st)) \/
  (k = tsk /\ exists t, ts2 = Some t /\ tp_token s k ts /\ tp_token s' k t).
Proof.
  intros Hp V U Q (NE & W & WD & WT & SO & _) C.
  assert (O : okb (c_prop ce (c_withlen c_wmeta)) w = true) by (eapply okb_unpack; [typeclasses eauto|exact U]).
  assert (I : p_init w = true) by (apply unpack_unchecked_init in U; apply U).
  destruct (key_dec k wk) as [->|N1].
  { destruct (wrote_cases c (c_prop ce (c_withlen c_wmeta)) _ (@p_init _ _) s s' wk (w_set_status w st) w Hp W WD U) as [X|X].
    - apply okb_set_status. exact O.
    - exact I.
    - left. left. exact X.
    - right. left. split; [reflexivity|exact X]. }
  destruct (key_dec k tsk) as [->|N2].
  { destruct ts2 as [t|]; cbn [wrote_ts] in WT; [|left; left; exact WT].
    destruct C as (X & TI). destruct WT as [WT WTD].
    destruct (wrote_cases c c_token_settings _ tk_init s s' tsk t ts Hp WT WTD (proj1 V) X TI) as [QQ|[H1 H2]].
    - left. left. exact QQ.
    - right. right. split; [reflexivity|]. exists t. auto. }
  left. apply (quietk_trans s s1); [apply Q|]. left. apply SO; assumption.
Qed.

Lemma dest_st e pid s kd pl m o d st : dest e pid s kd pl m o d st -> st = WProcessed \/ st = WWaitExecute.
Proof. intros [(_ & -> & _)|(_ & -> & _)]; auto. Qed.

Lemma charge_facts s ts fee net f amount : okb c_token_settings ts = true -> tk_init ts = true -> clock_ok s ->
  fee_of u64max f amount = Ok fee -> net = amount - fee -> 0 <= net ->
  tk_fee_supply ts + fee < u64max -> spent ts (epoch_of (now s)) + net < u64max ->
  okb c_token_settings (charge ts (epoch_of (now s)) fee net) = true /\
  tk_init (charge ts (epoch_of (now s)) fee net) = true.
Proof.
  intros O I C F N0 N1 B1 B2. split; [|exact I]. pose proof (fee_pos _ _ _ _ F).
  apply charge_ok; try assumption; try lia. apply epoch_ok. exact C.
Qed.

(** Execution from a state in which the token is registered. *)
Lemma ever_exec_cases e c w wk mint r tsk s s' k : c_pid c = tp_id -> clock_ok s -> 
  wever_in e tp_id s wk w -> ever_exec_eff e c w wk mint r tsk (now s) s s' ->
  quietk s s' k \/
  (k = wk /\ exists st', tp_wever s k w /\ wmove TpWithdrawEver (w_status w) st' = true /\
     p_required w <= w_confirms w /\ tp_wever s' k (w_set_status w st')) \/
  (k = tsk /\ exists ts vn ts', tp_token s k ts /\ tp_token s' k ts' /\ token_in e tp_id s k ts vn /\
     token_cause e c TpWithdrawEver s ts ts').
Proof.
  intros Hp C [U RA] (ts & mn & m & d & md & V & KT & EM & PM & TM & [[-> _]|(QU & ST & amount & fee & net & st & s1 & GA & F & NE & N0 & B1 & B2 & PAY & SE)]).
  { left. apply quietk_refl. }
  rewrite Hp in *.
  pose proof (token_ok _ _ _ _ _ _ V) as O. pose proof (token_init _ _ _ _ _ _ V) as I.
  pose proof (charge_facts s ts fee net _ amount O I C F NE N0 B1 B2) as X.
  assert (QQ : forall j, quietk s s1 j).
  { intros j. destruct PAY as [(_ & _ & ->)|(_ & _ & M & _)]; [apply quietk_refl|eapply minted_q; exact M]. }
  destruct (settled_cases (c_withlen c_wever_event) _ e c s s1 s' tsk ts mn _ wk w st _ k Hp V U QQ SE X) as [Q|[(-> & H1 & H2)|(-> & t & [= <-] & H1 & H2)]].
  - left. exact Q.
  - right. left. split; [reflexivity|]. exists st. split; [exact H1|]. split; [|split; [exact QU|exact H2]].
    rewrite ST. destruct PAY as [(_ & -> & _)|(_ & _ & _ & D & _)]; [reflexivity|]. apply dest_st in D as [->| ->]; reflexivity.
  - right. right. split; [reflexivity|]. exists ts, mn. eexists. split; [exact H1|]. split; [exact H2|]. split; [exact V|].
    eapply TC_charge; [left; reflexivity|exact N0|exact B1|exact B2| |exact EM|reflexivity].
    replace (fee + net) with amount by lia. exact F.
Qed.

Lemma token_cause_accs e c s s0 ts ts' : now s0 = now s ->
  token_cause e c TpWithdrawEver s0 ts ts' -> token_cause e c TpWithdrawEver s ts ts'.
Proof.
  intros N [a st S VS U TC|a S U X|a f X|f n X N0 B1 B2 F EM Y|a st n X|a st n X]; try discriminate;
    try (destruct X; discriminate).
  - destruct TC.
  - destruct X as [(? & ? & ? & ? & ? & X)|(? & ? & ? & ? & ? & ? & ? & X)]; discriminate.
  - rewrite N in *. eapply (TC_charge e c _ s ts ts' f n); assumption.
Qed.

Lemma withdraw_ever_effect e c s s' k : c_pid c = tp_id -> clock_ok s -> tp_withdraw_ever e c s = Ok (tt, s') ->
  tp_effect e c TpWithdrawEver s s' k.
Proof.
  intros Hp C H. apply tp_withdraw_ever_ok in H as (wk & mint & r & tsk & sk & x & y & z & u & rest & w & t & K & -> & V & (st & pn & VS & EM) & B).
  rewrite Hp in *.
  assert (Hk : nth_error (c_keys c) 0 = Some wk) by (rewrite K; reflexivity).
  destruct B as [(_ & _ & ->)|[(_ & X)|(L0 & f & rest' & s0 & RE & RG & V0 & X)]].
  - apply TE_quiet. apply quietk_refl.
  - destruct (ever_exec_cases e c w wk mint r tsk s s' k Hp C V X) as [Q|[(-> & st' & H1 & M & QU & H2)|(-> & ts & vn & ts' & H1 & H2 & V1 & TC)]].
    + apply TE_quiet. exact Q.
    + eapply TE_ever; [exact H1|apply V|exact M|exact Hk|intros _; exact QU|exact H2].
    + eapply TE_token; eassumption.
  - assert (NOW : now s0 = now s) by (destruct RG as (? & ? & ? & ? & ? & ? & RG); apply RG).
    assert (C0 : clock_ok s0) by (unfold clock_ok in *; rewrite NOW; exact C).
    rewrite <- NOW in X. pose proof RG as RG'.
    destruct RG' as (mn & tn & ata & an & mm & ta & PM & PT & _ & _ & _ & _ & _ & _ & _ & _ & _ & _ & _ & _ & _ & _ & _ & _ & _ & NR & _).
    rewrite Hp in *. destruct (wever_facts _ _ _ _ _ V) as (OW & DE & _).
    assert (OE : okb c_wever_event (wl_data (p_event w)) = true).
    { unfold c_wever, wever in OW. rewrite (okb_prop (c_withlen c_wever_event) (c_withlen c_wmeta)) in OW.
      rewrite !andb_true_iff in OW. destruct OW as (_ & _ & _ & _ & OW & _). rewrite okb_withlen, andb_true_iff in OW. apply OW. }
    set (ev := wl_data (p_event w)) in *.
    change (okb c_wever_event ev) with (okb c_ever (wee_token ev) && (okb c_string (wee_name ev) && (okb c_string (wee_symbol ev) && (okb c_u8 (wee_decimals ev) && (okb c_u128 (wee_amount ev) && (true && okb c_bytes (wee_payload ev))))))) in OE.
    rewrite !andb_true_iff in OE. destruct OE as (O1 & O2 & O3 & O4 & O5 & _ & O6).
    set (nt := new_token_settings (KTokenSettings tn mn) (TKEver mint (wee_token ev) (wee_decimals ev)) (wee_name ev) (wee_symbol ev)) in *.
    assert (ON : okb c_token_settings nt = true).
    { apply new_token_ok; try assumption; try (eapply bump_ok; eassumption).
      change (true && (okb c_ever (wee_token ev) && okb c_u8 (wee_decimals ev)) = true). rewrite O1, O4. reflexivity. }
    destruct (new_held c_token_settings _ tk_init nt s s0 tsk NR ON eq_refl) as [UN H0].
    assert (TO : token_origin e c TpWithdrawEver s tsk nt).
    { eapply TO_ever; [reflexivity|rewrite K; reflexivity|exact V|exact PT|exact PM|reflexivity]. }
    assert (NW : wk <> tsk). { intros ->. destruct UN as [_ UN]. apply wever_in_len in V. rewrite UN in V. discriminate. }
    destruct (ever_exec_cases e c w wk mint r tsk s0 s' k Hp C0 V0 X) as [Q|[(-> & st' & H1 & M & QU & H2)|(-> & ts & vn & ts' & H1 & H2 & V1 & TC)]].
    + destruct (key_dec k tsk) as [->|N].
      * destruct Q as [Q|[Q _]]; [|destruct H0 as [H0 _]; contradiction].
        eapply TE_token_new; [exact UN|eapply held_same; [exact Q|exact H0]|exact TO|left; reflexivity].
      * apply TE_quiet. apply (quietk_trans s s0); [|exact Q]. eapply registered_ever_q; [exact RG|exact N].
    + assert (SO : same_od s s0 wk). { eapply registered_other; [exact RG|]. apply blen_ne. eapply wever_in_len. exact V. }
      eapply TE_ever; [|apply V|exact M|exact Hk|intros _; exact QU|exact H2].
      destruct SO as [SO1 SO2]. destruct H1 as [HA HB]. split; [congruence|]. rewrite <- SO2. exact HB.
    + assert (ts = nt) by (destruct H1 as [_ U1], H0 as [_ U2]; congruence). subst ts.
      eapply TE_token_new; [exact UN|exact H2|exact TO|right]. eapply token_cause_accs; [exact NOW|exact TC].
Qed.

Lemma withdraw_sol_effect e c s s' k : c_pid c = tp_id -> clock_ok s -> tp_withdraw_sol e c s = Ok (tt, s') ->
  tp_effect e c TpWithdrawSol s s' k.
Proof.
  intros Hp C H. apply tp_withdraw_sol_ok in H as (wk & vk & r & tsk & mint & sk & x & y & rest & w & st & pn & K & [U RA] & VS & GE & B).
  rewrite Hp in *. destruct B as (ts & vn & sv & V & KT & EM & PV & [[-> _]|(QU & fee & net & st' & s1 & F & NE & N0 & B)]).
  { apply TE_quiet. apply quietk_refl. }
  rewrite Hp in *. pose proof (token_ok _ _ _ _ _ _ V) as O. pose proof (token_init _ _ _ _ _ _ V) as I.
  assert (Hk : nth_error (c_keys c) 0 = Some wk) by (rewrite K; reflexivity).
  assert (ID : forall ts2 l, settled c c_wsol s s1 s' tsk ts2 wk (w_set_status w st') l -> st' = w_status w -> same_od s s' wk).
  { intros ts2 l SE ->. rewrite w_set_same in SE. eapply wrote_id; [|exact U|apply SE]. typeclasses eauto. }
  destruct B as [(ST & B1 & B2 & PAY & SE)|[(ST & PAY & SE)|(S1 & S2 & E & -> & SE)]].
  - pose proof (charge_facts s ts fee net _ _ O I C F NE N0 B1 B2) as X.
    assert (QQ : forall j, quietk s s1 j).
    { intros j. destruct PAY as [(_ & _ & ->)|(_ & _ & M)]; [apply quietk_refl|eapply sol_paid_q; exact M]. }
    destruct (settled_cases (c_withlen c_wsol_event) _ e c s s1 s' tsk ts vn _ wk w st' _ k Hp V U QQ SE X) as [Q|[(-> & H1 & H2)|(-> & t & [= <-] & H1 & H2)]].
    + apply TE_quiet. exact Q.
    + eapply TE_sol; [exact H1|exact RA| |exact Hk|intros _; exact QU|exact H2]. rewrite ST.
      destruct PAY as [(_ & -> & _)|(_ & _ & (v & _ & [(-> & _)|(_ & _ & D & _)]))]; [reflexivity|reflexivity|].
      apply dest_st in D as [->| ->]; reflexivity.
    + eapply TE_token; [exact H1|exact H2|exact V|].
      eapply TC_charge; [right; reflexivity|exact N0|exact B1|exact B2| |exact EM|reflexivity].
      replace (fee + net) with (wrap64 (wse_amount (wl_data (p_event w)))) by lia. exact F.
  - assert (QQ : forall j, quietk s s1 j) by (intros j; eapply sol_paid_q; exact PAY).
    destruct (settled_cases (c_withlen c_wsol_event) _ e c s s1 s' tsk ts vn _ wk w st' _ k Hp V U QQ SE Logic.I) as [Q|[(-> & H1 & H2)|(-> & t & [=] & H1 & H2)]].
    + apply TE_quiet. exact Q.
    + destruct PAY as (v & _ & [(-> & _)|(_ & _ & D & _)]).
      * apply TE_quiet. left. eapply ID; [exact SE|congruence].
      * eapply TE_sol; [exact H1|exact RA| |exact Hk|intros _; exact QU|exact H2]. rewrite ST.
        apply dest_st in D as [->| ->]; reflexivity.
  - assert (QQ : forall j, quietk s s j) by (intros j; apply quietk_refl).
    destruct (settled_cases (c_withlen c_wsol_event) _ e c s s s' tsk ts vn _ wk w st' _ k Hp V U QQ SE Logic.I) as [Q|[(-> & H1 & H2)|(-> & t & [=] & H1 & H2)]].
    + apply TE_quiet. exact Q.
    + apply TE_quiet. left. eapply ID; [exact SE|exact E].
Qed.

Lemma released_cause e c i s a st ts re ep net ts2 : released ts re ep net ts2 ->
  i = TpApproveEver \/ i = TpApproveSol -> okb c_token_settings ts = true -> 0 <= net -> tk_init ts = true -> tk_emergency ts = false ->
  c_sg c a = true -> settings_of e s st -> entitled e tp_id s (gs_wmanager st) a ->
  match ts2 with None => True | Some t => (okb c_token_settings t = true /\ tk_init t = true) /\ token_cause e c i s ts t end.
Proof.
  intros R I O N T EM S VS EN. pose proof (released_facts _ _ _ _ _ R O N T) as X. destruct ts2 as [t|]; [|exact Logic.I].
  destruct X as (-> & B & X1 & X2). split; [split; assumption|]. eapply TC_release; [exact I|exact S|exact VS|exact EN|exact B|exact EM|reflexivity].
Qed.

Lemma approve_ever_effect e c s s' k : c_pid c = tp_id -> tp_approve_ever e c s = Ok (tt, s') ->
  tp_effect e c TpApproveEver s s' k.
Proof.
  intros Hp H. apply tp_approve_ever_ok in H as (a & mint & wk & r & tsk & sk & x & y & rest & w & K & B).
  destruct B as (ts & mn & m & d & md & st & pn & S & VS & GE & EN & [U RA] & ST & V & KT & EM & PM & TM & amount & fee & net & st' & s1 & ts2 & GA & F & NE & N0 & M & D & _ & _ & _ & R & SE).
  rewrite Hp in *. pose proof (token_ok _ _ _ _ _ _ V) as O. pose proof (token_init _ _ _ _ _ _ V) as I.
  assert (QQ : forall j, quietk s s1 j) by (intros j; eapply minted_q; exact M).
  pose proof (released_cause e c TpApproveEver s a st _ _ _ _ _ R (or_introl eq_refl) O N0 I EM S (ex_intro _ sk (ex_intro _ pn VS)) EN) as X.
  assert (X1 : match ts2 with None => True | Some t => okb c_token_settings t = true /\ tk_init t = true end) by (destruct ts2; [apply X|exact X]).
  destruct (settled_cases (c_withlen c_wever_event) _ e c s s1 s' tsk ts mn _ wk w st' _ k Hp V U QQ SE X1) as [Q|[(-> & H1 & H2)|(-> & t & -> & H1 & H2)]].
  - apply TE_quiet. exact Q.
  - eapply TE_ever; [exact H1|exact RA| |cbn [wpos]; rewrite K; reflexivity|discriminate|exact H2]. rewrite ST.
    apply dest_st in D as [->| ->]; reflexivity.
  - eapply TE_token; [exact H1|exact H2|exact V|apply X].
Qed.

Lemma approve_sol_effect e c s s' k : c_pid c = tp_id -> tp_approve_sol e c s = Ok (tt, s') ->
  tp_effect e c TpApproveSol s s' k.
Proof.
  intros Hp H. apply tp_approve_sol_ok in H as (a & vk & wk & r & tsk & sk & x & y & rest & w & K & B).
  destruct B as (ts & vn & sv & st & pn & S & VS & GE & EN & [U RA] & ST & V & KT & EM & PM & fee & net & st' & s1 & ts2 & F & NE & N0 & M & R & SE).
  rewrite Hp in *. pose proof (token_ok _ _ _ _ _ _ V) as O. pose proof (token_init _ _ _ _ _ _ V) as I.
  assert (QQ : forall j, quietk s s1 j) by (intros j; eapply sol_paid_q; exact M).
  pose proof (released_cause e c TpApproveSol s a st _ _ _ _ _ R (or_intror eq_refl) O N0 I EM S (ex_intro _ sk (ex_intro _ pn VS)) EN) as X.
  assert (X1 : match ts2 with None => True | Some t => okb c_token_settings t = true /\ tk_init t = true end) by (destruct ts2; [apply X|exact X]).
  destruct (settled_cases (c_withlen c_wsol_event) _ e c s s1 s' tsk ts vn _ wk w st' _ k Hp V U QQ SE X1) as [Q|[(-> & H1 & H2)|(-> & t & -> & H1 & H2)]].
  - apply TE_quiet. exact Q.
  - eapply TE_sol; [exact H1|exact RA| |cbn [wpos]; rewrite K; reflexivity|discriminate|exact H2]. rewrite ST.
    destruct M as (v & _ & [(-> & _)|(_ & _ & D & _)]); [reflexivity|]. apply dest_st in D as [->| ->]; reflexivity.
  - eapply TE_token; [exact H1|exact H2|exact V|apply X].
Qed.

(** ** Requests *)
Lemma ix_ever_request ts lt conf token name symbol decimals recipient amount payload attached :
  okb c_tp_ix (TpWithdrawEverRequest ts lt conf token name symbol decimals recipient amount payload attached) = true ->
  okb c_u32 ts = true /\ okb c_u64 lt = true /\
  okb c_wever_event (WEverEvent token name symbol decimals amount recipient payload) = true /\ okb c_u64 attached = true.
Proof.
  intros O.
  change (okb c_u32 ts && (okb c_u64 lt && (true && (okb c_ever token && (okb c_string name && (okb c_string symbol && (okb c_u8 decimals &&
    (true && (okb c_u128 amount && (okb c_bytes payload && okb c_u64 attached))))))))) = true) in O.
  rewrite !andb_true_iff in O. destruct O as (O1 & O2 & _ & O3 & O4 & O5 & O6 & _ & O7 & O8 & O9).
  split; [exact O1|]. split; [exact O2|]. split; [|exact O9].
  change (okb c_ever token && (okb c_string name && (okb c_string symbol && (okb c_u8 decimals && (okb c_u128 amount && (true && okb c_bytes payload))))) = true).
  rewrite O3, O4, O5, O6, O7, O8. reflexivity.
Qed.
Lemma ix_sol_request ts lt conf recipient amount payload attached mint :
  okb c_tp_ix (TpWithdrawSolRequest ts lt conf recipient amount payload attached) = true ->
  okb c_u32 ts = true /\ okb c_u64 lt = true /\ okb c_wsol_event (WSolEvent mint amount recipient payload) = true /\
  okb c_u64 attached = true.
Proof.
  intros O.
  change (okb c_u32 ts && (okb c_u64 lt && (true && (true && (okb c_u128 amount && (okb c_bytes payload && okb c_u64 attached))))) = true) in O.
  rewrite !andb_true_iff in O. destruct O as (O1 & O2 & _ & _ & O7 & O8 & O9).
  split; [exact O1|]. split; [exact O2|]. split; [|exact O9].
  change (true && (okb c_u128 amount && (true && okb c_bytes payload)) = true). rewrite O7, O8. reflexivity.
Qed.

Lemma proxy_eff_pn e c p m r f a rest pn s s' : proxy_eff e c p m r f a rest pn s s' ->
  forall n, pn = Some n -> okb c_u8 n = true.
Proof.
  intros [(_ & -> & _)|(_ & px & mint & tk & rr & n & s1 & _ & _ & -> & F & _)] m0 E; [discriminate|].
  injection E as <-. eapply bump_ok. exact F.
Qed.

Lemma new_request_ok {E} (ce : codec E) wn pn author rls rr ts lt conf (ev : withlen E) ep :
  okb c_u8 wn = true -> (forall n, pn = Some n -> okb c_u8 n = true) -> okb c_rl_settings rls = true -> okb c_relay_round rr = true ->
  okb c_u32 ts = true -> okb c_u64 lt = true -> 0 <= wl_len ev < u32max -> okb ce (wl_data ev) = true -> - i64max <= ep < i64max ->
  okb (c_prop (c_withlen ce) (c_withlen c_wmeta)) (new_request wn pn author rls rr ts lt conf ev ep) = true.
Proof.
  intros H1 H2 H3 H4 H5 H6 H7 H8 H9. apply okb_round_parts in H4 as (_ & R1 & R2 & R3).
  apply okb_sets_parts in H3 as (_ & S1 & S2 & S3). unfold new_request.
  rewrite (okb_prop (c_withlen ce) (c_withlen c_wmeta)).
  cbn [p_init p_kind p_author p_round p_required p_pda p_event p_meta p_signers].
  rewrite !andb_true_iff. rewrite !okb_u32, okb_votes, !okb_withlen.
  pose proof (two_thirds_range (blen (rr_relays rr))).
  change (okb c_pda (Pda ts lt conf)) with (okb c_u32 ts && (okb c_u64 lt && true)). rewrite H5, H6.
  unfold blen. rewrite repeat_length. fold (blen (rr_relays rr)). rewrite Z.ltb_lt.
  unfold required_votes. split; [apply ok_kind_p; assumption|]. split; [lia|]. split; [lia|]. split; [reflexivity|].
  split; [rewrite !andb_true_iff, Z.leb_le, Z.ltb_lt; tauto|]. split; [|exact R3].
  unfold wmeta_new. cbn [wl_len wl_data]. rewrite !andb_true_iff. split; [split; reflexivity|].
  apply okb_wmeta. cbn [wm_bounty wm_epoch]. unfold u64max. lia.
Qed.

Lemma recorded_small {A} e c (cd : codec A) x f k l s s' : recorded e c cd x f k l s s' -> blen (enc cd x) <= TP_LEN.
Proof.
  intros ((_ & _ & _ & r & D & _ & L) & _). rewrite D, blen_app in L. pose proof (blen_nonneg r). lia.
Qed.

(** The account [k] after [request_tail]. *)
Lemma tail_cases {E} (ce : codec E) (Le : Lawful ce) e c f author wk rls rr ts lt conf ev evb pn ep tok rcp amt s s' k :
  c_pid c = tp_id -> tail_eff e c ce f author wk rls rr ts lt conf ev evb pn ep tok rcp amt s s' ->
  quietk s s' k \/
  (k = wk /\ exists wn,
     let x := new_request wn pn author rls rr ts lt conf ev ep in
     find_pda e (sd_proposal (rr_number rr) ts lt conf (e_hash e evb)) tp_id = Ok (k, wn) /\
     blen (enc (c_prop ce (c_withlen c_wmeta)) x) <= TP_LEN /\ lam (accs s k) = 0 /\
     new_record (c_prop ce (c_withlen c_wmeta)) TP_LEN x tp_id s s' k).
Proof.
  intros Hp (wn & F & [[_ ->]|(L0 & s1 & R & P)]); rewrite Hp in *.
  { left. apply quietk_refl. }
  destruct (key_dec k wk) as [->|N].
  - right. split; [reflexivity|]. exists wn. split; [exact F|]. split; [eapply recorded_small; exact R|]. split; [exact L0|].
    destruct R as [R _]. rewrite Hp in R. eapply new_record_same_od; [apply same_od_refl|exact R|]. apply P.
  - left. apply (quietk_trans s s1); [eapply recorded_q; eassumption|eapply lpaid_q; exact P].
Qed.

Lemma proxy_eff_sys e c p m r f a rest pn s s' k : proxy_eff e c p m r f a rest pn s s' -> own (accs s' k) = sys_id -> same_od s s' k.
Proof.
  intros [(_ & _ & ->)|(_ & px & mint & tk & rr & n & s1 & _ & _ & _ & _ & O & M & L)] U; [apply same_od_refl|].
  assert (SL : same_od s1 s' k) by apply L.
  assert (U1 : own (accs s1 k) = sys_id) by (destruct SL as [SL _]; congruence).
  destruct M as [(_ & (t & [T _] & _) & _ & SO & _)|[_ ->]]; [|exact SL].
  destruct (key_dec k px) as [->|N]; [rewrite U1 in T; discriminate|]. exact (same_od_trans _ _ _ _ (SO _ N) SL).
Qed.

(** The record of a new request is readable, and its event length is the true one. *)
Lemma request_cases {E} (ce : codec E) (Le : Lawful ce) e c f author wk rls rr ts lt conf (ev : withlen E) evb pn tok rcp amt p m r0 att rest s s1 s' rlsk rpn rrk k :
  c_pid c = tp_id -> clock_ok s -> okb c_u32 ts = true -> okb c_u64 lt = true -> okb ce (wl_data ev) = true ->
  0 <= wl_len ev < u32max ->
  rl_settings_in e rl_id s rlsk rls rpn -> round_in e rl_id s rrk rr ->
  proxy_eff e c p m r0 f att rest pn s s1 ->
  tail_eff e c (c_withlen ce) f author wk rls rr ts lt conf ev evb pn (epoch_of (now s)) tok rcp amt s1 s' ->
  quietk s s' k \/
  (k = wk /\ exists wn,
     find_pda e (sd_proposal (rr_number rr) ts lt conf (e_hash e evb)) tp_id = Ok (k, wn) /\ unused s k /\
     blen (enc ce (wl_data ev)) < u32max /\
     held (c_prop (c_withlen ce) (c_withlen c_wmeta)) (@p_init _ _) s' k
       (new_request wn pn author rls rr ts lt conf ev (epoch_of (now s)))).
Proof.
  intros Hp C O1 O2 O3 O4 VR VO PX T.
  assert (Q1 : forall j, quietk s s1 j) by (intros j; eapply proxy_eff_q; exact PX).
  destruct (tail_cases (c_withlen ce) _ e c f author wk rls rr ts lt conf _ _ pn _ _ _ _ s1 s' k Hp T) as [Q|(-> & wn & F & LE & _ & NR)].
  { left. exact (quietk_trans _ _ _ _ (Q1 k) Q). }
  right. split; [reflexivity|]. exists wn. split; [exact F|].
  destruct (new_held (c_prop (c_withlen ce) (c_withlen c_wmeta)) _ (@p_init _ _) _ s1 s' wk NR) as [UN HH].
  { apply new_request_ok; try assumption.
    - eapply bump_ok; exact F.
    - eapply proxy_eff_pn; exact PX.
    - destruct VR as [VR _]. eapply okb_unpack; [typeclasses eauto|exact VR].
    - destruct VO as [VO _]. eapply okb_unpack; [typeclasses eauto|exact VO].
    - apply epoch_ok. exact C. }
  { reflexivity. }
  split.
  { destruct UN as [UA UB]. destruct (proxy_eff_sys _ _ _ _ _ _ _ _ _ _ _ _ PX UA) as [SA SB]. split; congruence. }
  split; [|exact HH].
  rewrite size_prop in LE. unfold new_request in LE. cbn [p_kind p_event p_meta p_signers] in LE.
  destruct ev as [n ev]. cbn [wl_data] in *. rewrite blen_withlen in LE.
  pose proof (kind_len_range (KProposal wn pn)). pose proof (blen_nonneg (repeat VNone (length (rr_relays rr)))).
  pose proof (blen_nonneg (enc (c_withlen c_wmeta) (wmeta_new 0 (epoch_of (now s))))).
  unfold TP_LEN, u32max in *. lia.
Qed.

Lemma ever_request_effect e c ts lt conf token name symbol decimals recipient amount payload attached s s' k :
  let i := TpWithdrawEverRequest ts lt conf token name symbol decimals recipient amount payload attached in
  c_pid c = tp_id -> clock_ok s -> okb c_tp_ix i = true ->
  tp_withdraw_ever_request e c ts lt conf token name symbol decimals recipient amount payload attached s = Ok (tt, s') ->
  tp_effect e c i s s' k.
Proof.
  intros i Hp C O H. apply tp_withdraw_ever_request_ok in H as (f & a & wk & rlsk & rrk & x & y & z & rest & K & B).
  destruct B as (rls & rpn & rr & pn & s1 & S & _ & _ & VR & VO & _ & PX & T).
  apply ix_ever_request in O as (O1 & O2 & O3 & O4).
  set (ev := WEverEvent token name symbol decimals amount recipient payload) in *.
  assert (WR : 0 <= wl_len (wever_event_new ev) < u32max) by (unfold wever_event_new; cbn [wl_len]; unfold wrap32, u32max; lia).
  destruct (request_cases c_wever_event _ e c f a wk rls rr ts lt conf (wever_event_new ev) _ pn _ _ _ _ _ _ _ _ s s1 s' rlsk rpn rrk k Hp C O1 O2 O3 WR VR VO PX T)
    as [Q|(-> & wn & F & UN & SM & HH)].
  - apply TE_quiet. exact Q.
  - eapply TE_req_ever; [reflexivity|exact S|exact VR|exact VO| |exact UN].
    cbv zeta. split; [exact F|]. split; [exact HH|]. apply wever_len. exact SM.
Qed.

Lemma sol_request_effect e c ts lt conf recipient amount payload attached s s' k :
  let i := TpWithdrawSolRequest ts lt conf recipient amount payload attached in
  c_pid c = tp_id -> clock_ok s -> okb c_tp_ix i = true ->
  tp_withdraw_sol_request e c ts lt conf recipient amount payload attached s = Ok (tt, s') ->
  tp_effect e c i s s' k.
Proof.
  intros i Hp C O H. apply tp_withdraw_sol_request_ok in H as (f & a & wk & tsk & rlsk & rrk & x & y & z & rest & K & B).
  destruct B as (tks & vn & sv & mint & rls & rpn & rr & pn & s1 & S & V & KT & VR & VO & _ & PX & T).
  apply (ix_sol_request _ _ _ _ _ _ _ mint) in O as (O1 & O2 & O3 & O4).
  set (ev := WSolEvent mint amount recipient payload) in *. rewrite Hp in V.
  assert (WR : 0 <= wl_len (wsol_event_new ev) < u32max) by (unfold wsol_event_new; cbn [wl_len]; unfold wrap32, u32max; lia).
  destruct (request_cases c_wsol_event _ e c f a wk rls rr ts lt conf (wsol_event_new ev) _ pn _ _ _ _ _ _ _ _ s s1 s' rlsk rpn rrk k Hp C O1 O2 O3 WR VR VO PX T)
    as [Q|(-> & wn & F & UN & SM & HH)].
  - apply TE_quiet. exact Q.
  - eapply TE_req_sol; [reflexivity|exact S|exact VR|exact VO|exact V|exact KT| |exact UN].
    cbv zeta. split; [exact F|]. split; [exact HH|]. apply wsol_len. exact SM.
Qed.

(** ** Deposits *)
Lemma recorded_deposit {E} (ce : codec E) e c dn author (ev : E) seed f dk l s s' : c_pid c = tp_id ->
  find_pda e (sd_deposit seed) tp_id = Ok (dk, dn) ->
  recorded e c (c_dep ce (c_withlen c_u128)) (Dep true (KDeposit dn) author ev (dep_meta_new seed)) f dk l s s' ->
  unused s dk /\ own (accs s' dk) = tp_id /\ blen (dat (accs s' dk)) = TP_LEN /\ kind_at (dat (accs s' dk)) = Some (KDeposit dn).
Proof.
  intros Hp F ((A1 & A2 & A3 & r & D & _ & L) & _). split; [split; assumption|]. split; [congruence|]. split; [exact L|].
  rewrite D. unfold c_dep, c_iso. cbn [enc c_pair fst snd]. rewrite <- !app_assoc. apply kind_at_enc.
  apply ok_kind_1. eapply bump_ok. exact F.
Qed.

Lemma moved_sys s s' a b au z k : moved s s' a b au z -> own (accs s' k) = sys_id -> same_od s s' k.
Proof.
  intros (x & y & dl & da & [T1 _] & [M1 _] & _ & _ & _ & E & D & SO & _) O.
  destruct (key_dec a b) as [X|N]; [rewrite (E X); apply same_od_refl|].
  destruct (D N) as [[T2 _] [M2 _]].
  destruct (key_dec k a) as [->|N1]; [rewrite O in T2; discriminate|].
  destruct (key_dec k b) as [->|N2]; [rewrite O in M2; discriminate|]. apply SO; assumption.
Qed.
Lemma burned_sys s s' a b au z k : burned s s' a b au z -> own (accs s' k) = sys_id -> same_od s s' k.
Proof.
  intros (x & y & dl & da & [T1 _] & [M1 _] & _ & _ & _ & _ & _ & [T2 _] & [M2 _] & SO & _) O.
  destruct (key_dec k b) as [->|N1]; [rewrite O in M2; discriminate|].
  destruct (key_dec k a) as [->|N2]; [rewrite O in T2; discriminate|]. apply SO; assumption.
Qed.
Lemma unused_same s s' k : same_od s s' k -> unused s' k -> unused s k.
Proof. intros [A B] [C D]. split; congruence. Qed.

Lemma ix_deposit_ever seed amount r v ev p : okb c_tp_ix (TpDepositEver seed amount r v ev p) = true -> 0 <= amount < u64max.
Proof.
  intros O. change (okb c_u128 seed && (okb c_u64 amount && (okb c_ever r && (okb c_u64 v && (true && okb c_bytes p)))) = true) in O.
  rewrite !andb_true_iff in O. apply okb_u64. apply O.
Qed.
Lemma ix_deposit_sol seed n sy amount r v ev p : okb c_tp_ix (TpDepositSol seed n sy amount r v ev p) = true ->
  0 <= amount < u64max /\ okb c_string n = true /\ okb c_string sy = true.
Proof.
  intros O. change (okb c_u128 seed && (okb c_string n && (okb c_string sy && (okb c_u64 amount && (okb c_ever r && (okb c_u64 v && (true && okb c_bytes p)))))) = true) in O.
  rewrite !andb_true_iff in O. rewrite <- okb_u64. tauto.
Qed.

Lemma deposit_fee_ok ts fee f amount : okb c_token_settings ts = true -> fee_of u64max f amount = Ok fee -> tk_fee_supply ts + fee < u64max ->
  okb c_token_settings (tk_set_fee_supply ts (tk_fee_supply ts + fee)) = true.
Proof.
  intros O F B. apply fee_pos in F. pose proof O as O2. apply okb_ts in O2. apply fee_supply_ok; [exact O|]. lia.
Qed.

Lemma deposit_ever_effect e c seed amount r v ev p s s' k :
  let i := TpDepositEver seed amount r v ev p in
  c_pid c = tp_id -> okb c_tp_ix i = true -> tp_deposit_ever e c seed amount r v ev p s = Ok (tt, s') -> tp_effect e c i s s' k.
Proof.
  intros i Hp O H. apply ix_deposit_ever in O.
  apply tp_deposit_ever_ok in H as (f & cr & ct & dk & mint & mv & tsk & sk & x & y & z & rest & K & B); [|lia].
  destruct B as (st & pn & ts & mn & m & tok & dc & md & dn & fee & pu & amt & s1 & s2 & s3 & S & VS & GE & V & KT & EM & PM & TM & VM & PD & F & PE & P0 & B1 & GA & BU & _ & _ & RE & PK & LP).
  rewrite Hp in *. pose proof (token_ok _ _ _ _ _ _ V) as OT. pose proof (token_init _ _ _ _ _ _ V) as IT.
  assert (Q1 : forall j, quietk s s1 j) by (intros j; eapply burned_q; exact BU).
  assert (SO1 : same_od s s1 tsk) by (apply (burned_step _ _ _ _ _ _ BU); eapply token_len; exact V).
  destruct (recorded_deposit (c_withlen c_dever_event) e c dn cr _ seed f dk _ s1 s2 Hp PD RE) as (UN & OD & LD & KD).
  assert (ND : tsk <> dk).
  { intros ->. destruct UN as [_ UN]. destruct SO1 as [_ SO1]. apply token_len in V. rewrite <- SO1, UN in V. discriminate. }
  assert (SO2 : same_od s s2 tsk) by (apply (same_od_trans _ s1); [exact SO1|apply RE; exact ND]).
  assert (Q3 : forall j, quietk s3 s' j) by (intros j; eapply lpaid_q; exact LP).
  destruct (key_dec k tsk) as [->|N1].
  - assert (U2 : unpack c_token_settings TP_LEN tk_init (dat (accs s2 tsk)) = Ok ts) by (destruct SO2 as [_ SO2]; rewrite SO2; apply V).
    assert (SL : same_od s3 s' tsk) by apply LP.
    destruct (packed_cases c c_token_settings _ tk_init s2 s3 tsk _ ts Hp PK U2 (deposit_fee_ok _ _ _ _ OT F B1) IT) as [Q|[H1 H2]].
    + apply TE_quiet. left. exact (same_od_trans _ _ _ _ SO2 (same_od_trans _ _ _ _ Q SL)).
    + eapply TE_token; [|eapply held_same; [exact SL|exact H2]|exact V|].
      * destruct H1 as [H1 _]. destruct SO2 as [SO2 _]. split; [congruence|apply V].
      * eapply TC_deposit; [left; do 5 eexists; reflexivity|exact F|exact B1|exact EM|reflexivity].
  - destruct (key_dec k dk) as [->|N2].
    + assert (SP : same_od s2 s3 dk) by (eapply packed_od; [exact PK|exact N1]).
      assert (SL : same_od s3 s' dk) by apply LP.
      pose proof (same_od_trans _ _ _ _ SP SL) as [SA SB].
      eapply TE_deposit; [|rewrite SA; exact OD|exact PD|rewrite SB; exact LD|rewrite SB; exact KD].
      apply (unused_same s s1); [|exact UN]. eapply burned_sys; [exact BU|apply UN].
    + apply TE_quiet. apply (quietk_trans s s1); [apply Q1|]. apply (quietk_trans s1 s2); [eapply recorded_q; eassumption|].
      apply (quietk_trans s2 s3); [eapply packed_q; eassumption|apply Q3].
Qed.

(** The deposit proper, the token being registered. *)
Lemma deposit_sol_cases e c seed name symbol amount r v ev p f cr ct vk dk mint mv tsk s s' k :
  let i := TpDepositSol seed name symbol amount r v ev p in
  c_pid c = tp_id -> deposit_sol_eff e c seed amount r v ev p f cr ct vk dk mint mv tsk s s' ->
  (k <> tsk /\ quietk s s' k) \/
  (k = tsk /\ same_od s s' k) \/
  (k = tsk /\ exists ts vn ts', tp_token s k ts /\ tp_token s' k ts' /\ token_in e tp_id s k ts vn /\ token_cause e c i s ts ts') \/
  (k <> tsk /\ unused s k /\ exists dn, own (accs s' k) = tp_id /\ find_pda e (sd_deposit seed) tp_id = Ok (k, dn) /\
    blen (dat (accs s' k)) = TP_LEN /\ kind_at (dat (accs s' k)) = Some (KDeposit dn)).
Proof.
  intros i Hp (ts & vn & sm & sv & md & vv & dn & fee & amt & s1 & s2 & s3 & V & KT & EM & _ & _ & _ & _ & _ & _ & VM & PD & F & AE & A0 & B1 & MV & LP & RE & PK).
  rewrite Hp in *. pose proof (token_ok _ _ _ _ _ _ V) as OT. pose proof (token_init _ _ _ _ _ _ V) as IT.
  destruct MV as [MV _].
  assert (Q1 : forall j, quietk s s2 j).
  { intros j. apply (quietk_trans s s1); [eapply moved_q; exact MV|eapply lpaid_q; exact LP]. }
  assert (SO1 : same_od s s2 tsk).
  { apply (same_od_trans _ s1); [apply (moved_step _ _ _ _ _ _ MV); eapply token_len; exact V|apply LP]. }
  destruct (recorded_deposit (c_withlen c_dsol_event) e c dn cr _ seed f dk _ s2 s3 Hp PD RE) as (UN & OD & LD & KD).
  assert (ND : tsk <> dk).
  { intros ->. destruct UN as [_ UN]. destruct SO1 as [_ SO1]. apply token_len in V. rewrite <- SO1, UN in V. discriminate. }
  assert (SO2 : same_od s s3 tsk) by (apply (same_od_trans _ s2); [exact SO1|apply RE; exact ND]).
  destruct (key_dec k tsk) as [->|N1].
  - assert (U2 : unpack c_token_settings TP_LEN tk_init (dat (accs s3 tsk)) = Ok ts) by (destruct SO2 as [_ SO2]; rewrite SO2; apply V).
    destruct (packed_cases c c_token_settings _ tk_init s3 s' tsk _ ts Hp PK U2 (deposit_fee_ok _ _ _ _ OT F B1) IT) as [Q|[H1 H2]].
    + right. left. split; [reflexivity|]. exact (same_od_trans _ _ _ _ SO2 Q).
    + right. right. left. split; [reflexivity|]. exists ts, vn. eexists. split; [|split; [exact H2|split; [exact V|]]].
      * destruct H1 as [H1 _]. destruct SO2 as [SO2 _]. split; [congruence|apply V].
      * eapply TC_deposit; [right; do 7 eexists; reflexivity|exact F|exact B1|exact EM|reflexivity].
  - destruct (key_dec k dk) as [->|N2].
    + right. right. right. split; [exact N1|].
      assert (SP : same_od s3 s' dk) by (eapply packed_od; [exact PK|exact N1]). destruct SP as [SA SB].
      split; [|exists dn; rewrite SA, SB; auto].
      apply (unused_same s s2); [|exact UN].
      assert (SL : same_od s1 s2 dk) by apply LP. apply (same_od_trans _ s1); [|exact SL].
      eapply moved_sys; [exact MV|]. destruct SL as [SL _], UN as [UA _]. congruence.
    + left. split; [exact N1|]. apply (quietk_trans s s2); [apply Q1|]. apply (quietk_trans s2 s3); [eapply recorded_q; eassumption|].
      eapply packed_q; eassumption.
Qed.

Lemma token_cause_dep e c seed name symbol amount r v ev p s s0 ts ts' :
  let i := TpDepositSol seed name symbol amount r v ev p in
  token_cause e c i s0 ts ts' -> token_cause e c i s ts ts'.
Proof.
  intros i [a st S VS U TC|a S U X|a f X|f n X N0 B1 B2 F EM Y|a st n X|a st n X]; try discriminate;
    try (destruct X; discriminate).
  - destruct TC.
  - eapply TC_deposit; eassumption.
Qed.

Lemma deposit_sol_effect e c seed name symbol amount r v ev p s s' k :
  let i := TpDepositSol seed name symbol amount r v ev p in
  c_pid c = tp_id -> okb c_tp_ix i = true -> tp_deposit_sol e c seed name symbol amount r v ev p s = Ok (tt, s') -> tp_effect e c i s s' k.
Proof.
  intros i Hp O H. apply ix_deposit_sol in O as (OA & ON & OS).
  apply tp_deposit_sol_ok in H as (f & cr & ct & vk & dk & mint & mv & tsk & sk & x & y & z & rest & st & pn & s0 & K & S & VS & GE & _ & _ & RG & B); [|lia].
  pose proof (deposit_sol_cases e c seed name symbol amount r v ev p f cr ct vk dk mint mv tsk s0 s' k Hp B) as CS.
  destruct RG as [[_ ->]|[L0 RG]].
  - destruct CS as [[_ Q]|[[_ Q]|[(-> & ts & vn & ts' & H1 & H2 & V & TC)|(_ & UN & dn & A1 & A2 & A3 & A4)]]].
    + apply TE_quiet. exact Q.
    + apply TE_quiet. left. exact Q.
    + eapply TE_token; eassumption.
    + eapply TE_deposit; [exact UN|exact A1|exact A2|exact A3|exact A4].
  - pose proof RG as RG'. destruct RG' as (vn & tn & ta & PV & PT & NV & VO & VD & [VS1 _] & _ & _ & _ & _ & _ & NR & SO & _).
    rewrite Hp in *.
    set (nt := new_token_settings (KTokenSettings tn vn) (TKSol mint vk) name symbol) in *.
    assert (OT : okb c_token_settings nt = true).
    { apply new_token_ok; try assumption; try (eapply bump_ok; eassumption). reflexivity. }
    destruct (new_held c_token_settings _ tk_init nt s s0 tsk NR OT eq_refl) as [UN H0].
    assert (TO : token_origin e c i s tsk nt).
    { eapply TO_sol; [reflexivity|exact PT|exact PV|reflexivity]. }
    destruct CS as [[N Q]|[[-> Q]|[(-> & ts & vn' & ts' & H1 & H2 & V & TC)|(N & UN' & dn & A1 & A2 & A3 & A4)]]].
    + apply TE_quiet. apply (quietk_trans s s0); [eapply registered_sol_q; eassumption|exact Q].
    + eapply TE_token_new; [exact UN|eapply held_same; [exact Q|exact H0]|exact TO|left; reflexivity].
    + assert (ts = nt) by (destruct H1 as [_ U1], H0 as [_ U2]; congruence). subst ts.
      eapply TE_token_new; [exact UN|exact H2|exact TO|right]. eapply token_cause_dep. exact TC.
    + eapply TE_deposit; [|exact A1|exact A2|exact A3|exact A4]. apply (unused_same s s0); [|exact UN'].
      apply SO; [|exact N]. intros ->. destruct UN' as [UN' _]. rewrite UN' in VS1. discriminate.
Qed.

(** ** Pending withdrawals *)
Lemma cancel_effect e c seed r v ev p s s' k :
  let i := TpCancel seed r v ev p in
  c_pid c = tp_id -> tp_cancel e c seed r v ev p s = Ok (tt, s') -> tp_effect e c i s s' k.
Proof.
  intros i Hp H. apply tp_cancel_ok in H as (f & a & mint & wk & dk & sk & tsk & x & y & mv & rest & K & B).
  destruct B as (st & pn & w & ts & vn & sv & md & dn & fee & amt & s1 & s2 & S & VS & GE & [U RA] & AU & ST & V & KT & EM & VM & _ & _ & PD & _ & _ & _ & _ & LP & RE & PK).
  rewrite Hp in *.
  assert (O : okb c_wsol w = true) by (eapply okb_unpack; [typeclasses eauto|exact U]).
  assert (I : p_init w = true) by (apply unpack_unchecked_init in U; apply U).
  destruct (recorded_deposit (c_withlen c_dsol_event) e c dn a _ seed f dk _ s1 s2 Hp PD RE) as (UN & OD & LD & KD).
  assert (SL : forall j, same_od s s1 j) by (intros j; apply LP).
  assert (ND : wk <> dk).
  { intros ->. destruct UN as [_ UN]. destruct (SL dk) as [_ SB]. rewrite SB in UN. apply unpack_len in U; [|typeclasses eauto]. rewrite UN in U. discriminate. }
  assert (SO2 : same_od s s2 wk) by (apply (same_od_trans _ s1); [apply SL|apply RE; exact ND]).
  destruct (key_dec k wk) as [->|N1].
  - destruct (packed_cases c c_wsol _ (@p_init _ _) _ s' wk (w_set_status w WCancelled) w Hp PK) as [Q|[H1 H2]].
    + destruct SO2 as [_ SO2]. cbn [accs put_log]. rewrite SO2. exact U.
    + apply okb_set_status. exact O.
    + exact I.
    + apply TE_quiet. left. exact (same_od_trans _ _ _ _ SO2 Q).
    + eapply TE_sol; [|exact RA| |unfold i, wpos; rewrite K; reflexivity|discriminate|exact H2].
      * destruct H1 as [H1 _]. destruct SO2 as [SO2 _]. cbn [accs put_log] in H1. split; [congruence|exact U].
      * rewrite ST. reflexivity.
  - pose proof (packed_od _ _ _ _ _ _ _ PK _ N1) as SP.
    destruct (key_dec k dk) as [->|N2].
    + destruct SP as [SA SB]. cbn [accs put_log] in SA, SB.
      eapply TE_deposit; [|rewrite SA; exact OD|exact PD|rewrite SB; exact LD|rewrite SB; exact KD].
      apply (unused_same s s1); [apply SL|exact UN].
    + apply TE_quiet. left. apply (same_od_trans _ s1); [apply SL|]. apply (same_od_trans _ s2); [apply RE; exact N2|exact SP].
Qed.

(** One filled request, seen from one account. *)
Lemma fill_one_cases e c a at_ sm dk f wk rt fee net s s' k : c_pid c = tp_id ->
  fill_one_eff e c a at_ sm dk f wk rt fee net s s' ->
  quietk s s' k \/
  (k = wk /\ exists w, tp_wsol s k w /\ request_addr e tp_id k w (wsol_hash e w) /\ w_status w = WPending /\
     tp_wsol s' k (w_set_status w WProcessed)).
Proof.
  intros Hp (w & r & out & s1 & s2 & [U RA] & ST & _ & _ & _ & _ & _ & _ & _ & _ & _ & [MV _] & PK & ->). rewrite Hp in *.
  assert (O : okb c_wsol w = true) by (eapply okb_unpack; [typeclasses eauto|exact U]).
  assert (I : p_init w = true) by (apply unpack_unchecked_init in U; apply U).
  assert (SO : same_od s s1 wk).
  { apply (moved_step _ _ _ _ _ _ MV). eapply unpack_len; [|exact U]. typeclasses eauto. }
  destruct (key_dec k wk) as [->|N1].
  - destruct (packed_cases c c_wsol _ (@p_init _ _) _ s2 wk (w_set_status w WProcessed) w Hp PK) as [Q|[H1 H2]].
    + destruct SO as [_ SO]. cbn [accs put_log]. rewrite SO. exact U.
    + apply okb_set_status. exact O.
    + exact I.
    + left. left. exact (same_od_trans _ _ _ _ SO Q).
    + right. split; [reflexivity|]. exists w. split; [|split; [exact RA|split; [exact ST|exact H2]]].
      destruct H1 as [H1 _]. destruct SO as [SO _]. cbn [accs put_log] in H1. split; [congruence|exact U].
  - left. apply (quietk_trans s s1); [eapply moved_q; exact MV|]. left. exact (packed_od _ _ _ _ _ _ _ PK _ N1).
Qed.
Lemma wrote_blen {A} (cd : codec A) s s' k x n : wrote cd s s' k x -> blen (dat (accs s k)) = n -> blen (dat (accs s' k)) = n.
Proof.
  intros (_ & D & L) B. rewrite D, blen_app. unfold blen in *. rewrite skipn_length. lia.
Qed.

Lemma fill_one_sys e c a at_ sm dk f wk rt fee net s s' k : 
  fill_one_eff e c a at_ sm dk f wk rt fee net s s' -> unused s' k -> unused s k.
Proof.
  intros (w & r & out & s1 & s2 & [U RA] & ST & _ & _ & _ & _ & _ & _ & _ & _ & _ & [MV _] & PK & ->) UN.
  cbn [accs put_log unused] in UN. unfold unused in UN. cbn [accs put_log] in UN.
  assert (SO : same_od s s1 wk).
  { apply (moved_step _ _ _ _ _ _ MV). eapply unpack_len; [|exact U]. typeclasses eauto. }
  destruct (key_dec k wk) as [->|N1].
  - exfalso. pose proof (wrote_blen _ _ _ _ _ TP_LEN (packed_wrote _ _ _ _ _ _ _ PK) (proj1 (proj2 PK))) as X.
    destruct UN as [_ UN]. rewrite UN in X. discriminate.
  - pose proof (packed_od _ _ _ _ _ _ _ PK _ N1) as SP. 
    assert (U1 : unused s1 k) by (apply (unused_same _ s2); [exact SP|exact UN]).
    apply (unused_same s s1); [|exact U1]. eapply moved_sys; [exact MV|apply U1].
Qed.

Lemma fill_run_unused e c a at_ sm dk f fe n l s fe' n' l' s' k :
  fill_run e c a at_ sm dk f fe n l s fe' n' l' s' -> unused s' k -> unused s k.
Proof.
  induction 1 as [|fe n wk rt l s fee net s1 fe' n' l' s' FO FR IH]; intros UN; [exact UN|].
  eapply fill_one_sys; [exact FO|]. apply IH. exact UN.
Qed.

Lemma fill_run_cases e c a at_ sm dk f fe n l s fe' n' l' s' k : c_pid c = tp_id ->
  fill_run e c a at_ sm dk f fe n l s fe' n' l' s' ->
  quietk s s' k \/
  (exists m w, nth_error l (2 * m) = Some k /\ tp_wsol s k w /\ request_addr e tp_id k w (wsol_hash e w) /\ w_status w = WPending /\
     tp_wsol s' k (w_set_status w WProcessed)).
Proof.
  intros Hp. induction 1 as [|fe n wk rt l s fee net s1 fe' n' l' s' FO FR IH]; [left; apply quietk_refl|].
  destruct (fill_one_cases _ _ _ _ _ _ _ _ _ _ _ _ _ k Hp FO) as [Q1|(-> & w & W1 & RA & ST & W2)].
  - destruct IH as [Q2|(m & w & NT & W1 & RA & ST & W2)]; [left; exact (quietk_trans _ _ _ _ Q1 Q2)|].
    right. exists (S m), w. split; [replace (2 * S m)%nat with (S (S (2 * m)))%nat by lia; exact NT|].
    split; [|split; [exact RA|split; [exact ST|exact W2]]].
    destruct Q1 as [[A B]|[_ X]]; [|destruct W1; contradiction]. destruct W1 as [W1 W3]. split; congruence.
  - destruct IH as [Q2|(m & w' & NT & W1' & _ & ST' & _)].
    + right. exists O, w. split; [reflexivity|]. split; [exact W1|]. split; [exact RA|]. split; [exact ST|].
      destruct Q2 as [SO|[X _]]; [eapply held_same; [exact SO|exact W2]|destruct W2; contradiction].
    + exfalso. destruct W1' as [_ U1], W2 as [_ U2]. assert (w' = w_set_status w WProcessed) by congruence. subst w'. discriminate.
Qed.

Lemma fill_effect e c seed r amount v ev p s s' k :
  let i := TpFill seed r amount v ev p in
  c_pid c = tp_id -> tp_fill e c seed r amount v ev p s = Ok (tt, s') -> tp_effect e c i s s' k.
Proof.
  intros i Hp H. apply tp_fill_ok in H as (f & a & at_ & mint & dk & sk & x & tsk & y & z & mv & rest & K & B).
  destruct B as (st & pn & ts & vn & sm & sv & md & dn & fees & nets & vk & unread & vv & fee & amt & s1 & s2 & s3 & s4 & S & VS & GE & V & KT & EM & VM & _ & _ & PD & PV & LP & FR & (CR & _ & _ & _) & _ & _ & _ & _ & [MV _] & _ & _ & _ & PK).
  rewrite Hp in *.
  assert (SL : forall j, same_od s s1 j) by (intros j; apply LP).
  assert (CO : unused s2 dk /\ own (accs s3 dk) = tp_id /\ (forall j, j <> dk -> same_od s2 s3 j)).
  { destruct CR as (C1 & C2 & _ & C3 & _ & C5). split; [split; assumption|]. split; [exact C3|exact C5]. }
  destruct CO as (UN & OD3 & SO3). cbv zeta in PK.
  assert (UN0 : unused s dk). { apply (unused_same s s1); [apply SL|]. eapply fill_run_unused; [exact FR|exact UN]. }
  destruct (key_dec k dk) as [->|N].
  - pose proof (packed_wrote _ _ _ _ _ _ _ PK) as PW. pose proof PW as (O & D & L).
    assert (SM : same_od s3 s4 dk).
    { destruct MV as (xa & xb & dl & da & [T1 _] & [M1 _] & _ & _ & _ & EQ & _ & SO & _).
      apply SO; intros E; subst; rewrite OD3 in *; discriminate. }
    eapply TE_deposit.
    + exact UN0.
    + destruct SM as [SM _]. cbn [accs put_log] in O. congruence.
    + exact PD.
    + exact (wrote_blen _ _ _ _ _ TP_LEN PW (proj1 (proj2 PK))).
    + rewrite D. unfold c_dsol, c_dep, c_iso. cbn [enc c_pair fst snd]. rewrite <- !app_assoc. apply kind_at_enc.
      apply ok_kind_1. eapply bump_ok. exact PD.
  - pose proof (packed_od _ _ _ _ _ _ _ PK _ N) as SP. cbn [accs put_log] in SP.
    assert (Q3 : quietk s2 s' k).
    { apply (quietk_trans s2 s3); [left; apply SO3; exact N|]. apply (quietk_trans s3 s4); [eapply moved_q; exact MV|left; exact SP]. }
    destruct (fill_run_cases _ _ _ _ _ _ _ _ _ _ _ _ _ _ _ k Hp FR) as [Q2|(m & w & NT & W1 & RA & ST & W2)].
    + apply TE_quiet. apply (quietk_trans s s1); [left; apply SL|]. exact (quietk_trans _ _ _ _ Q2 Q3).
    + apply (TE_sol e c i s s' k w WProcessed); [|exact RA| | |discriminate|].
      * destruct (SL k) as [A B]. destruct W1 as [W1 W3]. split; congruence.
      * rewrite ST. reflexivity.
      * unfold i, wpos. exists m. rewrite K. exact NT.
      * destruct Q3 as [SO|[X _]]; [eapply held_same; [exact SO|exact W2]|destruct W2; contradiction].
Qed.

(** ** All instructions but payload execution *)
Lemma ix_bounty x : okb c_tp_ix (TpChangeBounty x) = true -> 0 <= x < u64max.
Proof. cbn [okb c_tp_ix]. apply okb_u64. Qed.

Theorem tp_exec_effect e ext c i s s' k : c_pid c = tp_id -> okb c_tp_ix i = true -> clock_ok s -> is_payload i = false ->
  tp_exec e ext c i s = Ok (tt, s') -> tp_effect e c i s s' k.
Proof.
  intros Hp O C NP H. destruct i; try discriminate NP; cbn [tp_exec] in H.
  - apply vote_effect; assumption.
  - apply withdraw_ever_effect; assumption.
  - apply withdraw_sol_effect; assumption.
  - eapply initialize_effect; eassumption.
  - apply deposit_ever_effect; assumption.
  - apply deposit_sol_effect; assumption.
  - apply ever_request_effect; assumption.
  - apply sol_request_effect; assumption.
  - eapply admin_effect; [exact Hp|exact H|intros; apply gs_set_ok; assumption|intros; apply gs_set_init|].
    intros a st S U. eapply SC_role; [exact S|exact U|]. left. eexists. split; reflexivity.
  - eapply admin_effect; [exact Hp|exact H|intros; apply gs_set_ok; assumption|intros; apply gs_set_init|].
    intros a st S U. eapply SC_role; [exact S|exact U|]. right. left. eexists. split; reflexivity.
  - eapply admin_effect; [exact Hp|exact H|intros; apply gs_set_ok; assumption|intros; apply gs_set_init|].
    intros a st S U. eapply SC_role; [exact S|exact U|]. right. right. left. eexists. split; reflexivity.
  - eapply (token_admin_effect e ext); [exact Hp|exact O|exact H|exact I].
  - eapply (token_admin_effect e ext); [exact Hp|exact O|exact H|exact I].
  - apply enable_effect; assumption.
  - eapply admin_effect; [exact Hp|exact H|intros; apply gs_set_ok; assumption|intros; apply gs_set_init|].
    intros a st S U. eapply SC_role; [exact S|exact U|]. right. right. right. split; reflexivity.
  - eapply (token_admin_effect e ext); [exact Hp|exact O|exact H|exact I].
  - apply disable_token_effect; assumption.
  - apply approve_ever_effect; assumption.
  - apply approve_sol_effect; assumption.
  - eapply (token_admin_effect e ext); [exact Hp|exact O|exact H|exact I].
  - eapply (token_admin_effect e ext); [exact Hp|exact O|exact H|exact I].
  - apply ever_fee_effect; [exact Hp|apply ix_amount_ever; exact O|exact H].
  - apply sol_fee_effect; [exact Hp|apply ix_amount_sol; exact O|exact H].
  - apply bounty_effect; [exact Hp|apply ix_bounty; exact O|exact H].
  - apply cancel_effect; assumption.
  - apply fill_effect; assumption.
  - apply proxy_effect; [apply ix_amount_proxy in O; lia|exact H].
  - apply close_deposit_effect; assumption.
  - apply close_withdrawal_effect; assumption.
  - apply multi_vault_effect; assumption.
Qed.
