(** Property C89: a refused instruction names the reason. *)

From Coq Require Import Strings.String ZifyBool ZifyNat ZifyN.
From Verif Require PropRounds.
From Verif Require Import TpDemoLaws SysGo TpDeposit PropTpReq PropTpFlow PropTpPay PropTpMoney PropTpMisc PropTpOutcome PropTpAdmin PropTpDaily PropLive PropVotes PropExec PropExits PropDeposits PropRequest PropPayload.
Open Scope Z_scope.
Open Scope list_scope.
Ltac Zify.zify_post_hook ::= Z.div_mod_to_equations.

(** * Vocabulary *)

(** The instruction [i] with the accounts [ms] fails with the error [er], in whatever bytes it is written. *)
Definition refused (e : env) (ext : extern) (ms : list meta) (i : tp_ix) (s : state) (er : err) : Prop :=
  forall d, try_from_slice c_tp_ix d = Some i -> run (ctx_of tp_id ms) (tp_process e ext (ctx_of tp_id ms) d) s = Err er.
Definition stopped (e : env) (s : state) (k : key) : Prop := exists st, bridge_settings e s k st /\ gs_emergency st = true.
Definition live (e : env) (s : state) (k : key) : Prop := exists st, bridge_settings e s k st /\ gs_emergency st = false.
Definition sol_token (e : env) (s : state) (k : key) (ts : token_settings) : Prop := token_settings_of e s k ts /\ exists m v, tk_kind ts = TKSol m v.
Definition ever_token (e : env) (s : state) (k : key) (ts : token_settings) : Prop := token_settings_of e s k ts /\ exists m t d, tk_kind ts = TKEver m t d.

(** [x : key] stands for an account of whatever flags; the sysvars are the genuine ones; [m0], [m1], ... are arbitrary. *)
Notation at_ m k := (m_key m = k) (only parsing).

(** The instructions refused because the bridge is stopped: [k] is the account of the settings. *)
Inductive stoppable (k : key) : list meta -> tp_ix -> Prop :=
| so_dever m0 a w m2 m3 m4 m5 m6 m7 m8 m9 g h x i1 i2 i3 i4 i5 i6 : at_ m7 k ->
    stoppable k (m0 :: Meta a true w :: m2 :: m3 :: m4 :: m5 :: m6 :: m7 :: m8 :: m9 :: Meta rent_id g h :: x) (TpDepositEver i1 i2 i3 i4 i5 i6)
| so_dsol m0 a w m2 m3 m4 m5 m6 m7 m8 m9 m10 g h x i1 i2 i3 i4 i5 i6 i7 i8 : at_ m8 k ->
    stoppable k (m0 :: Meta a true w :: m2 :: m3 :: m4 :: m5 :: m6 :: m7 :: m8 :: m9 :: m10 :: Meta rent_id g h :: x) (TpDepositSol i1 i2 i3 i4 i5 i6 i7 i8)
| so_wever m0 m1 m2 m3 m4 m5 m6 g h g' h' x : at_ m4 k ->
    stoppable k (m0 :: m1 :: m2 :: m3 :: m4 :: m5 :: m6 :: Meta rent_id g h :: Meta clock_id g' h' :: x) TpWithdrawEver
| so_wsol m0 m1 m2 m3 m4 m5 m6 g h x : at_ m5 k ->
    stoppable k (m0 :: m1 :: m2 :: m3 :: m4 :: m5 :: m6 :: Meta clock_id g h :: x) TpWithdrawSol
| so_aever a w m1 m2 m3 m4 m5 m6 g h x : at_ m5 k ->
    stoppable k (Meta a true w :: m1 :: m2 :: m3 :: m4 :: m5 :: m6 :: Meta clock_id g h :: x) TpApproveEver
| so_asol a w m1 m2 m3 m4 m5 m6 g h x : at_ m5 k ->
    stoppable k (Meta a true w :: m1 :: m2 :: m3 :: m4 :: m5 :: m6 :: Meta clock_id g h :: x) TpApproveSol
| so_cancel m0 a w m2 m3 m4 m5 m6 m7 g h m9 x i1 i2 i3 i4 i5 : at_ m5 k ->
    stoppable k (m0 :: Meta a true w :: m2 :: m3 :: m4 :: m5 :: m6 :: m7 :: Meta rent_id g h :: m9 :: x) (TpCancel i1 i2 i3 i4 i5)
| so_fill m0 a w m2 m3 m4 m5 m6 m7 m8 g h m10 x i1 i2 i3 i4 i5 i6 : at_ m5 k ->
    stoppable k (m0 :: Meta a true w :: m2 :: m3 :: m4 :: m5 :: m6 :: m7 :: m8 :: Meta rent_id g h :: m10 :: x) (TpFill i1 i2 i3 i4 i5 i6).

(** The instruction [i] with the accounts [ms] is at fault: the reason is [er]. *)
Inductive fault (e : env) (s : state) : list meta -> tp_ix -> bridge_error -> Prop :=
(** a vote that is neither for nor against *)
| f_no_vote r w m1 m2 x : fault e s (Meta r true w :: m1 :: m2 :: x) (TpVote VNone) EInvalidVote
(** a vote of somebody who is not a relay of the round *)
| f_no_relay r w m1 m2 x v g m rr : v <> VNone -> request_at e s (m_key m1) g m -> round_stands e s (p_round g) (m_key m2) rr -> ~ In r (rr_relays rr) ->
    fault e s (Meta r true w :: m1 :: m2 :: x) (TpVote v) EInvalidRelay
(** the bridge is stopped *)
| f_stopped k ms i : stopped e s k -> stoppable k ms i -> fault e s ms i EEmergencyEnabled
(** the token is stopped *)
| f_token_dever m0 a w m2 m3 m4 m5 m6 m7 m8 m9 g h x ts i1 i2 i3 i4 i5 i6 : live e s (m_key m7) -> ever_token e s (m_key m6) ts -> tk_emergency ts = true ->
    fault e s (m0 :: Meta a true w :: m2 :: m3 :: m4 :: m5 :: m6 :: m7 :: m8 :: m9 :: Meta rent_id g h :: x) (TpDepositEver i1 i2 i3 i4 i5 i6) EEmergencyEnabled
| f_token_dsol m0 a w m2 m3 m4 m5 m6 m7 m8 m9 m10 g h x ts seed name symbol i4 i5 i6 i7 i8 : live e s (m_key m8) -> sol_token e s (m_key m7) ts -> lam (accs s (m_key m7)) <> 0 ->
    blen name <= 32 -> blen symbol <= 32 -> tk_emergency ts = true ->
    fault e s (m0 :: Meta a true w :: m2 :: m3 :: m4 :: m5 :: m6 :: m7 :: m8 :: m9 :: m10 :: Meta rent_id g h :: x) (TpDepositSol seed name symbol i4 i5 i6 i7 i8) EEmergencyEnabled
| f_token_wever m0 m1 m2 m3 m4 m5 m6 g h g' h' x r ts : live e s (m_key m4) -> ever_filed e s (m_key m0) r -> ever_token e s (m_key m3) ts -> lam (accs s (m_key m3)) <> 0 -> tk_emergency ts = true ->
    fault e s (m0 :: m1 :: m2 :: m3 :: m4 :: m5 :: m6 :: Meta rent_id g h :: Meta clock_id g' h' :: x) TpWithdrawEver EEmergencyEnabled
| f_token_wsol m0 m1 m2 m3 m4 m5 m6 g h x r ts : live e s (m_key m5) -> sol_filed e s (m_key m0) r -> sol_token e s (m_key m3) ts -> tk_emergency ts = true ->
    fault e s (m0 :: m1 :: m2 :: m3 :: m4 :: m5 :: m6 :: Meta clock_id g h :: x) TpWithdrawSol EEmergencyEnabled
| f_token_aever a w m1 m2 m3 m4 m5 m6 g h x r ts : live e s (m_key m5) -> ever_filed e s (m_key m2) r -> status_of r = WWaitApprove -> ever_token e s (m_key m4) ts -> tk_emergency ts = true ->
    fault e s (Meta a true w :: m1 :: m2 :: m3 :: m4 :: m5 :: m6 :: Meta clock_id g h :: x) TpApproveEver EEmergencyEnabled
| f_token_asol a w m1 m2 m3 m4 m5 m6 g h st x r ts : bridge_settings e s (m_key m5) st -> gs_emergency st = false -> sol_filed e s (m_key m2) r -> status_of r = WWaitApprove ->
    acts e s (gs_wmanager st) a x -> sol_token e s (m_key m4) ts -> tk_emergency ts = true ->
    fault e s (Meta a true w :: m1 :: m2 :: m3 :: m4 :: m5 :: m6 :: Meta clock_id g h :: x) TpApproveSol EEmergencyEnabled
| f_token_cancel m0 w m2 m3 m4 m5 m6 m7 g h m9 x r ts i1 i2 i3 i4 i5 : live e s (m_key m5) -> sol_filed e s (m_key m3) r -> status_of r = WPending ->
    sol_token e s (m_key m6) ts -> tk_emergency ts = true ->
    fault e s (m0 :: Meta (p_author r) true w :: m2 :: m3 :: m4 :: m5 :: m6 :: m7 :: Meta rent_id g h :: m9 :: x) (TpCancel i1 i2 i3 i4 i5) EEmergencyEnabled
| f_token_fill m0 a w m2 m3 m4 m5 m6 m7 m8 g h m10 x ts i1 i2 i3 i4 i5 i6 : live e s (m_key m5) -> sol_token e s (m_key m7) ts -> tk_emergency ts = true ->
    fault e s (m0 :: Meta a true w :: m2 :: m3 :: m4 :: m5 :: m6 :: m7 :: m8 :: Meta rent_id g h :: m10 :: x) (TpFill i1 i2 i3 i4 i5 i6) EEmergencyEnabled
(** a token of the wrong kind: of Everscale where one of Solana is needed, or the other way round *)
| f_kind_dever m0 a w m2 m3 m4 m5 m6 m7 m8 m9 g h x ts i1 i2 i3 i4 i5 i6 : live e s (m_key m7) -> sol_token e s (m_key m6) ts ->
    fault e s (m0 :: Meta a true w :: m2 :: m3 :: m4 :: m5 :: m6 :: m7 :: m8 :: m9 :: Meta rent_id g h :: x) (TpDepositEver i1 i2 i3 i4 i5 i6) EInvalidTokenKind
| f_kind_wsol m0 m1 m2 m3 m4 m5 m6 g h x r ts : live e s (m_key m5) -> sol_filed e s (m_key m0) r -> ever_token e s (m_key m3) ts ->
    fault e s (m0 :: m1 :: m2 :: m3 :: m4 :: m5 :: m6 :: Meta clock_id g h :: x) TpWithdrawSol EInvalidTokenKind
| f_kind_request m0 a w m2 m3 m4 m5 m6 g h g' h' x t i1 i2 i3 i4 i5 i6 i7 : ever_token e s (m_key m3) t ->
    fault e s (m0 :: Meta a true w :: m2 :: m3 :: m4 :: m5 :: m6 :: Meta rent_id g h :: Meta clock_id g' h' :: x) (TpWithdrawSolRequest i1 i2 i3 i4 i5 i6 i7) EInvalidTokenKind
| f_kind_fill m0 a w m2 m3 m4 m5 m6 m7 m8 g h m10 x ts i1 i2 i3 i4 i5 i6 : live e s (m_key m5) -> ever_token e s (m_key m7) ts ->
    fault e s (m0 :: Meta a true w :: m2 :: m3 :: m4 :: m5 :: m6 :: m7 :: m8 :: Meta rent_id g h :: m10 :: x) (TpFill i1 i2 i3 i4 i5 i6) EInvalidTokenKind
| f_kind_name a w m1 m2 x st ts name symbol : bridge_settings e s (m_key m2) st -> acts e s (gs_manager st) a x -> ever_token e s (m_key m1) ts ->
    fault e s (Meta a true w :: m1 :: m2 :: x) (TpUpdateTokenName symbol name) EInvalidTokenKind
(** a name or a symbol of more than 32 bytes *)
| f_name_dsol m0 a w m2 m3 m4 m5 m6 m7 m8 m9 m10 g h x seed name symbol i4 i5 i6 i7 i8 : live e s (m_key m8) -> 32 < blen name ->
    fault e s (m0 :: Meta a true w :: m2 :: m3 :: m4 :: m5 :: m6 :: m7 :: m8 :: m9 :: m10 :: Meta rent_id g h :: x) (TpDepositSol seed name symbol i4 i5 i6 i7 i8) ETokenNameLenLimit
| f_symbol_dsol m0 a w m2 m3 m4 m5 m6 m7 m8 m9 m10 g h x seed name symbol i4 i5 i6 i7 i8 : live e s (m_key m8) -> blen name <= 32 -> 32 < blen symbol ->
    fault e s (m0 :: Meta a true w :: m2 :: m3 :: m4 :: m5 :: m6 :: m7 :: m8 :: m9 :: m10 :: Meta rent_id g h :: x) (TpDepositSol seed name symbol i4 i5 i6 i7 i8) ETokenSymbolLenLimit
| f_name_ever m0 a w m2 m3 m4 m5 g h g' h' x ts lt conf t name symbol i7 i8 i9 i10 i11 : 32 < blen name ->
    fault e s (m0 :: Meta a true w :: m2 :: m3 :: m4 :: m5 :: Meta rent_id g h :: Meta clock_id g' h' :: x) (TpWithdrawEverRequest ts lt conf t name symbol i7 i8 i9 i10 i11) ETokenNameLenLimit
| f_symbol_ever m0 a w m2 m3 m4 m5 g h g' h' x ts lt conf t name symbol i7 i8 i9 i10 i11 : blen name <= 32 -> 32 < blen symbol ->
    fault e s (m0 :: Meta a true w :: m2 :: m3 :: m4 :: m5 :: Meta rent_id g h :: Meta clock_id g' h' :: x) (TpWithdrawEverRequest ts lt conf t name symbol i7 i8 i9 i10 i11) ETokenSymbolLenLimit
(** the relay round is over *)
| f_over_ever m0 a w m2 m3 m4 m5 g h g' h' x rls rr ts lt conf t name symbol i7 i8 i9 i10 i11 : blen name <= 32 -> blen symbol <= 32 -> loader_settings e s (m_key m3) rls ->
    round_stands e s (rr_number rr) (m_key m4) rr -> rr_end rr <= now s mod 2 ^ 32 ->
    fault e s (m0 :: Meta a true w :: m2 :: m3 :: m4 :: m5 :: Meta rent_id g h :: Meta clock_id g' h' :: x) (TpWithdrawEverRequest ts lt conf t name symbol i7 i8 i9 i10 i11) ERelayRoundExpired
| f_over_sol m0 a w m2 m3 m4 m5 m6 g h g' h' x t rls rr i1 i2 i3 i4 i5 i6 i7 : sol_token e s (m_key m3) t -> loader_settings e s (m_key m4) rls ->
    round_stands e s (rr_number rr) (m_key m5) rr -> rr_end rr <= now s mod 2 ^ 32 ->
    fault e s (m0 :: Meta a true w :: m2 :: m3 :: m4 :: m5 :: m6 :: Meta rent_id g h :: Meta clock_id g' h' :: x) (TpWithdrawSolRequest i1 i2 i3 i4 i5 i6 i7) ERelayRoundExpired
(** the vault would hold more than the deposit limit, or more than 64 bits can hold *)
| f_limit m0 a w m2 m3 m4 m5 m6 m7 m8 m9 m10 g h x ts md seed name symbol amount er i5 i6 i7 i8 : live e s (m_key m8) -> blen name <= 32 -> blen symbol <= 32 ->
    sol_listed e s (m_key m5) (m_key m3) (m_key m7) ts -> lam (accs s (m_key m7)) <> 0 -> tk_emergency ts = false -> tmint_in s (m_key m5) md -> multivault_stands e s (m_key m6) ->
    (exists v, tok_in s (m_key m3) v /\ (er = EDepositLimit /\ tk_dlimit ts < ta_amount v + amount < 2 ^ 64 \/ er = EOverflow /\ 2 ^ 64 <= ta_amount v + amount)) ->
    fault e s (m0 :: Meta a true w :: m2 :: m3 :: m4 :: m5 :: m6 :: m7 :: m8 :: m9 :: m10 :: Meta rent_id g h :: x) (TpDepositSol seed name symbol amount i5 i6 i7 i8) er
(** the request is in the wrong state *)
| f_status_aever a w m1 m2 m3 m4 m5 m6 g h x r : live e s (m_key m5) -> ever_filed e s (m_key m2) r -> status_of r <> WWaitApprove ->
    fault e s (Meta a true w :: m1 :: m2 :: m3 :: m4 :: m5 :: m6 :: Meta clock_id g h :: x) TpApproveEver EInvalidWithdrawalStatus
| f_status_asol a w m1 m2 m3 m4 m5 m6 g h x r : live e s (m_key m5) -> sol_filed e s (m_key m2) r -> status_of r <> WWaitApprove ->
    fault e s (Meta a true w :: m1 :: m2 :: m3 :: m4 :: m5 :: m6 :: Meta clock_id g h :: x) TpApproveSol EInvalidWithdrawalStatus
| f_status_bounty a w m1 x r b : sol_filed e s (m_key m1) r -> status_of r <> WPending ->
    fault e s (Meta a true w :: m1 :: x) (TpChangeBounty b) EInvalidWithdrawalStatus
| f_status_cancel m0 w m2 m3 m4 m5 m6 m7 g h m9 x r i1 i2 i3 i4 i5 : live e s (m_key m5) -> sol_filed e s (m_key m3) r -> status_of r <> WPending ->
    fault e s (m0 :: Meta (p_author r) true w :: m2 :: m3 :: m4 :: m5 :: m6 :: m7 :: Meta rent_id g h :: m9 :: x) (TpCancel i1 i2 i3 i4 i5) EInvalidWithdrawalStatus
| f_status_close m0 m1 x g m : request_at e s (m_key m0) g m -> m_key m1 = p_author g -> wm_status m <> WProcessed -> wm_status m <> WCancelled ->
    fault e s (m0 :: m1 :: x) TpCloseWithdrawal EInvalidWithdrawalStatus
(** more fees are asked for than have been collected, or than the vault holds *)
| f_fee_ever a w m1 m2 m3 m4 m5 x st token ts n : bridge_settings e s (m_key m4) st -> acts e s (gs_manager st) a x -> ever_listed e s token (m_key m1) (m_key m3) ts ->
    own (accs s (m_key m1)) = spl_id -> own (accs s (m_key m2)) = spl_id -> tk_fee_supply ts < n ->
    fault e s (Meta a true w :: m1 :: m2 :: m3 :: m4 :: m5 :: x) (TpWithdrawEverFee n) EInsufficientBalance
| f_fee_sol a w m1 m2 m3 m4 m5 x st mint ts n : bridge_settings e s (m_key m4) st -> acts e s (gs_manager st) a x -> sol_listed e s mint (m_key m1) (m_key m2) ts ->
    own (accs s (m_key m1)) = spl_id -> own (accs s (m_key m3)) = spl_id -> tk_fee_supply ts < n ->
    fault e s (Meta a true w :: m1 :: m2 :: m3 :: m4 :: m5 :: x) (TpWithdrawSolFee n) EInsufficientBalance
| f_fee_vault a w m1 m2 m3 m4 m5 x st mint ts v n : bridge_settings e s (m_key m4) st -> acts e s (gs_manager st) a x -> sol_listed e s mint (m_key m1) (m_key m2) ts ->
    tok_in s (m_key m1) v -> own (accs s (m_key m3)) = spl_id -> n <= tk_fee_supply ts -> ta_amount v < n ->
    fault e s (Meta a true w :: m1 :: m2 :: m3 :: m4 :: m5 :: x) (TpWithdrawSolFee n) EInsufficientVaultBalance
(** the payload cannot be read *)
| f_payload_sol m0 x r : sol_filed e s (m_key m0) r -> status_of r = WWaitExecute -> (forall l, ~ encodes (wse_payload (event_of r)) l) ->
    fault e s (m0 :: x) TpExecutePayloadSol EDeserializePayload
| f_payload_ever m0 x r : ever_filed e s (m_key m0) r -> status_of r = WWaitExecute -> (exists k n, find_pda e (str "mint" ++ kb (token_hash e (wee_token (event_of r)))) tp_id = Ok (k, n)) ->
    (forall l, ~ encodes (wee_payload (event_of r)) l) ->
    fault e s (m0 :: x) TpExecutePayloadEver EDeserializePayload
(** the fee cannot be computed or exceeds the amount *)
| f_charge_wsol m0 m1 m2 m3 m4 m5 m6 g h x r ts : live e s (m_key m5) -> sol_filed e s (m_key m0) r -> sol_listed e s (wse_mint (event_of r)) (m_key m1) (m_key m3) ts -> tk_emergency ts = false ->
    p_required r <= confirmed (p_signers r) -> ~ fee_fits (tk_fee_wdr ts) (wse_amount (event_of r) mod 2 ^ 64) ->
    fault e s (m0 :: m1 :: m2 :: m3 :: m4 :: m5 :: m6 :: Meta clock_id g h :: x) TpWithdrawSol EOverflow
| f_charge_asol a w m1 m2 m3 m4 m5 m6 g h x st r ts : bridge_settings e s (m_key m5) st -> gs_emergency st = false -> sol_filed e s (m_key m2) r -> status_of r = WWaitApprove ->
    acts e s (gs_wmanager st) a x -> sol_listed e s (wse_mint (event_of r)) (m_key m1) (m_key m4) ts -> tk_emergency ts = false -> ~ fee_fits (tk_fee_wdr ts) (wse_amount (event_of r) mod 2 ^ 64) ->
    fault e s (Meta a true w :: m1 :: m2 :: m3 :: m4 :: m5 :: m6 :: Meta clock_id g h :: x) TpApproveSol EOverflow
(** the amount in units of the mint does not fit 128 bits *)
| f_scale_aever a w m1 m2 m3 m4 m5 m6 g h x st r md ts : bridge_settings e s (m_key m5) st -> gs_emergency st = false -> ever_filed e s (m_key m2) r -> status_of r = WWaitApprove ->
    acts e s (gs_wmanager st) a x -> ever_listed e s (wee_token (event_of r)) (m_key m1) (m_key m4) ts -> tk_emergency ts = false -> tmint_in s (m_key m1) md -> ever_scales r md -> 2 ^ 128 <= ever_gross r md ->
    fault e s (Meta a true w :: m1 :: m2 :: m3 :: m4 :: m5 :: m6 :: Meta clock_id g h :: x) TpApproveEver EOverflow
(** the counter of the day shows less than the amount to be released (C90) *)
| f_counter_asol a w v0 v1 k0 k1 d0 d1 t0 t1 m5 g h g' h' x vault k dst tsk st r ts : bridge_settings e s (m_key m5) st -> gs_emergency st = false -> sol_filed e s k r -> status_of r = WWaitApprove ->
    acts e s (gs_wmanager st) a x -> sol_listed e s (wse_mint (event_of r)) vault tsk ts -> tk_emergency ts = false -> fee_fits (tk_fee_wdr ts) (wse_amount (event_of r) mod 2 ^ 64) ->
    v1 = true -> d1 = true -> vault <> dst -> nonneg s ->
    (let gross := wse_amount (event_of r) mod 2 ^ 64 in let net := gross - fee_on (tk_fee_wdr ts) gross in
     vault_ready s (wse_mint (event_of r)) vault dst net /\ can_receive e s (p_kind r) (wse_payload (event_of r)) (wse_mint (event_of r)) (wse_recipient (event_of r)) dst net /\
     wm_epoch (wl_data (p_meta r)) = day_of (now s) /\ tk_wdamount ts < net) ->
    fault e s (Meta a true w :: Meta vault v0 v1 :: Meta k k0 k1 :: Meta dst d0 d1 :: Meta tsk t0 t1 :: m5 :: Meta spl_id g' h' :: Meta clock_id g h :: x) TpApproveSol EOverflow.

(** * Lemmas *)

Lemma bind_err {A B} (m : M A) (f : A -> M B) s er : m s = Err er -> bind m f s = Err er.
Proof. intros H. unfold bind. rewrite H. reflexivity. Qed.
Lemma guard_err b er s : b = false -> guard b er s = Err er.
Proof. intros ->. reflexivity. Qed.
Lemma lift_err {A} (r : res A) s er : r = Err er -> lift r s = Err er.
Proof. intros ->. reflexivity. Qed.
Lemma refused_go e ext ms i s er : tp_exec e ext (ctx_of tp_id ms) i s = Err er -> refused e ext ms i s er.
Proof.
  intros H d D. unfold run. unfold tp_process, bind. rewrite D. cbn [ok_or lift]. unfold lift. cbn [ok_or]. rewrite H. reflexivity.
Qed.
Lemma live_step e c s k : c_pid c = tp_id -> live e s k -> exists st pn, tp_live_settings e c k s = Ok ((st, pn), s).
Proof. intros P (st & B & E). destruct (bridge_set _ _ _ _ B) as (pd & pn & SI & _). exists st, pn. apply live_go; assumption. Qed.
Lemma stopped_err e c s k : c_pid c = tp_id -> stopped e s k -> tp_live_settings e c k s = Err (Custom (error_code EEmergencyEnabled)).
Proof.
  intros P (st & B & E). destruct (bridge_set _ _ _ _ B) as (pd & pn & SI & _). unfold tp_live_settings.
  eapply bind_go; [apply settings_go; [exact P|exact SI]|]. cbv beta iota. apply bind_err, guard_err. rewrite E. reflexivity.
Qed.
Lemma sol_step e c s k ts : c_pid c = tp_id -> sol_token e s k ts -> exists m v vn, tk_kind ts = TKSol m v /\ valid_ts_sol e c k s = Ok ((ts, m, v, vn), s).
Proof.
  intros P (T & m & v & K). pose proof T as (_ & _ & n & vn & KA & _). exists m, v, vn. split; [exact K|]. eapply ts_sol_go; [exact P|eapply ts_in; [exact T|exact KA]|exact K].
Qed.
Lemma ever_step e c s k ts : c_pid c = tp_id -> ever_token e s k ts -> exists t d mn, valid_ts_ever e c k s = Ok ((ts, t, d, mn), s).
Proof.
  intros P (T & m & t & d & K). pose proof T as (_ & _ & n & vn & KA & _). exists t, d, vn. eapply ts_ever_go; [exact P|eapply ts_in; [exact T|exact KA]|exact K].
Qed.
Lemma not_sol e c s k ts : ever_token e s k ts -> valid_ts_sol e c k s = Err (Custom (error_code EInvalidTokenKind)).
Proof. intros ((_ & U & _) & m & t & d & K). unfold valid_ts_sol, token_settings_at. eapply bind_go; [apply unpack_at_go; exact U|]. cbv beta. apply bind_err, lift_err. rewrite K. reflexivity. Qed.
Lemma not_ever e c s k ts : sol_token e s k ts -> valid_ts_ever e c k s = Err (Custom (error_code EInvalidTokenKind)).
Proof. intros ((_ & U & _) & m & v & K). unfold valid_ts_ever, token_settings_at. eapply bind_go; [apply unpack_at_go; exact U|]. cbv beta. apply bind_err, lift_err. rewrite K. reflexivity. Qed.
Lemma token_err ts s : tk_emergency ts = true -> token_live ts s = Err (Custom (error_code EEmergencyEnabled)).
Proof. intros E. unfold token_live. apply guard_err. rewrite E. reflexivity. Qed.
Lemma wstatus_neq a b : a <> b -> wstatus_eqb a b = false.
Proof. destruct a, b; intros H; try reflexivity; contradiction. Qed.
Lemma position_none k l : ~ In k l -> position k l = None.
Proof.
  induction l as [|x l IH]; intros H; [reflexivity|]. cbn [position]. destruct (keqb x k) eqn:E.
  - apply keqb_eq in E. elim H. left. exact E.
  - rewrite IH; [reflexivity|]. intros I. apply H. right. exact I.
Qed.
Lemma sg_in p ms a w : In (Meta a true w) ms -> c_sg (ctx_of p ms) a = true.
Proof. intros H. cbn [ctx_of c_sg]. apply existsb_exists. exists (Meta a true w). split; [exact H|]. cbn [m_key m_sg]. rewrite keqb_refl. reflexivity. Qed.
Lemma unread_err p : (forall l, ~ encodes p l) -> payload_instrs p = Err (Custom (error_code EDeserializePayload)).
Proof.
  intros N. destruct (payload_instrs p) as [l|er] eqn:E; [elim (N l); apply reads_encodes; exact E|].
  unfold payload_instrs in E. destruct (dec (c_vec8 c_instr) p) as [[l r]|]; [discriminate E|]. injection E as <-. reflexivity.
Qed.
Lemma fee_err {A} f gross (K : Z -> Z -> M A) s : ~ fee_fits f gross ->
  bind (lift (fee_of u64max f gross)) (fun fee => bind (lift (csub gross fee)) (K fee)) s = Err (Custom (error_code EOverflow)).
Proof.
  intros N. unfold fee_of, cdiv. destruct (fi_div f =? 0) eqn:D; [reflexivity|]. cbn [rbind]. unfold cmul. destruct (gross / fi_div f * fi_mul f <? u64max); [|reflexivity].
  cbn [rbind]. eapply bind_go; [reflexivity|]. cbv beta. apply bind_err, lift_err. unfold csub.
  destruct (Z.max 1 (gross / fi_div f * fi_mul f) <=? gross) eqn:L; [|reflexivity]. exfalso. apply N. split; [apply Z.eqb_neq; exact D|]. unfold fee_on. apply Z.leb_le. exact L.
Qed.
Lemma scale_err x a b : Z.abs (a - b) <= 38 -> 0 <= x < 2 ^ 128 -> 2 ^ 128 <= rescale x a b -> get_withdrawal_amount x a b = Err (Custom (error_code EOverflow)).
Proof.
  intros D X F. unfold get_withdrawal_amount, rescale in *. destruct (b <? a) eqn:L.
  - exfalso. destruct (pow10_small (a - b)) as [E P]; [lia|]. assert (x / 10 ^ (a - b) <= x) by (apply Z.div_le_upper_bound; nia). lia.
  - destruct (pow10_small (b - a)) as [E P]; [lia|]. unfold cmul. rewrite E. change u128max with (2 ^ 128). replace (x * 10 ^ (b - a) <? 2 ^ 128) with false by lia. reflexivity.
Qed.

Ltac go t := eapply bind_go; [t|]; cbv beta iota zeta.
Ltac signed := apply guard_go; eapply sg_in; cbn [In]; eauto 10.
Ltac rented := apply guard_go; apply keqb_refl.
Ltac enter f := apply refused_go; cbn [tp_exec]; unfold f; cbn [ctx_of c_keys map m_key]; cbv beta iota.
Ltac lively H := let st := fresh "st" in let pn := fresh "pn" in let L := fresh "L" in
  match goal with |- bind (tp_live_settings ?e ?c _) _ _ = _ => destruct (live_step e c _ _ eq_refl H) as (st & pn & L) end; go ltac:(exact L).
Ltac solly H := let m := fresh "m" in let v := fresh "v" in let n := fresh "n" in let K := fresh "K" in let L := fresh "L" in
  match goal with |- bind (valid_ts_sol ?e ?c _) _ _ = _ => destruct (sol_step e c _ _ _ eq_refl H) as (m & v & n & K & L) end; go ltac:(exact L).
Ltac everly H := let t := fresh "t" in let d := fresh "d" in let n := fresh "n" in let L := fresh "L" in
  match goal with |- bind (valid_ts_ever ?e ?c _) _ _ = _ => destruct (ever_step e c _ _ _ eq_refl H) as (t & d & n & L) end; go ltac:(exact L).
Ltac status_is := apply guard_go; match goal with H : status_of _ = _ |- wstatus_eqb (w_status ?w) _ = true => change (w_status w) with (status_of w); rewrite H; reflexivity end.
Ltac status_not := apply guard_err, wstatus_neq; assumption.

(** * C89 A refused instruction names the reason *)

(** Every fault of the list above is answered by the error of that name - by its code - and, as every error, changes nothing. *)
Theorem C89 : forall e ext s ms i er, fault e s ms i er -> refused e ext ms i s (Custom (error_code er)).
Proof.
  intros e ext s ms i er H. destruct H.
  - enter tp_vote. go ltac:(signed). apply bind_err, guard_err. reflexivity.
  - enter tp_vote. go ltac:(signed). go ltac:(apply guard_go; destruct v; [contradiction|reflexivity|reflexivity]). rename H0 into R. destruct R as (O & U & MM & OM & wn & pn & PK & PF). destruct H1 as (b & F & KD & UR).
    go ltac:(reflexivity). go ltac:(apply lift_go; eapply unpack_slice_of; exact U).
    eapply bind_go. { unfold tp_valid_prop. go ltac:(apply lift_go; rewrite PK; reflexivity). apply lift_go, pda_go. exact PF. } cbv beta iota.
    go ltac:(apply unpack_at_go; exact UR). go ltac:(apply lift_go; rewrite KD; reflexivity). go ltac:(apply lift_go, pda_go; exact F).
    apply bind_err, lift_err. rewrite (position_none _ _ H2). reflexivity.
  - destruct H0; subst k.
    + enter tp_deposit_ever. go ltac:(rented). go ltac:(signed). apply bind_err, stopped_err; [reflexivity|assumption].
    + enter tp_deposit_sol. go ltac:(rented). go ltac:(signed). apply bind_err, stopped_err; [reflexivity|assumption].
    + enter tp_withdraw_ever. go ltac:(rented). go ltac:(apply clock_go). apply bind_err, stopped_err; [reflexivity|assumption].
    + enter tp_withdraw_sol. go ltac:(apply clock_go). apply bind_err, stopped_err; [reflexivity|assumption].
    + enter tp_approve_ever. go ltac:(apply clock_go). go ltac:(signed). apply bind_err, stopped_err; [reflexivity|assumption].
    + enter tp_approve_sol. go ltac:(apply clock_go). go ltac:(signed). apply bind_err, stopped_err; [reflexivity|assumption].
    + enter tp_cancel. go ltac:(rented). go ltac:(signed). apply bind_err, stopped_err; [reflexivity|assumption].
    + enter tp_fill. go ltac:(rented). go ltac:(signed). apply bind_err, stopped_err; [reflexivity|assumption].
  - enter tp_deposit_ever. go ltac:(rented). go ltac:(signed). lively H. everly H0. apply bind_err, token_err. assumption.
  - enter tp_deposit_sol. go ltac:(rented). go ltac:(signed). lively H. go ltac:(apply guard_go; apply Z.leb_le; assumption). go ltac:(apply guard_go; apply Z.leb_le; assumption).
    go ltac:(reflexivity). replace (lam (accs s (m_key m7)) =? 0) with false by (symmetry; apply Z.eqb_neq; assumption). go ltac:(reflexivity). solly H0. apply bind_err, token_err. assumption.
  - enter tp_withdraw_ever. go ltac:(rented). go ltac:(apply clock_go). lively H. go ltac:(apply wever_go; [reflexivity|apply ever_filed_in; eassumption]). go ltac:(reflexivity).
    replace (lam (accs s (m_key m3)) =? 0) with false by (symmetry; apply Z.eqb_neq; assumption). unfold withdraw_ever_exec. cbv zeta. everly H1. apply bind_err, token_err. assumption.
  - enter tp_withdraw_sol. go ltac:(apply clock_go). lively H. go ltac:(apply wsol_go; [reflexivity|apply sol_filed_in; eassumption]). solly H1. apply bind_err, token_err. assumption.
  - enter tp_approve_ever. go ltac:(apply clock_go). go ltac:(signed). lively H. go ltac:(apply wever_go; [reflexivity|apply ever_filed_in; eassumption]). go ltac:(status_is). everly H2. apply bind_err, token_err. assumption.
  - enter tp_approve_sol. go ltac:(apply clock_go). go ltac:(signed). destruct (bridge_set _ _ _ _ H) as (pd & pn & SI & FP). go ltac:(apply live_go; [reflexivity|exact SI|assumption]).
    go ltac:(apply wsol_go; [reflexivity|apply sol_filed_in; eassumption]). go ltac:(status_is). go ltac:(eapply authority_go; [reflexivity|exact FP|apply acts_backed; eassumption]). solly H4. apply bind_err, token_err. assumption.
  - enter tp_cancel. go ltac:(rented). go ltac:(signed). lively H. go ltac:(apply wsol_go; [reflexivity|apply sol_filed_in; eassumption]). go ltac:(apply guard_go, keqb_refl). go ltac:(status_is). solly H2. apply bind_err, token_err. assumption.
  - enter tp_fill. go ltac:(rented). go ltac:(signed). lively H. solly H0. apply bind_err, token_err. assumption.
  - enter tp_deposit_ever. go ltac:(rented). go ltac:(signed). lively H. apply bind_err. eapply not_ever; eassumption.
  - enter tp_withdraw_sol. go ltac:(apply clock_go). lively H. go ltac:(apply wsol_go; [reflexivity|apply sol_filed_in; eassumption]). apply bind_err. eapply not_sol; eassumption.
  - enter tp_withdraw_sol_request. go ltac:(rented). go ltac:(apply clock_go). go ltac:(signed). apply bind_err. eapply not_sol; eassumption.
  - enter tp_fill. go ltac:(rented). go ltac:(signed). lively H. apply bind_err. eapply not_sol; eassumption.
  - enter tp_update_token_name. unfold admin_token. cbn [ctx_of c_keys map m_key]. cbv beta iota. go ltac:(signed). destruct (bridge_set _ _ _ _ H) as (pd & pn & SI & FP). go ltac:(apply settings_go; [reflexivity|exact SI]).
    go ltac:(eapply authority_go; [reflexivity|exact FP|apply acts_backed; eassumption]). destruct H1 as (T & m & t & d & K). destruct (token_of_in _ _ _ _ T) as (vn & _ & TI).
    go ltac:(eapply ts_any_go; [reflexivity|exact TI]). apply bind_err, bind_err, lift_err. rewrite K. reflexivity.
  - enter tp_deposit_sol. go ltac:(rented). go ltac:(signed). lively H. apply bind_err, guard_err. apply Z.leb_gt. assumption.
  - enter tp_deposit_sol. go ltac:(rented). go ltac:(signed). lively H. go ltac:(apply guard_go; apply Z.leb_le; assumption). apply bind_err, guard_err. apply Z.leb_gt. assumption.
  - enter tp_withdraw_ever_request. go ltac:(rented). go ltac:(apply clock_go). go ltac:(signed). apply bind_err, guard_err. apply Z.leb_gt. assumption.
  - enter tp_withdraw_ever_request. go ltac:(rented). go ltac:(apply clock_go). go ltac:(signed). go ltac:(apply guard_go; apply Z.leb_le; assumption). apply bind_err, guard_err. apply Z.leb_gt. assumption.
  - enter tp_withdraw_ever_request. go ltac:(rented). go ltac:(apply clock_go). go ltac:(signed). go ltac:(apply guard_go; apply Z.leb_le; assumption). go ltac:(apply guard_go; apply Z.leb_le; assumption).
    go ltac:(apply loader_go; eassumption). go ltac:(apply round_go; eassumption). apply bind_err, guard_err. apply Z.ltb_ge. assumption.
  - enter tp_withdraw_sol_request. go ltac:(rented). go ltac:(apply clock_go). go ltac:(signed). solly H. go ltac:(apply loader_go; eassumption). go ltac:(apply round_go; eassumption). apply bind_err, guard_err. apply Z.ltb_ge. assumption.
  - enter tp_deposit_sol. go ltac:(rented). go ltac:(signed). lively H. go ltac:(apply guard_go; apply Z.leb_le; assumption). go ltac:(apply guard_go; apply Z.leb_le; assumption).
    go ltac:(reflexivity). replace (lam (accs s (m_key m7)) =? 0) with false by (symmetry; apply Z.eqb_neq; assumption). go ltac:(reflexivity).
    destruct H2 as (TS & [v0 KT] & n & vn & KA & PV). pose proof (ts_in _ _ _ _ _ _ TS KA) as TI. go ltac:(eapply ts_sol_go; [reflexivity|exact TI|exact KT]).
    go ltac:(unfold token_live; apply guard_go; rewrite H4; reflexivity). go ltac:(reflexivity). go ltac:(apply guard_go; rewrite keqb_refl; reflexivity). go ltac:(apply tmint_go; eassumption). go ltac:(reflexivity).
    destruct H7 as (v & [OV UV] & X). go ltac:(apply guard_go; rewrite OV, keqb_refl, andb_false_r; reflexivity). go ltac:(apply multivault_go; [reflexivity|assumption]). go ltac:(apply tacc_go; exact UV).
    destruct X as [[-> X]|[-> X]].
    + go ltac:(apply lift_go; unfold cadd; replace (ta_amount v + amount <? u64max) with true by (symmetry; apply Z.ltb_lt; apply X); reflexivity). apply bind_err, guard_err. apply Z.leb_gt. apply X.
    + apply bind_err, lift_err. unfold cadd. replace (ta_amount v + amount <? u64max) with false by (symmetry; apply Z.ltb_ge; exact X). reflexivity.
  - enter tp_approve_ever. go ltac:(apply clock_go). go ltac:(signed). lively H. go ltac:(apply wever_go; [reflexivity|apply ever_filed_in; eassumption]). apply bind_err. status_not.
  - enter tp_approve_sol. go ltac:(apply clock_go). go ltac:(signed). lively H. go ltac:(apply wsol_go; [reflexivity|apply sol_filed_in; eassumption]). apply bind_err. status_not.
  - enter tp_change_bounty. go ltac:(signed). go ltac:(apply wsol_go; [reflexivity|apply sol_filed_in; eassumption]). apply bind_err. status_not.
  - enter tp_cancel. go ltac:(rented). go ltac:(signed). lively H. go ltac:(apply wsol_go; [reflexivity|apply sol_filed_in; eassumption]). go ltac:(apply guard_go, keqb_refl). apply bind_err. status_not.
  - enter tp_close_withdrawal. destruct H as (O & U & MM & OM & wn & pn & PK & PF). go ltac:(reflexivity). go ltac:(apply lift_go; eapply unpack_slice_of; exact U).
    eapply bind_go. { unfold tp_valid_prop. go ltac:(apply lift_go; rewrite PK; reflexivity). apply lift_go, pda_go. exact PF. } cbv beta iota.
    go ltac:(apply guard_go; rewrite H0; apply keqb_refl). go ltac:(apply lift_go; rewrite MM, (try_from_slice_rt c_wmeta _ _ OM); reflexivity).
    apply bind_err, guard_err. rewrite !wstatus_neq by assumption. reflexivity.
  - enter tp_withdraw_ever_fee. go ltac:(signed). destruct (bridge_set _ _ _ _ H) as (pd & pn & SI & FP). go ltac:(apply settings_go; [reflexivity|exact SI]). go ltac:(eapply authority_go; [reflexivity|exact FP|apply acts_backed; eassumption]).
    destruct H1 as (TS & _ & (m0 & d0 & KT) & n0 & mn & KA & PM). pose proof (ts_in _ _ _ _ _ _ TS KA) as TI. go ltac:(eapply ts_ever_go; [reflexivity|exact TI|exact KT]). go ltac:(apply lift_go, pda_go; exact PM).
    go ltac:(reflexivity). go ltac:(apply guard_go; rewrite H2; apply keqb_refl). go ltac:(reflexivity). go ltac:(apply guard_go; rewrite H3; apply keqb_refl). apply bind_err, guard_err. apply Z.leb_gt. assumption.
  - enter tp_withdraw_sol_fee. go ltac:(signed). destruct (bridge_set _ _ _ _ H) as (pd & pn & SI & FP). go ltac:(apply settings_go; [reflexivity|exact SI]). go ltac:(eapply authority_go; [reflexivity|exact FP|apply acts_backed; eassumption]).
    destruct H1 as (TS & [v0 KT] & n0 & vn & KA & PV). pose proof (ts_in _ _ _ _ _ _ TS KA) as TI. go ltac:(eapply ts_sol_go; [reflexivity|exact TI|exact KT]). go ltac:(apply lift_go, pda_go; exact PV).
    go ltac:(reflexivity). go ltac:(apply guard_go; rewrite H2; apply keqb_refl). go ltac:(reflexivity). go ltac:(apply guard_go; rewrite H3; apply keqb_refl). apply bind_err, guard_err. apply Z.leb_gt. assumption.
  - enter tp_withdraw_sol_fee. go ltac:(signed). destruct (bridge_set _ _ _ _ H) as (pd & pn & SI & FP). go ltac:(apply settings_go; [reflexivity|exact SI]). go ltac:(eapply authority_go; [reflexivity|exact FP|apply acts_backed; eassumption]).
    destruct H1 as (TS & [v0 KT] & n0 & vn & KA & PV). pose proof (ts_in _ _ _ _ _ _ TS KA) as TI. go ltac:(eapply ts_sol_go; [reflexivity|exact TI|exact KT]). go ltac:(apply lift_go, pda_go; exact PV).
    destruct H2 as [OV UV]. go ltac:(reflexivity). go ltac:(apply guard_go; rewrite OV; apply keqb_refl). go ltac:(reflexivity). go ltac:(apply guard_go; rewrite H3; apply keqb_refl).
    go ltac:(apply guard_go, Z.leb_le; assumption). go ltac:(apply tacc_go; exact UV). apply bind_err, guard_err. apply Z.leb_gt. assumption.
  - enter tp_execute_payload_sol. destruct H as (O & U & n & pn & K & F). unfold wsol_at. go ltac:(apply unpack_at_go; exact U). unfold execute_payload. change (w_status r) with (status_of r). rewrite H0. cbn [wstatus_eqb].
    go ltac:(reflexivity). go ltac:(apply lift_go; rewrite K; reflexivity). apply bind_err, lift_err. apply unread_err. assumption.
  - enter tp_execute_payload_ever. destruct H as (O & U & n & pn & K & F). unfold wever_at. go ltac:(apply unpack_at_go; exact U). unfold execute_payload. change (w_status r) with (status_of r). rewrite H0. cbn [wstatus_eqb].
    destruct H1 as (mk & mn & FM). eapply (bind_go _ _ _ mk).
    { apply lift_go. change (rbind (find_pda e (str "mint" ++ kb (token_hash e (wee_token (event_of r)))) tp_id) (fun '(k, _) => Ok k) = Ok mk). rewrite FM. reflexivity. } cbv beta iota zeta. go ltac:(apply lift_go; rewrite K; reflexivity). apply bind_err, lift_err. apply unread_err. assumption.
  - enter tp_withdraw_sol. go ltac:(apply clock_go). lively H. pose proof (sol_filed_in _ _ _ _ H0) as WI. go ltac:(apply wsol_go; [reflexivity|exact WI]).
    destruct H1 as (TS & [v0 KT] & n & vn & KA & PV). pose proof (ts_in _ _ _ _ _ _ TS KA) as TI. go ltac:(eapply ts_sol_go; [reflexivity|exact TI|exact KT]).
    go ltac:(unfold token_live; apply guard_go; rewrite H2; reflexivity). go ltac:(apply lift_go, pda_go; exact PV). go ltac:(apply guard_go; apply keqb_refl).
    pose proof (sol_confirms _ _ _ _ _ WI) as CF. unfold w_confirms in CF. rewrite CF. rewrite (proj2 (Z.leb_le _ _) H3). apply fee_err. assumption.
  - enter tp_approve_sol. go ltac:(apply clock_go). go ltac:(signed). destruct (bridge_set _ _ _ _ H) as (pd & pn & SI & FP). go ltac:(apply live_go; [reflexivity|exact SI|assumption]).
    go ltac:(apply wsol_go; [reflexivity|apply sol_filed_in; eassumption]). go ltac:(status_is). go ltac:(eapply authority_go; [reflexivity|exact FP|apply acts_backed; eassumption]).
    destruct H4 as (TS & [v0 KT] & n & vn & KA & PV). pose proof (ts_in _ _ _ _ _ _ TS KA) as TI. go ltac:(eapply ts_sol_go; [reflexivity|exact TI|exact KT]).
    go ltac:(unfold token_live; apply guard_go; rewrite H5; reflexivity). go ltac:(apply lift_go, pda_go; exact PV). go ltac:(apply guard_go; apply keqb_refl). apply fee_err. assumption.
  - enter tp_approve_ever. go ltac:(apply clock_go). go ltac:(signed). destruct (bridge_set _ _ _ _ H) as (pd & pn & SI & FP). go ltac:(apply live_go; [reflexivity|exact SI|assumption]).
    pose proof (ever_filed_in _ _ _ _ H1) as WI. go ltac:(apply wever_go; [reflexivity|exact WI]). go ltac:(status_is).
    destruct H4 as (TS & _ & (m0 & d0 & KT) & n0 & mn & KA & PM). pose proof (ts_in _ _ _ _ _ _ TS KA) as TI. go ltac:(eapply ts_ever_go; [reflexivity|exact TI|exact KT]).
    go ltac:(unfold token_live; apply guard_go; rewrite H5; reflexivity). go ltac:(apply lift_go, pda_go; exact PM). go ltac:(apply guard_go; apply ever_eqb_same).
    go ltac:(eapply authority_go; [reflexivity|exact FP|apply acts_backed; eassumption]). go ltac:(apply tmint_go; eassumption). apply bind_err, lift_err.
    apply scale_err; [assumption|apply (proj2 (proj2 (wever_facts _ _ _ _ _ WI)))|assumption].
  - destruct H11 as (VR & CR & EP & LT). enter tp_approve_sol. go ltac:(apply clock_go). go ltac:(signed). destruct (bridge_set _ _ _ _ H) as (pd & pn & SI & FP). go ltac:(apply live_go; [reflexivity|exact SI|assumption]).
    go ltac:(apply wsol_go; [reflexivity|apply sol_filed_in; eassumption]). go ltac:(status_is). go ltac:(eapply authority_go; [reflexivity|exact FP|apply acts_backed; eassumption]).
    destruct H4 as (TS & [w0 KT] & n & vn & KA & PV). pose proof (ts_in _ _ _ _ _ _ TS KA) as TI. go ltac:(eapply ts_sol_go; [reflexivity|exact TI|exact KT]).
    go ltac:(unfold token_live; apply guard_go; rewrite H5; reflexivity). go ltac:(apply lift_go, pda_go; exact PV). go ltac:(apply guard_go; apply keqb_refl).
    pose proof (token_len _ _ _ _ TS) as (_ & _ & TO). apply okb_ts in TO. destruct TO as (_ & _ & _ & _ & _ & _ & _ & DA & _ & FSU & _ & FW).
    assert (FM : 0 <= fi_mul (tk_fee_wdr ts) /\ 0 <= fi_div (tk_fee_wdr ts)).
    { clear - FW. unfold c_fee_info in FW. cbn [c_iso okb c_pair fst snd] in FW. apply andb_true_iff in FW as [A B]. apply okb_u64 in A, B. lia. }
    set (gross := wse_amount (event_of r) mod 2 ^ 64) in *. assert (G : 0 <= gross < 2 ^ 64) by (apply Z.mod_pos_bound; lia).
    change (wrap64 (wse_amount (wl_data (p_event r)))) with gross. go ltac:(apply lift_go; apply fee_go; [exact G|apply FM|apply FM|assumption]).
    go ltac:(apply lift_go; unfold csub; rewrite (proj2 (Z.leb_le _ _) (proj2 H6)); reflexivity).
    match goal with |- bind (pay_sol e ?cc _ _ _ _ _ _ _) _ _ = _ => destruct (pay_sol_go e cc r vault dst (wse_mint (event_of r)) vn (gross - fee_on (tk_fee_wdr ts) gross) s) as (st' & s1 & PAY & _) end; try assumption; try reflexivity.
    { subst v1. cbn [ctx_of c_wr existsb m_key m_wr]. rewrite keqb_refl. cbn [andb orb]. rewrite ?orb_true_r. reflexivity. }
    { subst d1. cbn [ctx_of c_wr existsb m_key m_wr]. rewrite (keqb_refl dst). cbn [andb orb]. rewrite ?orb_true_r. reflexivity. }
    { cbn [ctx_of c_keys map m_key In]. tauto. }
    { cbn [ctx_of c_keys map m_key In]. tauto. }
    { cbn [ctx_of c_keys map m_key In]. tauto. }
    { destruct H6. lia. }
    go ltac:(exact PAY). apply bind_err. unfold release_daily. change epoch_of with day_of. rewrite (proj2 (Z.eqb_eq _ _) EP). apply bind_err, lift_err. unfold csub.
    rewrite (proj2 (Z.leb_gt _ _) LT). reflexivity.
Qed.

(** The same for the round loader. *)
Definition rl_refused (e : env) (ms : list meta) (i : rl_ix) (s : state) (er : err) : Prop :=
  forall d, try_from_slice c_rl_ix d = Some i -> run (ctx_of rl_id ms) (rl_process e (ctx_of rl_id ms) d) s = Err er.
Inductive rl_fault (e : env) (s : state) : list meta -> rl_ix -> bridge_error -> Prop :=
| rf_no_vote r w m1 m2 x : rl_fault e s (Meta r true w :: m1 :: m2 :: x) (RlVote VNone) EInvalidVote
| rf_no_relay r w m1 m2 x v p rr : v <> VNone -> PropRounds.proposal_account e s (m_key m1) p -> PropRounds.round_account e s (m_key m2) rr -> ~ In r (rr_relays rr) ->
    rl_fault e s (Meta r true w :: m1 :: m2 :: x) (RlVote v) EInvalidRelay
(** a round before the current one *)
| rf_old_round m0 w m2 m3 m4 g h x st n l t : PropRounds.loader_settings e s (m_key m2) st -> n < rs_current st -> rs_current st <> 0 ->
    rl_fault e s (m0 :: Meta (rs_submitter st) true w :: m2 :: m3 :: m4 :: Meta rent_id g h :: x) (RlCreateRelayRound n l t) EInvalidRelayRound.
Lemma rl_refused_go e ms i s er : rl_exec e (ctx_of rl_id ms) i s = Err er -> rl_refused e ms i s er.
Proof.
  intros H d D. unfold run. unfold rl_process, bind. rewrite D. unfold lift. cbn [ok_or]. rewrite H. reflexivity.
Qed.
Theorem C89_rl : forall e s ms i er, rl_fault e s ms i er -> rl_refused e ms i s (Custom (error_code er)).
Proof.
  intros e s ms i er H. destruct H; apply rl_refused_go; cbn [rl_exec].
  - unfold rl_vote; cbn [ctx_of c_keys map m_key]; cbv beta iota. go ltac:(signed). apply bind_err, guard_err. reflexivity.
  - unfold rl_vote; cbn [ctx_of c_keys map m_key]; cbv beta iota. go ltac:(signed). go ltac:(apply guard_go; destruct v; [contradiction|reflexivity|reflexivity]).
    destruct H0 as (O & U & A). unfold rl_proposal_at. go ltac:(apply unpack_at_go; exact U). go ltac:(apply PropRounds.rl_prop_go; [reflexivity|exact A]). go ltac:(apply PropRounds.rl_round_go; [reflexivity|eassumption]).
    apply bind_err, lift_err. rewrite (position_none _ _ H2). reflexivity.
  - unfold rl_create_relay_round; cbn [ctx_of c_keys map m_key]; cbv beta iota. go ltac:(rented). go ltac:(signed).
    destruct (PropRounds.loader_in _ _ _ _ H) as (pd & pn & _ & SI & _). go ltac:(apply PropRounds.rl_settings_go; [reflexivity|exact SI]). go ltac:(apply guard_go, keqb_refl).
    apply bind_err, guard_err. replace (rs_current st =? 0) with false by (symmetry; apply Z.eqb_neq; assumption). replace (n <? rs_current st) with true by (symmetry; apply Z.ltb_lt; assumption). reflexivity.
Qed.

(** How many accounts an instruction reads before it checks anything. *)
Definition tp_needs (i : tp_ix) : nat :=
  match i with
  | TpExecutePayloadEver | TpExecutePayloadSol => 1
  | TpEnableEmergency | TpChangeBounty _ | TpCloseDeposit | TpCloseWithdrawal => 2
  | TpVote _ | TpChangeGuardian _ | TpChangeManager _ | TpChangeWithdrawalManager _ | TpDisableEmergency
  | TpChangeDepositLimit _ | TpChangeWithdrawalLimits _ _ | TpUpdateFee _ _ _ | TpUpdateTokenName _ _ | TpEnableTokenEmergency => 3
  | TpDisableTokenEmergency | TpWithdrawProxy _ | TpWithdrawMultiVault _ => 4
  | TpWithdrawEverFee _ | TpWithdrawSolFee _ => 6
  | TpInitialize _ _ _ | TpWithdrawEverRequest _ _ _ _ _ _ _ _ _ _ _ => 7
  | TpWithdrawSolRequest _ _ _ _ _ _ _ | TpWithdrawEver | TpWithdrawSol | TpApproveEver | TpApproveSol => 8
  | TpCancel _ _ _ _ _ => 10
  | TpDepositEver _ _ _ _ _ _ | TpFill _ _ _ _ _ _ => 11
  | TpDepositSol _ _ _ _ _ _ _ _ => 12
  end.
Definition rl_needs (i : rl_ix) : nat :=
  match i with
  | RlWriteProposal _ _ => 1
  | RlUpdateSettings _ _ _ _ | RlVote _ => 3
  | RlCreateProposal _ _ _ _ _ | RlFinalize => 5
  | RlInitialize _ _ _ _ | RlCreateRelayRound _ _ _ | RlExecute => 6
  | RlExecuteByAdmin => 7
  end.
(** Whose signature an instruction checks before it reads any record; [true] if it looks at a sysvar before. *)
Definition tp_checks (i : tp_ix) : option (nat * bool) :=
  match i with
  | TpWithdrawEver | TpWithdrawSol | TpExecutePayloadEver | TpExecutePayloadSol | TpCloseWithdrawal => None
  | TpInitialize _ _ _ | TpDepositEver _ _ _ _ _ _ | TpDepositSol _ _ _ _ _ _ _ _ | TpCancel _ _ _ _ _ | TpFill _ _ _ _ _ _
  | TpWithdrawEverRequest _ _ _ _ _ _ _ _ _ _ _ | TpWithdrawSolRequest _ _ _ _ _ _ _ => Some (1%nat, true)
  | TpApproveEver | TpApproveSol => Some (0%nat, true)
  | _ => Some (0%nat, false)
  end.

Ltac few ms := destruct ms as [|? ms]; [reflexivity|cbn [List.length] in *; first [lia | few ms]].
(** Too few accounts. *)
Theorem C89_short : forall e ext ms s,
  (forall i, (List.length ms < tp_needs i)%nat -> refused e ext ms i s NotEnoughAccountKeys) /\
  (forall i, (List.length ms < rl_needs i)%nat -> rl_refused e ms i s NotEnoughAccountKeys).
Proof.
  intros e ext ms s. split; intros i H; [apply refused_go|apply rl_refused_go]; destruct i; cbn [tp_needs rl_needs] in H; cbn [tp_exec rl_exec];
    try unfold tp_vote; few ms.
Qed.
Lemma sg_out p ms a : (forall m, In m ms -> m_key m = a -> m_sg m = false) -> c_sg (ctx_of p ms) a = false.
Proof.
  intros H. cbn [ctx_of c_sg]. destruct (existsb _ ms) eqn:E; [|reflexivity]. apply existsb_exists in E as (m & I & X). apply andb_true_iff in X as [X Y].
  apply keqb_eq in X. rewrite (H m I X) in Y. discriminate Y.
Qed.
Definition un (b : bool) (short : Prop) (r : res (unit * state)) : Prop := r = Err MissingRequiredSignature \/ short /\ r = Err NotEnoughAccountKeys \/ b = true /\ r = Err InvalidArgument.
Lemma un_plain b sh c a (f : M unit) s : c_sg c a = false -> un b sh ((guard (c_sg c a) MissingRequiredSignature ;;; f) s).
Proof. intros H. left. apply bind_err, guard_err. exact H. Qed.
Lemma un_rent sh k (f : unit -> M unit) s : (forall s, un true sh (f tt s)) -> un true sh (bind (check_rent k) f s).
Proof. intros H. unfold check_rent, bind, guard. destruct (keqb k rent_id); [apply H|]. right; right. auto. Qed.
Lemma un_clock sh k (f : Z -> M unit) s : (forall z s, un true sh (f z s)) -> un true sh (bind (check_clock k) f s).
Proof. intros H. unfold check_clock, bind, guard. destruct (keqb k clock_id); [apply H|]. right; right. auto. Qed.
Ltac headof t := lazymatch t with ?f _ => headof f | _ => t end.
Ltac unfold_un := match goal with |- un _ _ (?t _) => let h := headof t in unfold h end.
Ltac un_go := cbn [ctx_of c_keys map]; cbv beta iota; repeat first [apply un_rent; intros ? | apply un_clock; intros ? ?]; apply un_plain.
(** Without the signature of the one who acts. *)
Theorem C89_unsigned : forall e ext ms i s p sysvars a, tp_checks i = Some (p, sysvars) -> nth_error ms p = Some a -> (forall m, In m ms -> m_key m = m_key a -> m_sg m = false) ->
  refused e ext ms i s MissingRequiredSignature \/ (List.length ms <= tp_needs i)%nat /\ refused e ext ms i s NotEnoughAccountKeys \/
  sysvars = true /\ refused e ext ms i s InvalidArgument.
Proof.
  intros e ext ms i s p b a C N U.
  assert (X : un b (List.length ms <= tp_needs i)%nat (tp_exec e ext (ctx_of tp_id ms) i s)).
  2: { destruct X as [X|[[L X]|[B X]]]; [left|right; left; split; [exact L|]|right; right; split; [exact B|]]; apply refused_go; exact X. }
  assert (SG : c_sg (ctx_of tp_id ms) (m_key a) = false) by (apply sg_out; exact U). clear U.
  destruct i; cbn [tp_checks] in C; try discriminate C; injection C as <- <-; cbn [tp_exec tp_needs].
  all: unfold_un; try unfold admin_settings; try unfold admin_token;
    do 13 (first [solve [cbn [nth_error] in N; injection N as <-; un_go; exact SG]
      | destruct ms as [|? ms]; [first [discriminate N | right; left; split; [cbn [List.length]; lia|reflexivity]]|]]).
Qed.

(** * Examples *)

(** Faults in state [ts11] of the demo history, where [tw1] is paid and [tw2] pending: a vote for nothing; a vote by somebody who is no
    relay; closing a pending request; a bounty for a paid one; a deposit for a token of the wrong kind, or of more than the vault can
    ever hold; a name that is too long; more fees than there are.  The ones with a stopped bridge: in the states after the guardian's call. *)
Definition st11 := TpSettings true (KSettings 255 254) false tguard tman twman.
Lemma live11 : live te ts11 tset.
Proof. exists st11. split; [in11; ex_bridge|reflexivity]. Qed.
Definition dsol_metas : list meta := [sw tfunder; sw tuser; ww tuserS; ww tvault; ww td2; ww tmintS; ww tmv; ww ttsS; ro tset; ro sys_id; ro spl_id; ro rent_id].
Example C89_ex_vote : fault te ts11 [sw tstranger; ww tw1; ro tround] (TpVote VNone) EInvalidVote.
Proof. apply f_no_vote. Qed.
Example C89_ex_close : fault te ts11 [ww tw2; ww trecv] TpCloseWithdrawal EInvalidWithdrawalStatus.
Proof. apply (f_status_close te ts11 (ww tw2) (ww trecv) [] (the_req ts11 tw2) (the_meta ts11 tw2)); [cbn [ww m_key]; demo_req|in11; ex_vm|in11; ex_vm|in11; ex_vm]. Qed.
Example C89_ex_bounty : fault te ts11 [sw trecv; ww tw1] (TpChangeBounty 5) EInvalidWithdrawalStatus.
Proof. apply (f_status_bounty te ts11 trecv true (ww tw1) [] (the_wsol ts11 tw1)); cbn [ww m_key]; in11; [ex_request|ex_vm]. Qed.
Example C89_ex_name : fault te ts11 dsol_metas (TpDepositSol 2 (repeat x41 33) (str "TKN") 5 tever 3000 (knum 72) []) ETokenNameLenLimit.
Proof. apply f_name_dsol; [exact live11|reflexivity]. Qed.
Example C89_ex_limit : fault te ts11 dsol_metas (TpDepositSol 2 (str "Token") (str "TKN") (2 ^ 64 - 1) tever 3000 (knum 72) []) EOverflow.
Proof.
  unfold dsol_metas. apply (f_limit te ts11) with (ts := the_token ts11 ttsS) (md := the_mint ts11 tmintS); cbn [ww ro m_key]; [exact live11|reflexivity || discriminate|discriminate| | | | | |]; in11;
    [ex_sol|ex_vm|ex_vm|ex_vm|split; [ex_vm|]; eexists; exists 255; split; [ex_vm|]; split; ex_vm|]. eexists. split; [split; ex_vm|]. right. split; [reflexivity|]. vm_compute. discriminate.
Qed.
Example C89_ex_kind : fault te ts11 [sw tman; ww ttsE; ro tset] (TpUpdateTokenName (str "TKN") (str "Token")) EInvalidTokenKind.
Proof. apply (f_kind_name te ts11 tman true (ww ttsE) (ro tset) [] st11 (the_token ts11 ttsE)); [cbn [ro m_key]; in11; ex_bridge|apply acts_role|cbn [ww m_key]; split; [in11; ex_token|do 3 eexists; in11; ex_vm]]. Qed.
Example C89_ex_fee : fault te ts11 [sw tman; ww tvault; ww ttsS; ww trecvS; ro tset; ro spl_id] (TpWithdrawSolFee 1000000) EInsufficientBalance.
Proof. apply (f_fee_sol te ts11 tman true (ww tvault) (ww ttsS) (ww trecvS) (ro tset) (ro spl_id) [] st11 tmintS (the_token ts11 ttsS)); [cbn [ro m_key]; in11; ex_bridge|apply acts_role| | | |]; cbn [ww ro m_key]; in11; [ex_sol|ex_vm|ex_vm|ex_vm]. Qed.
(** [tw1] is executed above the limits ([ts16]) and the fee lowered while it waits. *)
Definition tl16 := unres (tstp ts16 (tadmT tman ttsS (TpUpdateFee FWithdrawal 1 10000))).
Definition xl_tw1 := Eval vm_compute in accs tl16 tw1.
Definition xl_ttsS := Eval vm_compute in accs tl16 ttsS.
Definition xl_tset := Eval vm_compute in accs tl16 tset.
Definition xl_tvault := Eval vm_compute in accs tl16 tvault.
Definition xl_trecvS := Eval vm_compute in accs tl16 trecvS.
Lemma xl_is : accs tl16 tw1 = xl_tw1 /\ accs tl16 ttsS = xl_ttsS /\ accs tl16 tset = xl_tset /\ accs tl16 tvault = xl_tvault /\ accs tl16 trecvS = xl_trecvS.
Proof. apply (@eqs_5 acct). vm_compute. reflexivity. Qed.
Lemma tl16_now : now tl16 = 1700000000. Proof. vm_compute. reflexivity. Qed.
Lemma tl16_nonneg : nonneg tl16.
Proof. refine (proj1 (_ : fine tl16)). unfold tl16; fine_step. unfold ts16; fine_step. unfold ts15; fine_step. fine_frozen. Qed.
Example C89_ex_counter : fault te tl16 [sw twman; ww tvault; ww tw1; ww trecvS; ww ttsS; ro tset; ro spl_id; ro clock_id] TpApproveSol EOverflow.
Proof.
  apply (f_counter_asol te tl16) with (st := st11) (r := the_wsol tl16 tw1) (ts := the_token tl16 ttsS);
    [| | | |apply acts_role| | | | | |discriminate|exact tl16_nonneg|]; cbn [ro m_key]; rewrite ?tl16_now; pose proof xl_is as E; ex_in E.
  - ex_bridge.
  - reflexivity.
  - ex_request.
  - ex_vm.
  - ex_sol.
  - ex_vm.
  - split; ex_vm.
  - reflexivity.
  - reflexivity.
  - split; [ex_vault|]. split; [ex_dst|]. split; ex_vm.
Qed.
(** The round loader: somebody who is no relay of round 10 votes for the proposal of the demo of C73. *)
Example C89_rl_ex : rl_fault DemoLaws.de DemoLaws.ds7 [sw (knum 99); ww DemoLaws.de_prop; ro DemoLaws.de_r10] (RlVote VConfirm) EInvalidRelay.
Proof.
  destruct PropRounds.C73_vote_ex as (_ & _ & P & R & _). eapply rf_no_relay; [discriminate|exact P|exact R|]. vm_compute. intuition discriminate.
Qed.
(** A deposit with the rent account left out, and one that the author did not sign. *)
Example C89_short_ex : (List.length (firstn 11 dsol_metas) < tp_needs (TpDepositSol 2 (str "Token") (str "TKN") 5 tever 3000 (knum 72) []))%nat.
Proof. vm_compute. lia. Qed.
Example C89_unsigned_ex : tp_checks (TpDepositSol 2 (str "Token") (str "TKN") 5 tever 3000 (knum 72) []) = Some (1%nat, true) /\
  let ms := [sw tfunder; ww tuser; ww tuserS; ww tvault; ww td2; ww tmintS; ww tmv; ww ttsS; ro tset; ro sys_id; ro spl_id; ro rent_id] in
  nth_error ms 1 = Some (ww tuser) /\ forall m, In m ms -> m_key m = tuser -> m_sg m = false.
Proof.
  split; [reflexivity|]. split; [reflexivity|]. cbn [In]. intros m H E. repeat (destruct H as [<-|H]; [first [reflexivity|vm_compute in E; discriminate E]|]). contradiction.
Qed.

Print Assumptions C89.
Print Assumptions C89_rl.
Print Assumptions C89_short.
Print Assumptions C89_unsigned.
