(** Property C75: fee settings and the possibility to move tokens. *)

From Coq Require Import Strings.String ZifyBool ZifyNat ZifyN.
From Verif Require Import TpDemoLaws TpFlow PropTpReq PropTpFlow PropTpPay PropTpMoney PropTpMisc PropTpOutcome PropTpAdmin PropTpDaily PropLive PropExec PropExits.
Open Scope Z_scope.
Open Scope list_scope.
Ltac Zify.zify_post_hook ::= Z.div_mod_to_equations.

(** * C75 *)

(** A fee of at most one: not more than the amount is taken. *)
Definition fair (f : fee_info) : Prop := 0 < fi_div f /\ 0 <= fi_mul f <= fi_div f.

(** Part of the property that holds: a fair fee is defined for every positive amount, takes at most the
    amount, and, unless it is the minimum of one unit, at most the share the settings name. *)
Theorem C75_partial : forall f x, fair f -> 1 <= x -> fee_fits f x /\ (fee_on f x = 1 \/ fee_on f x * fi_div f <= x * fi_mul f).
Proof.
  intros f x (D & M0 & M1) X. unfold fee_fits, fee_on. assert (Q : 0 <= x / fi_div f) by (apply Z.div_pos; lia).
  assert (L : x / fi_div f * fi_div f <= x) by (rewrite Z.mul_comm; apply Z.mul_div_le; lia).
  assert (L2 : x / fi_div f * fi_mul f <= x / fi_div f * fi_div f) by (apply Z.mul_le_mono_nonneg_l; lia).
  split; [split; [lia|lia]|]. destruct (Z.max_spec 1 (x / fi_div f * fi_mul f)) as [[_ ->]|[_ ->]]; [|left; reflexivity]. right.
  replace (x / fi_div f * fi_mul f * fi_div f) with (x / fi_div f * fi_div f * fi_mul f) by ring. apply Z.mul_le_mono_nonneg_r; lia.
Qed.

(** ** What is needed *)

(** No withdrawal is executed or approved, no deposit made and nothing cancelled unless the fee is defined and
    not more than the amount. *)
Theorem C75_sol : forall e ext c s s' k w, tp_call e ext c TpWithdrawSol s s' ->
  nth_error (c_keys c) 0 = Some k -> sol_request e s k w -> p_required w <= confirmed (p_signers w) ->
  exists vault tsk ts, nth_error (c_keys c) 3 = Some tsk /\ sol_token e s w vault tsk ts /\ fee_fits (tk_fee_wdr ts) (wse_amount (event_of w) mod 2 ^ 64).
Proof.
  intros e ext c s s' k w C K0 RQ QU. apply tp_call_exec in C as (Hp & _ & CK & H). cbn [tp_exec] in H.
  apply tp_withdraw_sol_ok in H as (k' & vault' & dst & tsk' & pm & sk & x & y & rest & w' & gs & pn & K & WI & VS & GE & E).
  rewrite Hp in *. rewrite K in *. cbn [nth_error] in *. injection K0 as ->.
  assert (w' = w). { destruct WI as [U _], RQ as (_ & U' & _). pose proof (eq_trans (eq_sym U) U') as E'. injection E' as E'. exact E'. } subst w'.
  destruct E as (ts & vn & sv & V & KT & EM & PV' & CASE). rewrite Hp in *.
  pose proof (sol_confirms _ _ _ _ _ WI) as CF.
  destruct CASE as [[_ ID]|(_ & fee & net & st & s1 & F & NE & N0 & CASE)]; [lia|].
  destruct (fee_on_of _ _ _ _ F) as [FD FE]. change (wrap64 (wse_amount (wl_data (p_event w)))) with (wse_amount (event_of w) mod 2 ^ 64) in *.
  exists vault', tsk', ts. split; [reflexivity|].
  split; [split; [exists vn; exact PV'|]; split; [exact (token_spec _ _ _ _ _ V)|exists sv; exact KT]|].
  subst net. rewrite FE in N0. split; [exact FD|lia].
Qed.
Theorem C75_approve_sol : forall e ext c s s' k w tsk ts, tp_call e ext c TpApproveSol s s' ->
  nth_error (c_keys c) 2 = Some k -> nth_error (c_keys c) 4 = Some tsk -> sol_request e s k w ->
  token_at e s tsk ts -> fee_fits (tk_fee_wdr ts) (wse_amount (event_of w) mod 2 ^ 64).
Proof.
  intros e ext c s s' k w0 tsk ts0 C K0 K3 RQ TA. apply tp_call_exec in C as (Hp & _ & CK & H). cbn [tp_exec] in H.
  apply tp_approve_sol_ok in H as (au & vault & k' & dst & tsk' & sk & x & y & rest & w & K & B).
  destruct B as (ts & vn & sv & gs & pn & SG & VS & GE & EN & WI & ST & V & KT & EM & PV & fee & net & st & s1 & ts2 & F & NE & N0 & PAID & RL & SE).
  rewrite Hp in *. rewrite K in *. cbn [nth_error] in *. injection K0 as ->. injection K3 as ->.
  assert (w = w0). { destruct WI as [U _], RQ as (_ & U' & _). pose proof (eq_trans (eq_sym U) U') as E'. injection E' as E'. exact E'. } subst w0.
  assert (ts = ts0). { destruct V as [U' _], TA as [_ U]. congruence. } subst ts0.
  destruct (fee_on_of _ _ _ _ F) as [FD FE]. change (wrap64 (wse_amount (wl_data (p_event w)))) with (wse_amount (event_of w) mod 2 ^ 64) in *.
  subst net. rewrite FE in N0. split; [exact FD|lia].
Qed.
Theorem C75_ever : forall e ext c s s' k w mint tsk ts gross, executes_ever e ext c s s' k w mint tsk ts gross -> fee_fits (tk_fee_wdr ts) gross.
Proof.
  intros e ext c s s' k w mint tsk ts gross X. pose proof (C63_ever _ _ _ _ _ _ _ _ _ _ _ X) as (dst0 & _ & _ & _ & N1 & _).
  split; [|lia]. destruct X as (CALL & K & KT & RQ & ST & QU & LZ & md & (PM & TM & TA & TK) & SC & _).
  apply tp_call_exec in CALL as (Hp & _ & C & H). cbn [tp_exec] in H.
  apply tp_withdraw_ever_ok in H as (k' & mint' & dst & tsk' & sk & x & y & z & u & rest & w' & t & K' & -> & WI & _ & E).
  rewrite Hp in *. rewrite K' in *. cbn [nth_error] in *. injection K as ->. injection KT as ->.
  assert (w' = w). { destruct WI as [U _], RQ as (_ & U' & _). pose proof (eq_trans (eq_sym U) U') as E'. injection E' as E'. exact E'. } subst w'.
  destruct E as [(L & _)|[(_ & E)|(L & _)]]; [contradiction| |contradiction].
  destruct E as (ts' & mn & m & d & md' & V & _ & _ & _ & _ & CASE).
  rewrite Hp in V. assert (ts' = ts). { destruct V as [U' _], TA as [_ U]. congruence. } subst ts'.
  pose proof (ever_confirms _ _ _ _ _ WI) as CF.
  destruct CASE as [(_ & [X|X])|(_ & _ & amount & fee & net & st & s1 & _ & F & _)]; [lia|contradiction|].
  destruct (fee_on_of _ _ _ _ F) as [FD FE]. exact FD.
Qed.
Theorem C75_approve_ever : forall e ext c s s' k w mint md tsk ts, tp_call e ext c TpApproveEver s s' ->
  nth_error (c_keys c) 2 = Some k -> nth_error (c_keys c) 4 = Some tsk -> ever_request e s k w ->
  ever_token e s w mint md tsk ts -> ever_scales w md -> fee_fits (tk_fee_wdr ts) (ever_gross w md mod 2 ^ 64).
Proof.
  intros e ext c s s' k w0 mint0 md0 tsk ts0 C K0 K3 RQ (PM0 & TM0 & TA & TK) SC. apply tp_call_exec in C as (Hp & _ & CK & H). cbn [tp_exec] in H.
  apply tp_approve_ever_ok in H as (au & mint & k' & dst & tsk' & sk & x & y & rest & w & K & B).
  destruct B as (ts & mn & m & d & md & gs & pn & SG & VS & GE & EN & WI & ST & V & KT & EM & PM & TM & amount & fee & net & st & s1 & ts2 & GA & F & NE & N0 & _).
  rewrite Hp in *. rewrite K in *. cbn [nth_error] in *. injection K0 as ->. injection K3 as ->.
  assert (w = w0). { destruct WI as [U _], RQ as (_ & U' & _). pose proof (eq_trans (eq_sym U) U') as E'. injection E' as E'. exact E'. } subst w0.
  assert (ts = ts0). { destruct V as [U' _], TA as [_ U]. congruence. } subst ts0.
  assert (mint0 = mint). { destruct PM0 as [n PM0]. change (sd_mint (token_hash e (wee_token (wl_data (p_event w))))) with (str "mint" ++ kb (token_hash e (wee_token (event_of w)))) in PM. congruence. } subst mint0.
  assert (md0 = md) by (unfold tmint_in in *; congruence). subst md0.
  destruct (fee_on_of _ _ _ _ F) as [FD FE]. pose proof (gwa_rescale _ _ _ _ SC GA) as GR. subst amount.
  subst net. rewrite FE in N0. split; [exact FD|]. apply Z.le_0_sub. exact N0.
Qed.
Theorem C75_deposit_ever : forall e ext c seed amount recipient value evers payload s s' tsk ts,
  tp_call e ext c (TpDepositEver seed amount recipient value evers payload) s s' -> nth_error (c_keys c) 6 = Some tsk -> token_at e s tsk ts ->
  fee_fits (tk_fee_dep ts) amount.
Proof.
  intros e ext c seed amount recipient value evers payload s s' tsk ts C K6 TA. apply tp_call_exec in C as (Hp & OK & CK & H). cbn [tp_exec] in H.
  apply ix_deposit_ever in OK. apply tp_deposit_ever_ok in H as (f & cr & ct & dp & m & mv & tsk' & sk & x & y & z & rest & K & E); [|lia].
  rewrite K in *. cbn [nth_error] in *. injection K6 as ->.
  destruct E as (st & pn & ts' & mn & m' & token & d & md & dn & fee & pure_ & amt & s1 & s2 & s3 & _ & _ & _ & V & _ & _ & _ & _ & _ & _ & F & -> & N0 & _).
  rewrite Hp in V. assert (ts' = ts). { destruct V as [U' _], TA as [_ U]. congruence. } subst ts'.
  destruct (fee_on_of _ _ _ _ F) as [FD FE]. subst fee. split; [exact FD|lia].
Qed.
Theorem C75_deposit_sol : forall e ext c seed name symbol amount recipient value evers payload s s' tsk ts,
  tp_call e ext c (TpDepositSol seed name symbol amount recipient value evers payload) s s' -> nth_error (c_keys c) 7 = Some tsk ->
  lam (accs s tsk) <> 0 -> token_at e s tsk ts -> fee_fits (tk_fee_dep ts) amount.
Proof.
  intros e ext c seed name symbol amount recipient value evers payload s s' tsk ts C K6 L TA. apply tp_call_exec in C as (Hp & OK & CK & H). cbn [tp_exec] in H.
  apply ix_deposit_sol in OK as (OA & _). apply tp_deposit_sol_ok in H as (f & cr & ct & vt & dp & m & mv & tsk' & sk & x & y & z & rest & st & pn & s0 & K & _ & _ & _ & _ & _ & R & E); [|lia].
  rewrite K in *. cbn [nth_error] in *. injection K6 as ->.
  destruct R as [[_ ->]|[L0 _]]; [|contradiction].
  destruct E as (ts' & vn & sm & sv & md & v & dn & fee & amt & s1 & s2 & s3 & V & _ & _ & _ & _ & _ & _ & _ & _ & _ & _ & F & -> & N0 & _).
  rewrite Hp in V. assert (ts' = ts). { destruct V as [U' _], TA as [_ U]. congruence. } subst ts'.
  destruct (fee_on_of _ _ _ _ F) as [FD FE]. subst fee. split; [exact FD|lia].
Qed.
Theorem C75_cancel : forall e ext c seed recipient value evers payload s s' k w tsk ts,
  tp_call e ext c (TpCancel seed recipient value evers payload) s s' -> nth_error (c_keys c) 3 = Some k -> nth_error (c_keys c) 6 = Some tsk ->
  sol_request e s k w -> token_at e s tsk ts -> fee_fits (tk_fee_dep ts) (wse_amount (event_of w)).
Proof.
  intros e ext c seed recipient value evers payload s s' k w tsk ts C K3 K6 RQ TA. apply tp_call_exec in C as (Hp & OK & CK & H). cbn [tp_exec] in H.
  apply tp_cancel_ok in H as (f & au & m & k' & dp & sk & tsk' & x & y & mv & rest & K & E).
  rewrite K in *. cbn [nth_error] in *. injection K3 as ->. injection K6 as ->.
  destruct E as (st & pn & w' & ts' & vn & sv & md & dn & fee & amt & s1 & s2 & _ & _ & _ & WI & _ & _ & V & _ & _ & _ & _ & _ & _ & F & _ & -> & N0 & _).
  rewrite Hp in *. assert (ts' = ts). { destruct V as [U' _], TA as [_ U]. congruence. } subst ts'.
  assert (w' = w). { destruct WI as [U _], RQ as (_ & U' & _). pose proof (eq_trans (eq_sym U) U') as E'. injection E' as E'. exact E'. } subst w'.
  destruct (fee_on_of _ _ _ _ F) as [FD FE]. subst fee. split; [exact FD|]. change (wse_amount (wl_data (p_event w))) with (wse_amount (event_of w)) in N0. lia.
Qed.

(** ** The settings are not checked *)

(** The manager sets a fee with divisor 0, or of twice the amount; no call executes the confirmed request [tw1]
    any more, though its amount is positive, the vault holds enough, and the bridge is not stopped. *)
Definition xfee (m d : Z) : list meta * tp_ix := tadmT tman ttsS (TpUpdateFee FWithdrawal m d).
Definition xs (m d : Z) : state := unres (tstp ts4 (xfee m d)).
Lemma tw1_filed : sol_request te ts4 tw1 (the_wsol ts4 tw1).
Proof.
  destruct x4_is as (E & _). unfold sol_request, the_wsol, the_wreq. rewrite E. clear.
  split; [ex_vm|]. split; [ex_vm|]. exists 255. ex_vm.
Qed.
Theorem C75_refuted : exists s s1 s2 k w, reached s /\
  tp_call te no_ext (ctx_of tp_id (fst (xfee 0 0))) (TpUpdateFee FWithdrawal 0 0) s s1 /\
  tp_call te no_ext (ctx_of tp_id (fst (xfee 2 1))) (TpUpdateFee FWithdrawal 2 1) s s2 /\
  sol_request te s k w /\ status_of w = WNew /\ p_required w <= confirmed (p_signers w) /\ wse_amount (event_of w) = 50000 /\ balance s tvault = 100000 /\
  (forall ext c s', nth_error (c_keys c) 0 = Some k -> ~ tp_call te ext c TpWithdrawSol s1 s' /\ ~ tp_call te ext c TpWithdrawSol s2 s').
Proof.
  exists ts4, (xs 0 0), (xs 2 1), tw1, (the_wsol ts4 tw1).
  split; [unfold reached; demo_ts4; unfold ts3; demo_more; unfold ts2; demo_more; unfold ts1; demo_more; apply h_refl|].
  split; [unfold xs; demo_call|]. split; [unfold xs; demo_call|].
  split; [exact tw1_filed|]. split; [vm_compute; reflexivity|]. split; [vm_compute; discriminate|]. split; [vm_compute; reflexivity|]. split; [vm_compute; reflexivity|].
  intros ext c s' K0.
  assert (NO : forall s1 f, accs s1 tw1 = accs ts4 tw1 ->
    match unpack c_token_settings TP_LEN tk_init (dat (accs s1 ttsS)) with Ok ts => tk_fee_wdr ts = f | _ => True end ->
    (fi_div f = 0 \/ 50000 < fee_on f 50000) -> ~ tp_call te ext c TpWithdrawSol s1 s').
  { intros s1 f E1 E2 BAD CALL.
    destruct (C75_sol te ext c s1 s' tw1 (the_wsol ts4 tw1) CALL K0) as (vault & tsk & ts & _ & (_ & (TA & TU) & v & KT) & FF).
    - unfold sol_request. rewrite E1. exact tw1_filed.
    - vm_compute. discriminate.
    - assert (tsk = ttsS). { rewrite KT in TA. destruct TA as [n TA]. vm_compute in TA. injection TA as <- _. reflexivity. } subst tsk.
      rewrite TU in E2. rewrite E2 in FF. assert (A : wse_amount (event_of (the_wsol ts4 tw1)) mod 2 ^ 64 = 50000) by (vm_compute; reflexivity).
      rewrite A in FF. destruct FF as [F1 F2]. clear - BAD F1 F2. lia. }
  split; [apply (NO (xs 0 0) (FeeInfo 0 0))|apply (NO (xs 2 1) (FeeInfo 2 1))]; try (vm_compute; reflexivity); [left; reflexivity|right; vm_compute; reflexivity].
Qed.

(** * Examples *)

(** The demo fees are fair; one of the demo amounts. *)
Example C75_partial_ex : fair (tk_fee_wdr (the_token ts4 ttsS)) /\ fair (tk_fee_dep (the_token ts4 ttsS)) /\ fee_on (tk_fee_wdr (the_token ts4 ttsS)) 50000 = 25.
Proof. destruct x4_is as (_ & E & _). unfold the_token. rewrite E. clear. split; [split; ex_vm|]. split; [split; ex_vm|ex_vm]. Qed.
(** [tw1] executed in [ts4].  Calls for the other theorems are those of C63_ever_ex, C63_approve_ever_ex,
    C63_approve_sol_ex, C64_ex (cancel), C37_ex and C38_ex (deposits). *)
Example C75_sol_ex : tp_call te no_ext (ctx_of tp_id (fst (texecS tw1 trecvS tmintS))) TpWithdrawSol ts4 ts5 /\
  sol_request te ts4 tw1 (the_wsol ts4 tw1) /\ p_required (the_wsol ts4 tw1) <= confirmed (p_signers (the_wsol ts4 tw1)).
Proof. split; [unfold ts5; demo_call|]. split; [exact tw1_filed|]. vm_compute. discriminate. Qed.
Print Assumptions C75_partial.
Print Assumptions C75_sol.
Print Assumptions C75_approve_sol.
Print Assumptions C75_ever.
Print Assumptions C75_approve_ever.
Print Assumptions C75_deposit_ever.
Print Assumptions C75_deposit_sol.
Print Assumptions C75_cancel.
Print Assumptions C75_refuted.
