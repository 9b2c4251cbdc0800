(** Properties C63 - C66: the complete outcome of executing and approving a withdrawal, of cancelling one, the
    decimals of recorded deposits, and the log entries of status changes. *)

From Coq Require Import Strings.String ZifyBool ZifyNat ZifyN.
From Verif Require Import TpDemoLaws TpFlow PropTpFlow PropTpPay PropTpMoney PropTpMisc.
Open Scope Z_scope.
Open Scope list_scope.
Ltac Zify.zify_post_hook ::= Z.div_mod_to_equations.

(** * C63 The outcome of an execution or approval *)

(** The status of a paid request. *)
Definition settled_status (payload : bytes) : wstatus := match payload with [] => WProcessed | _ => WWaitExecute end.
(** [ts'] differs from [ts] only in fees collected, day and amount of the day. *)
Definition booked (ts ts' : token_settings) (fees day amount : Z) : Prop :=
  ts' = TokenSettings (tk_init ts) (tk_akind ts) (tk_kind ts) (tk_name ts) (tk_symbol ts) (tk_dlimit ts) (tk_wlimit ts) (tk_wdlimit ts)
          amount day (tk_emergency ts) fees (tk_fee_dep ts) (tk_fee_wdr ts).
(** The net amount exceeds the limit of one withdrawal or the rest of the day's limit. *)
Definition over_limit (ts : token_settings) (s : state) (net : Z) : Prop := tk_wlimit ts < net \/ tk_wdlimit ts < today ts s + net.

Lemma settled_paid pl st : paid_status pl st -> st = settled_status pl.
Proof. intros [[-> ->]|[N ->]]; [reflexivity|]. destruct pl; [contradiction|reflexivity]. Qed.
Lemma settled_not pl : settled_status pl <> WWaitApprove /\ settled_status pl <> WPending.
Proof. destruct pl; split; discriminate. Qed.
Lemma charge_booked ts s fee net : booked ts (charge ts (day_of (now s)) fee net) (tk_fee_supply ts + fee) (day_of (now s)) (today ts s + net).
Proof.
  unfold booked, charge, tk_set_daily, tk_set_fee_supply, spent, today. cbn. reflexivity.
Qed.

(** Executing the confirmed new Ever request [w] of [gross] tokens: fee and net amount are booked; if the net
    amount is over a limit the request waits for approval and no token moves, otherwise exactly the net amount is
    paid and the request is finished, or waits for the execution of its payload. *)
Theorem C63_ever : forall e ext c s s' k w mint tsk ts gross, executes_ever e ext c s s' k w mint tsk ts gross ->
  let fee := fee_on (tk_fee_wdr ts) gross in let net := gross - fee in
  exists dst st ts', nth_error (c_keys c) 2 = Some dst /\ 0 <= net /\
    token_at e s' tsk ts' /\ booked ts ts' (tk_fee_supply ts + fee) (day_of (now s)) (today ts s + net) /\
    ever_request e s' k (w_set_status w st) /\
    (over_limit ts s net -> st = WWaitApprove /\ (forall j, supply s' j = supply s j) /\ spl_rest s s' (fun _ => False)) /\
    (~ over_limit ts s net -> st = settled_status (wee_payload (event_of w)) /\ ever_paid e s s' w mint dst net).
Proof.
  intros e ext c s s' k w mint tsk ts gross H. cbv zeta.
  destruct (executes_ever_outcome _ _ _ _ _ _ _ _ _ _ _ H) as (dst & fee & net & st & K & -> & -> & N0 & TA & R & CASE).
  exists dst, st. eexists. split; [exact K|]. split; [exact N0|]. split; [exact TA|]. split; [apply charge_booked|].
  split; [exact R|]. unfold over_limit. destruct CASE as [(L & -> & A & B)|(L1 & L2 & P & S)].
  - split; [auto|]. intros N. destruct (N L).
  - split; [lia|]. intros _. split; [apply settled_paid; exact S|exact P].
Qed.

(** The same for Solana tokens; here the request becomes pending if the vault holds less than the net amount. *)
Theorem C63_sol : forall e ext c s s' k w vault tsk ts gross, executes_sol e ext c s s' k w vault tsk ts gross ->
  let fee := fee_on (tk_fee_wdr ts) gross in let net := gross - fee in
  exists dst st ts', nth_error (c_keys c) 2 = Some dst /\ 0 <= net /\
    token_at e s' tsk ts' /\ booked ts ts' (tk_fee_supply ts + fee) (day_of (now s)) (today ts s + net) /\
    sol_request e s' k (w_set_status w st) /\
    (over_limit ts s net -> st = WWaitApprove /\ spl_still s s') /\
    (~ over_limit ts s net -> balance s vault < net -> st = WPending /\ spl_still s s') /\
    (~ over_limit ts s net -> net <= balance s vault -> st = settled_status (wse_payload (event_of w)) /\ sol_paid_to e s s' w vault dst net).
Proof.
  intros e ext c s s' k w vault tsk ts gross H. cbv zeta.
  destruct (executes_sol_outcome _ _ _ _ _ _ _ _ _ _ _ H) as (dst & fee & net & st & K & -> & -> & N0 & TA & R & CASE).
  exists dst, st. eexists. split; [exact K|]. split; [exact N0|]. split; [exact TA|]. split; [apply charge_booked|].
  split; [exact R|]. unfold over_limit. destruct CASE as [(L & -> & A)|(L1 & L2 & [(-> & A & B)|(P & S)])].
  - split; [auto|]. split; intros N; destruct (N L).
  - split; [lia|]. split; [auto|]. intros _ X. lia.
  - split; [lia|]. pose proof P as (_ & LE & _). split; [intros _ X; lia|]. intros _ _. split; [apply settled_paid; exact S|exact P].
Qed.

(** Executing the pending confirmed Solana request [w] again: it is paid if the vault holds the net amount and stays
    pending otherwise; the settings stay. *)
Theorem C63_sol_again : forall e ext c s s' k w vault tsk ts, tp_call e ext c TpWithdrawSol s s' ->
  nth_error (c_keys c) 0 = Some k -> nth_error (c_keys c) 3 = Some tsk -> sol_request e s k w -> status_of w = WPending ->
  p_required w <= confirmed (p_signers w) -> sol_token e s w vault tsk ts ->
  let gross := wse_amount (event_of w) mod 2 ^ 64 in let net := gross - fee_on (tk_fee_wdr ts) gross in
  exists dst st, nth_error (c_keys c) 2 = Some dst /\ 0 <= net /\ token_at e s' tsk ts /\ sol_request e s' k (w_set_status w st) /\
    (balance s vault < net -> st = WPending /\ spl_still s s') /\
    (net <= balance s vault -> st = settled_status (wse_payload (event_of w)) /\ sol_paid_to e s s' w vault dst net).
Proof.
  intros e ext c s s' k w vault tsk ts C K0 K3 RQ ST QU (PV & TA & TK). cbv zeta.
  apply tp_call_exec in C as (Hp & _ & CK & H). cbn [tp_exec] in H.
  apply tp_withdraw_sol_ok in H as (k' & vault' & dst & tsk' & pm & sk & x & y & rest & w' & gs & pn & K & WI & VS & GE & E).
  rewrite Hp in *. rewrite K in *. cbn [nth_error] in *. injection K0 as ->. injection K3 as ->.
  assert (w' = w). { destruct WI as [U _], RQ as (_ & U' & _). pose proof (eq_trans (eq_sym U) U') as E'. injection E' as E'. exact E'. } subst w'.
  destruct E as (ts' & vn & sv & V & KT & EM & PV' & CASE). rewrite Hp in *.
  assert (ts' = ts). { destruct V as [U' _], TA as [_ U]. congruence. }
  subst ts'. pose proof WI as [U RA]. pose proof (sol_confirms _ _ _ _ _ WI) as CF.
  assert (vault' = vault). { destruct PV as [n PV]. change (sd_vault (wse_mint (wl_data (p_event w)))) with (str "vault" ++ kb (wse_mint (event_of w))) in PV'. congruence. }
  subst vault'.
  destruct CASE as [[_ ID]|(_ & fee & net & st & s1 & F & NE & N0 & CASE)]; [lia|].
  pose proof (wsol_in_len _ _ _ _ _ WI) as LW. pose proof (token_len _ _ _ _ _ _ V) as LT.
  destruct (fee_on_of _ _ _ _ F) as [FD FE].
  change (wrap64 (wse_amount (wl_data (p_event w)))) with (wse_amount (event_of w) mod 2 ^ 64) in *.
  change (status_of w) with (w_status w) in ST.
  destruct CASE as [(X & _)|[(_ & PAID & SE)|(_ & X & _)]]; [congruence| |congruence].
  exists dst, st. split; [reflexivity|]. subst net. rewrite <- FE. split; [exact N0|].
  split; [exact (settled_token c_wsol e c s s1 s' tsk ts vn None k _ _ V SE Logic.I)|].
  assert (RQ' : sol_request e s' k (w_set_status w st)).
  { destruct RQ as (O & U' & n & PA). destruct SE as (_ & WR & _). split; [destruct WR; congruence|]. split; [|exists n; exact PA].
    apply unpack_init; [|apply unpack_ok in U' as (r & _ & _ & _ & I0); [exact I0|typeclasses eauto]].
    eapply wrote_unpack; [typeclasses eauto|exact WR|exact LW|]. apply unpack_ok in U' as (r & _ & OK & _); [|typeclasses eauto].
    apply okb_set_status; exact OK. }
  split; [exact RQ'|].
  assert (STILL : s1 = s -> spl_still s s').
  { intros ->. apply nospl_still. eapply (nospl_settled c_wsol); [exact Hp|apply spl_step_refl|exact LW|exact LT|exact SE]. }
  destruct PAID as (v & TV & [(-> & -> & LT')|(GE' & MV & DE & _)]).
  - pose proof (balance_le _ _ _ TV). split; [auto|]. intros X. lia.
  - rewrite Hp in DE. assert (PD : sol_paid_to e s s' w vault dst (wse_amount (event_of w) mod 2 ^ 64 - fee)) by (eapply moved_paid; eassumption).
    pose proof PD as (_ & LE & _). split; [intros X; lia|]. intros _. split; [apply settled_paid, (dest_paid _ _ _ _ _ _ _ _ DE)|exact PD].
Qed.

(** The amount of the day once an approval took [net] out of it: only a request made today was counted today. *)
Definition after_approval (ts : token_settings) (s : state) (request_day net : Z) : Z :=
  if request_day =? day_of (now s) then tk_wdamount ts - net else tk_wdamount ts.

Lemma released_booked {A} (cw : codec A) e c s s1 s' tsk ts vn re net ts2 wk (w' : A) l : token_in e tp_id s tsk ts vn -> 0 <= net ->
  released ts re (epoch_of (now s)) net ts2 -> settled c cw s s1 s' tsk ts2 wk w' l ->
  exists ts', token_at e s' tsk ts' /\ booked ts ts' (tk_fee_supply ts) (tk_wepoch ts) (after_approval ts s re net) /\ 0 <= after_approval ts s re net.
Proof.
  intros V N0 RL SE. pose proof (token_ok _ _ _ _ _ _ V) as OT. pose proof (token_init _ _ _ _ _ _ V) as IT.
  pose proof (released_facts _ _ _ _ _ RL OT N0 IT) as RF.
  exists (match ts2 with None => ts | Some t => t end). split.
  - eapply (settled_token cw e c s s1 s' tsk ts vn ts2); [exact V|exact SE|]. destruct ts2 as [t|]; [|exact Logic.I].
    destruct RF as (-> & _ & O1 & I1). auto.
  - unfold after_approval. change (day_of (now s)) with (epoch_of (now s)).
    assert (0 <= tk_wdamount ts) by (clear - OT; apply okb_ts in OT; lia).
    destruct RL as [[N ->]|(E & L & ->)].
    + destruct (_ =? _) eqn:X; [lia|]. split; [destruct ts; reflexivity|assumption].
    + destruct (_ =? _) eqn:X; [|lia]. split; [destruct ts; reflexivity|lia].
Qed.

(** Approving an Ever request that waits for approval: exactly the net amount is paid, the request is finished or
    waits for the execution of its payload, and the net amount leaves the day's total if the request is of this day. *)
Theorem C63_approve_ever : forall e ext c s s', tp_call e ext c TpApproveEver s s' ->
  exists k w mint md tsk ts dst ts' gross,
    nth_error (c_keys c) 2 = Some k /\ nth_error (c_keys c) 3 = Some dst /\ nth_error (c_keys c) 4 = Some tsk /\
    ever_request e s k w /\ status_of w = WWaitApprove /\ ever_token e s w mint md tsk ts /\
    (ever_scales w md -> gross = ever_gross w md mod 2 ^ 64) /\
    let net := gross - fee_on (tk_fee_wdr ts) gross in 0 <= net /\
    token_at e s' tsk ts' /\ booked ts ts' (tk_fee_supply ts) (tk_wepoch ts) (after_approval ts s (wm_epoch (wl_data (p_meta w))) net) /\
    ever_request e s' k (w_set_status w (settled_status (wee_payload (event_of w)))) /\ ever_paid e s s' w mint dst net.
Proof.
  intros e ext c s s' C. apply tp_call_exec in C as (Hp & _ & CK & H). cbn [tp_exec] in H.
  apply tp_approve_ever_ok in H as (au & mint & k & dst & tsk & sk & x & y & rest & w & K & B).
  destruct B as (ts & mn & m & d & md & gs & pn & SG & VS & GE & EN & WI & ST & V & KT & EM & PM & TM & amount & fee & net & st & s1 & ts2 & GA & F & NE & N0 & MI & DE & _ & _ & _ & RL & SE).
  rewrite Hp in *. pose proof WI as [U RA].
  pose proof (wever_in_len _ _ _ _ _ WI) as LW. pose proof (token_len _ _ _ _ _ _ V) as LT.
  destruct (fee_on_of _ _ _ _ F) as [FD FE]. subst fee net.
  assert (NST : w_status w <> st) by (rewrite ST; destruct (dest_st _ _ _ _ _ _ _ _ _ DE) as [->| ->]; discriminate).
  destruct (settled_held (c_withlen c_wever_event) _ c s s1 s' tsk _ k w st _ Hp U SE NST) as [H0 H'].
  destruct (minted_paid e c s s1 s' _ w mint dst _ st tsk _ k _ _ Hp MI SE LW LT DE) as (GOT & SU & SUJ & BA & RE & DEC).
  destruct (released_booked c_wever e c s s1 s' tsk ts mn _ _ ts2 k _ _ V N0 RL SE) as (ts' & TA & BO & _).
  exists k, w, mint, md, tsk, ts, dst, ts', amount. rewrite K. do 3 (split; [reflexivity|]).
  split; [apply ever_request_is; [exact H0|exact RA]|]. split; [exact ST|].
  split; [split; [exists mn; exact PM|]; split; [exact TM|]; split; [eapply token_spec; exact V|exists m, d; exact KT]|].
  split; [intros SC; exact (gwa_rescale _ _ _ _ SC GA)|]. cbv zeta.
  split; [exact N0|]. split; [exact TA|]. split; [exact BO|].
  assert (ES : st = settled_status (wee_payload (event_of w))).
  { apply settled_paid. destruct DE as [(P & -> & _)|(P & -> & _)]; [left|right]; auto. }
  rewrite <- ES. split.
  { destruct H' as [O' U']. split; [exact O'|]. split; [exact U'|]. destruct RA as (n & pn' & _ & FP). exists n. exact FP. }
  split; [exact GOT|]. split; [exact SU|]. split; [exact SUJ|]. split; [intros _; exact BA|exact RE].
Qed.

(** The same for Solana tokens; the request becomes pending if the vault holds less than the net amount. *)
Theorem C63_approve_sol : forall e ext c s s', tp_call e ext c TpApproveSol s s' ->
  exists k w vault tsk ts dst ts' st,
    nth_error (c_keys c) 2 = Some k /\ nth_error (c_keys c) 3 = Some dst /\ nth_error (c_keys c) 4 = Some tsk /\
    sol_request e s k w /\ status_of w = WWaitApprove /\ sol_token e s w vault tsk ts /\
    let gross := wse_amount (event_of w) mod 2 ^ 64 in let net := gross - fee_on (tk_fee_wdr ts) gross in 0 <= net /\
    token_at e s' tsk ts' /\ booked ts ts' (tk_fee_supply ts) (tk_wepoch ts) (after_approval ts s (wm_epoch (wl_data (p_meta w))) net) /\
    sol_request e s' k (w_set_status w st) /\
    (balance s vault < net -> st = WPending /\ spl_still s s') /\
    (net <= balance s vault -> st = settled_status (wse_payload (event_of w)) /\ sol_paid_to e s s' w vault dst net).
Proof.
  intros e ext c s s' C. apply tp_call_exec in C as (Hp & _ & CK & H). cbn [tp_exec] in H.
  apply tp_approve_sol_ok in H as (au & vault & k & dst & tsk & sk & x & y & rest & w & K & B).
  destruct B as (ts & vn & sv & gs & pn & SG & VS & GE & EN & WI & ST & V & KT & EM & PV & fee & net & st & s1 & ts2 & F & NE & N0 & PAID & RL & SE).
  rewrite Hp in *. pose proof WI as [U RA].
  pose proof (wsol_in_len _ _ _ _ _ WI) as LW. pose proof (token_len _ _ _ _ _ _ V) as LT.
  destruct (fee_on_of _ _ _ _ F) as [FD FE]. subst fee net.
  destruct PAID as (v & TV & PAID). rewrite Hp in PAID.
  assert (NST : w_status w <> st).
  { rewrite ST. destruct PAID as [(-> & _)|(_ & _ & DE & _)]; [discriminate|]. destruct (dest_st _ _ _ _ _ _ _ _ _ DE) as [->| ->]; discriminate. }
  destruct (settled_held (c_withlen c_wsol_event) _ c s s1 s' tsk _ k w st _ Hp U SE NST) as [H0 H'].
  destruct (released_booked c_wsol e c s s1 s' tsk ts vn _ _ ts2 k _ _ V N0 RL SE) as (ts' & TA & BO & _).
  exists k, w, vault, tsk, ts, dst, ts', st. rewrite K. do 3 (split; [reflexivity|]).
  split; [apply sol_request_is; [exact H0|exact RA]|]. split; [exact ST|].
  split; [split; [exists vn; exact PV|]; split; [eapply token_spec; exact V|exists sv; exact KT]|].
  cbv zeta. split; [exact N0|]. split; [exact TA|]. split; [exact BO|]. split.
  { destruct H' as [O' U']. split; [exact O'|]. split; [exact U'|]. destruct RA as (n & pn' & _ & FP). exists n. exact FP. }
  change (wrap64 (wse_amount (wl_data (p_event w)))) with (wse_amount (event_of w) mod 2 ^ 64) in *.
  pose proof (balance_le _ _ _ TV) as BL.
  destruct PAID as [(-> & -> & LT')|(GE' & MV & DE & _)].
  - split; [|intros X; lia]. intros _. split; [reflexivity|].
    apply nospl_still. eapply (nospl_settled c_wsol); [exact Hp|apply spl_step_refl|exact LW|exact LT|exact SE].
  - assert (PD : sol_paid_to e s s' w vault dst (wse_amount (event_of w) mod 2 ^ 64 - fee_on (tk_fee_wdr ts) (wse_amount (event_of w) mod 2 ^ 64))) by (eapply moved_paid; eassumption).
    pose proof PD as (_ & LE & _). split; [intros X; lia|]. intros _. split; [apply settled_paid, (dest_paid _ _ _ _ _ _ _ _ DE)|exact PD].
Qed.

(** * C64 Cancelling a withdrawal *)

(** A successful cancellation: the request at place 3 is pending and its author, at place 1, signs; it is cancelled
    afterwards; a new deposit of the author records the event's token, the event's amount less the deposit fee, and
    recipient, value and payload as instructed; no other account changes its data, so no token moves and the
    token's settings stay; the multi-vault gets exactly [value], and the only other lamports that move are the
    funder's rent for the deposit. *)
Theorem C64_cancel : forall e ext c seed recipient value evers payload s s',
  tp_call e ext c (TpCancel seed recipient value evers payload) s s' ->
  exists funder author mint k deposit settings tsk x y mv w ts v md rent,
    (exists rest, c_keys c = funder :: author :: mint :: k :: deposit :: settings :: tsk :: x :: y :: mv :: rest) /\
    c_sg c author = true /\ sol_request e s k w /\ status_of w = WPending /\ p_author w = author /\
    token_at e s tsk ts /\ tk_kind ts = TKSol (wse_mint (event_of w)) v /\ tmint_in s mint md /\
    (let amount := wse_amount (event_of w) in let fee := fee_on (tk_fee_dep ts) amount in
     fee <= amount /\
     sol_deposit e s' deposit author seed
       (DSolEvent (wse_mint (event_of w)) (tk_name ts) (tk_symbol ts) (tm_decimals md) (amount - fee) recipient value evers payload)) /\
    fresh s deposit /\ sol_request e s' k (w_set_status w WCancelled) /\
    (forall j, j <> k -> j <> deposit -> same_od s s' j) /\
    is_multivault e s mv /\ 0 < rent /\
    (forall j, lam (accs s' j) = lam (accs s j) + gain mv value j + gain deposit rent j - gain funder (value + rent) j).
Proof.
  intros e ext c seed recipient value evers payload s s' CALL. apply tp_call_exec in CALL as (Hp & OI & _ & H). cbn [tp_exec] in H.
  apply tp_cancel_ok in H as (f & a & mint & k & dk & sk & tsk & x & y & mv & rest & K & B).
  destruct B as (st & pn & w & ts & vn & sv & md & dn & fee & amt & s1 & s2 & SG & VS & GE & WI & AU & ST & V & KT & EM & VM & MM & TM & PD & F & FU & EA & A0 & LP & RE & PK).
  rewrite Hp in *. destruct (fee_on_of _ _ _ _ F) as [FD FE]. subst fee. pose proof WI as [U RA].
  destruct LP as (SF & LF & DF & SOD & _ & DL & _). pose proof RE as (NR & LZ & SOR & DLR & _). rewrite Hp in NR.
  pose proof (wsol_in_len _ _ _ _ _ WI) as LW. pose proof (token_len _ _ _ _ _ _ V) as LT.
  destruct (recorded_deposit (c_withlen c_dsol_event) e c dn a _ seed f dk _ s1 s2 Hp PD RE) as (UN & OD & LD & KD).
  assert (FR : fresh s dk) by (destruct UN as [U1 U2], (SOD dk) as [X1 X2]; split; congruence).
  assert (NK : k <> dk) by (intros ->; destruct FR as [_ FR]; rewrite FR in LW; discriminate).
  assert (SK : same_od s s2 k) by (apply (same_od_trans _ s1); [apply SOD|apply SOR; exact NK]).
  assert (U2 : unpack c_wsol TP_LEN (@p_init _ _) (dat (accs s2 k)) = Ok w) by (rewrite (proj2 SK); exact U).
  destruct (packed_moves (c_withlen c_wsol_event) _ c (put_log s2 (enc c_ev_status (EvStatus k WCancelled))) s' k w WCancelled Hp PK U2) as [[OW _] [OW' U']]; [rewrite ST; discriminate|].
  assert (OWS : own (accs s k) = tp_id) by (destruct SK as [SK _]; cbn [accs put_log] in OW; congruence).
  exists f, a, mint, k, dk, sk, tsk, x, y, mv, w, ts, sv, md, (Z.max 1 (rent_min e TP_LEN)).
  split; [eexists; exact K|]. split; [exact SG|].
  split; [split; [exact OWS|split; [exact U|destruct RA as (n & pn' & _ & FP); exists n; exact FP]]|]. split; [exact ST|]. split; [exact AU|].
  split; [eapply token_spec; exact V|]. split; [exact KT|]. split; [exact TM|].
  split; [cbv zeta; change (wse_amount (event_of w)) with (wse_amount (wl_data (p_event w))); split; [lia|]|].
  { split; [exists dn; exact PD|]. exists dn. eexists. apply (holds_same _ _ s2).
    - exact (packed_od _ _ _ _ _ _ _ PK dk (fun E => NK (eq_sym E))).
    - eapply new_holds. subst amt. exact NR. }
  split; [exact FR|]. split.
  { split; [exact OW'|]. split; [exact U'|destruct RA as (n & pn' & _ & FP); exists n; exact FP]. }
  split.
  { intros j N1 N2. apply (same_od_trans _ s1); [apply SOD|]. apply (same_od_trans _ s2); [apply SOR; exact N2|]. exact (packed_od _ _ _ _ _ _ _ PK _ N1). }
  split; [apply multivault_spec; exact VM|]. split; [lia|].
  intros j. rewrite (packed_lam _ _ _ _ _ _ _ PK j). cbn [accs put_log]. rewrite DLR, DL. unfold gain, at_key. destruct (keqb j mv), (keqb j dk), (keqb j f); lia.
Qed.

(** * C65 The decimals of recorded deposits *)

(** The places of mint account and deposit account in the account list of the instructions that record a deposit of
    Solana tokens. *)
Definition sol_deposit_places (i : tp_ix) : option (nat * nat * Z) :=
  match i with
  | TpDepositSol seed _ _ _ _ _ _ _ => Some (5%nat, 4%nat, seed)
  | TpCancel seed _ _ _ _ => Some (2%nat, 4%nat, seed)
  | TpFill seed _ _ _ _ _ => Some (3%nat, 4%nat, seed)
  | _ => None end.

(** The decimals recorded are those of the mint account at its place; a deposit always names this mint, so
    name and decimals belong together.
    Missing for the full C65: cancelling and filling name the token's mint, whatever mint account is passed, see
    C65_cancel_refuted and C65_fill_refuted. *)
Theorem C65_partial : forall e ext c i s s' nm nd seed mint deposit, tp_call e ext c i s s' ->
  sol_deposit_places i = Some (nm, nd, seed) -> nth_error (c_keys c) nm = Some mint -> nth_error (c_keys c) nd = Some deposit ->
  exists author ev md, fresh s deposit /\ sol_deposit e s' deposit author seed ev /\ c_sg c author = true /\
    tmint_in s mint md /\ dse_decimals ev = tm_decimals md /\
    match i with TpDepositSol _ _ _ _ _ _ _ _ => dse_base ev = mint | _ => True end.
Proof.
  intros e ext c i s s' nm nd seed mint deposit CALL PL KM KD. destruct i; try discriminate PL; injection PL as <- <- <-.
  - apply C38_partial in CALL as (f & cr & src & vk & dk & mk & mv & tsk & t & md & ts' & m & v & (rest & K) & TA & _ & TM & SG & _ & X).
    cbv zeta in X. destruct X as (_ & _ & _ & _ & _ & _ & _ & _ & _ & FR & SD & _). rewrite K in KM, KD. injection KM as ->. injection KD as ->.
    exists cr. eexists. exists md. split; [exact FR|]. split; [exact SD|]. split; [exact SG|]. split; [exact TM|]. split; reflexivity.
  - apply C64_cancel in CALL as (f & a & mk & k & dk & sk & tsk & x & y & mv & w & ts & v & md & rent & (rest & K) & SG & _ & _ & _ & _ & _ & TM & (_ & SD) & FR & _).
    rewrite K in KM, KD. injection KM as ->. injection KD as ->.
    exists a. eexists. exists md. split; [exact FR|]. split; [exact SD|]. split; [exact SG|]. split; [exact TM|]. split; [reflexivity|exact Logic.I].
  - apply C44_partial in CALL as (f & a & src & mk & dk & sk & x & tsk & y & z & mv & fl & vk & ts & m & v & md & t & vt & K & _ & _ & _ & _ & _ & SG & _ & _ & _ & _ & _ & _ & _ & _ & FR & TM & SD & _).
    rewrite K in KM, KD. injection KM as ->. injection KD as ->.
    exists a. eexists. exists md. split; [exact FR|]. split; [exact SD|]. split; [exact SG|]. split; [exact TM|]. split; [reflexivity|exact Logic.I].
Qed.

(** The recipient cancels [tw2], a withdrawal of 700000 of the token [tmintS] of 6 decimals, and passes the mint of an
    Ever token with 9 decimals: the recorded deposit says [tmintS] has 9 decimals.  The check of the mint
    (processor.rs:3863) only fails for an account that is neither the token's mint nor owned by the token program. *)
Definition xcancel9 : list meta * tp_ix :=
  ([sw tfunder; sw trecv; ro tmintE; ww tw2; ww td2; ro tset; ro ttsS; ro sys_id; ro rent_id; ww tmv], snd xcancel).
Theorem C65_cancel_refuted : exists c seed recipient value evers payload s s' deposit author ev md,
  reached s /\ tp_call te no_ext c (TpCancel seed recipient value evers payload) s s' /\ fresh s deposit /\
  sol_deposit te s' deposit author seed ev /\ mint_in s (dse_base ev) md /\ dse_decimals ev <> tm_decimals md.
Proof.
  exists (ctx_of tp_id (fst xcancel9)), 2, teverX, 3000, (knum 72), [], ts11, (unres (tstp ts11 xcancel9)), td2, trecv,
    (DSolEvent tmintS (str "Solana Token") (str "SOT") 9 699650 teverX 3000 (knum 72) []), (the_mint ts11 tmintS).
  split; [reach11|]. split; [demo_call|]. split; [split; vm_compute; reflexivity|]. split; [demo_deposit|].
  split; [split; vm_compute; reflexivity|]. vm_compute. discriminate.
Qed.
(** The same with filling (processor.rs:4070-4078). *)
Definition xfill9 : list meta * tp_ix :=
  ([sw tfunder; sw tstranger; ww tstrS; ro tmintE; ww td2; ro tset; ro sys_id; ro ttsS; ro spl_id; ro rent_id; ww tmv; ww tw2; ww trecvS; ww tvault], snd xfill).
Theorem C65_fill_refuted : exists c seed recipient amount value evers payload s s' deposit author ev md,
  reached s /\ tp_call te no_ext c (TpFill seed recipient amount value evers payload) s s' /\ fresh s deposit /\
  sol_deposit te s' deposit author seed ev /\ mint_in s (dse_base ev) md /\ dse_decimals ev <> tm_decimals md.
Proof.
  exists (ctx_of tp_id (fst xfill9)), 2, teverX, 800000, 3000, (knum 72), [], ts11, (unres (tstp ts11 xfill9)), td2, tstranger,
    (DSolEvent tmintS (str "Solana Token") (str "SOT") 9 799600 teverX 3000 (knum 72) []), (the_mint ts11 tmintS).
  split; [reach11|]. split; [demo_call|]. split; [split; vm_compute; reflexivity|]. split; [demo_deposit|].
  split; [split; vm_compute; reflexivity|]. vm_compute. discriminate.
Qed.

(** * C66 Status changes are announced *)

Definition status_entry (k : key) (st : wstatus) : bytes := enc c_ev_status (EvStatus k st).

Lemma fill_run_status e c au src sm dk f fees nets l s fees' nets' l' s' :
  fill_run e c au src sm dk f fees nets l s fees' nets' l' s' ->
  exists more, logs s' = logs s ++ more /\
    forall n k, nth_error l (2 * n) = Some k -> (2 * n + 1 < List.length l)%nat -> In (status_entry k WProcessed) more.
Proof.
  induction 1 as [|fees nets w rt l s fee net s1 fees' nets' l' s' ONE RUN (more & IH1 & IH2)].
  - exists []. split; [symmetry; apply app_nil_r|]. intros n k _ L. lia.
  - destruct ONE as (x & r & out & s2 & s3 & _ & _ & _ & _ & _ & _ & _ & _ & _ & _ & _ & MV & PK & ->).
    assert (L1 : logs s2 = logs s) by (destruct MV as ((a & b & dl & da & _ & _ & _ & _ & _ & _ & _ & _ & [X _] & _) & _); exact X).
    apply packed_logs in PK. cbn [logs put_log] in PK, IH1. rewrite L1 in PK. rewrite PK in IH1. rewrite <- !app_assoc in IH1.
    eexists. split; [exact IH1|]. intros n k N L. destruct n as [|n].
    + injection N as ->. left. reflexivity.
    + replace (2 * S n)%nat with (S (S (2 * n))) in * by lia. cbn [nth_error] in N. do 2 (apply in_or_app; right). apply (IH2 n); [exact N|].
      cbn [List.length] in L. lia.
Qed.

Lemma wrote_status {E} (ce : codec E) (Le : Lawful ce) s s' k (w : prop E (withlen wmeta)) st :
  unpack (c_prop ce (c_withlen c_wmeta)) TP_LEN (@p_init _ _) (dat (accs s k)) = Ok w ->
  wrote (c_prop ce (c_withlen c_wmeta)) s s' k (w_set_status w st) ->
  unpack (c_prop ce (c_withlen c_wmeta)) TP_LEN (@p_init _ _) (dat (accs s' k)) = Ok (w_set_status w st).
Proof.
  intros U W. assert (I : p_init w = true) by (apply unpack_unchecked_init in U; apply U).
  assert (O : okb (c_prop ce (c_withlen c_wmeta)) w = true) by (eapply okb_unpack; [typeclasses eauto|exact U]).
  apply unpack_init; [|exact I]. eapply wrote_unpack; [typeclasses eauto|exact W|eapply unpack_len; [|exact U]; typeclasses eauto|].
  apply okb_set_status; assumption.
Qed.
Lemma sol_status e s s' k w st g' m' : no_collision e k -> wsol_in e tp_id s k w -> wrote c_wsol s s' k (w_set_status w st) ->
  request_at e s' k g' m' -> wm_status m' = st.
Proof.
  intros NC [U RA] W R'. pose proof (wrote_status (c_withlen c_wsol_event) _ s s' k w st U W) as U'.
  destruct (wsol_request _ _ _ _ _ _ NC R' (conj U' RA)) as (_ & -> & _). reflexivity.
Qed.
Lemma ever_status e s s' k w st g' m' : no_collision e k -> wever_in e tp_id s k w -> wrote c_wever s s' k (w_set_status w st) ->
  request_at e s' k g' m' -> wm_status m' = st.
Proof.
  intros NC [U RA] W R'. pose proof (wrote_status (c_withlen c_wever_event) _ s s' k w st U W) as U'.
  destruct (wever_request _ _ _ _ _ _ NC R' (conj U' RA)) as (_ & -> & _). reflexivity.
Qed.
Lemma moved_logs s s' src dst a n : moved s s' src dst a n -> logs s' = logs s.
Proof. intros (x & y & dl & da & _ & _ & _ & _ & _ & _ & _ & _ & [X _] & _). exact X. Qed.
Lemma minted_logs s s' m dst n : minted s s' m dst n -> logs s' = logs s.
Proof. intros (x & y & _ & _ & _ & _ & _ & _ & _ & _ & [X _] & _). exact X. Qed.
Lemma sol_paid_logs e c w vault dst mint sm vn n s s1 st : sol_paid e c w vault dst mint sm vn n s s1 st -> logs s1 = logs s.
Proof. intros (v & _ & [(_ & -> & _)|(_ & MV & _)]); [reflexivity|eapply moved_logs; exact MV]. Qed.
Lemma ever_exec_log e c w k mint dst tsk t s s' g' m' : c_pid c = tp_id -> no_collision e k -> wever_in e tp_id s k w ->
  ever_exec_eff e c w k mint dst tsk t s s' -> request_at e s' k g' m' ->
  s' = s \/ logs s' = logs s ++ [status_entry k (wm_status m')].
Proof.
  intros Hp NC WI (ts & mn & m & d & md & V & KT & EM & PM & TM & CASE) R'. rewrite Hp in *.
  destruct CASE as [(-> & _)|(_ & _ & amount & fee & net & st & s1 & _ & _ & _ & _ & _ & _ & PAY & SE)]; [left; reflexivity|right].
  assert (L1 : logs s1 = logs s).
  { destruct PAY as [(_ & _ & ->)|(_ & _ & MI & _)]; [reflexivity|eapply minted_logs; exact MI]. }
  destruct SE as (_ & W & _ & _ & _ & _ & LG & _). rewrite (ever_status _ _ _ _ _ _ _ _ NC WI W R'). rewrite LG, L1. reflexivity.
Qed.

(** Whenever an instruction changes the status of a request, it logs the request's address with the new status -
    except for the approval of Solana withdrawals and the execution of payloads.
    Missing for the full C66: those log nothing, see C66_refuted. *)
Theorem C66_partial : forall e ext c i s s' k g m g' m', tp_call e ext c i s s' -> ext_outside ext -> no_collision e k ->
  request_at e s k g m -> request_at e s' k g' m' -> wm_status m' <> wm_status m ->
  i <> TpApproveSol -> is_payload i = false ->
  exists more, logs s' = logs s ++ more /\ In (status_entry k (wm_status m')) more.
Proof.
  intros e ext c i s s' k g m g' m' C X NC R R' NE NA NP.
  destruct (req_status _ _ _ _ _ _ _ _ _ _ _ C X NC R R') as (_ & _ & _ & _ & _ & [E|(MV & WP & _)]); [congruence|].
  specialize (WP NP). pose proof C as C0. apply tp_call_exec in C as (Hp & _ & _ & H).
  assert (SAME : s' = s -> False).
  { intros ->. destruct (request_fun _ _ _ _ _ _ _ R R') as [-> ->]. congruence. }
  assert (LEN : blen (dat (accs s k)) = TP_LEN) by (destruct R as (_ & U & _); eapply unpack_len; [|exact U]; typeclasses eauto).
  assert (ONE : logs s' = logs s ++ [status_entry k (wm_status m')] -> exists more, logs s' = logs s ++ more /\ In (status_entry k (wm_status m')) more).
  { intros L. eexists. split; [exact L|]. left. reflexivity. }
  destruct i; try discriminate MV; try discriminate NP; try congruence; cbn [wpos] in WP; cbn [tp_exec] in H.
  - apply tp_withdraw_ever_ok in H as (k' & mint & dst & tsk & sk & x & y & z & u & rest & w & t & K & -> & WI & _ & CASE).
    rewrite Hp in *. rewrite K in WP. injection WP as ->.
    destruct CASE as [(_ & _ & Q)|[(_ & EF)|(_ & f & r' & s0 & _ & RG & WI0 & EF)]]; [destruct (SAME Q)| |].
    + destruct (ever_exec_log _ _ _ _ _ _ _ _ _ _ _ _ Hp NC WI EF R') as [Q|Q]; [destruct (SAME Q)|exact (ONE Q)].
    + assert (S0 : same_od s s0 k) by (eapply registered_other; [exact RG|]; apply blen_ne; exact LEN).
      destruct (ever_exec_log _ _ _ _ _ _ _ _ _ _ _ _ Hp NC WI0 EF R') as [Q|Q].
      * exfalso. subst s0. destruct (request_fun _ _ _ _ _ _ _ (request_same _ _ _ _ _ _ S0 R) R') as [-> ->]. congruence.
      * assert (L0 : exists more, logs s0 = logs s ++ more).
        { destruct RG as (mn & tn & ata & an & mm & tt0 & RG). eexists. apply RG. }
        destruct L0 as (more & L0). rewrite L0, <- app_assoc in Q. eexists. split; [exact Q|]. apply in_or_app. right. left. reflexivity.
  - apply tp_withdraw_sol_ok in H as (k' & vault & dst & tsk & pm & sk & x & y & rest & w & gs & pn & K & WI & VS & GE & EF).
    rewrite Hp in *. rewrite K in WP. injection WP as ->.
    destruct EF as (ts & vn & sv & V & KT & EM & PV & [[Q _]|(_ & fee & net & st & s1 & _ & _ & _ & CASE)]); [destruct (SAME Q)|].
    assert (Q : logs s1 = logs s /\ exists ts2, settled c c_wsol s s1 s' tsk ts2 k (w_set_status w st) [status_entry k st]).
    { destruct CASE as [(_ & _ & _ & PAY & SE)|[(_ & PAY & SE)|(_ & _ & _ & -> & SE)]].
      - split; [|eexists; exact SE]. destruct PAY as [(_ & _ & ->)|(_ & _ & PAY)]; [reflexivity|eapply sol_paid_logs; exact PAY].
      - split; [|eexists; exact SE]. eapply sol_paid_logs; exact PAY.
      - split; [reflexivity|eexists; exact SE]. }
    destruct Q as (L1 & ts2 & (_ & W & _ & _ & _ & _ & LG & _)). apply ONE.
    rewrite (sol_status _ _ _ _ _ _ _ _ NC WI W R'). rewrite LG, L1. reflexivity.
  - apply tp_approve_ever_ok in H as (au & mint & k' & dst & tsk & sk & x & y & rest & w & K & B).
    destruct B as (ts & mn & md0 & d & md & gs & pn & SG & VS & GE & EN & WI & ST & V & KT & EM & PM & TM & amount & fee & net & st & s1 & ts2 & GA & F & NET & N0 & MI & DE & _ & _ & _ & RL & SE).
    rewrite Hp in *. rewrite K in WP. injection WP as ->. destruct SE as (_ & W & _ & _ & _ & _ & LG & _). apply ONE.
    rewrite (ever_status _ _ _ _ _ _ _ _ NC WI W R'). rewrite LG, (minted_logs _ _ _ _ _ MI). reflexivity.
  - apply tp_cancel_ok in H as (f & a & mint & k' & dk & sk & tsk & x & y & mv & rest & K & B).
    destruct B as (st & pn & w & ts & vn & sv & md & dn & fee & amt & s1 & s2 & SG & VS & GE & WI & AU & ST & V & KT & EM & VM & MM & TM & PD & F & FU & EA & A0 & LP & RE & PK).
    rewrite Hp in *. rewrite K in WP. injection WP as ->.
    destruct LP as (_ & _ & _ & SOD & [L1 _] & _). destruct RE as (NR & _ & SOR & _ & L2 & _).
    assert (NK : k <> dk). { intros ->. destruct NR as (_ & Z0 & _). rewrite (proj2 (SOD dk)) in Z0. rewrite Z0 in LEN. discriminate. }
    assert (SK : same_od s s2 k) by (apply (same_od_trans _ s1); [apply SOD|apply SOR; exact NK]).
    assert (W : wrote c_wsol s s' k (w_set_status w WCancelled)).
    { eapply (same_od_wrote c_wsol s (put_log s2 (enc c_ev_status (EvStatus k WCancelled)))); [exact SK|eapply packed_wrote; exact PK]. }
    rewrite (sol_status _ _ _ _ _ _ _ _ NC WI W R'). apply packed_logs in PK. cbn [logs put_log] in PK. rewrite L2, L1, <- app_assoc in PK.
    eexists. split; [exact PK|]. right. left. reflexivity.
  - pose proof C0 as FI. apply C44_partial in FI as (f & a & src & mk & dk & sk & x & tsk & y & z & mv & fl & vk & ts & m0 & v & md & t & vt & K & _ & _ & _ & ND & FO & _ & _ & _ & TV & _).
    apply tp_fill_ok in H as (f' & a' & src' & mint' & dk' & sk' & x' & tsk' & y' & z' & mv' & rest & K' & B).
    destruct B as (st & pn & ts' & vn & m1 & sv & md' & dn & fees & nets & vk' & unread & vt' & fee & amt & s1 & s2 & s3 & s4 & S & VS & GE & V & KT & EM & VM & MM & TM & PD & PV & LP & FR & (CR & [L3 _] & _) & WR & TV' & DL1 & DL2 & (MV' & _) & FE & EA & A0 & PK).
    rewrite K in K'. injection K' as <- <- <- <- <- <- <- <- <- <- <- <-.
    destruct (fill_run_status _ _ _ _ _ _ _ _ _ _ _ _ _ _ _ FR) as (more & L2 & IN). destruct LP as (_ & _ & _ & SOD & [L1 _] & _).
    apply packed_logs in PK. cbn [logs put_log] in PK. rewrite (moved_logs _ _ _ _ _ _ MV'), L3, L2, L1, <- app_assoc in PK.
    destruct WP as (n & WP). rewrite K in WP. cbn [Nat.add nth_error] in WP.
    assert (LK : forall l, List.length (keys_of l) = (2 * List.length l)%nat).
    { induction l as [|q l IH]; [reflexivity|]. cbn [keys_of flat_map app List.length]. fold (keys_of l). rewrite IH. lia. }
    destruct (Nat.lt_ge_cases n (List.length fl)) as [LT|LT].
    + eexists. split; [exact PK|]. apply in_or_app. left.
      assert (wm_status m' = WProcessed) as ->. { clear - MV. destruct (wm_status m), (wm_status m'); (reflexivity || discriminate MV). }
      apply (IN n); [exact WP|]. rewrite app_length, LK. cbn [List.length]. lia.
    + exfalso. rewrite nth_error_app2 in WP by (rewrite LK; lia). rewrite LK in WP.
      destruct (2 * n - 2 * List.length fl)%nat as [|q]; [|destruct q; discriminate WP]. injection WP as ->.
      apply tok_len in TV. rewrite TV in LEN. discriminate.
Qed.

(** The approval of [tw1] changes its status and logs nothing (processor.rs:3050-3268 has no log entry). *)
Ltac reach16 := unfold reached, ts16; demo_more; unfold ts15; demo_more; demo_ts4; unfold ts3; demo_more;
    unfold ts2; demo_more; unfold ts1; demo_more; apply h_refl.
Theorem C66_refuted : exists c s s' k g m g' m',
  reached s /\ tp_call te no_ext c TpApproveSol s s' /\ no_collision te k /\
  request_at te s k g m /\ request_at te s' k g' m' /\ wm_status m = WWaitApprove /\ wm_status m' = WProcessed /\ logs s' = logs s.
Proof.
  pose (x := tapprS twman tw1 trecvS).
  exists (ctx_of tp_id (fst x)), ts16, (unres (tstp ts16 x)), tw1, (the_req ts16 tw1), (the_meta ts16 tw1),
    (the_req (unres (tstp ts16 x)) tw1), (the_meta (unres (tstp ts16 x)) tw1).
  split; [reach16|]. split; [demo_call|]. split; [exact tw1_sole|]. split; [demo_req|]. split; [demo_req|].
  split; [vm_compute; reflexivity|]. split; vm_compute; reflexivity.
Qed.

(** * C67 Newly registered tokens *)

(** Settings of a token that only differ from the defaults - no limits, fees of 5/10000, no emergency - in fees
    collected, day and amount of the day. *)
Definition default_token (ts : token_settings) (kind : token_kind) (name symbol : bytes) (fees day amount : Z) : Prop :=
  tk_kind ts = kind /\ tk_name ts = name /\ tk_symbol ts = symbol /\
  tk_dlimit ts = 2 ^ 64 - 1 /\ tk_wlimit ts = 2 ^ 64 - 1 /\ tk_wdlimit ts = 2 ^ 64 - 1 /\ tk_emergency ts = false /\
  tk_fee_dep ts = FeeInfo 5 10000 /\ tk_fee_wdr ts = FeeInfo 5 10000 /\
  tk_fee_supply ts = fees /\ tk_wepoch ts = day /\ tk_wdamount ts = amount.

Lemma token_in_new e s k ts vn nt : token_in e tp_id s k ts vn -> unpack c_token_settings TP_LEN tk_init (dat (accs s k)) = Ok nt -> ts = nt.
Proof. intros [U _] U'. rewrite U in U'. injection U' as E. exact E. Qed.

Lemma spent_new kd tk name symbol d : spent (new_token_settings kd tk name symbol) d = 0.
Proof. unfold spent, new_token_settings. cbn [tk_wepoch tk_wdamount]. destruct (0 =? d); reflexivity. Qed.
Lemma new_ever_unpack e c s s0 k w tsk tn mn mint h sd : wever_in e tp_id s k w ->
  find_pda e h tp_id = Ok (tsk, tn) -> find_pda e sd tp_id = Ok (mint, mn) ->
  let ev := wl_data (p_event w) in
  let nt := new_token_settings (KTokenSettings tn mn) (TKEver mint (wee_token ev) (wee_decimals ev)) (wee_name ev) (wee_symbol ev) in
  c_pid c = tp_id -> new_record c_token_settings TP_LEN nt tp_id s s0 tsk -> unpack c_token_settings TP_LEN tk_init (dat (accs s0 tsk)) = Ok nt.
Proof.
  intros V PT PM ev nt Hp NR. destruct (wever_facts _ _ _ _ _ V) as (OW & DE & _).
  assert (OE : okb c_wever_event ev = true).
  { unfold c_wever, wever in OW. rewrite (okb_prop (c_withlen c_wever_event) (c_withlen c_wmeta)) in OW.
    rewrite !andb_true_iff in OW. destruct OW as (_ & _ & _ & _ & OW & _). rewrite okb_withlen, andb_true_iff in OW. apply OW. }
  change (okb c_wever_event ev) with (okb c_ever (wee_token ev) && (okb c_string (wee_name ev) && (okb c_string (wee_symbol ev) && (okb c_u8 (wee_decimals ev) && (okb c_u128 (wee_amount ev) && (true && okb c_bytes (wee_payload ev))))))) in OE.
  rewrite !andb_true_iff in OE. destruct OE as (O1 & O2 & O3 & O4 & O5 & _ & O6).
  assert (ON : okb c_token_settings nt = true).
  { apply new_token_ok; try assumption; try (eapply bump_ok; eassumption).
    change (true && (okb c_ever (wee_token ev) && okb c_u8 (wee_decimals ev)) = true). rewrite O1, O4. reflexivity. }
  destruct (new_held c_token_settings _ tk_init nt s s0 tsk NR ON eq_refl) as [_ [_ U]]. exact U.
Qed.

(** A deposit of an unregistered Solana token registers it under the name and symbol of the instruction, of at most
    32 bytes each, with the defaults; the deposit's fee is the first fee collected. *)
Theorem C67_sol : forall e ext c seed name symbol amount recipient value evers payload s s' vault mint tsk,
  tp_call e ext c (TpDepositSol seed name symbol amount recipient value evers payload) s s' ->
  nth_error (c_keys c) 3 = Some vault -> nth_error (c_keys c) 5 = Some mint -> nth_error (c_keys c) 7 = Some tsk ->
  blen name <= 32 /\ blen symbol <= 32 /\
  (lam (accs s tsk) = 0 -> exists ts', token_at e s' tsk ts' /\
     default_token ts' (TKSol mint vault) name symbol (fee_on (FeeInfo 5 10000) amount) 0 0).
Proof.
  intros e ext c seed name symbol amount recipient value evers payload s s' vault mint tsk CALL KV KM KT0.
  apply tp_call_exec in CALL as (Hp & OI & _ & H). cbn [tp_exec] in H. apply ix_deposit_sol in OI as (OI & ON & OS).
  apply tp_deposit_sol_ok in H as (f & cr & ct & vk & dk & mint' & mv & tsk' & sk & x & y & z & rest & st & pn & s0 & K & S & VS & GE & LN & LS & R & B); [|lia].
  rewrite K in KV, KM, KT0. cbn [nth_error] in KV, KM, KT0. injection KV as ->. injection KM as ->. injection KT0 as ->.
  split; [exact LN|]. split; [exact LS|]. intros L0.
  destruct B as (ts & vn & sm & sv & md & vt & dn & fee & amt & s1 & s2 & s3 & V & KT & EM & MM & TM & VV & TV & DLI & DLU & VM & PD & F & PE & P0 & B1 & B).
  cbv zeta in B. destruct B as ((MV & SG & _) & LP & RE & PK).
  rewrite Hp in *. destruct (fee_on_of _ _ _ _ F) as [FD FE].
  pose proof (token_ok _ _ _ _ _ _ V) as OT. pose proof (token_init _ _ _ _ _ _ V) as IT.
  pose proof (moved_step _ _ _ _ _ _ MV) as SS.
  destruct (recorded_deposit (c_withlen c_dsol_event) e c dn cr _ seed f dk _ s2 s3 Hp PD RE) as (UN & OD & LD & KD).
  assert (SO1 : same_od s0 s2 tsk) by (apply (same_od_trans _ s1); [apply SS; eapply token_len; exact V|apply LP]).
  assert (ND : tsk <> dk).
  { intros ->. destruct UN as [_ UN]. destruct SO1 as [_ SO1]. apply token_len in V. rewrite <- SO1, UN in V. discriminate. }
  assert (SO2 : same_od s0 s3 tsk) by (apply (same_od_trans _ s2); [exact SO1|apply RE; exact ND]).
  assert (TA' : token_at e s' tsk (tk_set_fee_supply ts (tk_fee_supply ts + fee))).
  { eapply packed_token; [exact (same_od_token _ _ _ _ _ _ SO2 V)|exact PK| |exact IT|reflexivity].
    eapply deposit_fee_ok; eassumption. }
  destruct (reg_sol e c f vault mint tsk name symbol s s0 Hp ON OS R) as (_ & _ & _ & _ & _ & _ & _ & R8).
  destruct (R8 L0) as (kd & NEW). apply (token_in_new _ _ _ _ _ _ V) in NEW.
  eexists. split; [exact TA'|]. rewrite FE, NEW. repeat split.
Qed.

(** Executing a request of an unregistered Ever token, with the accounts needed to register it: the token is
    registered with the defaults, token, name, symbol and decimals as in the event.  If the request is not
    new or not confirmed nothing else happens to it.  Otherwise the net amount is paid, in full, as the first booking. *)
Theorem C67_ever : forall e ext c s s' k mint dst tsk,
  tp_call e ext c TpWithdrawEver s s' ->
  nth_error (c_keys c) 0 = Some k -> nth_error (c_keys c) 1 = Some mint -> nth_error (c_keys c) 2 = Some dst -> nth_error (c_keys c) 3 = Some tsk ->
  lam (accs s tsk) = 0 -> own (accs s' tsk) = tp_id -> own (accs s tsk) <> tp_id ->
  exists w ts', unpack c_wever TP_LEN (@p_init _ _) (dat (accs s k)) = Ok w /\ token_at e s' tsk ts' /\
    let ev := event_of w in
    let kind := TKEver mint (wee_token ev) (wee_decimals ev) in
    ((status_of w <> WNew \/ confirmed (p_signers w) < p_required w) /\ same_od s s' k /\
       default_token ts' kind (wee_name ev) (wee_symbol ev) 0 0 0 \/
     status_of w = WNew /\ p_required w <= confirmed (p_signers w) /\ exists gross,
       (wee_decimals ev <= 47 -> gross = rescale (wee_amount ev) (wee_decimals ev) (Z.min 9 (wee_decimals ev)) mod 2 ^ 64) /\
       let fee := fee_on (FeeInfo 5 10000) gross in let net := gross - fee in 0 <= net /\
       default_token ts' kind (wee_name ev) (wee_symbol ev) fee (day_of (now s)) net /\
       ever_request e s' k (w_set_status w (settled_status (wee_payload ev))) /\ ever_paid e s s' w mint dst net).
Proof.
  intros e ext c s s' k mint dst tsk CALL K0 K1 K2 K3 L0 O' O.
  apply tp_call_exec in CALL as (Hp & _ & C & H). cbn [tp_exec] in H.
  apply tp_withdraw_ever_ok in H as (k' & mint' & dst' & tsk' & sk & x & y & z & u & rest & w & t & K & -> & WI & _ & CASE).
  rewrite K in K0, K1, K2, K3. cbn [nth_error] in K0, K1, K2, K3. injection K0 as ->. injection K1 as ->. injection K2 as ->. injection K3 as ->.
  rewrite Hp in *.
  destruct CASE as [(_ & _ & ->)|[(X & _)|(_ & f & r' & s0 & _ & R & WI0 & E)]]; [contradiction|contradiction|].
  pose proof (prelude_registered _ _ _ _ _ _ _ _ Hp R) as PR. pose proof PR as (PT & PS & PN).
  assert (C0 : clock_ok s0) by (unfold clock_ok in *; rewrite PN; exact C).
  pose proof (ever_confirms _ _ _ _ _ WI0) as CF. pose proof WI0 as [U0 RA0]. pose proof WI as [U RA].
  assert (SK : same_od s s0 k) by (eapply registered_other; [exact R|]; apply blen_ne; eapply wever_in_len; exact WI).
  destruct E as (ts & mn & m & d & md & V & KT & EM & PM & TM & CASE). rewrite Hp in *.
  destruct R as (mn' & tn & ata & an & m0 & t0 & PM' & PT' & PA' & _ & _ & _ & _ & _ & MI0 & SU0 & DE0 & _ & _ & _ & _ & _ & _ & _ & _ & NR & _).
  rewrite Hp in *. pose proof (new_ever_unpack e c s s0 k w tsk tn mn' mint _ _ WI PT' PM' Hp NR) as NEW. apply (token_in_new _ _ _ _ _ _ V) in NEW. subst ts.
  assert (md = m0) by (destruct MI0 as [_ MI0]; unfold tmint_in in *; rewrite TM in MI0; injection MI0 as E; exact E). subst m0.
  exists w. destruct CASE as [[-> ID]|(QU & ST & amount & fee & net & st & s1 & GA & F & NE & N0 & B1 & B2 & PAY & SE)].
  { eexists. split; [exact U|]. split; [eapply token_spec; exact V|]. cbv zeta. left. split.
    - rewrite CF in ID. destruct ID as [ID|ID]; [right; exact ID|left; exact ID].
    - split; [exact SK|]. repeat split. }
  pose proof (wever_in_len _ _ _ _ _ WI0) as LW. pose proof (token_len _ _ _ _ _ _ V) as LT.
  destruct (fee_on_of _ _ _ _ F) as [FD FE]. cbn [new_token_settings tk_fee_wdr tk_wlimit tk_wdlimit tk_fee_supply] in *.
  destruct PAY as [(LIM & _)|(L1 & L2 & MI & DE & _)]; [exfalso; rewrite spent_new in LIM, B2; clear - LIM B2 NE N0; unfold u64max in *; lia|].
  assert (NST : w_status w <> st) by (rewrite ST; destruct (dest_st _ _ _ _ _ _ _ _ _ DE) as [->| ->]; discriminate).
  destruct (settled_held (c_withlen c_wever_event) _ c s0 s1 s' tsk _ k w st _ Hp U0 SE NST) as [H0 H'].
  assert (TO : token_at e s' tsk (charge (new_token_settings (KTokenSettings tn mn') (TKEver mint (wee_token (wl_data (p_event w))) (wee_decimals (wl_data (p_event w)))) (wee_name (wl_data (p_event w))) (wee_symbol (wl_data (p_event w)))) (epoch_of (now s0)) fee net)).
  { rewrite <- PN in B2, SE. eapply (charged_token c_wever e c s0 s1 s'); eassumption. }
  destruct (minted_paid e c s0 s1 s' _ w mint dst net st tsk _ k _ _ Hp MI SE LW LT DE) as (GOT & SU & SUJ & BA & RE & DEC).
  eexists. split; [exact U|]. split; [exact TO|]. cbv zeta. right. split; [exact ST|]. split; [rewrite <- CF; exact QU|].
  exists amount. split.
  { intros D. change (Z.min 9 (wee_decimals (event_of w))) with (sol_decimals (wee_decimals (wl_data (p_event w)))). rewrite <- DE0. eapply (gwa_rescale (wee_amount (event_of w)) (wee_decimals (event_of w)) (tm_decimals md)); [|exact GA].
    rewrite DE0. unfold sol_decimals. change (wee_decimals (wl_data (p_event w))) with (wee_decimals (event_of w)). lia. }
  change default_fee with (FeeInfo 5 10000) in FE. rewrite <- FE, <- NE. split; [exact N0|]. split; [|split].
  - repeat split. + cbn. rewrite PN. reflexivity. + unfold charge. cbn [tk_set_daily tk_wdamount]. rewrite spent_new. reflexivity.
  - destruct H' as [O1 U1]. assert (st = settled_status (wee_payload (event_of w))) as <-.
    { apply settled_paid. destruct DE as [(P & -> & _)|(P & -> & _)]; [left|right]; auto. }
    split; [exact O1|]. split; [exact U1|]. destruct RA0 as (n & pn & _ & FP). exists n. exact FP.
  - split; [exact GOT|]. split; [rewrite SU, (prelude_supply _ _ _ PR); reflexivity|].
    split; [intros j NJ; rewrite <- (prelude_supply _ _ j PR); apply SUJ, NJ|]. split; [|eapply prelude_rest; eassumption].
    intros NN. rewrite BA. destruct MI as (b & mm & TB & _ & _ & BM & _). rewrite <- (prelude_balance s s0 dst b PR TB); [reflexivity|]. congruence.
Qed.

(** * Examples *)

(** The execution of [tw1], 50000 tokens: paid at once, or, with limits of 10000 and 90000, waiting for approval. *)
Example C63_ex : let c := ctx_of tp_id (fst (texecS tw1 trecvS tmintS)) in
  executes_sol te no_ext c ts15 ts16 tw1 (the_wsol ts15 tw1) tvault ttsS (the_token ts15 ttsS) 50000 /\
  over_limit (the_token ts15 ttsS) ts15 49975 /\ tk_wdamount (the_token ts16 ttsS) = 49975.
Proof. cbv zeta. split; [apply C34_sol_ex|]. split; [left; vm_compute; reflexivity|vm_compute; reflexivity]. Qed.

(** The execution of [tw7], 70000 Ever tokens, under a limit of 60000, and its approval. *)
Example C63_ever_ex : let c := ctx_of tp_id (fst (texecE tw7 trecvE [])) in
  executes_ever te no_ext c ts27 ts28 tw7 (the_wever ts27 tw7) tmintE ttsE (the_token ts27 ttsE) 70000 /\
  over_limit (the_token ts27 ttsE) ts27 69965 /\ status_of (the_wever ts28 tw7) = WWaitApprove.
Proof. cbv zeta. split; [apply C34_ever_ex|]. split; [left; vm_compute; reflexivity|vm_compute; reflexivity]. Qed.
Definition xapprE := tapprE twman tw7 trecvE.
Example C63_approve_ever_ex : let s' := unres (tstp ts28 xapprE) in
  tp_call te no_ext (ctx_of tp_id (fst xapprE)) TpApproveEver ts28 s' /\
  status_of (the_wever s' tw7) = WProcessed /\ supply s' tmintE = supply ts28 tmintE + 69965 /\
  tk_wdamount (the_token s' ttsE) = tk_wdamount (the_token ts28 ttsE) - 69965.
Proof. cbv zeta. split; [demo_call|]. vm_compute. repeat split; reflexivity. Qed.
Definition xapprS := tapprS twman tw1 trecvS.
Example C63_approve_sol_ex : let s' := unres (tstp ts16 xapprS) in
  tp_call te no_ext (ctx_of tp_id (fst xapprS)) TpApproveSol ts16 s' /\
  status_of (the_wsol s' tw1) = WProcessed /\ balance s' trecvS = balance ts16 trecvS + 49975 /\ tk_wdamount (the_token s' ttsS) = 0.
Proof. cbv zeta. split; [demo_call|]. vm_compute. repeat split; reflexivity. Qed.
(** [tw2] was pending; it is paid once the vault holds enough. *)
Example C63_sol_again_ex : let x := texecS tw2 trecvS tmintS in
  tp_call te no_ext (ctx_of tp_id (fst x)) TpWithdrawSol ts19 ts20 /\ sol_request te ts19 tw2 (the_wsol ts19 tw2) /\
  status_of (the_wsol ts19 tw2) = WPending /\ p_required (the_wsol ts19 tw2) <= confirmed (p_signers (the_wsol ts19 tw2)) /\
  sol_token te ts19 (the_wsol ts19 tw2) tvault ttsS (the_token ts19 ttsS) /\
  693000 <= balance ts19 tvault /\ status_of (the_wsol ts20 tw2) = WProcessed /\ balance ts20 trecvS = balance ts19 trecvS + 693000.
Proof.
  cbv zeta. split; [demo_call|]. split; [split; [vm_compute; reflexivity|]; split; [vm_compute; reflexivity|exists 255; vm_compute; reflexivity]|].
  split; [vm_compute; reflexivity|]. split; [vm_compute; discriminate|].
  split; [split; [exists 255; vm_compute; reflexivity|]; split; [split; [exists 255; vm_compute; reflexivity|vm_compute; reflexivity]|exists tvault; vm_compute; reflexivity]|].
  split; [vm_compute; discriminate|]. split; vm_compute; reflexivity.
Qed.

(** The cancellation of [tw2] meets the hypotheses of C64, C65 and C66. *)
Example C64_ex : let s' := unres (tstp ts11 xcancel) in
  tp_call te no_ext (ctx_of tp_id (fst xcancel)) (snd xcancel) ts11 s' /\
  sol_deposit_places (snd xcancel) = Some (2%nat, 4%nat, 2) /\
  no_collision te tw2 /\ request_at te ts11 tw2 (the_req ts11 tw2) (the_meta ts11 tw2) /\ request_at te s' tw2 (the_req s' tw2) (the_meta s' tw2) /\
  wm_status (the_meta ts11 tw2) = WPending /\ wm_status (the_meta s' tw2) = WCancelled /\ ext_outside no_ext /\
  List.In (status_entry tw2 WCancelled) (logs s').
Proof.
  cbv zeta. split; [demo_call|]. split; [vm_compute; reflexivity|]. split; [exact tw2_sole|]. split; [demo_req|]. split; [demo_req|].
  split; [vm_compute; reflexivity|]. split; [vm_compute; reflexivity|]. split; [intros c d s a s' k H; discriminate H|].
  vm_compute. repeat ((left; reflexivity) || right).
Qed.

(** The first deposit of [tmintS], and the first execution for the token of [tw5]. *)
Example C67_sol_ex : let x := tdep tuser tuserS tvault td1 tmintS 1 100000 in
  tp_call te no_ext (ctx_of tp_id (fst x)) (snd x) ts1 ts2 /\ nth_error (c_keys (ctx_of tp_id (fst x))) 7 = Some ttsS /\
  lam (accs ts1 ttsS) = 0 /\ tk_fee_supply (the_token ts2 ttsS) = 50.
Proof. cbv zeta. split; [demo_call|]. vm_compute. repeat split; reflexivity. Qed.
Example C67_ever_ex : let x := texecE tw5 trecvE tregE in let c := ctx_of tp_id (fst x) in
  tp_call te no_ext c TpWithdrawEver ts7 ts8 /\ nth_error (c_keys c) 0 = Some tw5 /\ nth_error (c_keys c) 3 = Some ttsE /\
  lam (accs ts7 ttsE) = 0 /\ own (accs ts8 ttsE) = tp_id /\ own (accs ts7 ttsE) <> tp_id /\ status_of (the_wever ts7 tw5) = WNew /\
  tk_fee_supply (the_token ts8 ttsE) = 40 /\ balance ts8 trecvE = 79960.
Proof.
  cbv zeta. split; [demo_call|]. split; [vm_compute; reflexivity|]. split; [vm_compute; reflexivity|]. split; [vm_compute; reflexivity|].
  split; [vm_compute; reflexivity|]. split; [intros O; vm_compute in O; discriminate O|]. vm_compute. repeat split; reflexivity.
Qed.

Print Assumptions C63_ever.
Print Assumptions C63_sol.
Print Assumptions C63_sol_again.
Print Assumptions C63_approve_ever.
Print Assumptions C63_approve_sol.
Print Assumptions C64_cancel.
Print Assumptions C65_partial.
Print Assumptions C65_cancel_refuted.
Print Assumptions C65_fill_refuted.
Print Assumptions C66_partial.
Print Assumptions C66_refuted.
Print Assumptions C67_sol.
Print Assumptions C67_ever.
