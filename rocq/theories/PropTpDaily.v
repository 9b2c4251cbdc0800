(** Property C35: automatic payouts of one day stay within the daily limit. *)

From Coq Require Import Strings.String ZifyBool ZifyNat ZifyN.
From Verif Require Import TpDemoLaws TpFlow Touch PropTpAdmin PropTpFlow PropTpPay PropTpMoney.
Open Scope Z_scope.
Open Scope list_scope.
Ltac Zify.zify_post_hook ::= Z.div_mod_to_equations.

(** * Vocabulary *)

(** The rule of the token program for the mint [mint]: it stays a mint and keeps its decimals. *)
Definition mint_stays (mint : key) (s s' : state) : Prop :=
  forall m, mint_in s mint m -> exists m', mint_in s' mint m' /\ tm_decimals m' = tm_decimals m.

(** A history from [s] to [s'], of which [keep] holds throughout, in which the clock does not go back and
    what is measured by [paid], summed over the instructions on day [D], is [n].  As in [req_instr], what
    payloads call does not call back into the token proxy and payloads are run on checked requests only. *)
Inductive day_hist (e : env) (acc : key) (keep : state -> Prop) (D : Z) (paid : ctx -> tp_ix -> state -> state -> Z) : state -> state -> Z -> Prop :=
| dh_refl s : keep s -> day_hist e acc keep D paid s s 0
| dh_instr s s1 s2 n c ext i : day_hist e acc keep D paid s s1 n ->
    tp_call e ext c i s1 s2 -> signs (ordinary e) c -> tp_ext e 0 ext ->
    (forall c' d a x b, ext c' d a = Ok (x, b) -> mint_stays acc a b) -> payload_checked e c i s1 -> keep s2 ->
    day_hist e acc keep D paid s s2 (n + if day_of (now s1) =? D then paid c i s1 s2 else 0)
| dh_other s s1 s2 n : day_hist e acc keep D paid s s1 n -> foreign e tp_id s1 s2 \/ purge s1 s2 ->
    now s1 <= now s2 -> mint_stays acc s1 s2 -> keep s2 -> day_hist e acc keep D paid s s2 n.

(** What executions of withdrawals pay without approval: new tokens of the mint of an Ever token, or tokens
    that leave the vault of a Solana token. *)
Definition auto_minted (mint : key) (c : ctx) (i : tp_ix) (s s' : state) : Z :=
  match i with TpWithdrawEver => supply s' mint - supply s mint | _ => 0 end.
Definition auto_sent (vault : key) (c : ctx) (i : tp_ix) (s s' : state) : Z :=
  match i with TpWithdrawSol => balance s vault - balance s' vault | _ => 0 end.

(** The settings of the token, if readable, name the withdrawal fee [f] and the daily limit [lim]. *)
Definition terms (e : env) (tsk : key) (f : fee_info) (lim : Z) (s : state) : Prop :=
  forall ts, token_at e s tsk ts -> tk_fee_wdr ts = f /\ tk_wdlimit ts = lim.
(** No Solana token is registered whose mint consists of the first 32 bytes of the address of [token]. *)
Definition ever_plain (e : env) (token : ever) (s : state) : Prop :=
  forall k ts m v, token_at e s k ts -> tk_kind ts = TKSol m v -> kb m <> firstn 32 (enc c_ever token).

(** * Accounting *)

Fixpoint total (L : list (key * Z)) : Z := match L with [] => 0 | (_, x) :: r => x + total r end.
Definition drop (k : key) (L : list (key * Z)) := filter (fun p => negb (keqb (fst p) k)) L.
Lemma total_nonneg L : (forall k x, In (k, x) L -> 0 <= x) -> 0 <= total L.
Proof.
  induction L as [|[k x] L IH]; intros H; cbn [total]; [lia|].
  pose proof (H k x (or_introl eq_refl)). assert (0 <= total L) by (apply IH; intros; eapply H; right; eassumption). lia.
Qed.
Lemma total_drop L k x : (forall k x, In (k, x) L -> 0 <= x) -> In (k, x) L -> total (drop k L) + x <= total L.
Proof.
  induction L as [|[j y] L IH]; intros P []; cbn [total drop filter fst].
  - injection H as <- <-. rewrite keqb_refl. cbn [negb]. 
    assert (Q : forall L', (forall k x, In (k, x) L' -> 0 <= x) -> total (drop j L') <= total L').
    { clear. induction L' as [|[a b] L' IH]; intros P; cbn [total drop filter fst]; [lia|].
      pose proof (P a b (or_introl eq_refl)). assert (total (drop j L') <= total L') by (apply IH; intros; eapply P; right; eassumption).
      destruct (negb (keqb a j)); cbn [total]; unfold drop in *; lia. }
    pose proof (Q L) as Q'. unfold drop in Q'. assert (total (filter (fun p => negb (keqb (fst p) j)) L) <= total L) by (apply Q'; intros; eapply P; right; eassumption). lia.
  - pose proof (P j y (or_introl eq_refl)). assert (total (drop k L) + x <= total L) by (apply IH; [intros; eapply P; right; eassumption|exact H]).
    destruct (negb (keqb j k)); cbn [total]; unfold drop in *; lia.
Qed.
Lemma drop_in L k j x : In (j, x) L -> j <> k -> In (j, x) (drop k L).
Proof. intros H N. apply filter_In. split; [exact H|]. cbn [fst]. destruct (keqb j k) eqn:E; [apply keqb_eq in E; contradiction|reflexivity]. Qed.
Lemma drop_sub L k j x : In (j, x) (drop k L) -> In (j, x) L.
Proof. intros H. apply filter_In in H. apply H. Qed.

(** What the settings [ts] say was withdrawn on day [D]. *)
Definition counted (ts : token_settings) (D : Z) : Z := if tk_wepoch ts =? D then tk_wdamount ts else 0.

(** What one instruction on day [d] does to the counter of a token; [W] tells which requests wait for
    approval, and [W'] afterwards, each with its net amount; [p] is what was paid. *)
Variant day_step (D d lim : Z) (ts ts' : token_settings) (W W' : key -> Z -> Prop) (p : Z) : Prop :=
| DS_none : p <= 0 -> tk_wepoch ts' = tk_wepoch ts -> tk_wdamount ts' = tk_wdamount ts -> (forall k x, W' k x -> W k x) -> day_step D d lim ts ts' W W' p
| DS_paid net : 0 <= net -> p <= net -> spent ts d + net <= lim -> tk_wepoch ts' = d -> tk_wdamount ts' = spent ts d + net ->
    (forall k x, W' k x -> W k x) -> day_step D d lim ts ts' W W' p
| DS_parked k0 net : 0 <= net -> p <= 0 -> tk_wepoch ts' = d -> tk_wdamount ts' = spent ts d + net ->
    (forall k x, W' k x -> W k x \/ k = k0 /\ x = net) -> day_step D d lim ts ts' W W' p
| DS_released k0 net : 0 <= net -> p <= 0 -> (d = D -> W k0 net) -> tk_wepoch ts' = tk_wepoch ts -> tk_wdamount ts' = tk_wdamount ts - net ->
    (forall k x, W' k x -> k <> k0 /\ W k x) -> day_step D d lim ts ts' W W' p.

Lemma account D lim ts ts' W W' p n L : day_step D D lim ts ts' W W' p -> 0 <= tk_wdamount ts' ->
  n <= lim -> (forall k x, In (k, x) L -> 0 <= x) -> (forall k x, W k x -> In (k, x) L) -> n + total L <= counted ts D ->
  n + p <= lim /\ exists L', (forall k x, In (k, x) L' -> 0 <= x) /\ (forall k x, W' k x -> In (k, x) L') /\ n + p + total L' <= counted ts' D.
Proof.
  intros S A0 N LN LW C. pose proof (total_nonneg _ LN) as T0. unfold counted in *.
  destruct S as [P E A WW|net N0 P LI E A WW|k0 net N0 P E A WW|k0 net N0 P WK E A WW].
  - split; [lia|]. exists L. split; [exact LN|]. split; [auto|]. rewrite E, A. lia.
  - unfold spent in *. rewrite E, A, Z.eqb_refl. split; [lia|]. exists L. split; [exact LN|]. split; [auto|lia].
  - unfold spent in *. rewrite E, A, Z.eqb_refl. split; [lia|]. exists ((k0, net) :: L). split; [|split].
    + intros k x [H|H]; [injection H as <- <-; exact N0|eapply LN; exact H].
    + intros k x H. destruct (WW _ _ H) as [H1|[-> ->]]; [right; auto|left; reflexivity].
    + cbn [total]. lia.
  - split; [lia|]. exists (drop k0 L). split; [|split].
    + intros k x H. eapply LN. eapply drop_sub. exact H.
    + intros k x H. destruct (WW _ _ H) as [H1 H2]. apply drop_in; auto.
    + pose proof (total_drop L k0 net LN (LW _ _ (WK eq_refl))). rewrite E, A. destruct (tk_wepoch ts =? D); lia.
Qed.

(** * Requests *)

(** What one instruction makes of the requests. *)
Definition known (e : env) (s : state) (k : key) : Prop := no_request s k \/ exists g m, request_at e s k g m.
Lemma reqs_step e ext c i s s' k : tp_call e ext c i s s' -> tp_ext e 0 ext -> payload_checked e c i s -> no_collision e k ->
  known e s k -> no_request s' k \/ exists g' m', request_at e s' k g' m' /\
    ((exists g m, request_at e s k g m /\ wm_epoch m' = wm_epoch m /\ p_event g' = p_event g /\
        (wm_status m' = wm_status m \/ wmove i (wm_status m) (wm_status m') = true /\ wpos i c k)) \/
     wm_epoch m' = day_of (now s) /\ wm_status m' = WNew).
Proof.
  intros C X PC NC [NR|(g & m & R)].
  - destruct (request_born _ _ _ _ _ _ _ C X PC NR) as [N|(g & m & rls & rr & B)]; [left; exact N|right].
    exists g, m. split; [apply (bo_req _ _ _ _ _ _ _ _ _ _ B)|]. right. rewrite (bo_meta _ _ _ _ _ _ _ _ _ _ B). split; reflexivity.
  - destruct (req_call _ _ _ _ _ _ _ _ _ C (ext0_outside _ _ X) PC NC R) as [S|v relay rrk rr j n _ _ _ _ _ _ _ _ _ _ _ R'|b a ev _ _ _ _ _ R'|st' MV WP _ R'|_ _ _ DL].
    + right. exists g, m. split; [eapply request_same; eassumption|]. left. exists g, m. auto.
    + right. exists (g_vote g j v), m. split; [exact R'|]. left. exists g, m. auto.
    + right. eexists _, _. split; [exact R'|]. left. exists g, m. split; [exact R|]. cbn [m_bounty wm_epoch wm_status g_meta p_with_meta p_event]. auto.
    + right. eexists _, _. split; [exact R'|]. left. exists g, m. split; [exact R|]. cbn [m_status wm_epoch wm_status g_meta p_with_meta p_event]. auto.
    + left. intros O. destruct DL as (_ & O' & _). rewrite O' in O. discriminate.
Qed.
Lemma known_other e s s' k : foreign e tp_id s s' \/ purge s s' -> known e s k ->
  no_request s' k \/ exists g m, request_at e s k g m /\ request_at e s' k g m.
Proof.
  intros [F|F] K.
  - destruct (F k) as (_ & A & B & _). destruct (key_dec (own (accs s k)) tp_id) as [O|O].
    + destruct (A O) as [S _]. destruct K as [N|(g & m & R)].
      * left. intros O' n pn. destruct S as [_ SD]. rewrite SD. apply N. exact O.
      * right. exists g, m. split; [exact R|eapply request_same; eassumption].
    + left. intros O' n pn. apply all0_kind. auto.
  - destruct (F k) as [E|[_ E]].
    + destruct K as [N|(g & m & R)].
      * left. unfold no_request. rewrite E. exact N.
      * right. exists g, m. split; [exact R|]. eapply request_same; [|exact R]. split; rewrite E; reflexivity.
    + left. intros O. rewrite E in O. discriminate.
Qed.

(** * Frames *)

Lemma withdraw_ever_frame e c s s' : c_pid c = tp_id -> tp_withdraw_ever e c s = Ok (tt, s') ->
  exists k tsk w, nth_error (c_keys c) 0 = Some k /\ nth_error (c_keys c) 3 = Some tsk /\ wever_in e tp_id s k w /\
    (forall j, j <> k -> j <> tsk -> blen (dat (accs s j)) = TP_LEN -> same_od s s' j) /\
    ((forall j, blen (dat (accs s j)) = TP_LEN -> same_od s s' j) /\ (forall j, supply s' j = supply s j) \/
     status_of w = WNew /\ p_required w <= confirmed (p_signers w) /\
     exists s0 ts vn m d, (forall j, blen (dat (accs s j)) = TP_LEN -> same_od s s0 j) /\ token_in e tp_id s0 tsk ts vn /\
       tk_kind ts = TKEver m (wee_token (event_of w)) d).
Proof.
  intros Hp H. apply tp_withdraw_ever_ok in H as (k & mint & dst & tsk & sk & x & y & z & u & rest & w & t & K & -> & WI & _ & CASE).
  rewrite Hp in *. exists k, tsk, w. rewrite K. split; [reflexivity|]. split; [reflexivity|]. split; [exact WI|].
  assert (EX : forall s0, (forall j, blen (dat (accs s j)) = TP_LEN -> same_od s s0 j) -> prelude s s0 -> ever_exec_eff e c w k mint dst tsk (now s) s0 s' ->
    (forall j, j <> k -> j <> tsk -> blen (dat (accs s j)) = TP_LEN -> same_od s s' j) /\
    ((forall j, blen (dat (accs s j)) = TP_LEN -> same_od s s' j) /\ (forall j, supply s' j = supply s j) \/ status_of w = WNew /\ p_required w <= confirmed (p_signers w) /\
     exists s0 ts vn m d, (forall j, blen (dat (accs s j)) = TP_LEN -> same_od s s0 j) /\ token_in e tp_id s0 tsk ts vn /\
       tk_kind ts = TKEver m (wee_token (event_of w)) d)).
  { intros s0 P0 PR E. destruct E as (ts & mn & m & d & md & V & KT & EM & PM & TM & C). rewrite Hp in *.
    destruct C as [[-> ID]|(QU & ST & amount & fee & net & st & s1 & GA & F & NE & N0 & B1 & B2 & PAY & SE)].
    { split; [intros; apply P0; assumption|left; split; [exact P0|intros j; eapply prelude_supply; exact PR]]. }
    split.
    - intros j J1 J2 LJ. pose proof (P0 j LJ) as S0. assert (LJ0 : blen (dat (accs s0 j)) = TP_LEN) by (destruct S0 as [_ ->]; exact LJ).
      assert (SS : spl_step s0 s1) by (destruct PAY as [(_ & _ & ->)|(_ & _ & MI & _)]; [apply spl_step_refl|eapply minted_step; exact MI]).
      destruct SE as (_ & _ & _ & _ & SO & _). eapply same_od_trans; [exact S0|]. eapply same_od_trans; [apply SS; exact LJ0|]. apply SO; assumption.
    - right. split; [exact ST|]. split; [rewrite <- (ever_confirms _ _ _ _ _ WI); exact QU|].
      exists s0, ts, mn, m, d. split; [exact P0|]. split; [exact V|exact KT]. }
  destruct CASE as [(L0 & _ & ->)|[(_ & E)|(_ & f & r' & s0 & _ & R & WI0 & E)]].
  - split; [intros; apply same_od_refl|left; split; [intros; apply same_od_refl|reflexivity]].
  - apply (EX s); [intros; apply same_od_refl|apply prelude_refl|exact E].
  - apply (EX s0); [|eapply prelude_registered; [exact Hp|exact R]|exact E]. intros j LJ. eapply registered_other; [exact R|]. apply blen_ne. exact LJ.
Qed.

Lemma sol_frame e c i s s' : c_pid c = tp_id ->
  i = TpWithdrawSol /\ tp_withdraw_sol e c s = Ok (tt, s') \/ i = TpApproveSol /\ tp_approve_sol e c s = Ok (tt, s') ->
  exists k tsk w ts vn v, nth_error (c_keys c) (request_pos i) = Some k /\ wsol_in e tp_id s k w /\ token_in e tp_id s tsk ts vn /\
    tk_kind ts = TKSol (wse_mint (event_of w)) v /\
    (forall j, j <> k -> j <> tsk -> blen (dat (accs s j)) = TP_LEN -> same_od s s' j).
Proof.
  intros Hp [[-> H]|[-> H]].
  - apply tp_withdraw_sol_ok in H as (k & vault & dst & tsk & mint & sk & x & y & rest & w & st & pn & K & WI & _ & _ & E).
    destruct E as (ts & vn & v & V & KT & _ & _ & CASE). rewrite Hp in *.
    exists k, tsk, w, ts, vn, v. rewrite K. split; [reflexivity|]. split; [exact WI|]. split; [exact V|]. split; [exact KT|].
    intros j J1 J2 LJ. destruct CASE as [[-> _]|(_ & fee & net & st' & s1 & _ & _ & _ & CASE)]; [apply same_od_refl|].
    assert (Q : exists ts2 l, spl_step s s1 /\ settled c c_wsol s s1 s' tsk ts2 k (w_set_status w st') l).
    { destruct CASE as [(_ & _ & _ & [(_ & _ & ->)|(_ & _ & P)] & SE)|[(_ & P & SE)|(_ & _ & _ & -> & SE)]];
        (eexists _, _; split; [|exact SE]); first [apply spl_step_refl|eapply sol_paid_step; exact P]. }
    destruct Q as (ts2 & l & SS & SE). destruct SE as (_ & _ & _ & _ & SO & _). eapply same_od_trans; [apply SS; exact LJ|]. apply SO; assumption.
  - apply tp_approve_sol_ok in H as (au & vault & k & dst & tsk & sk & x & y & rest & w & K & B).
    destruct B as (ts & vn & v & gs & pn & _ & _ & _ & _ & WI & _ & V & KT & _ & _ & fee & net & st' & s1 & ts2 & _ & _ & _ & P & _ & SE). rewrite Hp in *.
    exists k, tsk, w, ts, vn, v. rewrite K. split; [reflexivity|]. split; [exact WI|]. split; [exact V|]. split; [exact KT|].
    intros j J1 J2 LJ. destruct SE as (_ & _ & _ & _ & SO & _). eapply same_od_trans; [eapply sol_paid_step; [exact P|exact LJ]|]. apply SO; assumption.
Qed.

Lemma token_cause_count e c i s ts ts' : token_cause e c i s ts ts' ->
  i <> TpWithdrawEver -> i <> TpWithdrawSol -> i <> TpApproveEver -> i <> TpApproveSol ->
  tk_wepoch ts' = tk_wepoch ts /\ tk_wdamount ts' = tk_wdamount ts.
Proof.
  intros [a st _ _ _ T|a _ _ _ ->|am fee _ _ _ _ ->|fee net [->| ->]|a st net [->| ->]|a st am _ _ _ _ _ ->] N1 N2 N3 N4; try contradiction; try (split; reflexivity).
  destruct i; cbn [token_change] in T; try contradiction; subst; try (split; reflexivity).
  all: repeat match goal with T : match ?x with _ => _ end |- _ => destruct x end; try contradiction; try match type of T with _ /\ _ => destruct T as [T _] end; subst; split; reflexivity.
Qed.

(** ** Event bytes *)

Lemma head_sol ev : firstn 32 (enc c_wsol_event ev) = kb (wse_mint ev).
Proof.
  cbn [c_wsol_event c_iso c_pair enc fst snd c_key]. rewrite firstn_app, kb_length, Nat.sub_diag, firstn_O.
  rewrite app_nil_r, firstn_all2; [reflexivity|rewrite kb_length; lia].
Qed.
Lemma head_ever ev : firstn 32 (enc c_wever_event ev) = firstn 32 (enc c_ever (wee_token ev)).
Proof.
  cbn [c_wever_event c_iso c_pair enc fst snd]. rewrite firstn_app.
  assert (L : length (enc c_ever (wee_token ev)) = 34%nat).
  { cbn [c_ever enc c_pair fst snd length]. rewrite app_length. change (enc c_key (ev_addr (wee_token ev))) with (kb (ev_addr (wee_token ev))).
    rewrite kb_length. pose proof (blen_i8 (ev_wc (wee_token ev))). unfold blen in *. lia. }
  rewrite L. change (32 - 34)%nat with 0%nat. rewrite firstn_O. apply app_nil_r.
Qed.

(** * The requests that wait for approval *)

(** The Ever request at [k] is for [token], was made on day [D] and waits for approval of a payment of [x]. *)
Definition waits (e : env) (mint : key) (token : ever) (f : fee_info) (D : Z) (s : state) (k : key) (x : Z) : Prop :=
  exists g m ev md amount, request_at e s k g m /\ wm_status m = WWaitApprove /\ wm_epoch m = D /\
    p_event g = enc c_wever_event ev /\ okb c_wever_event ev = true /\ wee_token ev = token /\ mint_in s mint md /\
    get_withdrawal_amount (wee_amount ev) (wee_decimals ev) (tm_decimals md) = Ok amount /\ x = amount - fee_on f amount.

Lemma ever_view e s k g m w : no_collision e k -> request_at e s k g m -> ever_request e s k w ->
  g = gen_prop c_wever_event c_wmeta w /\ m = wl_data (p_meta w).
Proof.
  intros NC (O & U & PM & OM & n & pn & K & P) (O' & U' & n' & P').
  destruct (typed_view c_wever_event _ _ _ w g m _ _ U' U PM OM) as (A & B & _); [eapply NC; [exact P'|exact P]|auto].
Qed.

Lemma wever_event_ok e pid s k w : wever_in e pid s k w -> okb c_wever_event (event_of w) = true.
Proof.
  intros [U _]. apply okb_unpack in U; [|typeclasses eauto].
  unfold c_wever, wever in U. rewrite (okb_prop (c_withlen c_wever_event) (c_withlen c_wmeta)), !andb_true_iff, okb_withlen, !andb_true_iff in U.
  apply U.
Qed.

(** [tsk] is a registered account of token settings. *)
Definition listed (e : env) (s : state) (tsk : key) (ts : token_settings) : Prop :=
  own (accs s tsk) = tp_id /\ exists vn, token_in e tp_id s tsk ts vn.
Lemma listed_live e s k ts : listed e s k ts -> live_token e s k ts.
Proof. intros [O (vn & V)]. split; [exact O|]. split; [eapply token_spec; exact V|]. destruct V as [_ (n & K & _)]. exists n, vn. exact K. Qed.

(** The mint stays a mint with the same decimals. *)
Lemma call_mint e ext c i s s' mint : tp_call e ext c i s s' -> (forall c' d a x b, ext c' d a = Ok (x, b) -> mint_stays mint a b) ->
  mint_stays mint s s'.
Proof.
  intros C X. apply tp_call_exec in C as (Hp & Oi & CK & H). destruct (is_payload i) eqn:I.
  - destruct (payload_two _ _ _ _ _ _ I H) as (s1 & N & Q).
    assert (N1 : mint_stays mint s s1).
    { destruct N as [->|(proxy & l & mi & r & b & PD & N)]; [intros m M; exists m; auto|]. clear Q H CK.
      induction N as [s|j l s s1 s2 x C N IHN]; [intros m M; exists m; auto|].
      apply cpi_inv in C as [C _]. apply X in C. intros m M. destruct (C m M) as (m1 & M1 & E1). destruct (IHN m1 M1) as (m2 & M2 & E2).
      exists m2. split; [exact M2|congruence]. }
    destruct Q as [->|Q]; [exact N1|]. apply payload_packs_nospl in Q; [|exact Hp].
    intros m M. destruct (N1 m M) as (m1 & M1 & E1). destruct (to_mint _ _ _ _ (tokens_none _ _ Q) _ _ M1) as (m2 & M2 & _ & E2). exists m2. split; [exact M2|congruence].
  - pose proof (tp_exec_flow _ _ _ _ _ _ Hp Oi I H) as F.
    assert (T : exists f g, tokens s s' f g) by (destruct F; eexists _, _; eassumption). destruct T as (f & g & T).
    intros m M. destruct (to_mint _ _ _ _ T _ _ M) as (m2 & M2 & _ & E2). exists m2. auto.
Qed.

Lemma mint_in_fun s k m m' : mint_in s k m -> mint_in s k m' -> m' = m.
Proof. intros [_ A] [_ B]. eapply tmint_in_fun; eassumption. Qed.

Lemma auto_minted_other mint c i s s' : i <> TpWithdrawEver -> auto_minted mint c i s s' = 0.
Proof. destruct i; intros N; first [reflexivity|contradiction]. Qed.
Lemma ever_dec (a b : ever) : a = b \/ a <> b.
Proof.
  destruct a as [x k], b as [y j]. destruct (Z.eq_dec x y) as [->|N]; [|right; congruence].
  destruct (key_dec k j) as [->|N]; [left; reflexivity|right; congruence].
Qed.

Section Ever.
  Context (e : env) (mint : key) (token : ever) (f : fee_info) (lim D : Z) (tsk : key)
    (NC : forall k, no_collision e k)
    (MA : tp_addr e (str "mint" ++ kb (token_hash e token)) mint)
    (MU : forall t, okb c_ever t = true -> tp_addr e (str "mint" ++ kb (token_hash e t)) mint -> t = token).
  Notation W := (waits e mint token f D).

  (** A request that waits afterwards waited before or was executed. *)
  Lemma waits_back ext c i s s' md k x : tp_call e ext c i s s' -> tp_ext e 0 ext -> payload_checked e c i s ->
    mint_stays mint s s' -> mint_in s mint md -> known e s k -> W s' k x ->
    W s k x \/ (i = TpWithdrawEver \/ i = TpWithdrawSol) /\ nth_error (c_keys c) 0 = Some k /\
      exists g m ev amount, request_at e s k g m /\ p_event g = enc c_wever_event ev /\ okb c_wever_event ev = true /\
        wee_token ev = token /\ get_withdrawal_amount (wee_amount ev) (wee_decimals ev) (tm_decimals md) = Ok amount /\
        x = amount - fee_on f amount.
  Proof.
    intros C X PC MS M KN (g' & m' & ev & md' & amount & R' & S' & E' & EV & OE & TK & M' & GA & ->).
    destruct (MS _ M) as (md2 & M2 & DE). rewrite <- (mint_in_fun _ _ _ _ M' M2), DE in GA.
    destruct (reqs_step _ _ _ _ _ _ k C X PC (NC k) KN) as [NR|(g2 & m2 & R2 & CASE)].
    { exfalso. destruct (request_kind _ _ _ _ _ R') as (n & pn & KK). destruct R' as (O & _). exact (NR O n pn KK). }
    destruct (request_fun _ _ _ _ _ _ _ R' R2) as [-> ->].
    destruct CASE as [(g & m & R & EE & PE & [ST|[MV WP]])|[_ ST]]; [| |congruence].
    - left. exists g, m, ev, md, amount. split; [exact R|]. split; [congruence|]. split; [congruence|]. split; [congruence|]. repeat (split; [assumption|]). reflexivity.
    - right. rewrite S' in MV.
      assert (IW : (i = TpWithdrawEver \/ i = TpWithdrawSol)) by (destruct i; try discriminate; auto; destruct (wm_status m); discriminate).
      split; [exact IW|]. split; [destruct IW as [-> | ->]; exact WP|].
      exists g, m, ev, amount. split; [exact R|]. split; [congruence|]. repeat (split; [assumption|]). reflexivity.
  Qed.

  (** One instruction. *)
  Lemma ever_step ext c i s s' ts m0 d0 md : tp_call e ext c i s s' -> signs (ordinary e) c -> tp_ext e 0 ext ->
    (forall c' d a x b, ext c' d a = Ok (x, b) -> mint_stays mint a b) -> payload_checked e c i s ->
    terms e tsk f lim s -> ever_plain e token s ->
    nonneg s -> listed e s tsk ts -> tk_kind ts = TKEver m0 token d0 -> 1 <= lam (accs s tsk) -> mint_in s mint md ->
    (forall k, known e s k) ->
    nonneg s' /\ now s' = now s /\ (exists md', mint_in s' mint md') /\
    exists ts', listed e s' tsk ts' /\ tk_kind ts' = TKEver m0 token d0 /\ 1 <= lam (accs s' tsk) /\
      day_step D (day_of (now s)) lim ts ts' (W s) (W s') (auto_minted mint c i s s').
  Proof.
    intros C SG X XM PC TE EP NN [TO (vn & TV)] KT LA M KN.
    pose proof (call_mint _ _ _ _ _ _ _ C XM) as MS. pose proof (tp_call_exec _ _ _ _ _ _ C) as (Hp & Oi & CK & H).
    assert (HI : tp_instr e 0 s s').
    { pose proof C as (_ & _ & d & _ & R). exists c, ext, d. auto. }
    assert (HH : tp_hist e 0 s s') by (eapply h_prog; [apply h_refl|exact HI]).
    assert (NS : now s' = now s /\ nonneg s').
    { pose proof HI as (c1 & ext1 & d & A1 & A2 & A3 & A4 & A5). split.
      - eapply (induct_run e (fun _ => True) (fun _ _ => Logic.I) (fun _ _ => True)); try eassumption; auto. intros ? ?. exact Logic.I.
      - eapply (kept_instr c_token_settings tk_init (fun ts => (tk_akind ts, tk_kind ts)) e tsk tk_akind (fun _ => False)); try eassumption; try contradiction. intros d1 x. apply kind_token_settings. }
    destruct NS as [NW NN']. split; [exact NN'|]. split; [exact NW|]. split; [destruct (MS _ M) as (md' & M' & _); exists md'; exact M'|].
    destruct (token_kept _ _ _ _ _ _ _ HH NN (conj TO (proj1 TV)) TV LA) as (ts' & T' & V' & _ & KD & LA').
    exists ts'. split; [split; [apply T'|exists vn; exact V']|]. split; [congruence|]. split; [exact LA'|].
    pose proof (token_len _ _ _ _ _ _ TV) as TL.
    assert (WB : forall k x, W s' k x -> W s k x \/ (i = TpWithdrawEver \/ i = TpWithdrawSol) /\ nth_error (c_keys c) 0 = Some k /\
      exists g m ev amount, request_at e s k g m /\ p_event g = enc c_wever_event ev /\ okb c_wever_event ev = true /\
        wee_token ev = token /\ get_withdrawal_amount (wee_amount ev) (wee_decimals ev) (tm_decimals md) = Ok amount /\
        x = amount - fee_on f amount) by (intros k x; eapply waits_back; eauto).
    assert (SAME : same_od s s' tsk -> ts' = ts).
    { intros [_ E]. destruct V' as [U' _]. destruct TV as [U _]. rewrite E in U'. congruence. }
    assert (NOTSOL : i = TpWithdrawSol \/ i = TpApproveSol -> same_od s s' tsk /\ forall k x, W s' k x -> W s k x).
    { intros IS. assert (HS : i = TpWithdrawSol /\ tp_withdraw_sol e c s = Ok (tt, s') \/ i = TpApproveSol /\ tp_approve_sol e c s = Ok (tt, s'))
        by (destruct IS as [-> | ->]; [left|right]; (split; [reflexivity|exact H])).
      destruct (sol_frame _ _ _ _ _ Hp HS) as (k & tk & w & tks & vk & v & NT & WI & VK & KK & FR). split.
      - apply FR; [| |exact TL].
        + intros <-. destruct WI as [UW RA]. exact (request_ne_token _ _ _ _ _ _ _ _ _ _ _ _ _ _ UW RA TV eq_refl).
        + intros ->. destruct TV as [U _]. destruct VK as [U2 _]. congruence.
      - intros k1 x1 W1. destruct (WB _ _ W1) as [|(II & NT1 & g & m & ev & amount & R & PE & OE & TK & _)]; [assumption|exfalso].
        assert (EI : i = TpWithdrawSol) by (destruct II as [-> |]; [destruct IS; discriminate|assumption]). subst i.
        cbn [request_pos] in NT. assert (k1 = k) by congruence. subst k1.
        destruct (wsol_request _ _ _ _ _ _ (NC k) R WI) as (EG & _). rewrite EG in PE. cbn [gen_prop p_event] in PE.
        apply (EP tk tks _ v (token_spec _ _ _ _ _ VK) KK). rewrite <- head_sol. unfold event_of. rewrite PE, head_ever, TK. reflexivity. }
    assert (OTHER : i <> TpWithdrawEver -> i <> TpWithdrawSol -> i <> TpApproveEver -> i <> TpApproveSol ->
      day_step D (day_of (now s)) lim ts ts' (W s) (W s') (auto_minted mint c i s s')).
    { intros N1 N2 N3 N4. assert (LT : live_token e s tsk ts) by (apply listed_live; split; [exact TO|exists vn; exact TV]).
      destruct (token_step _ _ _ _ _ _ _ _ C (ext0_outside _ _ X) LT) as (t2 & (_ & (_ & U2) & _) & CA).
      assert (t2 = ts') by (destruct V' as [U' _]; congruence). subst t2.
      assert (EQ : tk_wepoch ts' = tk_wepoch ts /\ tk_wdamount ts' = tk_wdamount ts)
        by (destruct CA as [-> |CA]; [split; reflexivity|eapply token_cause_count; eassumption]).
      apply DS_none; [rewrite auto_minted_other by exact N1; apply Z.le_refl|apply EQ|apply EQ|].
      intros k x Wk. destruct (WB _ _ Wk) as [|([? | ?] & _)]; [assumption|contradiction|contradiction]. }
    assert (SOLS : i = TpWithdrawSol \/ i = TpApproveSol -> day_step D (day_of (now s)) lim ts ts' (W s) (W s') (auto_minted mint c i s s')).
    { intros IS. destruct (NOTSOL IS) as [SO WW]. rewrite (SAME SO). apply DS_none; [destruct IS as [-> | ->]; apply Z.le_refl|reflexivity|reflexivity|exact WW]. }
    destruct i; try (apply OTHER; discriminate); try (apply SOLS; auto; fail); clear OTHER SOLS NOTSOL.
    - (* execution *)
      cbn [tp_exec] in H. destruct (withdraw_ever_outcome _ _ _ _ Hp CK H) as (k & w & NT & WI & OUT).
      destruct (withdraw_ever_frame _ _ _ _ Hp H) as (k2 & tk & w2 & NT2 & NT3 & WI2 & FR & CASE).
      assert (k2 = k) by congruence. subst k2. assert (w2 = w) by (destruct WI as [U1 _], WI2 as [U2 _]; congruence). subst w2. clear WI2 NT2.
      assert (NEK : tsk <> k) by (intros ->; destruct WI as [UW RA]; exact (request_ne_token _ _ _ _ _ _ _ _ _ _ _ _ _ _ UW RA TV eq_refl)).
      (* an executed request that waits is for this token *)
      assert (TKW : forall k1 x1, W s' k1 x1 -> W s k1 x1 \/ k1 = k /\ wee_token (event_of w) = token /\ exists amount,
        get_withdrawal_amount (wee_amount (event_of w)) (wee_decimals (event_of w)) (tm_decimals md) = Ok amount /\ x1 = amount - fee_on f amount).
      { intros k1 x1 W1. destruct (WB _ _ W1) as [|(_ & NT1 & g & m & ev & amount & R & PE & OE & TK & GA & EX)]; [left; assumption|right].
        assert (k1 = k) by congruence. subst k1. split; [reflexivity|].
        destruct (wever_request _ _ _ _ _ _ (NC k) R WI) as (EG & _). rewrite EG in PE. cbn [gen_prop p_event] in PE.
        apply (enc_inj c_wever_event _) in PE; [|exact (wever_event_ok _ _ _ _ _ WI)|exact OE]. unfold event_of. rewrite PE. split; [exact TK|]. exists amount. auto. }
      assert (WSAME : same_od s s' k -> forall k1 x1, W s' k1 x1 -> W s k1 x1).
      { intros SK k1 x1 W1. destruct (TKW _ _ W1) as [|(-> & _)]; [assumption|]. destruct (KN k) as [NR|(g & m & R)].
        - exfalso. destruct W1 as (g' & m' & ev & md' & amount & R' & _). destruct (request_kind _ _ _ _ _ R') as (n & pn & KK).
          destruct R' as (O' & _). destruct SK as [SO SD]. rewrite SO in O'. rewrite SD in KK. exact (NR O' n pn KK).
        - destruct W1 as (g' & m' & ev & md' & amount & R' & A1 & A2 & A3 & A4 & A5 & A6 & A7 & A8).
          destruct (request_fun _ _ _ _ _ _ _ (request_same _ _ _ _ _ _ SK R) R') as [-> ->].
          destruct (MS _ M) as (md2 & M2 & DE). rewrite (mint_in_fun _ _ _ _ M2 A6), DE in A7.
          exists g, m, ev, md, amount. repeat (split; [assumption|]). assumption. }
      destruct CASE as [[ID IP]|(ST & QU & s0 & tk0 & vn0 & m1 & d1 & P0 & V0 & K0)].
      { (* nothing happened *)
        rewrite (SAME (ID _ TL)). apply DS_none; [|reflexivity|reflexivity|apply WSAME; apply ID; exact (wever_in_len _ _ _ _ _ WI)].
        cbn [auto_minted]. rewrite IP, Z.sub_diag. apply Z.le_refl. }
      destruct (ever_dec (wee_token (event_of w)) token) as [TE2|TN].
      + assert (tk = tsk).
        { destruct V0 as [_ (n & _ & F0)]. destruct TV as [_ (n' & _ & F1)]. rewrite K0, TE2 in F0. rewrite KT in F1. cbn [ts_seeds] in F0, F1. congruence. }
        subst tk. destruct OUT as [_ _ [NO|[NO|(tk & NT4 & L0)]]|s1 mint1 md1 md1' tk ts1 amount fee net st dst PR RQ _ _ _ NT4 _ ET GA FE NE N0 T1 M1 DE RQ' CASE].
        { contradiction. }
        { exfalso. clear - NO QU. lia. }
        { exfalso. assert (tk = tsk) by congruence. subst tk. clear - L0 LA. lia. }
        assert (tk = tsk) by congruence. subst tk. destruct ET as (MA1 & MI1 & TA1 & _). rewrite TE2 in MA1.
        pose proof (tp_addr_fun _ _ _ _ MA MA1). subst mint1.
        pose proof (prelude_token2 _ _ _ _ _ _ PR (token_spec _ _ _ _ _ TV) TA1). subst ts1.
        pose proof (prelude_mint _ _ _ _ _ PR (proj2 M) MI1). subst md1.
        destruct (TE _ (token_spec _ _ _ _ _ TV)) as [TF TL2]. rewrite TF in FE.
        pose proof (token_at_fun _ _ _ _ _ T1 (token_spec _ _ _ _ _ V')) as ->.
        destruct CASE as [(_ & -> & SU & _)|(_ & LI & PD & PS)].
        * apply (DS_parked _ _ _ _ _ _ _ _ k net); [exact N0| |reflexivity|reflexivity|].
          -- cbn [auto_minted]. rewrite SU, Z.sub_diag. apply Z.le_refl.
          -- intros k1 x1 W1. destruct (TKW _ _ W1) as [|(-> & _ & am & GA2 & ->)]; [left; assumption|right]. split; [reflexivity|].
             rewrite GA in GA2. injection GA2 as <-. subst fee net. reflexivity.
        * apply (DS_paid _ _ _ _ _ _ _ _ net); [exact N0| | |reflexivity|reflexivity|].
          -- cbn [auto_minted]. destruct PD as (_ & -> & _). clear. lia.
          -- rewrite <- TL2. exact LI.
          -- intros k1 x1 W1. destruct (TKW _ _ W1) as [|(-> & _)]; [assumption|exfalso].
             destruct W1 as (g' & m' & ev & md' & am & R' & S' & _).
             destruct (ever_view _ _ _ _ _ _ (NC k) R' RQ') as [_ ->]. change (st = WWaitApprove) in S'. destruct PS as [[_ PS]|[_ PS]]; congruence.
      + assert (NE : tsk <> tk).
        { intros <-. destruct V0 as [U0 _]. destruct (P0 _ TL) as [_ E0]. rewrite E0 in U0. destruct TV as [U1 _]. assert (tk0 = ts) by congruence. subst tk0. congruence. }
        rewrite (SAME (FR _ NEK NE TL)). apply DS_none; [|reflexivity|reflexivity|].
        * cbn [auto_minted]. assert (SU : supply s' mint = supply s mint); [|rewrite SU, Z.sub_diag; apply Z.le_refl].
          destruct OUT as [SU _ _|s1 mint1 md1 md1' tk1 ts1 amount fee net st dst PR RQ _ _ _ NT4 _ ET GA FE NE1 N0 T1 M1 DE RQ' CASE]; [apply SU|].
          destruct CASE as [(_ & _ & SU & _)|(_ & _ & PD & _)]; [apply SU|]. destruct PD as (_ & _ & SU & _). apply SU. intros <-.
          apply TN. apply MU; [|destruct ET as (MA1 & _); exact MA1].
          apply wever_event_ok in WI. change (okb c_ever (wee_token (event_of w)) && okb (c_string ** c_string ** c_u8 ** c_u128 ** c_key ** c_bytes) (wee_name (event_of w), (wee_symbol (event_of w), (wee_decimals (event_of w), (wee_amount (event_of w), (wee_recipient (event_of w), wee_payload (event_of w)))))) = true) in WI.
          apply andb_true_iff in WI as [WI _]. exact WI.
        * intros k1 x1 W1. destruct (TKW _ _ W1) as [|(_ & TK & _)]; [assumption|contradiction].
    - (* approval *)
      cbn [tp_exec] in H. pose proof H as H0. apply tp_approve_ever_ok in H as (au & mint1 & k & dst & tk & sk & x & y & rest & w & KS & B).
      destruct B as (ts1 & mn & m1 & d1 & md1 & gs & pn & _ & _ & _ & _ & WI & ST & V1 & K1 & _ & PM & TM & amount & fee & net & st & s1 & ts2 & GA & FE & NE & N0 & MI & DS & _ & _ & _ & RL & SE).
      rewrite Hp in *. assert (WW : forall k1 x1, W s' k1 x1 -> k1 <> k /\ W s k1 x1).
      { intros k1 x1 W1. split.
        - intros ->. destruct (approve_ever_outcome _ _ _ _ Hp H0) as (k2 & w2 & _ & _ & _ & _ & _ & _ & _ & _ & _ & _ & st2 & NT & RQ & _ & _ & _ & _ & _ & _ & _ & _ & _ & _ & _ & _ & _ & RQ' & PS & _).
          rewrite KS in NT. injection NT as <-. destruct W1 as (g' & m' & ev & md' & am & R' & S' & _).
          destruct (ever_view _ _ _ _ _ _ (NC k) R' RQ') as [_ ->].
          change (st2 = WWaitApprove) in S'. destruct PS as [[_ PS]|[_ PS]]; congruence.
        - destruct (WB _ _ W1) as [|([? | ?] & _)]; [assumption|discriminate|discriminate]. }
      assert (NEK : k <> tsk) by (intros ->; destruct WI as [UW RA]; exact (request_ne_token _ _ _ _ _ _ _ _ _ _ _ _ _ _ UW RA TV eq_refl)).
      destruct (key_dec tk tsk) as [-> |NT].
      + assert (ts1 = ts) by (destruct V1 as [U1 _], TV as [U _]; congruence). subst ts1.
        assert (TE2 : wee_token (event_of w) = token) by (unfold event_of; congruence).
        destruct (TE _ (token_spec _ _ _ _ _ TV)) as [TF TL2]. rewrite TF in FE. destruct (fee_on_of _ _ _ _ FE) as [_ FE2].
        pose proof RL as RL0. destruct RL0 as [[EP1 ->]|(EP1 & LE & ->)].
        * assert (TS : token_at e s' tsk ts) by exact (settled_token _ _ _ _ _ _ _ _ _ None _ _ _ TV SE Logic.I).
          rewrite (token_at_fun _ _ _ _ _ TS (token_spec _ _ _ _ _ V')).
          apply DS_none; [apply Z.le_refl|reflexivity|reflexivity|]. intros k1 x1 W1. apply WW. exact W1.
        * assert (TS : token_at e s' tsk (tk_set_daily ts (tk_wepoch ts) (tk_wdamount ts - net))).
          { refine (settled_token _ _ _ _ _ _ _ _ _ (Some _) _ _ _ TV SE _).
            destruct (released_facts _ _ _ _ _ RL (token_ok _ _ _ _ _ _ TV) N0 (token_init _ _ _ _ _ _ TV)) as (A1 & _ & A2 & A3). auto. }
          rewrite (token_at_fun _ _ _ _ _ TS (token_spec _ _ _ _ _ V')).
          apply (DS_released _ _ _ _ _ _ _ _ k net); [exact N0|apply Z.le_refl| |reflexivity|reflexivity|exact WW].
          intros DD. destruct (KN k) as [NR|(g & m & R)].
          { exfalso. destruct (approve_ever_outcome _ _ _ _ Hp H0) as (k2 & w2 & _ & _ & _ & _ & _ & _ & _ & _ & _ & _ & st2 & NT & (O2 & _) & _).
            rewrite KS in NT. injection NT as <-. destruct WI as [UW (n & pn1 & KK & _)]. apply (NR O2 n pn1). rewrite <- KK.
            eapply kind_prop; [| |exact UW]; typeclasses eauto. }
          destruct (wever_request _ _ _ _ _ _ (NC k) R WI) as (EG & EM & _).
          exists g, m, (event_of w), md, amount. split; [exact R|]. split; [rewrite EM; exact ST|]. split; [rewrite EM, <- DD; exact EP1|].
          split; [rewrite EG; reflexivity|]. split; [exact (wever_event_ok _ _ _ _ _ WI)|]. split; [exact TE2|]. split; [exact M|].
          assert (MM : mint1 = mint).
          { apply (tp_addr_fun _ _ _ _ MA). exists mn. rewrite <- TE2. exact PM. }
          subst mint1. pose proof (tmint_in_fun _ _ _ _ TM (proj2 M)). subst md1. split; [exact GA|]. subst fee net. reflexivity.
      + assert (SO : same_od s s' tsk).
        { destruct SE as (_ & _ & _ & _ & SO & _). eapply same_od_trans; [eapply minted_step; [exact MI|exact TL]|]. apply SO; congruence. }
        rewrite (SAME SO). apply DS_none; [apply Z.le_refl|reflexivity|reflexivity|]. intros k1 x1 W1. apply WW. exact W1.
  Qed.

  (** Other programs and the end of transactions. *)
  Lemma ever_other s s' ts m0 d0 md : foreign e tp_id s s' \/ purge s s' -> mint_stays mint s s' ->
    nonneg s -> listed e s tsk ts -> tk_kind ts = TKEver m0 token d0 -> 1 <= lam (accs s tsk) -> mint_in s mint md ->
    (forall k, known e s k) ->
    nonneg s' /\ (exists md', mint_in s' mint md') /\ listed e s' tsk ts /\ 1 <= lam (accs s' tsk) /\ forall k x, W s' k x -> W s k x.
  Proof.
    intros F MS NN [TO (vn & TV)] KT LA M KN.
    assert (HH : tp_hist e 0 s s') by (destruct F as [F|F]; [eapply h_foreign|eapply h_purge]; try apply h_refl; exact F).
    split; [|split; [|split; [|split]]].
    - intros j. destruct F as [F|F]; [apply (F j); apply NN|]. destruct (F j) as [->|[_ ->]]; [apply NN|cbn; lia].
    - destruct (MS _ M) as (md' & M' & _). exists md'. exact M'.
    - destruct F as [F|F].
      + destruct (F tsk) as (_ & A & _). destruct (A TO) as [[SO SD] _]. split; [congruence|]. exists vn. unfold token_in. rewrite SD. exact TV.
      + destruct (F tsk) as [E|[E _]]; [|lia]. split; [congruence|]. exists vn. unfold token_in. rewrite E. exact TV.
    - destruct (token_kept _ _ _ _ _ _ _ HH NN (conj TO (proj1 TV)) TV LA) as (ts' & _ & _ & _ & _ & LA'). exact LA'.
    - intros k x (g' & m' & ev & md' & amount & R' & A1 & A2 & A3 & A4 & A5 & A6 & A7 & A8).
      destruct (known_other _ _ _ k F (KN k)) as [NR|(g & m & R & R2)].
      + exfalso. destruct (request_kind _ _ _ _ _ R') as (n & pn & KK). destruct R' as (O' & _). exact (NR O' n pn KK).
      + destruct (request_fun _ _ _ _ _ _ _ R2 R') as [-> ->]. destruct (MS _ M) as (md2 & M2 & DE). rewrite (mint_in_fun _ _ _ _ M2 A6), DE in A7.
        exists g, m, ev, md, amount. repeat (split; [assumption|]). assumption.
  Qed.
End Ever.

Lemma day_of_le a b : a <= b -> day_of a <= day_of b.
Proof. unfold day_of. intros H. apply Z.quot_le_mono; lia. Qed.

Lemma listed_nums e s k ts : listed e s k ts -> 0 <= tk_wdamount ts /\ 0 <= tk_wdlimit ts.
Proof. intros [_ (vn & V)]. apply token_ok, okb_ts in V. clear - V. destruct V as (_ & _ & _ & _ & _ & _ & A & B & _). lia. Qed.
Lemma day_keep e acc keep D paid s s' n : day_hist e acc keep D paid s s' n -> keep s'.
Proof. intros []; assumption. Qed.
Lemma waits_none e mint token f D s : (forall k, no_request s k \/ exists g m, request_at e s k g m /\ wm_epoch m < D) ->
  forall k x, ~ waits e mint token f D s k x.
Proof.
  intros R k x (g' & m' & ev & md & am & R' & _ & E & _). destruct (R k) as [NR|(g & m & RA & LT)].
  - destruct (request_kind _ _ _ _ _ R') as (n & pn & KK). destruct R' as (O' & _). exact (NR O' n pn KK).
  - destruct (request_fun _ _ _ _ _ _ _ RA R') as [-> ->]. lia.
Qed.
Lemma counted_pos ts D : 0 <= tk_wdamount ts -> 0 <= counted ts D.
Proof. unfold counted. destruct (_ =? _); lia. Qed.

(** Paid so far on day [D] and waiting for approval, together, are at most what the counter of the day shows. *)
Lemma ever_account : forall e tsk mint token m0 d0 f lim D s0 s n ts,
  (forall k, no_collision e k) ->
  listed e s0 tsk ts -> tk_kind ts = TKEver m0 token d0 -> 1 <= lam (accs s0 tsk) -> nonneg s0 ->
  tp_addr e (str "mint" ++ kb (token_hash e token)) mint ->
  (forall t, okb c_ever t = true -> tp_addr e (str "mint" ++ kb (token_hash e t)) mint -> t = token) ->
  (exists md, mint_in s0 mint md) ->
  (forall k, no_request s0 k \/ exists g m, request_at e s0 k g m /\ wm_epoch m < D) -> day_of (now s0) <= D ->
  day_hist e mint (fun s => terms e tsk f lim s /\ ever_plain e token s) D (auto_minted mint) s0 s n ->
  nonneg s /\ (exists ts, listed e s tsk ts /\ tk_kind ts = TKEver m0 token d0 /\
    (day_of (now s) <= D -> exists L, (forall k x, In (k, x) L -> 0 <= x) /\ (forall k x, waits e mint token f D s k x -> In (k, x) L) /\
       n + total L <= counted ts D)) /\
  1 <= lam (accs s tsk) /\ (exists md, mint_in s mint md) /\
  (forall k, no_request s k \/ exists g m, request_at e s k g m /\ (day_of (now s) < D -> wm_epoch m < D)) /\
  (day_of (now s) < D -> n = 0) /\ n <= lim.
Proof.
  intros e tsk mint token m0 d0 f lim D s0 s n ts NC L0 KT LA NN MA MU M0 R0 D0 H.
  assert (KNOW : forall s, (forall k, no_request s k \/ exists g m, request_at e s k g m /\ (day_of (now s) < D -> wm_epoch m < D)) -> forall k, known e s k).
  { intros a A k. destruct (A k) as [NR|(g & m & R & _)]; [left; exact NR|right; exists g, m; exact R]. }
  revert L0 KT LA NN M0 R0 D0.
  induction H as [s [TE EP]|s0 s s' n c ext i H IH C SG X XM PC [TE EP]|s0 s s' n H IH F NW MS [TE EP]]; intros L0 KT LA NN M0 R0 D0.
  - split; [exact NN|]. split.
    { exists ts. split; [exact L0|]. split; [exact KT|]. intros _. exists []. split; [intros k x []|]. split; [intros k x Wk; exfalso; exact (waits_none _ _ _ _ _ _ R0 k x Wk)|].
      exact (counted_pos ts D (proj1 (listed_nums _ _ _ _ L0))). }
    split; [exact LA|]. split; [exact M0|]. split.
    { intros k. destruct (R0 k) as [NR|(g & m & R & E)]; [left; exact NR|right; exists g, m; auto]. }
    split; [reflexivity|]. destruct (TE ts) as [_ <-]; [destruct L0 as [_ (vn & V)]; eapply token_spec; exact V|apply (listed_nums _ _ _ _ L0)].
  - destruct (IH L0 KT LA NN M0 R0 D0) as (NN1 & (ts1 & L1 & K1 & CO) & LA1 & (md & M1) & R1 & Z1 & N1).
    destruct (day_keep _ _ _ _ _ _ _ _ H) as [TE1 EP1].
    destruct (ever_step e mint token f lim D tsk NC MA MU ext c i s s' ts1 m0 d0 md C SG X XM PC TE1 EP1 NN1 L1 K1 LA1 M1 (KNOW _ R1))
      as (NN2 & NW & M2 & ts2 & L2 & K2 & LA2 & DS).
    assert (R2 : forall k, no_request s' k \/ exists g m, request_at e s' k g m /\ (day_of (now s') < D -> wm_epoch m < D)).
    { intros k. destruct (reqs_step _ _ _ _ _ _ k C X PC (NC k) (KNOW _ R1 k)) as [NR|(g' & m' & R' & [(g & m & R & E & _)|[E _]])]; [left; exact NR| |].
      - right. exists g', m'. split; [exact R'|]. rewrite NW, E. destruct (R1 k) as [NR|(g2 & m2 & RR & LT)].
        + exfalso. destruct (request_kind _ _ _ _ _ R) as (a & b & KK). destruct R as (O' & _). exact (NR O' a b KK).
        + destruct (request_fun _ _ _ _ _ _ _ RR R) as [-> ->]. exact LT.
      - right. exists g', m'. split; [exact R'|]. rewrite NW, E. auto. }
    rewrite NW. split; [exact NN2|].
    destruct (day_of (now s) =? D) eqn:ED.
    + apply Z.eqb_eq in ED. rewrite ED in *. destruct CO as (L & LN & LW & LC); [apply Z.le_refl|].
      destruct (account _ _ _ _ _ _ _ _ _ DS (proj1 (listed_nums _ _ _ _ L2)) N1 LN LW LC) as (N2 & L' & LN' & LW' & LC').
      split; [exists ts2; split; [exact L2|]; split; [exact K2|]; intros _; exists L'; auto|].
      split; [exact LA2|]. split; [exact M2|]. split; [rewrite NW, ED in R2; exact R2|]. split; [intros Q; exfalso; exact (Z.lt_irrefl _ Q)|exact N2].
    + apply Z.eqb_neq in ED. rewrite Z.add_0_r. split; [exists ts2; split; [exact L2|]; split; [exact K2|]|].
      * intros LE. exists []. split; [intros k x []|]. split.
        -- intros k x Wk. exfalso. refine (waits_none _ _ _ _ _ _ _ k x Wk). intros j. destruct (R2 j) as [NR|(g & m & R & LT)]; [left; exact NR|right; exists g, m; split; [exact R|apply LT; rewrite NW; clear - LE ED; lia]].
        -- cbn [total]. assert (LT : day_of (now s) < D) by (clear - LE ED; lia). rewrite (Z1 LT). exact (counted_pos ts2 D (proj1 (listed_nums _ _ _ _ L2))).
      * split; [exact LA2|]. split; [exact M2|]. split; [rewrite NW in R2; exact R2|]. split; [exact Z1|exact N1].
  - destruct (IH L0 KT LA NN M0 R0 D0) as (NN1 & (ts1 & L1 & K1 & CO) & LA1 & (md & M1) & R1 & Z1 & N1).
    destruct (ever_other e mint token f D tsk NC MA MU s s' ts1 m0 d0 md F MS NN1 L1 K1 LA1 M1 (KNOW _ R1)) as (NN2 & M2 & L2 & LA2 & WW).
    pose proof (day_of_le _ _ NW) as DL. split; [exact NN2|]. split.
    { exists ts1. split; [exact L2|]. split; [exact K1|]. intros LE. destruct CO as (L & LN & LW & LC); [eapply Z.le_trans; eassumption|]. exists L. auto. }
    split; [exact LA2|]. split; [exact M2|]. split; [|split; [intros LT; apply Z1; eapply Z.le_lt_trans; eassumption|exact N1]].
    intros k. destruct (known_other _ _ _ k F (KNOW _ R1 k)) as [NR|(g & m & R & R')]; [left; exact NR|right]. exists g, m. split; [exact R'|].
    intros LT. destruct (R1 k) as [NR|(g2 & m2 & RR & LT2)].
    + exfalso. destruct (request_kind _ _ _ _ _ R) as (a & b & KK). destruct R as (O' & _). exact (NR O' a b KK).
    + destruct (request_fun _ _ _ _ _ _ _ RR R) as [-> ->]. apply LT2. eapply Z.le_lt_trans; eassumption.
Qed.

(** * C35 for Ever tokens *)

(** What all executions of withdrawals on day [D] together create of an Ever token, without approval, is at
    most its daily limit: in every history in which fee and limit of the token stay [f] and [lim], that starts
    before the end of day [D] and in which no requests of day [D] exist at the start, that is for instance
    every history that starts before day [D].  Requests that wait for approval and requests of other days
    notwithstanding: approvals of requests of day [D] give back to the counter only what their execution took.
    Missing for the full C35: Solana tokens, for which it is false (C35_refuted); payloads that call the token
    proxy or are run on unchecked requests. *)
Theorem C35_ever_partial : forall e tsk mint token m0 d0 f lim D s0 s n ts,
  (forall k, no_collision e k) ->
  listed e s0 tsk ts -> tk_kind ts = TKEver m0 token d0 -> 1 <= lam (accs s0 tsk) -> nonneg s0 ->
  tp_addr e (str "mint" ++ kb (token_hash e token)) mint ->
  (forall t, okb c_ever t = true -> tp_addr e (str "mint" ++ kb (token_hash e t)) mint -> t = token) ->
  (exists md, mint_in s0 mint md) ->
  (forall k, no_request s0 k \/ exists g m, request_at e s0 k g m /\ wm_epoch m < D) -> day_of (now s0) <= D ->
  day_hist e mint (fun s => terms e tsk f lim s /\ ever_plain e token s) D (auto_minted mint) s0 s n ->
  n <= lim.
Proof.
  intros e tsk mint token m0 d0 f lim D s0 s n ts NC L0 KT LA NN MA MU M0 R0 D0 H.
  apply (ever_account e tsk mint token m0 d0 f lim D s0 s n ts NC L0 KT LA NN MA MU M0 R0 D0 H).
Qed.

(** * The demo ledger *)

(** No two requests share an address. *)
Definition demo_solesb (t : list (bytes * key * key)) (h : list (bytes * key)) : bool :=
  let slice sd := firstn 32 (skipn 56 sd) in
  forallb (fun '(sd, p, j) => negb (keqb p tp_id && beqb (firstn 8 sd) (str "proposal")) ||
    forallb (fun '(sd', p', j') => negb (keqb p' tp_id && beqb (firstn 8 sd') (str "proposal") && keqb j j') || beqb (slice sd) (slice sd')) t &&
    negb (beqb (slice sd) (kb key0)) &&
    forallb (fun '(b, x) => negb (beqb (kb x) (slice sd)) || forallb (fun '(b', x') => negb (beqb (kb x') (slice sd)) || beqb b b') h) h) t.
Lemma demo_soles t h : demo_solesb t h = true -> forall k, no_collision (demo_env t h) k.
Proof.
  intros B k r ts lt conf b n r' ts' lt' conf' b' n' F F'.
  apply find_pda_some in F as [F _]. apply find_pda_some in F' as [F' _]. cbn [demo_env e_pda e_hash] in F, F'. apply pda_lookup_full in F, F'.
  unfold demo_solesb in B. cbv zeta in B. rewrite forallb_forall in B. pose proof (B _ F) as B1. cbv beta iota in B1.
  change (beqb (firstn 8 (sd_proposal r ts lt conf (hash_lookup h b) ++ [zb n])) (str "proposal")) with true in B1. rewrite keqb_refl in B1. cbn [andb negb orb] in B1.
  rewrite !andb_true_iff in B1. destruct B1 as [[B1 B2] B3]. rewrite forallb_forall in B1. apply B1 in F'. cbv beta iota in F'.
  change (beqb (firstn 8 (sd_proposal r' ts' lt' conf' (hash_lookup h b') ++ [zb n'])) (str "proposal")) with true in F'. rewrite !keqb_refl in F'. cbn [andb negb orb] in F'.
  apply beqb_eq in F'. rewrite !seed_hash in F'. rewrite seed_hash in B2, B3.
  assert (E : hash_lookup h b = hash_lookup h b') by (apply keqb_eq; unfold keqb; apply beqb_eq; exact F').
  destruct (hash_lookup_in h b) as [Z0|I1]; [rewrite Z0 in B2; vm_compute in B2; discriminate|].
  destruct (hash_lookup_in h b') as [Z0|I2]; [rewrite E, Z0 in B2; vm_compute in B2; discriminate|].
  rewrite forallb_forall in B3. apply B3 in I1. cbv beta iota in I1. rewrite (proj2 (beqb_eq _ _) eq_refl) in I1. cbn [negb orb] in I1.
  rewrite forallb_forall in I1. apply I1 in I2. cbv beta iota in I2. rewrite E, (proj2 (beqb_eq _ _) eq_refl) in I2. cbn [negb orb] in I2.
  apply beqb_eq in I2. exact I2.
Qed.
Lemma te_soles : forall k, no_collision te k.
Proof. apply demo_soles. vm_compute. reflexivity. Qed.

(** All requests were made before day [D]. *)
Definition early (e : env) (s : state) (D : Z) : Prop :=
  forall k, no_request s k \/ exists g m, request_at e s k g m /\ wm_epoch m < D.
Lemma early_step e ext c i s s' D : tp_call e ext c i s s' -> tp_ext e 0 ext -> payload_checked e c i s -> (forall k, no_collision e k) ->
  early e s D -> day_of (now s) < D -> early e s' D.
Proof.
  intros C X PC NC E DL k. assert (KN : known e s k) by (destruct (E k) as [NR|(g & m & R & _)]; [left; exact NR|right; exists g, m; exact R]).
  destruct (reqs_step _ _ _ _ _ _ k C X PC (NC k) KN) as [NR|(g' & m' & R' & [(g & m & R & EE & _)|[EE _]])]; [left; exact NR| |];
    right; exists g', m'; (split; [exact R'|]); rewrite EE; [|exact DL].
  destruct (E k) as [NR|(g2 & m2 & RR & LT)].
  - exfalso. destruct (request_kind _ _ _ _ _ R) as (a & b & KK). destruct R as (O' & _). exact (NR O' a b KK).
  - destruct (request_fun _ _ _ _ _ _ _ RR R) as [-> ->]. exact LT.
Qed.
Lemma acct_lookup_in l k : acct_lookup l k = acct0 \/ In (k, acct_lookup l k) l.
Proof.
  induction l as [|[j a] l IH]; [left; reflexivity|]. cbn [acct_lookup]. destruct (keqb k j) eqn:E.
  - apply keqb_eq in E. subst j. right. left. reflexivity.
  - destruct IH as [IH|IH]; [left; exact IH|right; right; exact IH].
Qed.
Lemma early0 D : early te ts0 D.
Proof.
  intros k. left. intros O. exfalso. unfold ts0, demo_state in O. cbn [accs] in O. destruct (acct_lookup_in taccs k) as [E|I]; [rewrite E in O; discriminate|].
  assert (B : forallb (fun '(_, a) => negb (keqb (own a) tp_id)) taccs = true) by (vm_compute; reflexivity).
  rewrite forallb_forall in B. apply B in I. rewrite O, keqb_refl in I. discriminate.
Qed.

(** Several instructions in a row. *)
Lemma tstp_now s x : demo_plainb ttab (fst x) = true -> clock_ok s -> is_ok (tstp s x) = true -> now (unres (tstp s x)) = now s.
Proof.
  intros B CK R. pose proof (tstp_instr 0 s x B CK R) as (c & ext & d & Hp & _ & S & X & R0).
  apply (induct_run te (ordinary te)) with (P := fun _ _ => True) (n := O) (ext := ext) (c := c) (d := d); try assumption; auto. intros k K _. exact K.
Qed.
Lemma no_payload_checked e c i s : is_payload i = false -> payload_checked e c i s.
Proof. intros NP k _. split; intros E; rewrite E in NP; discriminate. Qed.
Definition plain_call (x : list meta * tp_ix) : bool := demo_plainb ttab (fst x) && okb c_tp_ix (snd x) && negb (is_payload (snd x)).
Lemma early_tstps l : forall s D, early te s D -> forallb plain_call l = true -> clock_ok s -> is_ok (tstps s l) = true ->
  day_of (now s) < D -> early te (unres (tstps s l)) D.
Proof.
  induction l as [|x l IH]; intros s D E B CK R DL; [exact E|]. cbn [tstps] in *. cbn [forallb] in B. apply andb_true_iff in B as [B1 B2].
  unfold plain_call in B1. rewrite !andb_true_iff in B1. destruct B1 as [[B1 B3] B4]. apply negb_true_iff in B4.
  destruct (tstp s x) as [s1|] eqn:T; [|discriminate]. cbn [rbind] in *.
  assert (C : tp_call te no_ext (ctx_of tp_id (fst x)) (snd x) s s1) by (change s1 with (unres (Ok s1)); rewrite <- T; apply tstp_call; [exact B3|exact CK|rewrite T; reflexivity]).
  assert (N : now s1 = now s) by (change s1 with (unres (Ok s1)); rewrite <- T; apply tstp_now; [exact B1|exact CK|rewrite T; reflexivity]).
  apply IH; [|exact B2|unfold clock_ok in *; rewrite N; exact CK|exact R|rewrite N; exact DL].
  eapply early_step; [exact C|apply no_ext_tp|apply no_payload_checked; exact B4|exact te_soles|exact E|exact DL].
Qed.

Lemma early_tstp s x D : early te s D -> plain_call x = true -> clock_ok s -> is_ok (tstp s x) = true -> day_of (now s) < D ->
  early te (unres (tstp s x)) D.
Proof.
  intros E B CK R DL. pose proof (early_tstps [x] s D E) as H. cbn [tstps forallb] in H.
  destruct (tstp s x) as [s1|]; [|discriminate]. cbn [rbind unres] in *. apply H; [rewrite B; reflexivity|exact CK|exact R|exact DL].
Qed.
Lemma nonneg_tstp s x : nonneg s -> plain_call x = true -> clock_ok s -> is_ok (tstp s x) = true -> nonneg (unres (tstp s x)).
Proof.
  intros N B CK R. unfold plain_call in B. rewrite !andb_true_iff in B. destruct B as [[B1 B3] B4]. apply negb_true_iff in B4.
  pose proof (tstp_instr 0 s x B1 CK R) as HI.
  pose proof HI as (c1 & ext1 & d & A1 & A2 & A3 & A4 & A5).
  eapply (kept_instr c_token_settings tk_init (fun ts => (tk_akind ts, tk_kind ts)) te key0 tk_akind (fun _ => False)); try eassumption; try contradiction. intros d1 y. apply kind_token_settings.
Qed.
(** Requests of an earlier day, nonnegative balances. *)
Definition sane (D : Z) (s : state) : Prop := early te s D /\ nonneg s.
Lemma sane0 D : sane D ts0.
Proof. split; [apply early0|apply demo_nonneg; vm_compute; reflexivity]. Qed.
Lemma sane_same s s' D : sane D s -> (forall k, accs s' k = accs s k) -> sane D s'.
Proof.
  intros [E N] A. split; [|intros k; rewrite A; apply N]. intros k. specialize (E k). unfold no_request, request_at in *. rewrite A. exact E.
Qed.
Lemma sane_tstp s x D : sane D s -> plain_call x = true -> clock_ok s -> is_ok (tstp s x) = true -> day_of (now s) <? D = true ->
  sane D (unres (tstp s x)).
Proof. intros [E N] B CK R DL. split; [apply early_tstp; try assumption; lia|apply nonneg_tstp; assumption]. Qed.
Lemma sane_tstps D l : forall s, sane D s -> forallb plain_call l = true -> clock_ok s -> is_ok (tstps s l) = true -> day_of (now s) <? D = true ->
  sane D (unres (tstps s l)).
Proof.
  induction l as [|x l IH]; intros s S B CK R DL; [exact S|]. cbn [tstps forallb] in *. apply andb_true_iff in B as [B1 B2].
  destruct (tstp s x) as [s1|] eqn:T; [|discriminate]. cbn [rbind] in *.
  assert (N : now s1 = now s) by (change s1 with (unres (Ok s1)); rewrite <- T; apply tstp_now; [unfold plain_call in B1; rewrite !andb_true_iff in B1; apply B1|exact CK|rewrite T; reflexivity]).
  apply IH; [|exact B2|unfold clock_ok in *; rewrite N; exact CK|exact R|rewrite N; exact DL].
  change s1 with (unres (Ok s1)). rewrite <- T. apply sane_tstp; try assumption. rewrite T. reflexivity.
Qed.

Fixpoint run_paid (D : Z) (paid : ctx -> tp_ix -> state -> state -> Z) (keepb : state -> bool) (s : state) (l : list (list meta * tp_ix)) : option Z :=
  match l with
  | [] => Some 0
  | x :: r => if keepb (unres (tstp s x)) then
      match run_paid D paid keepb (unres (tstp s x)) r with
      | Some n => Some ((if day_of (now s) =? D then paid (ctx_of tp_id (fst x)) (snd x) s (unres (tstp s x)) else 0) + n)
      | None => None end
    else None
  end.
Lemma day_tstps acc (keep : state -> Prop) keepb D paid s0 l : (forall s, keepb s = true -> keep s) ->
  forall s n, day_hist te acc keep D paid s0 s n -> forallb plain_call l = true -> clock_ok s -> is_ok (tstps s l) = true ->
  forall m, run_paid D paid keepb s l = Some m -> day_hist te acc keep D paid s0 (unres (tstps s l)) (n + m).
Proof.
  intros KB. induction l as [|x l IH]; intros s n H B CK R m P; [injection P as <-; rewrite Z.add_0_r; exact H|]. cbn [tstps] in *. cbn [forallb] in B. apply andb_true_iff in B as [B1 B2].
  unfold plain_call in B1. rewrite !andb_true_iff in B1. destruct B1 as [[B1 B3] B4]. apply negb_true_iff in B4. cbn [run_paid] in P.
  destruct (tstp s x) as [s1|] eqn:T; [|discriminate]. cbn [rbind unres] in *.
  assert (C : tp_call te no_ext (ctx_of tp_id (fst x)) (snd x) s s1) by (change s1 with (unres (Ok s1)); rewrite <- T; apply tstp_call; [exact B3|exact CK|rewrite T; reflexivity]).
  assert (N : now s1 = now s) by (change s1 with (unres (Ok s1)); rewrite <- T; apply tstp_now; [exact B1|exact CK|rewrite T; reflexivity]).
  destruct (keepb s1) eqn:K1; [|discriminate]. destruct (run_paid D paid keepb s1 l) as [m1|] eqn:P1; [|discriminate]. injection P as <-.
  rewrite Z.add_assoc. apply IH; [|exact B2|unfold clock_ok in *; rewrite N; exact CK|exact R|exact P1].
  eapply dh_instr; [exact H|exact C| |apply no_ext_tp| |apply no_payload_checked; exact B4|apply KB; exact K1].
  - intros k S Q. destruct (demo_plain _ _ _ _ B1 _ S Q).
  - intros c' d a y b E. destruct (no_ext_never _ _ _ _ E).
Qed.

(** Time passes. *)
Definition later (n : Z) (s : state) : state := St (accs s) (logs s) (now s + n).
Lemma day_later acc (keep : state -> Prop) D paid s0 s n t : day_hist te acc keep D paid s0 s n -> 0 <= t -> keep (later t s) ->
  day_hist te acc keep D paid s0 (later t s) n.
Proof.
  intros H T K. eapply dh_other; [exact H|left| |intros m M; exists m; split; [exact M|reflexivity]|exact K].
  - intros k. cbn [later accs]. split; [auto|]. split; [intros _; split; [split; reflexivity|lia]|]. split; [intros A B; contradiction|]. intros _ _. split; reflexivity.
  - cbn [later now]. lia.
Qed.

Definition fee_eqb (a b : fee_info) : bool := (fi_mul a =? fi_mul b) && (fi_div a =? fi_div b).
Definition termsb (tsk : key) (f : fee_info) (lim : Z) (s : state) : bool :=
  match unpack c_token_settings TP_LEN tk_init (dat (accs s tsk)) with
  | Ok t => fee_eqb (tk_fee_wdr t) f && (tk_wdlimit t =? lim) | Err _ => true end.
Lemma termsb_terms tsk f lim s : termsb tsk f lim s = true -> terms te tsk f lim s.
Proof.
  unfold termsb. intros B ts [_ U]. rewrite U in B. apply andb_true_iff in B as [B1 B2]. unfold fee_eqb in B1. apply andb_true_iff in B1 as [B1 B3].
  split; [|lia]. destruct (tk_fee_wdr ts) as [a b], f as [a0 b0]. cbn [fi_mul fi_div] in *. f_equal; lia.
Qed.

(** ** A daily limit that is exceeded *)
Definition tlimit (tsk : key) (n : Z) := tadmT tman tsk (TpChangeWithdrawalLimits None (Some n)).
(** a limit of 720000 a day for the Solana token; then [tev2] of 700000 is executed while the vault cannot pay
    it, so that it is counted on that day; on the next day [tev1] is paid, the vault is filled and the
    execution of [tev2] is repeated *)
Definition ts71 := unres (tstp ts2 (tlimit ttsS 720000)).
Definition lday1 := treqS trecv tw2 tround 17 tev2 [] :: tvotes tw2 tround ++ [texecS tw2 trecvS tmintS].
Definition ts72 := later 86400 (unres (tstps ts71 lday1)).
Definition lday2 := treqS trecv tw1 tround 7 tev1 [] :: tvotes tw1 tround ++
  [texecS tw1 trecvS tmintS; tdep tuser tuserS tvault td2 tmintS 2 900000; texecS tw2 trecvS tmintS].
Definition ts73 := unres (tstps ts72 lday2).

Lemma sane2 D : 19675 <? D = true -> sane D ts2.
Proof. intros H. unfold ts2. apply sane_tstp; [|vm_compute; reflexivity|vm_compute; split; [discriminate|reflexivity]|vm_compute; reflexivity|exact H]. unfold ts1. apply sane_tstp; [|vm_compute; reflexivity|vm_compute; split; [discriminate|reflexivity]|vm_compute; reflexivity|exact H]. apply sane0. Qed.
Lemma sane71 D : 19675 <? D = true -> sane D ts71.
Proof. intros H. unfold ts71. apply sane_tstp; [|vm_compute; reflexivity|vm_compute; split; [discriminate|reflexivity]|vm_compute; reflexivity|exact H]. apply sane2. exact H. Qed.

(** The full claim (C35) says [n <= lim] for the tokens sent from the vault of a Solana token as well; it
    fails: a payment that waits for the vault is counted on the day of its first execution only. *)
Theorem C35_refuted : exists e tsk mint vault m0 f lim D s0 s n ts,
  (forall k, no_collision e k) /\ listed e s0 tsk ts /\ tk_kind ts = TKSol mint vault /\ 1 <= lam (accs s0 tsk) /\ nonneg s0 /\
  tp_addr e (str "vault" ++ kb mint) vault /\ mint_in s0 mint m0 /\
  (forall k, no_request s0 k \/ exists g m, request_at e s0 k g m /\ wm_epoch m < D) /\ day_of (now s0) <= D /\
  day_hist e mint (terms e tsk f lim) D (auto_sent vault) s0 s n /\ lim < n.
Proof.
  exists te, ttsS, tmintS, tvault, (the_mint ts71 tmintS), (tk_fee_wdr (the_token ts71 ttsS)), 720000, 19676, ts71, ts73, 749625, (the_token ts71 ttsS).
  split; [exact te_soles|].
  split; [split; [vm_compute; reflexivity|exists 255; split; [vm_compute; reflexivity|exists 255; split; vm_compute; reflexivity]]|].
  split; [vm_compute; reflexivity|]. split; [vm_compute; discriminate|]. split.
  { apply (sane71 19676); reflexivity. }
  split; [exists 255; vm_compute; reflexivity|]. split; [split; vm_compute; reflexivity|]. split.
  { apply (sane71 19676); reflexivity. }
  split; [vm_compute; discriminate|]. split; [|vm_compute; reflexivity].
  change 749625 with (0 + 0 + 749625). unfold ts73.
  apply (day_tstps _ _ (termsb ttsS (tk_fee_wdr (the_token ts71 ttsS)) 720000)); [apply termsb_terms| |vm_compute; reflexivity|vm_compute; split; [discriminate|reflexivity]|vm_compute; reflexivity|vm_compute; reflexivity].
  unfold ts72. apply day_later; [|discriminate|apply termsb_terms; vm_compute; reflexivity].
  apply (day_tstps _ _ (termsb ttsS (tk_fee_wdr (the_token ts71 ttsS)) 720000)); [apply termsb_terms| |vm_compute; reflexivity|vm_compute; split; [discriminate|reflexivity]|vm_compute; reflexivity|vm_compute; reflexivity].
  apply dh_refl. apply termsb_terms. vm_compute. reflexivity.
Qed.

(** ** A daily limit that is kept *)
(** a limit of 100000 a day for the Ever token; on the next day [tev7] of 70000 is paid without approval, [tev6]
    of 90000 has to wait and is approved *)
Definition ts74 := unres (tstp ts8 (tlimit ttsE 100000)).
Definition ts75 := later 86400 ts74.
Definition lday3 := treqE trecv tw7 tround 67 tev7 [] :: tvotes tw7 tround ++ texecE tw7 trecvE [] ::
  treqE trecv tw6 tround 57 tev6 [ww tproxyE; ro tmintE; ro spl_id] :: tvotes tw6 tround ++
  [texecE tw6 tproxyE []; tapprE twman tw6 tproxyE].
Definition ts76 := unres (tstps ts75 lday3).
Lemma sane74 D : 19675 <? D = true -> sane D ts74.
Proof.
  intros H. assert (Q : forall s x, sane D s -> plain_call x = true -> clock_ok s -> is_ok (tstp s x) = true -> day_of (now s) = 19675 -> sane D (unres (tstp s x))).
  { intros s x A B C R N. apply sane_tstp; try assumption. rewrite N. exact H. }
  unfold ts74, ts8. 
  apply Q; [|vm_compute; reflexivity|vm_compute; split; [discriminate|reflexivity]|vm_compute; reflexivity|vm_compute; reflexivity].
  apply Q; [|vm_compute; reflexivity|vm_compute; split; [discriminate|reflexivity]|vm_compute; reflexivity|vm_compute; reflexivity].
  apply (sane_same ts7r); [|apply ts7_same]. unfold ts7r.
  assert (S6 : sane D ts6).
  { unfold ts6. apply Q; [|vm_compute; reflexivity|vm_compute; split; [discriminate|reflexivity]|vm_compute; reflexivity|vm_compute; reflexivity].
    unfold ts5. apply Q; [|vm_compute; reflexivity|vm_compute; split; [discriminate|reflexivity]|vm_compute; reflexivity|vm_compute; reflexivity].
    apply (sane_same ts4r); [|apply ts4_same]. unfold ts4r. apply sane_tstps; [|vm_compute; reflexivity|vm_compute; split; [discriminate|reflexivity]|vm_compute; reflexivity|exact H].
    unfold ts3. apply Q; [|vm_compute; reflexivity|vm_compute; split; [discriminate|reflexivity]|vm_compute; reflexivity|vm_compute; reflexivity].
    apply sane2. exact H. }
  apply sane_tstps; [exact S6|vm_compute; reflexivity|vm_compute; split; [discriminate|reflexivity]|vm_compute; reflexivity|exact H].
Qed.

(** In the demo ledger only [tever] has the mint [tmintE], and there is no token whose mint looks like it. *)
Lemma te_mint t : okb c_ever t = true -> tp_addr te (str "mint" ++ kb (token_hash te t)) tmintE -> t = tever.
Proof.
  intros O [n F]. apply find_pda_some in F as [F _]. cbn [te demo_env e_pda] in F. apply pda_lookup_full in F.
  assert (B : forallb (fun '(sd, p, j) => negb (keqb j tmintE) || beqb (firstn 36 sd) (str "mint" ++ kb (knum 500))) ttab = true) by (vm_compute; reflexivity).
  rewrite forallb_forall in B. apply B in F. cbv beta iota in F. rewrite keqb_refl in F. cbn [negb orb] in F. apply beqb_eq in F.
  assert (E : token_hash te t = knum 500).
  { apply keqb_eq. unfold keqb. apply beqb_eq. rewrite <- app_assoc in F. 
    change (firstn 36 (str "mint" ++ kb (token_hash te t) ++ [zb n])) with (str "mint" ++ firstn 32 (kb (token_hash te t) ++ [zb n])) in F.
    apply app_inv_head in F. rewrite (firstn_app 32), (kb_length (token_hash te t)) in F. change (32 - 32)%nat with 0%nat in F. rewrite firstn_O, app_nil_r in F.
    rewrite firstn_all2 in F by (rewrite kb_length; apply le_n). exact F. }
  unfold token_hash in E. cbn [te demo_env e_hash] in E. destruct (hash_lookup_in thash (enc c_ever t)) as [Z0|I]; [rewrite Z0 in E; vm_compute in E; discriminate|].
  rewrite E in I. assert (B2 : forallb (fun '(b, x) => negb (keqb x (knum 500)) || beqb b (enc c_ever tever)) thash = true) by (vm_compute; reflexivity).
  rewrite forallb_forall in B2. apply B2 in I. cbv beta iota in I. rewrite keqb_refl in I. cbn [negb orb] in I. apply beqb_eq in I.
  apply (enc_inj c_ever _); [exact O|vm_compute; reflexivity|exact I].
Qed.
Lemma te_plain s : ever_plain te tever s.
Proof.
  intros k ts m v [A _] K E. rewrite K, E in A. destruct A as [n F]. apply find_pda_some in F as [F _]. cbn [te demo_env e_pda] in F. apply pda_lookup_full in F.
  assert (B : forallb (fun '(sd, p, j) => negb (beqb (firstn 40 sd) (str "settings" ++ firstn 32 (enc c_ever tever)))) ttab = true) by (vm_compute; reflexivity).
  rewrite forallb_forall in B. apply B in F. cbv beta iota in F. vm_compute in F. discriminate.
Qed.
Example C35_ever_ex : let f := tk_fee_wdr (the_token ts74 ttsE) in
  (forall k, no_collision te k) /\ listed te ts74 ttsE (the_token ts74 ttsE) /\ tk_kind (the_token ts74 ttsE) = TKEver tmintE tever 9 /\
  1 <= lam (accs ts74 ttsE) /\ nonneg ts74 /\ tp_addr te (str "mint" ++ kb (token_hash te tever)) tmintE /\
  (forall t, okb c_ever t = true -> tp_addr te (str "mint" ++ kb (token_hash te t)) tmintE -> t = tever) /\
  (exists md, mint_in ts74 tmintE md) /\
  (forall k, no_request ts74 k \/ exists g m, request_at te ts74 k g m /\ wm_epoch m < 19676) /\ day_of (now ts74) <= 19676 /\
  day_hist te tmintE (fun s => terms te ttsE f 100000 s /\ ever_plain te tever s) 19676 (auto_minted tmintE) ts74 ts76 69965 /\
  supply ts76 tmintE = supply ts74 tmintE + 69965 + 89955.
Proof.
  intros f. split; [exact te_soles|].
  split; [split; [vm_compute; reflexivity|exists 255; split; [vm_compute; reflexivity|exists 255; split; vm_compute; reflexivity]]|].
  split; [vm_compute; reflexivity|]. split; [vm_compute; discriminate|]. split; [apply (sane74 19676); reflexivity|].
  split; [exists 255; vm_compute; reflexivity|]. split; [exact te_mint|]. split; [exists (the_mint ts74 tmintE); split; vm_compute; reflexivity|].
  split; [apply (sane74 19676); reflexivity|]. split; [vm_compute; discriminate|]. split; [|vm_compute; reflexivity].
  change 69965 with (0 + 69965). unfold ts76.
  assert (KB : forall s, termsb ttsE f 100000 s = true -> terms te ttsE f 100000 s /\ ever_plain te tever s) by (intros s B; split; [apply termsb_terms; exact B|apply te_plain]).
  apply (day_tstps _ _ (termsb ttsE f 100000)); [exact KB| |vm_compute; reflexivity|vm_compute; split; [discriminate|reflexivity]|vm_compute; reflexivity|vm_compute; reflexivity].
  unfold ts75. apply day_later; [|discriminate|apply KB; vm_compute; reflexivity].
  apply dh_refl. apply KB. vm_compute. reflexivity.
Qed.

Print Assumptions C35_ever_partial.
Print Assumptions C35_refuted.
