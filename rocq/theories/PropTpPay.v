(** Properties C31 - C34: whom a withdrawal pays, in which token, how much, which fee it charges, and
    which withdrawals have to wait for approval. *)

From Coq Require Import Strings.String ZifyBool ZifyNat ZifyN.
From Verif Require Import TpDemoLaws TpFlow PropTpFlow.
Open Scope Z_scope.
Open Scope list_scope.
Ltac Zify.zify_post_hook ::= Z.div_mod_to_equations.

(** * Vocabulary *)

(** [x] units of [10^-from] expressed in units of [10^-to], rounded down. *)
Definition rescale (x from to : Z) : Z :=
  if to <? from then x / 10 ^ (from - to) else x * 10 ^ (to - from).
(** The fee on [x]: a multiple of [x/divisor], at least 1. *)
Definition fee_on (f : fee_info) (x : Z) : Z := Z.max 1 (x / fi_div f * fi_mul f).
(** The day number of a non-negative time, and what the settings say was withdrawn on that day. *)
Definition day_of (t : Z) : Z := Z.quot t 86400.
Definition today (ts : token_settings) (s : state) : Z :=
  if tk_wepoch ts =? day_of (now s) then tk_wdamount ts else 0.

(** The token of an Ever request has mint [mint], which reads [md], and [tsk] holds its settings [ts]. *)
Definition ever_token (e : env) (s : state) (w : wever) (mint : key) (md : tmint) (tsk : key) (ts : token_settings) : Prop :=
  tp_addr e (str "mint" ++ kb (token_hash e (wee_token (event_of w)))) mint /\ tmint_in s mint md /\
  token_at e s tsk ts /\ exists m d, tk_kind ts = TKEver m (wee_token (event_of w)) d.
(** The amount of an Ever request in units of the Solana mint, and less fee. *)
Definition ever_gross (w : wever) (md : tmint) : Z :=
  rescale (wee_amount (event_of w)) (wee_decimals (event_of w)) (tm_decimals md).
(** The decimals differ by less than 39, and the amount fits into 64 bits. *)
Definition ever_scales (w : wever) (md : tmint) : Prop := Z.abs (wee_decimals (event_of w) - tm_decimals md) <= 38.
Definition ever_fits (w : wever) (md : tmint) : Prop := ever_scales w md /\ ever_gross w md < 2 ^ 64.

(** The token of a Solana request has vault [vault], and [tsk] holds its settings [ts]. *)
Definition sol_token (e : env) (s : state) (w : wsol) (vault : key) (tsk : key) (ts : token_settings) : Prop :=
  tp_addr e (str "vault" ++ kb (wse_mint (event_of w))) vault /\
  token_at e s tsk ts /\ exists v, tk_kind ts = TKSol (wse_mint (event_of w)) v.

(** [dst] is a token account of [owner], or - for a request with payload - the address of [owner]'s
    proxy for [mint]. *)
Definition belongs (e : env) (s : state) (payload : bytes) (mint owner dst : key) (r : tacc) : Prop :=
  tok_in s dst r /\
  (payload = [] /\ ta_owner r = owner \/ payload <> [] /\ tp_addr e (sd_proxy mint owner) dst).
(** All accounts of the token program but those satisfying [P] are as before. *)
Definition spl_rest (s s' : state) (P : key -> Prop) : Prop :=
  forall j, own (accs s j) = spl_id -> ~ P j -> same_od s s' j.

(** Position of the request in the account list. *)
Definition request_pos (i : tp_ix) : nat := match i with TpApproveEver | TpApproveSol => 2%nat | _ => 0%nat end.

(** * Arithmetic *)

Lemma fee_on_of b f x z : fee_of b f x = Ok z -> fi_div f <> 0 /\ z = fee_on f x.
Proof. intros H. apply fee_of_ok in H as (D & -> & _). auto. Qed.
Lemma fee_on_pos f x : 1 <= fee_on f x.
Proof. unfold fee_on. lia. Qed.

Lemma pow10_small n : 0 <= n <= 38 -> pow10 n = 10 ^ n /\ 0 < 10 ^ n.
Proof.
  intros H. assert (P : 0 < 10 ^ n) by (apply Z.pow_pos_nonneg; lia). split; [|exact P].
  unfold pow10, wrap128. apply Z.mod_small. split; [lia|].
  apply Z.le_lt_trans with (10 ^ 38); [apply Z.pow_le_mono_r; lia|reflexivity].
Qed.
Lemma gwa_rescale x a b z : Z.abs (a - b) <= 38 -> get_withdrawal_amount x a b = Ok z -> z = rescale x a b mod 2 ^ 64.
Proof.
  intros D H. unfold get_withdrawal_amount in H. apply rbind_ok in H as (y & H & H2). injection H2 as <-.
  unfold rescale. destruct (b <? a) eqn:L.
  - apply cdiv_ok in H as [_ ->]. destruct (pow10_small (a - b)) as [-> _]; [lia|]. reflexivity.
  - apply cmul_ok in H as [-> _]. destruct (pow10_small (b - a)) as [-> _]; [lia|]. reflexivity.
Qed.
Lemma rescale_pos x a b : 0 <= x -> 0 <= rescale x a b.
Proof.
  intros H. unfold rescale. destruct (b <? a) eqn:L.
  - apply Z.div_pos; [exact H|]. apply Z.pow_pos_nonneg; lia.
  - apply Z.mul_nonneg_nonneg; [exact H|]. apply Z.pow_nonneg. lia.
Qed.
Lemma gwa_fits x a b z : 0 <= x -> Z.abs (a - b) <= 38 -> rescale x a b < 2 ^ 64 -> get_withdrawal_amount x a b = Ok z -> z = rescale x a b.
Proof. intros X D F H. rewrite (gwa_rescale _ _ _ _ D H). apply Z.mod_small. pose proof (rescale_pos x a b X). lia. Qed.

(** * What the written records read *)

Lemma settled_token {A} (cw : codec A) e c s s1 s' tsk ts vn ts2 wk (w' : A) l : token_in e tp_id s tsk ts vn ->
  settled c cw s s1 s' tsk ts2 wk w' l ->
  match ts2 with None => True | Some t => okb c_token_settings t = true /\ tk_init t = true /\ tk_kind t = tk_kind ts end ->
  token_at e s' tsk (match ts2 with None => ts | Some t => t end).
Proof.
  intros V (NE & W & WD & WT & _) C. pose proof (token_spec _ _ _ _ _ V) as [PA U]. destruct ts2 as [t|]; cbn [wrote_ts] in WT.
  - destruct C as (OK & IN & KE). destruct WT as [WT _]. split; [rewrite KE; exact PA|].
    apply unpack_init; [|exact IN]. eapply wrote_unpack; [typeclasses eauto|exact WT| |exact OK].
    eapply unpack_len; [|exact U]; typeclasses eauto.
  - destruct WT as [_ WT]. split; [exact PA|]. rewrite WT. exact U.
Qed.
Lemma spl_unwritten {A} (cw : codec A) c s s1 s' tsk ts2 wk (w' : A) l j :
  settled c cw s s1 s' tsk ts2 wk w' l -> c_pid c = tp_id -> blen (dat (accs s wk)) = TP_LEN -> blen (dat (accs s tsk)) = TP_LEN ->
  spl_step s s1 -> own (accs s j) = spl_id -> same_od s s1 j -> same_od s s' j.
Proof.
  intros SE Hp L1 L2 SS O SO. pose proof (nospl_settled cw c s s1 s' tsk ts2 wk w' l Hp SS L1 L2 SE j) as [X|[X _]].
  - exact (same_od_trans _ _ _ _ SO X).
  - destruct SO as [SO _]. congruence.
Qed.

(** * Ever withdrawals *)

(** [n] new tokens of the request's token in an account of the recipient; nothing else of the token
    program changes. *)
Definition ever_paid (e : env) (s s' : state) (w : wever) (mint dst : key) (n : Z) : Prop :=
  (exists r, belongs e s' (wee_payload (event_of w)) mint (wee_recipient (event_of w)) dst r /\ ta_mint r = mint) /\
  supply s' mint = supply s mint + n /\ (forall j, j <> mint -> supply s' j = supply s j) /\
  (mint <> native_mint -> balance s' dst = balance s dst + n) /\
  spl_rest s s' (fun j => j = dst \/ j = mint).

Lemma seeds_mint h : sd_mint h = str "mint" ++ kb h.
Proof. reflexivity. Qed.
Lemma seeds_vault m : sd_vault m = str "vault" ++ kb m.
Proof. reflexivity. Qed.

(** The payment itself, from the state in which the token is registered. *)
Lemma minted_paid e c s0 s1 s' kind (w : wever) mint dst n st tsk ts2 wk (w' : wever) l : c_pid c = tp_id ->
  minted s0 s1 mint dst n -> settled c c_wever s0 s1 s' tsk ts2 wk w' l ->
  blen (dat (accs s0 wk)) = TP_LEN -> blen (dat (accs s0 tsk)) = TP_LEN ->
  dest e tp_id s0 kind (wee_payload (event_of w)) mint (wee_recipient (event_of w)) dst st ->
  (exists r, belongs e s' (wee_payload (event_of w)) mint (wee_recipient (event_of w)) dst r /\ ta_mint r = mint) /\
  supply s' mint = supply s0 mint + n /\ (forall j, j <> mint -> supply s' j = supply s0 j) /\ balance s' dst = balance s0 dst + n /\
  spl_rest s0 s' (fun j => j = dst \/ j = mint) /\ (forall m, mint_in s0 mint m -> exists m', mint_in s' mint m' /\ tm_decimals m' = tm_decimals m).
Proof.
  intros Hp MI SE L1 L2 DE. pose proof (minted_step _ _ _ _ _ MI) as SS.
  pose proof (nospl_settled c_wever c _ _ _ _ _ _ _ _ Hp SS L1 L2 SE) as NS.
  pose proof (tokens_then _ _ _ _ _ (tokens_minted _ _ _ _ _ MI) NS) as TK.
  destruct MI as (b & m & TB & TM & NE & BM & AU & TB' & TM' & SO & _).
  pose proof (nospl_tok _ _ _ _ NS TB') as TB2.
  assert (TM2 : mint_in s' mint (tm_with_supply m (tm_supply m + n))).
  { destruct (NS mint) as [[SO1 SO2]|[X _]]; [|destruct TM'; contradiction]. destruct TM' as [A B]. split; [congruence|]. unfold tmint_in in *. rewrite SO2. exact B. }
  split.
  { eexists. split; [split; [exact TB2|]|exact BM].
    destruct DE as [(P & _ & r & R & OW)|(P & _ & mm & nn & _ & F)].
    - left. split; [exact P|]. destruct TB as [_ TB]. rewrite <- (tacc_in_fun _ _ _ _ TB R) in OW. exact OW.
    - right. split; [exact P|]. exists nn. exact F. }
  split; [rewrite (supply_mint _ _ _ TM2), (supply_mint _ _ _ TM); reflexivity|].
  split; [intros j NJ; rewrite (to_sup _ _ _ _ TK j), (gain_other _ _ _ NJ); lia|].
  split; [rewrite (balance_tok _ _ _ TB2), (balance_tok _ _ _ TB); reflexivity|]. split.
  - intros j O NJ. apply (spl_unwritten c_wever c s0 s1 s' _ _ _ _ _ j SE Hp L1 L2 SS O). apply SO; intros ->; apply NJ; auto.
  - intros m0 M0. destruct M0 as [_ M0], TM as [_ TM]. rewrite (tmint_in_fun _ _ _ _ M0 TM). eexists. split; [exact TM2|reflexivity].
Qed.

(** Before the execution proper the token may have been registered; that touches unused addresses. *)
Definition prelude (s s0 : state) : Prop :=
  tokens s s0 none none /\ (forall j, own (accs s j) <> sys_id \/ dat (accs s j) <> [] -> same_od s s0 j) /\ now s0 = now s.
Lemma prelude_refl s : prelude s s.
Proof. split; [apply tokens_none, nospl_refl|]. split; [intros j _; apply same_od_refl|reflexivity]. Qed.
Lemma prelude_registered e c f mint tsk ev s s0 : c_pid c = tp_id -> registered_ever e c f mint tsk ev s s0 -> prelude s s0.
Proof.
  intros Hp R. split; [exact (tokens_registered_ever _ _ _ _ _ _ _ _ Hp R)|].
  destruct R as (mn & tn & ata & an & m & t & F1 & F2 & F3 & N1 & N2 & N3 & O1 & D1 & _ & _ & _ & _ & _ & O2 & D2 & _ & _ & _ & _ & (O3 & D3 & _) & SO & _ & _ & NW & _).
  split; [|exact NW]. intros j [O|O]; apply SO; intros ->; contradiction.
Qed.
Lemma prelude_balance s s0 k t : prelude s s0 -> tok_in s0 k t -> ta_mint t <> native_mint -> balance s0 k = balance s k.
Proof.
  intros (T & _) K N. destruct (to_bal _ _ _ _ T k) as [E|(_ & t' & K' & M)]; [unfold none in E; lia|].
  exfalso. apply N. destruct K as [_ K], K' as [_ K']. rewrite (tacc_in_fun _ _ _ _ K K'). exact M.
Qed.
Lemma prelude_supply s s0 k : prelude s s0 -> supply s0 k = supply s k.
Proof. intros (T & _). rewrite (to_sup _ _ _ _ T k). unfold none. lia. Qed.
Lemma sys_spl : sys_id <> spl_id.
Proof. discriminate. Qed.
Lemma prelude_rest s s0 s' P : prelude s s0 -> spl_rest s0 s' P -> spl_rest s s' P.
Proof.
  intros (_ & SO & _) R j O N. assert (S0 : same_od s s0 j) by (apply SO; left; rewrite O; discriminate).
  apply (same_od_trans _ _ _ _ S0). apply R; [destruct S0 as [S0 _]; congruence|exact N].
Qed.

(** What a successful execution of the Ever request [w] at [k] did. *)
Inductive ever_outcome (e : env) (c : ctx) (s s' : state) (k : key) (w : wever) : Prop :=
| EO_idle : (forall j, supply s' j = supply s j) -> spl_rest s s' (fun _ => False) ->
    (status_of w <> WNew \/ confirmed (p_signers w) < p_required w \/
     exists tsk, nth_error (c_keys c) 3 = Some tsk /\ lam (accs s tsk) = 0) -> ever_outcome e c s s' k w
| EO_charged s0 mint md md' tsk ts amount fee net st dst :
    prelude s s0 -> ever_request e s k w -> status_of w = WNew -> p_required w <= confirmed (p_signers w) ->
    nth_error (c_keys c) 1 = Some mint -> nth_error (c_keys c) 3 = Some tsk -> nth_error (c_keys c) 2 = Some dst ->
    ever_token e s0 w mint md tsk ts ->
    get_withdrawal_amount (wee_amount (event_of w)) (wee_decimals (event_of w)) (tm_decimals md) = Ok amount ->
    fee = fee_on (tk_fee_wdr ts) amount -> net = amount - fee -> 0 <= net ->
    token_at e s' tsk (charge ts (day_of (now s)) fee net) ->
    tmint_in s' mint md' -> tm_decimals md' = tm_decimals md ->
    ever_request e s' k (w_set_status w st) ->
    ((tk_wlimit ts < net \/ tk_wdlimit ts < today ts s + net) /\ st = WWaitApprove /\
       (forall j, supply s' j = supply s j) /\ spl_rest s s' (fun _ => False) \/
     net <= tk_wlimit ts /\ today ts s + net <= tk_wdlimit ts /\
       ever_paid e s s' w mint dst net /\ paid_status (wee_payload (event_of w)) st) ->
    ever_outcome e c s s' k w.

Lemma wever_status (w : wever) : w_status w = status_of w. Proof. reflexivity. Qed.
Lemma wsol_status (w : wsol) : w_status w = status_of w. Proof. reflexivity. Qed.
Lemma ever_confirms e pid s k w : wever_in e pid s k w -> w_confirms w = confirmed (p_signers w).
Proof. intros [U _]. rewrite (confirms_g w c_wever _ _ _ _ U); [reflexivity|apply signers_small]. Qed.
Lemma sol_confirms e pid s k w : wsol_in e pid s k w -> w_confirms w = confirmed (p_signers w).
Proof. intros [U _]. rewrite (confirms_g w c_wsol _ _ _ _ U); [reflexivity|apply signers_small]. Qed.

Lemma charged_token {A} (cw : codec A) e c s0 s1 s' tsk ts vn wk (w' : A) l f amount fee net : clock_ok s0 -> token_in e tp_id s0 tsk ts vn ->
  fee_of u64max f amount = Ok fee -> net = amount - fee -> 0 <= net ->
  tk_fee_supply ts + fee < u64max -> spent ts (epoch_of (now s0)) + net < u64max ->
  settled c cw s0 s1 s' tsk (Some (charge ts (epoch_of (now s0)) fee net)) wk w' l ->
  token_at e s' tsk (charge ts (epoch_of (now s0)) fee net).
Proof.
  intros C V F NE N0 B1 B2 SE. pose proof (token_ok _ _ _ _ _ _ V) as OT. pose proof (token_init _ _ _ _ _ _ V) as IT.
  destruct (charge_facts s0 ts fee net f amount OT IT C F NE N0 B1 B2) as [O1 I1].
  eapply (settled_token cw e c s0 s1 s' tsk ts vn (Some _)); [exact V|exact SE|]. split; [exact O1|]. split; [exact I1|reflexivity].
Qed.

Lemma exec_outcome e c s s0 s' k mint dst tsk settings rest w : c_pid c = tp_id -> clock_ok s ->
  c_keys c = k :: mint :: dst :: tsk :: settings :: rest ->
  prelude s s0 -> same_od s s0 k -> wever_in e tp_id s0 k w -> ever_exec_eff e c w k mint dst tsk (now s) s0 s' -> ever_outcome e c s s' k w.
Proof.
  intros Hp C K PR SK WI E. pose proof PR as (PT & PS & PN).
  assert (C0 : clock_ok s0) by (unfold clock_ok in *; rewrite PN; exact C).
  pose proof (ever_confirms _ _ _ _ _ WI) as CF. pose proof WI as [U RA].
  destruct E as (ts & mn & m & d & md & V & KT & EM & PM & TM & CASE). rewrite Hp in *.
  destruct CASE as [[-> ID]|(QU & ST & amount & fee & net & st & s1 & GA & F & NE & N0 & B1 & B2 & PAY & SE)].
  { apply EO_idle.
    - intros j. apply prelude_supply. exact PR.
    - intros j O _. apply PS. left. rewrite O. discriminate.
    - rewrite <- wever_status. rewrite CF in ID. destruct ID as [ID|ID]; [right; left; exact ID|left; exact ID]. }
  pose proof (wever_in_len _ _ _ _ _ WI) as LW. pose proof (token_len _ _ _ _ _ _ V) as LT.
  destruct (fee_on_of _ _ _ _ F) as [FD FE].
  assert (NST : w_status w <> st).
  { rewrite ST. destruct PAY as [(_ & -> & _)|(_ & _ & _ & DE & _)]; [discriminate|]. destruct (dest_st _ _ _ _ _ _ _ _ _ DE) as [->| ->]; discriminate. }
  destruct (settled_held (c_withlen c_wever_event) _ c s0 s1 s' tsk _ k w st _ Hp U SE NST) as [H0 H'].
  assert (TO : token_at e s' tsk (charge ts (day_of (now s)) fee net)).
  { change (day_of (now s)) with (epoch_of (now s)). rewrite <- PN. rewrite <- PN in B2, SE.
    eapply (charged_token c_wever e c s0 s1 s'); eassumption. }
  assert (REQ : ever_request e s' k (w_set_status w st)).
  { destruct H' as [O' U']. split; [exact O'|]. split; [exact U'|]. destruct RA as (n & pn & _ & FP). exists n. exact FP. }
  assert (REQ0 : ever_request e s k w).
  { destruct SK as [SK1 SK2], H0 as [O0 U0]. split; [congruence|]. split; [rewrite <- SK2; exact U0|].
    destruct RA as (n & pn & _ & FP). exists n. exact FP. }
  rewrite CF in QU. change (w_status w) with (status_of w) in ST.
  assert (DAY : spent ts (epoch_of (now s)) = today ts s) by reflexivity. rewrite DAY in PAY.
  assert (DONE : forall md', tmint_in s' mint md' -> tm_decimals md' = tm_decimals md ->
     ((tk_wlimit ts < net \/ tk_wdlimit ts < today ts s + net) /\ st = WWaitApprove /\
       (forall j, supply s' j = supply s j) /\ spl_rest s s' (fun _ => False) \/
     net <= tk_wlimit ts /\ today ts s + net <= tk_wdlimit ts /\
       ever_paid e s s' w mint dst net /\ paid_status (wee_payload (event_of w)) st) -> ever_outcome e c s s' k w).
  { intros md' MI' MD R. eapply (EO_charged e c s s' k w s0 mint md md' tsk ts amount fee net st dst); rewrite ?K; try reflexivity; try assumption.
    split; [exists mn; exact PM|]. split; [exact TM|]. split; [eapply token_spec; exact V|]. exists m, d. exact KT. }
  destruct PAY as [(LIM & -> & ->)|(L1 & L2 & MI & DE & _)].
  - assert (NS : nospl s0 s') by (eapply (nospl_settled c_wever); [exact Hp|apply spl_step_refl|exact LW|exact LT|exact SE]).
    assert (SM : same_od s0 s' mint).
    { destruct SE as (_ & _ & _ & _ & SO & _). apply SO; intros ->; unfold tmint_in in TM.
      - apply unpack_len in TM; [|typeclasses eauto]. rewrite LW in TM. discriminate.
      - apply unpack_len in TM; [|typeclasses eauto]. rewrite LT in TM. discriminate. }
    apply (DONE md); [destruct SM as [_ SM]; unfold tmint_in; rewrite SM; exact TM|reflexivity|].
    left. split; [exact LIM|]. split; [reflexivity|]. split.
    + intros j. rewrite <- (prelude_supply _ _ j PR). rewrite (to_sup _ _ _ _ (tokens_none _ _ NS) j). unfold none. lia.
    + apply (prelude_rest s s0); [exact PR|]. intros j O _. destruct (NS j) as [X|[X _]]; [exact X|contradiction].
  - destruct (minted_paid e c s0 s1 s' _ w mint dst net st tsk _ k _ _ Hp MI SE LW LT DE) as (GOT & SU & SUJ & BA & RE & DEC).
    assert (MI0 : mint_in s0 mint md).
    { destruct MI as (b & m0 & _ & M0 & _). split; [apply M0|exact TM]. }
    destruct (DEC md MI0) as (md' & MI' & MD'). apply (DONE md'); [apply MI'|exact MD'|].
    right. split; [exact L1|]. split; [exact L2|]. split.
    + split; [exact GOT|]. split; [rewrite SU, (prelude_supply _ _ _ PR); reflexivity|].
      split; [intros j NJ; rewrite <- (prelude_supply _ _ j PR); apply SUJ, NJ|]. split; [|eapply prelude_rest; eassumption].
      intros NN. rewrite BA. destruct MI as (b & m0 & TB & _ & _ & BM & _). rewrite <- (prelude_balance s s0 dst b PR TB); [reflexivity|]. congruence.
    + destruct DE as [(P & -> & _)|(P & -> & _)]; [left|right]; auto.
Qed.

Lemma withdraw_ever_outcome e c s s' : c_pid c = tp_id -> clock_ok s -> tp_withdraw_ever e c s = Ok (tt, s') ->
  exists k w, nth_error (c_keys c) 0 = Some k /\ wever_in e tp_id s k w /\ ever_outcome e c s s' k w.
Proof.
  intros Hp C H. apply tp_withdraw_ever_ok in H as (k & mint & dst & tsk & sk & x & y & z & u & rest & w & t & K & -> & WI & _ & CASE).
  rewrite Hp in *. exists k, w. rewrite K. split; [reflexivity|]. split; [exact WI|].
  destruct CASE as [(L0 & _ & ->)|[(_ & E)|(_ & f & r' & s0 & _ & R & WI0 & E)]].
  - apply EO_idle; [reflexivity|intros j _ _; apply same_od_refl|]. right. right. exists tsk. rewrite K. split; [reflexivity|exact L0].
  - eapply (exec_outcome e c s s s'); [exact Hp|exact C|exact K|apply prelude_refl|apply same_od_refl|exact WI|exact E].
  - eapply (exec_outcome e c s s0 s'); [exact Hp|exact C|exact K|eapply prelude_registered; eassumption| |exact WI0|exact E].
    eapply registered_other; [exact R|]. apply blen_ne. eapply wever_in_len. exact WI.
Qed.

Lemma released_token {A} (cw : codec A) e c s s1 s' tsk ts vn re ep net ts2 wk (w' : A) l : token_in e tp_id s tsk ts vn -> 0 <= net ->
  released ts re ep net ts2 -> settled c cw s s1 s' tsk ts2 wk w' l ->
  exists ts', token_at e s' tsk ts' /\ tk_kind ts' = tk_kind ts /\ tk_fee_wdr ts' = tk_fee_wdr ts /\ tk_fee_supply ts' = tk_fee_supply ts.
Proof.
  intros V N0 RL SE. pose proof (token_ok _ _ _ _ _ _ V) as OT. pose proof (token_init _ _ _ _ _ _ V) as IT.
  pose proof (released_facts _ _ _ _ _ RL OT N0 IT) as RF.
  exists (match ts2 with None => ts | Some t => t end). split.
  - eapply (settled_token cw e c s s1 s' tsk ts vn ts2); [exact V|exact SE|]. destruct ts2 as [t|]; [|exact Logic.I].
    destruct RF as (-> & _ & O1 & I1). auto.
  - destruct ts2 as [t|]; [|auto]. destruct RF as (-> & _). auto.
Qed.

Lemma approve_ever_outcome e c s s' : c_pid c = tp_id -> tp_approve_ever e c s = Ok (tt, s') ->
  exists k w mint md md' tsk ts ts' dst amount fee net st,
    nth_error (c_keys c) 2 = Some k /\ ever_request e s k w /\ status_of w = WWaitApprove /\ wmanager_signed e c s /\
    ever_token e s w mint md tsk ts /\
    get_withdrawal_amount (wee_amount (event_of w)) (wee_decimals (event_of w)) (tm_decimals md) = Ok amount /\
    fee = fee_on (tk_fee_wdr ts) amount /\ net = amount - fee /\ 0 <= net /\
    token_at e s' tsk ts' /\ tk_kind ts' = tk_kind ts /\ tk_fee_wdr ts' = tk_fee_wdr ts /\ tk_fee_supply ts' = tk_fee_supply ts /\
    tmint_in s' mint md' /\ tm_decimals md' = tm_decimals md /\
    ever_request e s' k (w_set_status w st) /\ paid_status (wee_payload (event_of w)) st /\
    ever_paid e s s' w mint dst net.
Proof.
  intros Hp H. apply tp_approve_ever_ok in H as (au & mint & k & dst & tsk & sk & x & y & rest & w & K & B).
  destruct B as (ts & mn & m & d & md & gs & pn & SG & VS & GE & EN & WI & ST & V & KT & EM & PM & TM & amount & fee & net & st & s1 & ts2 & GA & F & NE & N0 & MI & DE & _ & _ & _ & RL & SE).
  rewrite Hp in *. pose proof WI as [U RA].
  pose proof (wever_in_len _ _ _ _ _ WI) as LW. pose proof (token_len _ _ _ _ _ _ V) as LT.
  destruct (fee_on_of _ _ _ _ F) as [FD FE].
  assert (NST : w_status w <> st) by (rewrite ST; destruct (dest_st _ _ _ _ _ _ _ _ _ DE) as [->| ->]; discriminate).
  destruct (settled_held (c_withlen c_wever_event) _ c s s1 s' tsk _ k w st _ Hp U SE NST) as [H0 H'].
  destruct (minted_paid e c s s1 s' _ w mint dst net st tsk _ k _ _ Hp MI SE LW LT DE) as (GOT & SU & SUJ & BA & RE & DEC).
  assert (MI0 : mint_in s mint md) by (destruct MI as (b & m0 & _ & M0 & _); split; [apply M0|exact TM]).
  destruct (DEC md MI0) as (md' & MI' & MD').
  destruct (released_token c_wever e c s s1 s' tsk ts mn _ _ net ts2 k _ _ V N0 RL SE) as (ts' & TA & T1 & T2 & T3).
  exists k, w, mint, md, md', tsk, ts, ts', dst, amount, fee, net, st. rewrite K. split; [reflexivity|].
  split; [apply ever_request_is; [exact H0|exact RA]|]. split; [exact ST|].
  split; [exists sk, gs; split; [eapply settings_spec; exact VS|eapply entitled_spec; eassumption]|].
  split; [split; [exists mn; exact PM|]; split; [exact TM|]; split; [eapply token_spec; exact V|exists m, d; exact KT]|].
  split; [exact GA|]. split; [exact FE|]. split; [exact NE|]. split; [exact N0|]. split; [exact TA|].
  split; [exact T1|]. split; [exact T2|]. split; [exact T3|]. split; [apply MI'|]. split; [exact MD'|]. split.
  { destruct H' as [O' U']. split; [exact O'|]. split; [exact U'|]. destruct RA as (n & pn' & _ & FP). exists n. exact FP. }
  split; [destruct DE as [(P & -> & _)|(P & -> & _)]; [left|right]; auto|].
  split; [exact GOT|]. split; [exact SU|]. split; [exact SUJ|]. split; [intros _; exact BA|exact RE].
Qed.

Lemma ever_amount e s k w : ever_request e s k w -> 0 <= wee_amount (event_of w).
Proof.
  intros (_ & U & _). apply unpack_ok in U as (r & _ & O & _); [|typeclasses eauto].
  unfold c_wever, wever in O. rewrite (okb_prop (c_withlen c_wever_event) (c_withlen c_wmeta)), !andb_true_iff, okb_withlen, !andb_true_iff in O.
  destruct O as (_ & _ & _ & _ & (_ & O) & _).
  change (okb c_wever_event) with (fun x => okb (c_ever ** c_string ** c_string ** c_u8 ** c_u128 ** c_key ** c_bytes)
    (wee_token x, (wee_name x, (wee_symbol x, (wee_decimals x, (wee_amount x, (wee_recipient x, wee_payload x))))))) in O.
  cbv beta in O. cbn [okb c_pair fst snd] in O. rewrite !andb_true_iff in O. destruct O as (_ & _ & _ & _ & O2 & _).
  unfold c_u128 in *. cbn [okb c_uint] in O2. unfold event_of. lia.
Qed.

(** * C31 and C33 for Ever tokens *)

(** The token settings of a call in which the token was registered before, or not. *)
Definition fees_kept (e : env) (s : state) (tsk : key) (ts : token_settings) : Prop :=
  forall ts0, token_at e s tsk ts0 -> tk_fee_wdr ts0 = tk_fee_wdr ts.

Lemma token_at_fun e s k ts ts' : token_at e s k ts -> token_at e s k ts' -> ts' = ts.
Proof. intros [_ A] [_ B]. congruence. Qed.
Lemma prelude_token e s s0 k ts0 ts : prelude s s0 -> token_at e s0 k ts -> token_at e s k ts0 -> ts0 = ts.
Proof.
  intros (_ & SO & _) [_ A] [_ B]. destruct (SO k) as [_ SO'].
  - right. intros D. apply unpack_len in B; [|typeclasses eauto]. rewrite D in B. discriminate.
  - rewrite SO' in A. congruence.
Qed.

(** Whenever the execution or approval of an Ever withdrawal creates tokens, there is a request at the
    expected place of the account list such that: the tokens appear in one token account of the
    event's recipient - with payload, in the recipient's proxy account -, they are tokens of the mint
    derived from the event's token, their number is the event's amount in the mint's decimals less the
    fee of the token's settings, and no other account of the token program changes.
    Missing for the full C31: amounts that do not fit ([ever_fits]) are cut, see C33_ever_refuted and C33_sol_refuted. *)
Theorem C31_ever_partial : forall e ext c i s s', tp_call e ext c i s s' -> i = TpWithdrawEver \/ i = TpApproveEver ->
  (exists j, supply s j < supply s' j) ->
  exists k w mint md tsk ts dst n,
    nth_error (c_keys c) (request_pos i) = Some k /\ ever_request e s k w /\
    ever_token e s' w mint md tsk ts /\ fees_kept e s tsk ts /\ ever_paid e s s' w mint dst n /\ 0 < n /\
    (ever_scales w md -> n = ever_gross w md mod 2 ^ 64 - fee_on (tk_fee_wdr ts) (ever_gross w md mod 2 ^ 64)) /\
    (ever_fits w md -> n = ever_gross w md - fee_on (tk_fee_wdr ts) (ever_gross w md)).
Proof.
  intros e ext c i s s' CALL I (j & GREW). apply tp_call_exec in CALL as (Hp & _ & C & H).
  assert (MONEY : forall w md amount f, 0 <= wee_amount (event_of w) -> ever_scales w md ->
      get_withdrawal_amount (wee_amount (event_of w)) (wee_decimals (event_of w)) (tm_decimals md) = Ok amount ->
      amount - fee_on f amount = ever_gross w md mod 2 ^ 64 - fee_on f (ever_gross w md mod 2 ^ 64)).
  { intros w md amount f _ SC G. rewrite (gwa_rescale _ _ _ _ SC G). reflexivity. }
  assert (MONEY2 : forall w md amount f, 0 <= wee_amount (event_of w) -> ever_fits w md ->
      get_withdrawal_amount (wee_amount (event_of w)) (wee_decimals (event_of w)) (tm_decimals md) = Ok amount ->
      amount - fee_on f amount = ever_gross w md - fee_on f (ever_gross w md)).
  { intros w md amount f A [SC FI] G. rewrite (gwa_fits _ _ _ _ A SC FI G). reflexivity. }
  assert (PAIDJ : forall w mint dst n, ever_paid e s s' w mint dst n -> 0 < n).
  { intros w mint dst n (_ & SU & SUJ & _). destruct (key_dec j mint) as [->|NM]; [lia|]. specialize (SUJ j NM). lia. }
  destruct I as [->| ->]; cbn [tp_exec request_pos] in *.
  - apply withdraw_ever_outcome in H as (k & w & K & WI & OUT); [|exact Hp|exact C]. exists k, w.
    destruct OUT as [SU _ _|s0 mint md md' tsk ts amount fee net st dst PR RQ0 ST QU K1 K3 K2 (PM & TM & TA & KT) GA FE NE N0 TA' TM' MD RQ CASE].
    { specialize (SU j). lia. }
    destruct CASE as [(_ & _ & SU & _)|(_ & _ & PAID & PS)]; [specialize (SU j); lia|].
    pose proof (ever_amount _ _ _ _ RQ0) as AM.
    exists mint, md', tsk, (charge ts (day_of (now s)) fee net), dst, net. split; [exact K|]. split; [exact RQ0|].
    split; [split; [exact PM|]; split; [exact TM'|]; split; [exact TA'|exact KT]|].
    split; [intros ts0 T0; rewrite (prelude_token _ _ _ _ _ _ PR TA T0); reflexivity|].
    split; [exact PAID|]. split; [exact (PAIDJ _ _ _ _ PAID)|].
    change (tk_fee_wdr (charge ts (day_of (now s)) fee net)) with (tk_fee_wdr ts).
    assert (G' : get_withdrawal_amount (wee_amount (event_of w)) (wee_decimals (event_of w)) (tm_decimals md') = Ok amount) by (rewrite MD; exact GA).
    split; intros FI; rewrite NE, FE; eauto.
  - apply approve_ever_outcome in H as (k & w & mint & md & md' & tsk & ts & ts' & dst & amount & fee & net & st & K & RQ0 & ST & SG & (PM & TM & TA & KT) & GA & FE & NE & N0 & TA' & T1 & T2 & T3 & TM' & MD & RQ & PS & PAID); [|exact Hp].
    pose proof (ever_amount _ _ _ _ RQ0) as AM.
    exists k, w, mint, md', tsk, ts', dst, net. split; [exact K|]. split; [exact RQ0|].
    split; [split; [exact PM|]; split; [exact TM'|]; split; [exact TA'|rewrite T1; exact KT]|].
    split; [intros ts0 T0; rewrite (token_at_fun _ _ _ _ _ TA T0); symmetry; exact T2|].
    split; [exact PAID|]. split; [exact (PAIDJ _ _ _ _ PAID)|]. rewrite T2.
    assert (G' : get_withdrawal_amount (wee_amount (event_of w)) (wee_decimals (event_of w)) (tm_decimals md') = Ok amount) by (rewrite MD; exact GA).
    split; intros FI; rewrite NE, FE; eauto.
Qed.

(** * C32 and C34 for Ever tokens *)

(** The call executes the confirmed new Ever request [w], whose token is registered: [gross] is its
    amount in the mint's decimals, as a 64-bit number. *)
Definition executes_ever (e : env) (ext : extern) (c : ctx) (s s' : state) (k : key) (w : wever) (mint tsk : key) (ts : token_settings) (gross : Z) : Prop :=
  tp_call e ext c TpWithdrawEver s s' /\ nth_error (c_keys c) 0 = Some k /\ nth_error (c_keys c) 3 = Some tsk /\
  ever_request e s k w /\ status_of w = WNew /\ p_required w <= confirmed (p_signers w) /\ lam (accs s tsk) <> 0 /\
  exists md, ever_token e s w mint md tsk ts /\ ever_scales w md /\ gross = ever_gross w md mod 2 ^ 64.

Lemma prelude_mint s s0 k md md0 : prelude s s0 -> tmint_in s k md -> tmint_in s0 k md0 -> md0 = md.
Proof.
  intros (_ & SO & _) A B. destruct (SO k) as [_ SO'].
  - right. intros D. unfold tmint_in in A. apply unpack_len in A; [|typeclasses eauto]. rewrite D in A. discriminate.
  - unfold tmint_in in *. rewrite SO' in B. congruence.
Qed.
Lemma prelude_token2 e s s0 k ts0 ts : prelude s s0 -> token_at e s k ts -> token_at e s0 k ts0 -> ts0 = ts.
Proof. intros P A B. symmetry. exact (prelude_token _ _ _ _ _ _ P B A). Qed.

Lemma executes_ever_outcome e ext c s s' k w mint tsk ts gross : executes_ever e ext c s s' k w mint tsk ts gross ->
  exists dst fee net st, nth_error (c_keys c) 2 = Some dst /\ fee = fee_on (tk_fee_wdr ts) gross /\ net = gross - fee /\ 0 <= net /\
    token_at e s' tsk (charge ts (day_of (now s)) fee net) /\ ever_request e s' k (w_set_status w st) /\
    ((tk_wlimit ts < net \/ tk_wdlimit ts < today ts s + net) /\ st = WWaitApprove /\
       (forall j, supply s' j = supply s j) /\ spl_rest s s' (fun _ => False) \/
     net <= tk_wlimit ts /\ today ts s + net <= tk_wdlimit ts /\
       ever_paid e s s' w mint dst net /\ paid_status (wee_payload (event_of w)) st).
Proof.
  intros (CALL & K & KT & RQ & ST & QU & LZ & md & (PM & TM & TA & TK) & SC & ->).
  apply tp_call_exec in CALL as (Hp & _ & C & H). cbn [tp_exec] in H.
  apply withdraw_ever_outcome in H as (k' & w' & K' & WI & OUT); [|exact Hp|exact C].
  assert (k' = k) by congruence. subst k'.
  assert (w' = w). { destruct WI as [U _], RQ as (_ & U' & _). pose proof (eq_trans (eq_sym U) U') as E. injection E as E. exact E. } subst w'.
  destruct OUT as [_ _ [X|[X|(t & KT' & L0)]]|s0 mint' md0 md' tsk' ts0 amount fee net st dst PR _ _ _ K1 K3 K2 (PM0 & TM0 & TA0 & TK0) GA FE NE N0 TA' TM' MD RQ' CASE].
  - contradiction.
  - lia.
  - congruence.
  - assert (tsk' = tsk) by congruence. subst tsk'. rewrite (tp_addr_fun _ _ _ _ PM PM0) in *.
    rewrite (prelude_token2 _ _ _ _ _ _ PR TA TA0) in *. rewrite (prelude_mint _ _ _ _ _ PR TM TM0) in *.
    rewrite (gwa_rescale _ _ _ _ SC GA) in *. exists dst, fee, net, st. auto 10.
Qed.

(** The execution of a confirmed new Ever request charges a fee of [amount/divisor*multiplier], at
    least 1: gross amount = fee + net amount with net >= 0 - an amount below the fee makes the call
    fail -, and exactly the fee is added to the token's recorded fees, whether the net amount is paid
    or waits for approval. *)
Theorem C32_ever : forall e ext c s s' k w mint tsk ts gross, executes_ever e ext c s s' k w mint tsk ts gross ->
  let fee := fee_on (tk_fee_wdr ts) gross in let net := gross - fee in
  0 <= net /\ (exists ts', token_at e s' tsk ts' /\ tk_fee_supply ts' = tk_fee_supply ts + fee /\ tk_fee_wdr ts' = tk_fee_wdr ts) /\
  ((exists j, supply s j < supply s' j) -> exists dst, ever_paid e s s' w mint dst net).
Proof.
  intros e ext c s s' k w mint tsk ts gross X. cbv zeta.
  destruct (executes_ever_outcome _ _ _ _ _ _ _ _ _ _ _ X) as (dst & fee & net & st & K2 & -> & -> & N0 & TA & RQ & CASE).
  split; [exact N0|]. split; [eexists; split; [exact TA|]; split; reflexivity|]. intros (j & G).
  destruct CASE as [(_ & _ & SU & _)|(_ & _ & PD & _)]; [specialize (SU j); lia|]. exists dst. exact PD.
Qed.

(** A confirmed new Ever request whose net amount exceeds the limit per withdrawal, or would push the
    day's total over the daily limit: executing it pays nothing, changes no account of the token
    program, and leaves the request waiting for approval. *)
Theorem C34_ever : forall e ext c s s' k w mint tsk ts gross, executes_ever e ext c s s' k w mint tsk ts gross ->
  let net := gross - fee_on (tk_fee_wdr ts) gross in
  tk_wlimit ts < net \/ tk_wdlimit ts < today ts s + net ->
  (forall j, supply s' j = supply s j) /\ spl_rest s s' (fun _ => False) /\
  exists w', ever_request e s' k w' /\ status_of w' = WWaitApprove /\ p_event w' = p_event w.
Proof.
  intros e ext c s s' k w mint tsk ts gross X. cbv zeta. intros LIM.
  destruct (executes_ever_outcome _ _ _ _ _ _ _ _ _ _ _ X) as (dst & fee & net & st & K2 & -> & -> & N0 & TA & RQ & CASE).
  destruct CASE as [(_ & -> & SU & RE)|(L1 & L2 & _)]; [|lia].
  split; [exact SU|]. split; [exact RE|]. eexists. split; [exact RQ|]. split; reflexivity.
Qed.

(** * Solana withdrawals *)

(** [n] tokens move from the vault to an account of the recipient that holds the same kind of tokens;
    nothing else of the token program changes. *)
Definition sol_paid_to (e : env) (s s' : state) (w : wsol) (vault dst : key) (n : Z) : Prop :=
  (exists r v pm, belongs e s' (wse_payload (event_of w)) pm (wse_recipient (event_of w)) dst r /\ tok_in s vault v /\ ta_mint r = ta_mint v) /\
  n <= balance s vault /\
  (vault <> dst -> balance s' vault = balance s vault - n /\ balance s' dst = balance s dst + n) /\
  (forall j, supply s' j = supply s j) /\ spl_rest s s' (fun j => vault <> dst /\ (j = dst \/ j = vault)).

Lemma moved_paid e c s s1 s' kind (w : wsol) vault dst au n st pm tsk ts2 wk (w' : wsol) l : c_pid c = tp_id ->
  moved s s1 vault dst au n -> settled c c_wsol s s1 s' tsk ts2 wk w' l ->
  blen (dat (accs s wk)) = TP_LEN -> blen (dat (accs s tsk)) = TP_LEN ->
  dest e tp_id s kind (wse_payload (event_of w)) pm (wse_recipient (event_of w)) dst st ->
  sol_paid_to e s s' w vault dst n.
Proof.
  intros Hp MV SE L1 L2 DE. pose proof (moved_step _ _ _ _ _ _ MV) as SS.
  pose proof (nospl_settled c_wsol c _ _ _ _ _ _ _ _ Hp SS L1 L2 SE) as NS.
  pose proof (tokens_then _ _ _ _ _ (tokens_moved _ _ _ _ _ _ MV) NS) as TK.
  destruct MV as (a & b & dl & da & TA & TB & EM & LE & MS & SAME & DIFF & SO & _).
  assert (OWN : forall r, tok_in s' dst r -> ta_mint r = ta_mint b -> ta_owner r = ta_owner b ->
    belongs e s' (wse_payload (event_of w)) pm (wse_recipient (event_of w)) dst r).
  { intros r R _ OW. split; [exact R|]. destruct DE as [(P & _ & r0 & R0 & O0)|(P & _ & mm & nn & _ & F)].
    - left. split; [exact P|]. destruct TB as [_ TB]. rewrite <- (tacc_in_fun _ _ _ _ TB R0) in O0. congruence.
    - right. split; [exact P|]. exists nn. exact F. }
  split.
  { destruct (key_dec vault dst) as [EQ|NE].
    - rewrite (SAME EQ) in NS. exists b, a, pm. split; [apply OWN; [exact (nospl_tok _ _ _ _ NS TB)|reflexivity|reflexivity]|]. split; [exact TA|congruence].
    - destruct (DIFF NE) as [_ TB']. eexists _, a, pm. split; [apply OWN; [exact (nospl_tok _ _ _ _ NS TB')|reflexivity|reflexivity]|]. split; [exact TA|symmetry; exact EM]. }
  split; [rewrite (balance_tok _ _ _ TA); exact LE|]. split.
  { intros NE. destruct (DIFF NE) as [TA' TB']. rewrite (balance_tok _ _ _ TA), (balance_tok _ _ _ TB).
    rewrite (balance_tok _ _ _ (nospl_tok _ _ _ _ NS TA')), (balance_tok _ _ _ (nospl_tok _ _ _ _ NS TB')). split; reflexivity. }
  split; [intros j; rewrite (to_sup _ _ _ _ TK j); unfold none; lia|].
  intros j O NJ. apply (spl_unwritten c_wsol c s s1 s' _ _ _ _ _ j SE Hp L1 L2 SS O).
  destruct (key_dec vault dst) as [EQ|NE]; [rewrite (SAME EQ); apply same_od_refl|]. apply SO; intros ->; apply NJ; auto.
Qed.

(** Nothing of the token program changes. *)
Definition spl_still (s s' : state) : Prop :=
  (forall j, balance s' j = balance s j) /\ (forall j, supply s' j = supply s j) /\ spl_rest s s' (fun _ => False).
Lemma nospl_still s s' : nospl s s' -> spl_still s s'.
Proof.
  intros NS. assert (B : forall j, same_od s s' j \/ own (accs s j) <> spl_id /\ own (accs s' j) <> spl_id).
  { intros j. destruct (NS j) as [Q|[Q P]]; [left; exact Q|right; split; [exact Q|apply plain_ne; exact P]]. }
  split; [|split].
  - intros j. destruct (B j) as [X|[X Y]]; [apply balance_same; exact X|rewrite !balance_other by assumption; reflexivity].
  - intros j. destruct (B j) as [X|[X Y]]; [apply supply_same; exact X|rewrite !supply_other by assumption; reflexivity].
  - intros j O _. destruct (B j) as [X|[X Y]]; [exact X|contradiction].
Qed.

(** What a successful execution of the Solana request [w] at [k] did. *)
Inductive sol_outcome (e : env) (c : ctx) (s s' : state) (k : key) (w : wsol) : Prop :=
| SO_idle : spl_still s s' -> status_of w <> WNew /\ status_of w <> WPending \/ confirmed (p_signers w) < p_required w \/ status_of w = WPending ->
    sol_outcome e c s s' k w
| SO_again vault tsk ts fee net st dst :
    sol_request e s k w -> status_of w = WPending -> p_required w <= confirmed (p_signers w) ->
    nth_error (c_keys c) 1 = Some vault -> nth_error (c_keys c) 3 = Some tsk -> nth_error (c_keys c) 2 = Some dst ->
    sol_token e s w vault tsk ts -> fee = fee_on (tk_fee_wdr ts) (wse_amount (event_of w) mod 2 ^ 64) ->
    net = wse_amount (event_of w) mod 2 ^ 64 - fee -> 0 <= net ->
    token_at e s' tsk ts -> sol_request e s' k (w_set_status w st) ->
    sol_paid_to e s s' w vault dst net -> paid_status (wse_payload (event_of w)) st ->
    sol_outcome e c s s' k w
| SO_charged vault tsk ts fee net st dst :
    sol_request e s k w -> status_of w = WNew -> p_required w <= confirmed (p_signers w) ->
    nth_error (c_keys c) 1 = Some vault -> nth_error (c_keys c) 3 = Some tsk -> nth_error (c_keys c) 2 = Some dst ->
    sol_token e s w vault tsk ts -> fee = fee_on (tk_fee_wdr ts) (wse_amount (event_of w) mod 2 ^ 64) ->
    net = wse_amount (event_of w) mod 2 ^ 64 - fee -> 0 <= net ->
    token_at e s' tsk (charge ts (day_of (now s)) fee net) -> sol_request e s' k (w_set_status w st) ->
    ((tk_wlimit ts < net \/ tk_wdlimit ts < today ts s + net) /\ st = WWaitApprove /\ spl_still s s' \/
     net <= tk_wlimit ts /\ today ts s + net <= tk_wdlimit ts /\
       (st = WPending /\ spl_still s s' /\ balance s vault < net \/
        sol_paid_to e s s' w vault dst net /\ paid_status (wse_payload (event_of w)) st)) ->
    sol_outcome e c s s' k w.

Lemma balance_le s k t : tacc_in s k t -> balance s k <= ta_amount t.
Proof.
  intros T. unfold balance. destruct (keqb (own (accs s k)) spl_id).
  - unfold tacc_in in T. rewrite T. lia.
  - apply tacc_in_ok in T as (T & _). apply okb_tacc in T. lia.
Qed.
Lemma dest_paid e s kd pl pm o d st : dest e tp_id s kd pl pm o d st -> paid_status pl st.
Proof. intros [(P & -> & _)|(P & -> & _)]; [left|right]; auto. Qed.

Lemma withdraw_sol_outcome e c s s' : c_pid c = tp_id -> clock_ok s -> tp_withdraw_sol e c s = Ok (tt, s') ->
  exists k w, nth_error (c_keys c) 0 = Some k /\ wsol_in e tp_id s k w /\ sol_outcome e c s s' k w.
Proof.
  intros Hp C H. apply tp_withdraw_sol_ok in H as (k & vault & dst & tsk & pm & sk & x & y & rest & w & gs & pn & K & WI & VS & GE & E).
  rewrite Hp in *. exists k, w. rewrite K. split; [reflexivity|]. split; [exact WI|].
  pose proof (sol_confirms _ _ _ _ _ WI) as CF. pose proof WI as [U RA].
  destruct E as (ts & vn & sv & V & KT & EM & PV & CASE). rewrite Hp in *.
  destruct CASE as [[-> ID]|(QU & fee & net & st & s1 & F & NE & N0 & CASE)].
  { apply SO_idle; [apply nospl_still, nospl_refl|]. rewrite CF in ID. auto. }
  pose proof (wsol_in_len _ _ _ _ _ WI) as LW. pose proof (token_len _ _ _ _ _ _ V) as LT.
  destruct (fee_on_of _ _ _ _ F) as [FD FE]. rewrite CF in QU.
  change (wrap64 (wse_amount (wl_data (p_event w)))) with (wse_amount (event_of w) mod 2 ^ 64) in *.
  assert (TOK : sol_token e s w vault tsk ts).
  { split; [exists vn; exact PV|]. split; [eapply token_spec; exact V|]. exists sv. exact KT. }
  assert (HELD : forall ts2 l, settled c c_wsol s s1 s' tsk ts2 k (w_set_status w st) l -> status_of w <> st ->
     sol_request e s k w /\ sol_request e s' k (w_set_status w st)).
  { intros ts2 l SE NST. destruct (settled_held (c_withlen c_wsol_event) _ c s s1 s' tsk _ k w st _ Hp U SE NST) as [H0 H'].
    split; [apply sol_request_is; [exact H0|exact RA]|]. destruct H' as [O' U']. split; [exact O'|]. split; [exact U'|].
    destruct RA as (n & pn' & _ & FP). exists n. exact FP. }
  assert (STILL : forall ts2 l, s1 = s -> settled c c_wsol s s1 s' tsk ts2 k (w_set_status w st) l -> spl_still s s').
  { intros ts2 l -> SE. apply nospl_still. eapply (nospl_settled c_wsol); [exact Hp|apply spl_step_refl|exact LW|exact LT|exact SE]. }
  destruct CASE as [(ST & B1 & B2 & CASE & SE)|[(ST & PAID & SE)|(S1 & S2 & -> & -> & SE)]].
  - assert (TA : token_at e s' tsk (charge ts (day_of (now s)) fee net)).
    { change (day_of (now s)) with (epoch_of (now s)). eapply (charged_token c_wsol e c s s1 s'); eassumption. }
    assert (NST : status_of w <> st).
    { change (status_of w) with (w_status w). rewrite ST. destruct CASE as [(_ & -> & _)|(_ & _ & v & TV & [(-> & _)|(_ & _ & DE & _)])]; try discriminate.
      destruct (dest_st _ _ _ _ _ _ _ _ _ DE) as [->| ->]; discriminate. }
    destruct (HELD _ _ SE NST) as [R0 R'].
    eapply (SO_charged e c s s' k w vault tsk ts fee net st dst); rewrite ?K; try reflexivity; try assumption.
    destruct CASE as [(LIM & -> & ->)|(L1 & L2 & v & TV & PAY)].
    + left. split; [exact LIM|]. split; [reflexivity|]. eapply STILL; [reflexivity|exact SE].
    + right. split; [exact L1|]. split; [exact L2|]. destruct PAY as [(-> & -> & LT')|(_ & MV & DE & _)].
      * left. split; [reflexivity|]. split; [eapply STILL; [reflexivity|exact SE]|]. pose proof (balance_le _ _ _ TV). lia.
      * right. rewrite Hp in DE. split; [eapply moved_paid; eassumption|exact (dest_paid _ _ _ _ _ _ _ _ DE)].
  - destruct PAID as (v & TV & [(-> & -> & LT')|(_ & MV & DE & _)]).
    + apply SO_idle; [eapply STILL; [reflexivity|exact SE]|]. right. right. exact ST.
    + rewrite Hp in DE. assert (NST : status_of w <> st) by (change (status_of w) with (w_status w); rewrite ST; destruct (dest_st _ _ _ _ _ _ _ _ _ DE) as [->| ->]; discriminate).
      destruct (HELD _ _ SE NST) as [R0 R'].
      eapply (SO_again e c s s' k w vault tsk ts fee net st dst); rewrite ?K; try reflexivity; try assumption.
      * exact (settled_token c_wsol e c s s1 s' tsk ts vn None k _ _ V SE Logic.I).
      * eapply moved_paid; eassumption.
      * exact (dest_paid _ _ _ _ _ _ _ _ DE).
  - apply SO_idle; [eapply STILL; [reflexivity|exact SE]|]. left. split; assumption.
Qed.

Lemma approve_sol_outcome e c s s' : c_pid c = tp_id -> tp_approve_sol e c s = Ok (tt, s') ->
  exists k w vault tsk ts ts' dst fee net st,
    nth_error (c_keys c) 2 = Some k /\ sol_request e s k w /\ status_of w = WWaitApprove /\ wmanager_signed e c s /\
    sol_token e s w vault tsk ts /\ fee = fee_on (tk_fee_wdr ts) (wse_amount (event_of w) mod 2 ^ 64) /\
    net = wse_amount (event_of w) mod 2 ^ 64 - fee /\ 0 <= net /\
    token_at e s' tsk ts' /\ tk_kind ts' = tk_kind ts /\ tk_fee_wdr ts' = tk_fee_wdr ts /\ tk_fee_supply ts' = tk_fee_supply ts /\
    sol_request e s' k (w_set_status w st) /\
    (st = WPending /\ spl_still s s' /\ balance s vault < net \/
     sol_paid_to e s s' w vault dst net /\ paid_status (wse_payload (event_of w)) st).
Proof.
  intros Hp H. apply tp_approve_sol_ok in H as (au & vault & k & dst & tsk & sk & x & y & rest & w & K & B).
  destruct B as (ts & vn & sv & gs & pn & SG & VS & GE & EN & WI & ST & V & KT & EM & PV & fee & net & st & s1 & ts2 & F & NE & N0 & PAID & RL & SE).
  rewrite Hp in *. pose proof WI as [U RA].
  pose proof (wsol_in_len _ _ _ _ _ WI) as LW. pose proof (token_len _ _ _ _ _ _ V) as LT.
  destruct (fee_on_of _ _ _ _ F) as [FD FE].
  destruct PAID as (v & TV & PAID). rewrite Hp in PAID.
  assert (NST : w_status w <> st).
  { rewrite ST. destruct PAID as [(-> & _)|(_ & _ & DE & _)]; [discriminate|]. destruct (dest_st _ _ _ _ _ _ _ _ _ DE) as [->| ->]; discriminate. }
  destruct (settled_held (c_withlen c_wsol_event) _ c s s1 s' tsk _ k w st _ Hp U SE NST) as [H0 H'].
  destruct (released_token c_wsol e c s s1 s' tsk ts vn _ _ net ts2 k _ _ V N0 RL SE) as (ts' & TA & T1 & T2 & T3).
  exists k, w, vault, tsk, ts, ts', dst, fee, net, st. rewrite K. split; [reflexivity|].
  split; [apply sol_request_is; [exact H0|exact RA]|]. split; [exact ST|].
  split; [exists sk, gs; split; [eapply settings_spec; exact VS|eapply entitled_spec; eassumption]|].
  split; [split; [exists vn; exact PV|]; split; [eapply token_spec; exact V|exists sv; exact KT]|].
  split; [exact FE|]. split; [exact NE|]. split; [exact N0|]. split; [exact TA|].
  split; [exact T1|]. split; [exact T2|]. split; [exact T3|]. split.
  { destruct H' as [O' U']. split; [exact O'|]. split; [exact U'|]. destruct RA as (n & pn' & _ & FP). exists n. exact FP. }
  destruct PAID as [(-> & -> & LT')|(_ & MV & DE & _)].
  - left. split; [reflexivity|]. split; [|pose proof (balance_le _ _ _ TV); lia].
    apply nospl_still. eapply (nospl_settled c_wsol); [exact Hp|apply spl_step_refl|exact LW|exact LT|exact SE].
  - right. split; [eapply moved_paid; eassumption|exact (dest_paid _ _ _ _ _ _ _ _ DE)].
Qed.

(** * C31 and C33 for Solana tokens *)

(** Whenever the execution or approval of a Solana withdrawal lowers a token balance, there is a
    request at the expected place of the account list such that: the tokens come from the vault derived
    from the event's mint, go to one token account of the event's recipient - with payload, to a proxy
    account of the recipient - that holds the vault's kind of tokens, their number is the event's amount
    less the fee of the token's settings, and no other account of the token program changes.
    Missing for the full C31: amounts that do not fit into 64 bits are cut, see C33_ever_refuted and C33_sol_refuted. *)
Theorem C31_sol_partial : forall e ext c i s s', tp_call e ext c i s s' -> i = TpWithdrawSol \/ i = TpApproveSol ->
  (exists j, balance s' j < balance s j) ->
  exists k w vault tsk ts dst n,
    nth_error (c_keys c) (request_pos i) = Some k /\ sol_request e s k w /\
    sol_token e s w vault tsk ts /\ sol_paid_to e s s' w vault dst n /\ vault <> dst /\ 0 < n /\
    (let gross := wse_amount (event_of w) mod 2 ^ 64 in n = gross - fee_on (tk_fee_wdr ts) gross) /\
    (wse_amount (event_of w) < 2 ^ 64 -> n = wse_amount (event_of w) - fee_on (tk_fee_wdr ts) (wse_amount (event_of w))).
Proof.
  intros e ext c i s s' CALL I (j & LESS). apply tp_call_exec in CALL as (Hp & _ & C & H).
  assert (STILL : spl_still s s' -> False) by (intros (B & _); specialize (B j); lia).
  assert (PAIDJ : forall w vault dst n, 0 <= n -> sol_paid_to e s s' w vault dst n -> vault <> dst /\ 0 < n).
  { intros w vault dst n N0 (_ & _ & BA & _ & RE).
    assert (O : own (accs s j) = spl_id).
    { destruct (key_dec (own (accs s j)) spl_id) as [E|E]; [exact E|]. rewrite (balance_other s j E) in LESS. pose proof (balance_range s' j). lia. }
    destruct (key_dec vault dst) as [EQ|NE].
    - exfalso. assert (SO : same_od s s' j) by (apply RE; [exact O|intros [X _]; contradiction]). rewrite (balance_same _ _ _ SO) in LESS. lia.
    - split; [exact NE|]. destruct (BA NE) as [B1 B2]. destruct (key_dec j vault) as [->|N1]; [lia|].
      destruct (key_dec j dst) as [->|N2]; [lia|]. assert (SO : same_od s s' j) by (apply RE; [exact O|intros [_ [X|X]]; contradiction]).
      rewrite (balance_same _ _ _ SO) in LESS. lia. }
  assert (MONEY : forall e' s0 k w, sol_request e' s0 k w -> wse_amount (event_of w) < 2 ^ 64 -> wse_amount (event_of w) mod 2 ^ 64 = wse_amount (event_of w)).
  { intros e' s0 k w (_ & U & _ ) L. apply Z.mod_small. split; [|exact L].
    apply unpack_ok in U as (r & _ & O & _); [|typeclasses eauto].
    unfold c_wsol, wsol in O. rewrite (okb_prop (c_withlen c_wsol_event) (c_withlen c_wmeta)), !andb_true_iff, okb_withlen, !andb_true_iff in O.
    destruct O as (_ & _ & _ & _ & (_ & O) & _).
    change (okb c_wsol_event) with (fun x => okb (c_key ** c_u128 ** c_key ** c_bytes)
      (wse_mint x, (wse_amount x, (wse_recipient x, wse_payload x)))) in O.
    cbv beta in O. cbn [okb c_pair fst snd] in O. rewrite !andb_true_iff in O. destruct O as (_ & O2 & _).
    unfold c_u128 in *. cbn [okb c_uint] in O2. unfold event_of. lia. }
  destruct I as [->| ->]; cbn [tp_exec request_pos] in *.
  - apply withdraw_sol_outcome in H as (k & w & K & WI & OUT); [|exact Hp|exact C]. exists k, w.
    destruct OUT as [X _|vault tsk ts fee net st dst R0 ST QU K1 K3 K2 TOK FE NE N0 TA R' PD PS|vault tsk ts fee net st dst R0 ST QU K1 K3 K2 TOK FE NE N0 TA R' CASE].
    + destruct (STILL X).
    + exists vault, tsk, ts, dst, net. split; [exact K|]. split; [exact R0|]. split; [exact TOK|]. split; [exact PD|].
      destruct (PAIDJ _ _ _ _ N0 PD) as [X1 X2]. split; [exact X1|]. split; [exact X2|].
      split; [cbv zeta; rewrite NE, FE; reflexivity|]. intros L. rewrite NE, FE, (MONEY _ _ _ _ R0 L). reflexivity.
    + destruct CASE as [(_ & _ & X)|(_ & _ & [(_ & X & _)|(PD & PS)])]; [destruct (STILL X)|destruct (STILL X)|].
      exists vault, tsk, ts, dst, net. split; [exact K|]. split; [exact R0|]. split; [exact TOK|]. split; [exact PD|].
      destruct (PAIDJ _ _ _ _ N0 PD) as [X1 X2]. split; [exact X1|]. split; [exact X2|].
      split; [cbv zeta; rewrite NE, FE; reflexivity|]. intros L. rewrite NE, FE, (MONEY _ _ _ _ R0 L). reflexivity.
  - apply approve_sol_outcome in H as (k & w & vault & tsk & ts & ts' & dst & fee & net & st & K & R0 & ST & SG & TOK & FE & NE & N0 & TA & T1 & T2 & T3 & R' & CASE); [|exact Hp].
    destruct CASE as [(_ & X & _)|(PD & PS)]; [destruct (STILL X)|].
    exists k, w, vault, tsk, ts, dst, net. split; [exact K|]. split; [exact R0|]. split; [exact TOK|]. split; [exact PD|].
    destruct (PAIDJ _ _ _ _ N0 PD) as [X1 X2]. split; [exact X1|]. split; [exact X2|].
    split; [cbv zeta; rewrite NE, FE; reflexivity|]. intros L. rewrite NE, FE, (MONEY _ _ _ _ R0 L). reflexivity.
Qed.

(** * C32 and C34 for Solana tokens *)

(** The call executes the confirmed new Solana request [w]; [gross] is its amount as a 64-bit number. *)
Definition executes_sol (e : env) (ext : extern) (c : ctx) (s s' : state) (k : key) (w : wsol) (vault tsk : key) (ts : token_settings) (gross : Z) : Prop :=
  tp_call e ext c TpWithdrawSol s s' /\ nth_error (c_keys c) 0 = Some k /\ nth_error (c_keys c) 3 = Some tsk /\
  sol_request e s k w /\ status_of w = WNew /\ p_required w <= confirmed (p_signers w) /\
  sol_token e s w vault tsk ts /\ gross = wse_amount (event_of w) mod 2 ^ 64.

Lemma executes_sol_outcome e ext c s s' k w vault tsk ts gross : executes_sol e ext c s s' k w vault tsk ts gross ->
  exists dst fee net st, nth_error (c_keys c) 2 = Some dst /\ fee = fee_on (tk_fee_wdr ts) gross /\ net = gross - fee /\ 0 <= net /\
    token_at e s' tsk (charge ts (day_of (now s)) fee net) /\ sol_request e s' k (w_set_status w st) /\
    ((tk_wlimit ts < net \/ tk_wdlimit ts < today ts s + net) /\ st = WWaitApprove /\ spl_still s s' \/
     net <= tk_wlimit ts /\ today ts s + net <= tk_wdlimit ts /\
       (st = WPending /\ spl_still s s' /\ balance s vault < net \/
        sol_paid_to e s s' w vault dst net /\ paid_status (wse_payload (event_of w)) st)).
Proof.
  intros (CALL & K & KT & RQ & ST & QU & (PV & TA & TK) & ->).
  apply tp_call_exec in CALL as (Hp & _ & C & H). cbn [tp_exec] in H.
  apply withdraw_sol_outcome in H as (k' & w' & K' & WI & OUT); [|exact Hp|exact C].
  assert (k' = k) by congruence. subst k'.
  assert (w' = w). { destruct WI as [U _], RQ as (_ & U' & _). pose proof (eq_trans (eq_sym U) U') as E. injection E as E. exact E. } subst w'.
  destruct OUT as [_ [[X _]|[X|X]]|? ? ? ? ? ? ? ? X|vault' tsk' ts' fee net st dst R0 _ _ K1 K3 K2 (PV' & TA' & _) FE NE N0 TA2 R' CASE]; try congruence; try lia.
  assert (tsk' = tsk) by congruence. subst tsk'. rewrite (tp_addr_fun _ _ _ _ PV PV') in *. rewrite (token_at_fun _ _ _ _ _ TA TA') in *.
  exists dst, fee, net, st. auto 10.
Qed.

Theorem C32_sol : forall e ext c s s' k w vault tsk ts gross, executes_sol e ext c s s' k w vault tsk ts gross ->
  let fee := fee_on (tk_fee_wdr ts) gross in let net := gross - fee in
  0 <= net /\ (exists ts', token_at e s' tsk ts' /\ tk_fee_supply ts' = tk_fee_supply ts + fee /\ tk_fee_wdr ts' = tk_fee_wdr ts) /\
  ((exists j, balance s' j < balance s j) -> exists dst, sol_paid_to e s s' w vault dst net).
Proof.
  intros e ext c s s' k w vault tsk ts gross X. cbv zeta.
  destruct (executes_sol_outcome _ _ _ _ _ _ _ _ _ _ _ X) as (dst & fee & net & st & K2 & -> & -> & N0 & TA & RQ & CASE).
  split; [exact N0|]. split; [eexists; split; [exact TA|]; split; reflexivity|]. intros (j & G).
  destruct CASE as [(_ & _ & SU & _)|(_ & _ & [(_ & (SU & _) & _)|(PD & _)])]; [specialize (SU j); lia|specialize (SU j); lia|]. exists dst. exact PD.
Qed.

Theorem C34_sol_partial : forall e ext c s s' k w vault tsk ts gross, executes_sol e ext c s s' k w vault tsk ts gross ->
  let net := gross - fee_on (tk_fee_wdr ts) gross in
  tk_wlimit ts < net \/ tk_wdlimit ts < today ts s + net ->
  spl_still s s' /\ exists w', sol_request e s' k w' /\ status_of w' = WWaitApprove /\ p_event w' = p_event w.
Proof.
  intros e ext c s s' k w vault tsk ts gross X. cbv zeta. intros LIM.
  destruct (executes_sol_outcome _ _ _ _ _ _ _ _ _ _ _ X) as (dst & fee & net & st & K2 & -> & -> & N0 & TA & RQ & CASE).
  destruct CASE as [(_ & -> & SU)|(L1 & L2 & _)]; [|lia].
  split; [exact SU|]. eexists. split; [exact RQ|]. split; reflexivity.
Qed.

(** * Findings *)

(** Reached from the initial demo ledger by instructions signed by ordinary accounts. *)
Definition reached (s : state) : Prop := req_hist te any_instr ts0 s.

(** The amount of an event is cut to 64 bits: confirmed events over [2^64 + 40000] and [2^64 + 70000]
    tokens are paid as if they were over 40000 and 70000, and are finished. *)
Theorem C33_sol_refuted : exists c s s' k w vault tsk ts dst n,
  reached s /\ executes_sol te no_ext c s s' k w vault tsk ts (wse_amount (event_of w) mod 2 ^ 64) /\
  2 ^ 64 <= wse_amount (event_of w) /\ balance s' vault = balance s vault - n /\ balance s' dst = balance s dst + n /\
  0 < n < wse_amount (event_of w) - fee_on (tk_fee_wdr ts) (wse_amount (event_of w)) /\
  exists w', sol_request te s' k w' /\ status_of w' = WProcessed.
Proof.
  exists (ctx_of tp_id (fst (texecS tw4 trecvS tmintS))), ts22, ts23, tw4, (the_wsol ts22 tw4), tvault, ttsS, (the_token ts22 ttsS), trecvS, 39980.
  split.
  { unfold reached. demo_ts22. unfold ts21. demo_more. unfold ts2. demo_more. unfold ts1. demo_more. apply h_refl. }
  split.
  { split; [demo_call|]. split; [reflexivity|]. split; [reflexivity|].
    split; [split; [vm_compute; reflexivity|]; split; [vm_compute; reflexivity|exists 255; vm_compute; reflexivity]|].
    split; [vm_compute; reflexivity|]. split; [vm_compute; discriminate|].
    split; [|reflexivity]. split; [exists 255; vm_compute; reflexivity|]. split; [split; [exists 255; vm_compute; reflexivity|vm_compute; reflexivity]|].
    exists tvault. vm_compute. reflexivity. }
  split; [vm_compute; discriminate|]. split; [vm_compute; reflexivity|]. split; [vm_compute; reflexivity|].
  split; [vm_compute; split; reflexivity|]. exists (the_wsol ts23 tw4).
  split; [split; [vm_compute; reflexivity|]; split; [vm_compute; reflexivity|exists 255; vm_compute; reflexivity]|vm_compute; reflexivity].
Qed.
Theorem C33_ever_refuted : exists c s s' k w mint md tsk ts gross dst n,
  reached s /\ executes_ever te no_ext c s s' k w mint tsk ts gross /\ ever_token te s w mint md tsk ts /\
  2 ^ 64 <= ever_gross w md /\ supply s' mint = supply s mint + n /\ balance s' dst = balance s dst + n /\
  0 < n < ever_gross w md - fee_on (tk_fee_wdr ts) (ever_gross w md) /\
  exists w', ever_request te s' k w' /\ status_of w' = WProcessed.
Proof.
  exists (ctx_of tp_id (fst (texecE tw7 trecvE []))), ts25, ts26, tw7, (the_wever ts25 tw7), tmintE, (the_mint ts25 tmintE), ttsE, (the_token ts25 ttsE), 70000, trecvE, 69965.
  assert (T : ever_token te ts25 (the_wever ts25 tw7) tmintE (the_mint ts25 tmintE) ttsE (the_token ts25 ttsE)).
  { split; [exists 255; vm_compute; reflexivity|]. split; [vm_compute; reflexivity|]. split; [split; [exists 255; vm_compute; reflexivity|vm_compute; reflexivity]|].
    exists tmintE, 9. vm_compute. reflexivity. }
  split.
  { unfold reached. demo_ts25. unfold ts24. demo_more. unfold ts8. demo_more. demo_ts7. unfold ts6. demo_more.
    unfold ts5. demo_more. demo_ts4. unfold ts3. demo_more. unfold ts2. demo_more. unfold ts1. demo_more. apply h_refl. }
  split.
  { split; [demo_call|]. split; [reflexivity|]. split; [reflexivity|].
    split; [split; [vm_compute; reflexivity|]; split; [vm_compute; reflexivity|exists 255; vm_compute; reflexivity]|].
    split; [vm_compute; reflexivity|]. split; [vm_compute; discriminate|]. split; [vm_compute; discriminate|].
    exists (the_mint ts25 tmintE). split; [exact T|]. split; [vm_compute; discriminate|vm_compute; reflexivity]. }
  split; [exact T|].
  split; [vm_compute; discriminate|]. split; [vm_compute; reflexivity|]. split; [vm_compute; reflexivity|].
  split; [vm_compute; split; reflexivity|]. exists (the_wever ts26 tw7).
  split; [split; [vm_compute; reflexivity|]; split; [vm_compute; reflexivity|exists 255; vm_compute; reflexivity]|vm_compute; reflexivity].
Qed.

(** A pending Solana withdrawal is paid without looking at the limits, and with the fee of the day of
    payment, which is not recorded: between its first execution and its payment the limits were
    lowered below its amount and the fee was raised from 350 to 7000 tokens. *)
Theorem C34_refuted : exists c s s' k w vault tsk ts dst n,
  reached s /\ tp_call te no_ext c TpWithdrawSol s s' /\ nth_error (c_keys c) 0 = Some k /\
  sol_request te s k w /\ p_required w <= confirmed (p_signers w) /\ sol_token te s w vault tsk ts /\
  n = wse_amount (event_of w) - fee_on (tk_fee_wdr ts) (wse_amount (event_of w)) /\
  tk_wlimit ts < n /\ tk_wdlimit ts < today ts s + n /\
  balance s' vault = balance s vault - n /\ balance s' dst = balance s dst + n.
Proof.
  exists (ctx_of tp_id (fst (texecS tw2 trecvS tmintS))), ts19, ts20, tw2, (the_wsol ts19 tw2), tvault, ttsS, (the_token ts19 ttsS), trecvS, 693000.
  split.
  { unfold reached. demo_ts19. unfold ts18. demo_more. unfold ts17. demo_more. demo_ts11. unfold ts10. demo_votes. unfold ts9. demo_more.
    unfold ts8. demo_more. demo_ts7. unfold ts6. demo_more.
    unfold ts5. demo_more. demo_ts4. unfold ts3. demo_more. unfold ts2. demo_more. unfold ts1. demo_more. apply h_refl. }
  split; [demo_call|]. split; [reflexivity|].
  split; [split; [vm_compute; reflexivity|]; split; [vm_compute; reflexivity|exists 255; vm_compute; reflexivity]|].
  split; [vm_compute; discriminate|].
  split; [split; [exists 255; vm_compute; reflexivity|]; split; [split; [exists 255; vm_compute; reflexivity|vm_compute; reflexivity]|]; exists tvault; vm_compute; reflexivity|].
  vm_compute. repeat split; reflexivity.
Qed.
Theorem C32_refuted : exists c s s' k w vault tsk ts ts' dst fee,
  reached s /\ tp_call te no_ext c TpWithdrawSol s s' /\ nth_error (c_keys c) 0 = Some k /\
  sol_request te s k w /\ sol_token te s w vault tsk ts /\ token_at te s' tsk ts' /\
  fee = fee_on (tk_fee_wdr ts) (wse_amount (event_of w)) /\
  balance s' dst = balance s dst + (wse_amount (event_of w) - fee) /\ tk_fee_supply ts' = tk_fee_supply ts /\
  (* all fees recorded so far, including those of deposits, do not contain this one *)
  tk_fee_supply ts' < fee.
Proof.
  exists (ctx_of tp_id (fst (texecS tw2 trecvS tmintS))), ts19, ts20, tw2, (the_wsol ts19 tw2), tvault, ttsS, (the_token ts19 ttsS), (the_token ts20 ttsS), trecvS, 7000.
  split.
  { unfold reached. demo_ts19. unfold ts18. demo_more. unfold ts17. demo_more. demo_ts11. unfold ts10. demo_votes. unfold ts9. demo_more.
    unfold ts8. demo_more. demo_ts7. unfold ts6. demo_more.
    unfold ts5. demo_more. demo_ts4. unfold ts3. demo_more. unfold ts2. demo_more. unfold ts1. demo_more. apply h_refl. }
  split; [demo_call|]. split; [reflexivity|].
  split; [split; [vm_compute; reflexivity|]; split; [vm_compute; reflexivity|exists 255; vm_compute; reflexivity]|].
  split; [split; [exists 255; vm_compute; reflexivity|]; split; [split; [exists 255; vm_compute; reflexivity|vm_compute; reflexivity]|]; exists tvault; vm_compute; reflexivity|].
  split; [split; [exists 255; vm_compute; reflexivity|vm_compute; reflexivity]|].
  vm_compute. repeat split; reflexivity.
Qed.

(** * Examples *)

(** [tw5] is paid 79960 tokens out of 80000, while the token is registered. *)
Example C31_ever_ex :
  let x := texecE tw5 trecvE tregE in
  tp_call te no_ext (ctx_of tp_id (fst x)) (snd x) ts7 ts8 /\ supply ts7 tmintE = 0 /\ supply ts8 tmintE = 79960 /\
  balance ts8 trecvE = 79960 /\ ever_fits (the_wever ts7 tw5) (the_mint ts8 tmintE).
Proof. cbv zeta. split; [demo_call|]. vm_compute. repeat split; try reflexivity; discriminate. Qed.
Example C31_sol_ex :
  let x := texecS tw1 trecvS tmintS in
  tp_call te no_ext (ctx_of tp_id (fst x)) (snd x) ts4 ts5 /\ balance ts4 tvault = 100000 /\ balance ts5 tvault = 50025 /\ balance ts5 trecvS = 49975.
Proof. cbv zeta. split; [demo_call|]. vm_compute. repeat split; reflexivity. Qed.
Example C32_sol_ex :
  let c := ctx_of tp_id (fst (texecS tw1 trecvS tmintS)) in
  executes_sol te no_ext c ts4 ts5 tw1 (the_wsol ts4 tw1) tvault ttsS (the_token ts4 ttsS) 50000 /\
  fee_on (tk_fee_wdr (the_token ts4 ttsS)) 50000 = 25 /\ tk_fee_supply (the_token ts5 ttsS) = tk_fee_supply (the_token ts4 ttsS) + 25.
Proof.
  cbv zeta. split; [|vm_compute; split; reflexivity]. split; [demo_call|]. split; [reflexivity|]. split; [reflexivity|].
  split; [split; [vm_compute; reflexivity|]; split; [vm_compute; reflexivity|exists 255; vm_compute; reflexivity]|].
  split; [vm_compute; reflexivity|]. split; [vm_compute; discriminate|].
  split; [|vm_compute; reflexivity]. split; [exists 255; vm_compute; reflexivity|]. split; [split; [exists 255; vm_compute; reflexivity|vm_compute; reflexivity]|].
  exists tvault. vm_compute. reflexivity.
Qed.
(** With limits of 10000 and 90000 the same request has to wait. *)
Example C34_sol_ex :
  let c := ctx_of tp_id (fst (texecS tw1 trecvS tmintS)) in
  executes_sol te no_ext c ts15 ts16 tw1 (the_wsol ts15 tw1) tvault ttsS (the_token ts15 ttsS) 50000 /\
  tk_wlimit (the_token ts15 ttsS) = 10000 /\ status_of (the_wsol ts16 tw1) = WWaitApprove /\ balance ts16 tvault = 100000.
Proof.
  cbv zeta. split; [|vm_compute; repeat split; reflexivity]. split; [demo_call|]. split; [reflexivity|]. split; [reflexivity|].
  split; [split; [vm_compute; reflexivity|]; split; [vm_compute; reflexivity|exists 255; vm_compute; reflexivity]|].
  split; [vm_compute; reflexivity|]. split; [vm_compute; discriminate|].
  split; [|vm_compute; reflexivity]. split; [exists 255; vm_compute; reflexivity|]. split; [split; [exists 255; vm_compute; reflexivity|vm_compute; reflexivity]|].
  exists tvault. vm_compute. reflexivity.
Qed.
(** A second Ever withdrawal, with the limit lowered below its amount. *)
Definition ts27 := unres (tstp ts25 (tadmT tman ttsE (TpChangeWithdrawalLimits (Some 60000) None))).
Definition ts28 := unres (tstp ts27 (texecE tw7 trecvE [])).
Example C34_ever_ex :
  let c := ctx_of tp_id (fst (texecE tw7 trecvE [])) in
  executes_ever te no_ext c ts27 ts28 tw7 (the_wever ts27 tw7) tmintE ttsE (the_token ts27 ttsE) 70000 /\
  tk_wlimit (the_token ts27 ttsE) = 60000 /\ status_of (the_wever ts28 tw7) = WWaitApprove /\ supply ts28 tmintE = 79960 /\
  tk_fee_supply (the_token ts28 ttsE) = tk_fee_supply (the_token ts27 ttsE) + 35.
Proof.
  cbv zeta. split; [|vm_compute; repeat split; reflexivity]. split; [demo_call|]. split; [reflexivity|]. split; [reflexivity|].
  split; [split; [vm_compute; reflexivity|]; split; [vm_compute; reflexivity|exists 255; vm_compute; reflexivity]|].
  split; [vm_compute; reflexivity|]. split; [vm_compute; discriminate|]. split; [vm_compute; discriminate|].
  exists (the_mint ts27 tmintE). split; [|split; [vm_compute; discriminate|vm_compute; reflexivity]].
  split; [exists 255; vm_compute; reflexivity|]. split; [vm_compute; reflexivity|]. split; [split; [exists 255; vm_compute; reflexivity|vm_compute; reflexivity]|].
  exists tmintE, 9. vm_compute. reflexivity.
Qed.

Print Assumptions C31_ever_partial.
Print Assumptions C31_sol_partial.
Print Assumptions C32_ever.
Print Assumptions C32_sol.
Print Assumptions C34_ever.
Print Assumptions C34_sol_partial.
Print Assumptions C33_sol_refuted.
Print Assumptions C33_ever_refuted.
Print Assumptions C34_refuted.
Print Assumptions C32_refuted.
