(** Property C83: a withdrawal goes through from end to end: anyone files the event, any quorum of the relays confirms it in any order,
    anyone executes it, and the recipient has the tokens. *)

From Coq Require Import Strings.String ZifyBool ZifyNat ZifyN.
From Verif Require Import TpDemoLaws AtaGo TpDeposit TpEffects PropTpReq PropTpFlow PropTpPay PropTpMoney PropTpMisc PropTpOutcome PropTpDaily PropLive PropVotes PropExec PropExits PropDust PropFirst PropRequest.
Open Scope Z_scope.
Open Scope list_scope.
Ltac Zify.zify_post_hook ::= Z.div_mod_to_equations.

(** * Vocabulary *)

(** The relays of the list confirm the request [k], one after the other. *)
Inductive confirm_all (e : env) (ext : extern) (k rrk : key) : list key -> state -> state -> Prop :=
| ca_none s : confirm_all e ext k rrk [] s s
| ca_vote x l s s1 s2 : tp_call e ext (vote_accounts x k rrk) (TpVote VConfirm) s s1 -> confirm_all e ext k rrk l s1 s2 -> confirm_all e ext k rrk (x :: l) s s2.
(** A quorum of the round: different relays, more than two thirds, and not less than the round loader asks for; each of them
    can take the reparation. *)
Definition quorum (s : state) (k : key) (rr : relay_round) (rls : rl_settings) (voters : list key) : Prop :=
  NoDup (rr_relays rr) /\ NoDup voters /\ incl voters (rr_relays rr) /\
  2 * Z.of_nat (List.length (rr_relays rr)) < 3 * Z.of_nat (List.length voters) /\ rs_min_votes rls <= Z.of_nat (List.length voters) /\
  forall x, In x voters -> x <> k /\ lam (accs s x) + 20000 < 2 ^ 64.

(** * Lemmas *)

Lemma confirm_go e ext k rrk rr : forall voters s g m,
  request_at e s k g m -> nonneg s -> clock_ok s -> round_stands e s (p_round g) rrk rr -> NoDup (rr_relays rr) -> NoDup voters ->
  (forall x, In x voters -> x <> k /\ lam (accs s x) + 20000 < 2 ^ 64 /\ exists j, nth_error (rr_relays rr) j = Some x /\ nth_error (p_signers g) j = Some VNone) ->
  20000 * Z.of_nat (List.length voters) <= lam (accs s k) ->
  exists s' l, confirm_all e ext k rrk voters s s' /\ request_at e s' k (p_with_signers g l) m /\
    confirmations l = confirmations (p_signers g) + Z.of_nat (List.length voters) /\
    (forall x, x <> k -> own (accs s' x) = own (accs s x) /\ dat (accs s' x) = dat (accs s x)) /\
    (forall x, In x voters -> lam (accs s' x) = lam (accs s x) + 20000) /\
    (forall x, ~ In x voters -> x <> k -> lam (accs s' x) = lam (accs s x)) /\ now s' = now s /\ nonneg s'.
Proof.
  induction voters as [|v voters IH]; intros s g m R N CK RS D DV P L.
  { exists s, (p_signers g). cbn [List.length]. split; [apply ca_none|]. split; [replace (p_with_signers g (p_signers g)) with g by (destruct g; reflexivity); exact R|].
    repeat split; auto; try lia. intros x []. }
  cbn [List.length] in L. inversion DV as [|? ? NI DV']; subst.
  destruct (P v (or_introl eq_refl)) as (VK & VL & j & JR & JS).
  destruct (vote_exec e ext s k g m v rrk rr j VConfirm R N CK RS (no_dup_seat _ _ _ D JR) JS) as (s1 & C & R1 & N1 & CK1 & V); [discriminate|exact VK|lia|exact VL|].
  destruct (confirmed_at _ _ JS) as [C1 _]. destruct V as (_ & SD & SL & _ & NW).
  assert (RN : rrk <> k).
  { intros ->. destruct RS as (b & _ & _ & RU). apply unpack_ok in RU as (r1 & _ & _ & LN & _); [|typeclasses eauto]. destruct R as (_ & U & _).
    apply unpack_ok in U as (r2 & _ & _ & LN2 & _); [|typeclasses eauto]. rewrite LN in LN2. discriminate LN2. }
  destruct (IH s1 (g_vote g j VConfirm) m) as (s' & l & A & R' & CF & OD & LV & LO & NW' & N'); try assumption.
  - destruct RS as (b & RF & RK & RU). exists b. split; [exact RF|]. split; [exact RK|]. destruct (SD rrk RN) as [_ ->]. exact RU.
  - intros x X. destruct (P x (or_intror X)) as (XK & XL & i & IR & IS). split; [exact XK|]. split.
    + rewrite SL, (keqb_ne x k) by exact XK. rewrite keqb_ne by (intros ->; contradiction). lia.
    + exists i. split; [exact IR|]. cbn [g_vote p_with_signers p_signers]. rewrite set_nth_other; [exact IS|].
      intros ->. rewrite JR in IR. injection IR as ->. contradiction.
  - rewrite SL, keqb_refl, keqb_ne by congruence. lia.
  - exists s', l. split; [eapply ca_vote; [exact C|exact A]|]. split; [destruct g; exact R'|].
    cbn [g_vote p_with_signers p_signers] in CF. split; [cbn [List.length]; lia|].
    split; [intros x X; destruct (OD x X) as [-> ->]; apply SD; exact X|].
    split; [|split; [|split; [congruence|exact N']]].
    + intros x [<-|X].
      * rewrite LO by assumption. rewrite SL, keqb_refl, keqb_ne by exact VK. lia.
      * destruct (P x (or_intror X)) as (XK & _). rewrite LV by exact X. rewrite SL, (keqb_ne x k) by exact XK. rewrite keqb_ne by (intros ->; contradiction). lia.
    + intros x X XK. assert (x <> v) by (intros ->; apply X; left; reflexivity). assert (~ In x voters) by (intros Y; apply X; right; exact Y).
      rewrite LO by assumption. rewrite SL, !keqb_ne by assumption. lia.
Qed.

(** The record of a voted request, read with its event. *)
Lemma voted_typed {E} (ce : codec E) (LE : Lawful ce) e s k (w : prop (withlen E) (withlen wmeta)) m l :
  okb (c_prop (c_withlen ce) (c_withlen c_wmeta)) w = true -> true_len ce (p_event w) -> true_len c_wmeta (p_meta w) ->
  request_at e s k (p_with_signers (gen_prop ce c_wmeta w) l) m ->
  own (accs s k) = tp_id /\ unpack (c_prop (c_withlen ce) (c_withlen c_wmeta)) TP_LEN (@p_init _ _) (dat (accs s k)) = Ok (p_with_signers w l).
Proof.
  intros OW T1 T2 (O & U & _). split; [exact O|]. change (p_with_signers (gen_prop ce c_wmeta w) l) with (gen_prop ce c_wmeta (p_with_signers w l)) in U.
  apply unpack_ok in U as (r & D & OG & B & I); [|typeclasses eauto].
  rewrite gen_prop_enc in D by assumption. rewrite D in *. apply unpack_enc; [typeclasses eauto| |exact I|exact B].
  unfold c_gprop, gprop in OG. rewrite (okb_prop c_bytes c_bytes) in OG. rewrite (okb_prop (c_withlen ce)) in OW |- *. rewrite !andb_true_iff in OW, OG |- *.
  destruct OW as (W1 & W2 & W3 & W4 & W5 & W6 & W7), OG as (_ & _ & _ & _ & _ & _ & G7). repeat split; assumption.
Qed.

(** Somebody uses the account: it is neither a funder's nor a new request. *)
Definition used (s : state) (j : key) : Prop := dat (accs s j) <> [] \/ own (accs s j) <> sys_id.
Lemma used_ne s j k : dat (accs s k) = [] -> own (accs s k) = sys_id -> used s j -> j <> k.
Proof. intros A B [U|U] ->; contradiction. Qed.
Lemma unpack_data {A} (c : codec A) (L : Lawful c) LEN ini d x : unpack c LEN ini d = Ok x -> 0 < LEN -> d <> [].
Proof. intros U P ->. apply unpack_ok in U as (r & _ & _ & B & _); [|exact L]. change (blen []) with 0 in B. lia. Qed.

Lemma filed_confirmed {E} (ce : codec E) (LE : Lawful ce) e ext s s1 c i funder author k rls rrk rr ts lt conf ev (w : prop (withlen E) (withlen wmeta)) voters :
  tp_call e ext c i s s1 -> is_request i = true -> nonneg s -> dat (accs s k) = [] -> own (accs s k) = sys_id -> dat (accs s funder) = [] -> own (accs s funder) = sys_id -> round_stands e s (rr_number rr) rrk rr ->
  quorum s k rr rls voters -> new_filing w ev author rr rls ts lt conf -> own (accs s1 k) = tp_id ->
  unpack (c_prop (c_withlen ce) (c_withlen c_wmeta)) TP_LEN (@p_init _ _) (dat (accs s1 k)) = Ok w ->
  (forall x, x <> k -> lam (accs s1 x) <= lam (accs s x)) -> (forall j, j <> funder -> j <> k -> accs s1 j = accs s j) ->
  (forall g m rls rr, born e c i s s1 k g m rls rr -> p_event g = enc ce ev) ->
  exists s2 l, confirm_all e ext k rrk voters s1 s2 /\ own (accs s2 k) = tp_id /\
    unpack (c_prop (c_withlen ce) (c_withlen c_wmeta)) TP_LEN (@p_init _ _) (dat (accs s2 k)) = Ok (p_with_signers w l) /\ p_required w <= confirmed l /\
    nonneg s2 /\ now s2 = now s /\ (forall x, In x voters -> lam (accs s2 x) = lam (accs s1 x) + 20000) /\
    (forall j, j <> funder -> j <> k -> own (accs s2 j) = own (accs s j) /\ dat (accs s2 j) = dat (accs s j) /\ lam (accs s j) <= lam (accs s2 j) /\
       (~ In j voters -> lam (accs s2 j) = lam (accs s j))).
Proof.
  intros C IR N DK OK0 DF OF RS (D & DV & IN & Q1 & Q2 & QL) (EV & _ & _ & _ & PR & _ & SG & _ & _ & RQ) OW UW LE1 AF BE.
  assert (CK : clock_ok s) by (apply tp_call_exec in C as (_ & _ & CK & _); exact CK).
  assert (NN : nnR s s1).
  { pose proof C as C0. apply tp_call_exec in C0 as (_ & _ & _ & H). eapply (nn_tp_exec e ext c i); [destruct i; try discriminate IR; reflexivity|exact H]. }
  destruct NN as [NW N1]. specialize (N1 N).
  destruct (request_made _ _ _ _ _ _ k C IR) as [[[QO _]|[_ QO]]|(g & m & rls' & rr' & B)]; [exfalso; rewrite OW, OK0 in QO; discriminate QO|exfalso; contradiction|].
  pose proof (bo_req _ _ _ _ _ _ _ _ _ _ B) as R. pose proof (bo_funded _ _ _ _ _ _ _ _ _ _ B) as FU.
  pose proof R as (_ & UG & PM & OM & _).
  destruct (typed_view ce LE _ _ w g m _ _ UW UG PM OM) as (EG & EM & T1 & T2).
  { rewrite (BE _ _ _ _ B), <- EV. reflexivity. }
  assert (OKW : okb (c_prop (c_withlen ce) (c_withlen c_wmeta)) w = true) by (eapply okb_unpack; [typeclasses eauto|exact UW]).
  assert (SGG : p_signers g = repeat VNone (List.length (rr_relays rr))) by (rewrite EG; exact SG).
  assert (MI : missing g = Z.of_nat (List.length (rr_relays rr))).
  { unfold missing. rewrite SGG. assert (FL : forall n, filter (vote_eqb VNone) (repeat VNone n) = repeat VNone n) by (induction n as [|n IH]; cbn; congruence).
    rewrite FL. unfold blen. rewrite repeat_length. reflexivity. }
  unfold funded in FU. rewrite MI in FU. pose proof (NoDup_incl_length DV IN) as LL.
  destruct (confirm_go e ext k rrk rr voters s1 g m R N1) as (s2 & l & A & R2 & CF & OD & LV & LO & NW2 & N2); try assumption.
  - unfold clock_ok in *. rewrite NW. exact CK.
  - rewrite EG. cbn [gen_prop p_round]. rewrite PR. destruct RS as (b & RF & RK & RU). exists b. split; [exact RF|]. split; [exact RK|].
    assert (UR : used s rrk) by (left; eapply unpack_data; [|exact RU|reflexivity]; typeclasses eauto).
    rewrite AF; [exact RU| |]; eapply used_ne; eassumption.
  - intros x X. destruct (QL x X) as [XK XL]. split; [exact XK|]. split; [specialize (LE1 x XK); lia|].
    apply IN, In_nth_error in X as [j J]. exists j. split; [exact J|]. rewrite SGG. apply nth_error_repeat. apply nth_error_Some. congruence.
  - unfold RELAY_REPARATION in FU. lia.
  - exists s2, l. split; [exact A|]. rewrite EG in R2. destruct (voted_typed ce LE e s2 k w m l OKW T1 T2 R2) as [O2 U2].
    split; [exact O2|]. split; [exact U2|]. split.
    { change (confirmed l) with (confirmations l). rewrite CF, SGG.
      assert (Z0 : forall n, confirmations (repeat VNone n) = 0) by (induction n as [|n IH]; [reflexivity|exact IH]). rewrite Z0. lia. }
    split; [exact N2|]. split; [congruence|]. split; [exact LV|]. intros j J JK.
    destruct (OD j JK) as [-> ->]. rewrite (AF j J JK). split; [reflexivity|]. split; [reflexivity|].
    destruct (in_dec key_dec j voters) as [I|I]; [rewrite (LV j I)|rewrite (LO j I JK)]; rewrite (AF j J JK); split; try lia; try reflexivity; contradiction.
Qed.

Lemma same_listed e s s2 mint vault tsk ts : own (accs s2 tsk) = own (accs s tsk) -> dat (accs s2 tsk) = dat (accs s tsk) -> sol_listed e s mint vault tsk ts -> sol_listed e s2 mint vault tsk ts.
Proof. intros A B ((O & U & X) & Y). unfold sol_listed, token_settings_of. rewrite A, B. auto. Qed.
Lemma same_running e s s2 sk ts : own (accs s2 sk) = own (accs s sk) -> dat (accs s2 sk) = dat (accs s sk) -> running e s sk ts -> running e s2 sk ts.
Proof. intros A B ((st & (O & U & X) & Y) & Z). unfold running, bridge_settings. rewrite A, B. split; [exists st; auto|exact Z]. Qed.
Lemma same_tok s s2 k t : own (accs s2 k) = own (accs s k) -> dat (accs s2 k) = dat (accs s k) -> tok_in s k t -> tok_in s2 k t.
Proof. intros A B [O T]. unfold tok_in, tacc_in in *. rewrite A, B. auto. Qed.
Lemma same_mint s s2 k t : own (accs s2 k) = own (accs s k) -> dat (accs s2 k) = dat (accs s k) -> mint_in s k t -> mint_in s2 k t.
Proof. intros A B [O T]. unfold mint_in, tmint_in in *. rewrite A, B. auto. Qed.
Lemma same_balance s s2 k : own (accs s2 k) = own (accs s k) -> dat (accs s2 k) = dat (accs s k) -> balance s2 k = balance s k.
Proof. intros A B. unfold balance. rewrite A, B. reflexivity. Qed.
Lemma same_supply s s2 k : own (accs s2 k) = own (accs s k) -> dat (accs s2 k) = dat (accs s k) -> supply s2 k = supply s k.
Proof. intros A B. unfold supply. rewrite A, B. reflexivity. Qed.
Lemma tok_data s k t : tok_in s k t -> dat (accs s k) <> [].
Proof. intros [_ T]. eapply unpack_data; [|exact T|reflexivity]. typeclasses eauto. Qed.
Lemma mint_data s k t : mint_in s k t -> dat (accs s k) <> [].
Proof. intros [_ T]. eapply unpack_data; [|exact T|reflexivity]. typeclasses eauto. Qed.

(** * C83 A withdrawal goes through from end to end *)

(** A Solana token.  [s] is any state in which the bridge runs: the request can be filed by anyone with the lamports for it, then
    confirmed by any quorum, in any order, then executed by anyone; the recipient gets the net amount from the vault, every
    voter 20000 lamports, and no other token account or mint changes. *)
Theorem C83_sol : forall e ext s funder author k tsk tks mint vault dst sk rlsk rls rrk rr ts lt conf recipient amount attached n voters,
  let ev := WSolEvent mint amount recipient [] in
  let i := TpWithdrawSolRequest ts lt conf recipient amount [] attached in
  let gross := amount mod 2 ^ 64 in let fee := fee_on (tk_fee_wdr tks) gross in let net := gross - fee in
  nonneg s -> clock_ok s -> okb c_tp_ix i = true -> sol_listed e s mint vault tsk tks -> loader_settings e s rlsk rls -> round_open e s rrk rr ->
  request_address e (rr_number rr) ts lt conf (enc c_wsol_event ev) k n -> vacant s k -> has_lamports s funder (filing_price e rr) -> lam (accs s funder) < 2 ^ 64 ->
  quorum s k rr rls voters -> ~ In dst voters ->
  running e s sk tks -> fee_fits (tk_fee_wdr tks) gross -> today tks s + net < 2 ^ 64 -> tk_fee_supply tks + fee < 2 ^ 64 -> ~ over_limit tks s net ->
  vault <> dst -> vault_ready s mint vault dst net -> net <= balance s vault -> (exists r, tok_in s dst r /\ ta_state r <> TFrozen /\ ta_mint r = mint /\ ta_amount r + net < 2 ^ 64 /\ ta_owner r = recipient) ->
  exists s1 s2 s3 w,
    tp_call e ext (request_sol_accounts funder author k tsk rlsk rrk []) i s s1 /\ confirm_all e ext k rrk voters s1 s2 /\
    tp_call e ext (sol_accounts k vault dst tsk mint sk) TpWithdrawSol s2 s3 /\
    balance s3 dst = balance s dst + net /\ balance s3 vault = balance s vault - net /\
    (forall j, own (accs s j) = spl_id -> j <> dst -> j <> vault -> own (accs s3 j) = spl_id /\ dat (accs s3 j) = dat (accs s j)) /\
    (forall x, In x voters -> lam (accs s2 x) = lam (accs s1 x) + 20000) /\
    sol_request e s3 k w /\ event_of w = ev /\ status_of w = WProcessed.
Proof.
  intros e ext s funder author k tsk tks mint vault dst sk rlsk rls rrk rr ts lt conf recipient amount attached n voters ev i gross fee net
    N CK OI LI RL RO FK V HL LF Q ND RU FF B1 B2 NL NE VR BV (r & TR & FR & MR & UR & OR).
  pose proof LI as (TS & (v0 & KT) & _).
  destruct (C80_sol e ext s funder author k tsk tks mint v0 rlsk rls rrk rr ts lt conf recipient amount attached n CK OI TS KT RL RO FK V HL LF)
    as (s1 & w & C1 & (OW & UW & wn & pn & WK & WF) & NF & LK & LFU & FRM). fold ev in NF, WF. fold i in C1.
  pose proof V as (V1 & V2 & V3). pose proof HL as (HL1 & HL2 & HL3).
  assert (FP : 0 <= filing_price e rr) by (unfold filing_price, record_price; lia).
  destruct (filed_confirmed c_wsol_event _ e ext s s1 _ i funder author k rls rrk rr ts lt conf ev w voters C1 eq_refl N V3 V2 HL3 HL2 (proj1 RO) Q NF OW UW) as (s2 & l & A & O2 & U2 & CF & N2 & NW & LV & KP0).
  { intros x X. destruct (key_dec x funder) as [->|XF]; [lia|rewrite FRM by assumption; lia]. }
  { exact FRM. }
  { intros g m rls' rr' B. apply bo_asked in B. destruct B as (_ & tsk' & tks' & mint' & sv & K3 & [_ U3] & KT' & ->).
    cbn in K3. injection K3 as <-. destruct TS as (_ & UT & _). rewrite UT in U3. injection U3 as <-. rewrite KT in KT'. injection KT' as <- _. reflexivity. }
  pose proof (fun j (U : used s j) => KP0 j (used_ne s j funder HL3 HL2 U) (used_ne s j k V3 V2 U)) as KP.
  set (w2 := p_with_signers w l) in *. destruct NF as (EV & ST & _).
  assert (E2 : event_of w2 = ev) by exact EV. assert (ST2 : status_of w2 = WNew) by exact ST.
  assert (F2 : sol_filed e s2 k w2).
  { split; [exact O2|]. split; [exact U2|]. exists wn, pn. split; [exact WK|exact WF]. }
  assert (KD : used s dst) by (left; eapply tok_data; exact TR).
  destruct VR as (v & TV & FV & MV & OV & DV & NV). assert (KV : used s vault) by (left; eapply tok_data; exact TV).
  assert (KS : used s tsk) by (left; destruct TS as (_ & U & _); eapply unpack_data; [|exact U|reflexivity]; typeclasses eauto).
  assert (KK : used s sk) by (left; destruct RU as ((st & (_ & U & _) & _) & _); eapply unpack_data; [|exact U|reflexivity]; typeclasses eauto).
  destruct (KP dst KD) as (D1 & D2 & _ & D3). specialize (D3 ND). destruct (KP vault KV) as (W1 & W2 & W3 & _). destruct (KP tsk KS) as (S1 & S2 & _). destruct (KP sk KK) as (S3 & S4 & _).
  assert (TD : today tks s2 = today tks s) by (unfold today; rewrite NW; reflexivity).
  destruct (C72_sol e ext s2 k w2 vault dst tsk tks sk N2) as (s3 & st & tks' & C3 & _ & _ & RQ & _ & _ & PAID); rewrite ?E2 in *; cbn [ev wse_mint wse_amount wse_payload wse_recipient] in *; try fold gross; try fold fee; try fold net; try assumption.
  - unfold clock_ok in *. rewrite NW. exact CK.
  - eapply same_listed; [exact S1|exact S2|exact LI].
  - eapply same_running; [exact S3|exact S4|exact RU].
  - rewrite TD. exact B1.
  - exists v. split; [eapply same_tok; [exact W1|exact W2|exact TV]|]. do 4 (split; [assumption|]). rewrite D3. intros NA. destruct (NV NA) as [X Y]. split; [lia|exact Y].
  - exists r. split; [eapply same_tok; [exact D1|exact D2|exact TR]|]. do 3 (split; [assumption|]). left. split; [reflexivity|exact OR].
  - fold gross in PAID. fold fee in PAID. fold net in PAID. destruct PAID as (-> & _ & _ & BB & _ & REST).
    { unfold over_limit in *. rewrite TD. exact NL. }
    { rewrite (same_balance s s2 vault W1 W2). exact BV. }
    destruct (BB NE) as [BB1 BB2]. exists s1, s2, s3, (w_set_status w2 (settled_status [])).
    split; [exact C1|]. split; [exact A|]. split; [exact C3|].
    split; [rewrite BB2, (same_balance s s2 dst D1 D2); reflexivity|]. split; [rewrite BB1, (same_balance s s2 vault W1 W2); reflexivity|].
    split; [|split; [exact LV|split; [exact RQ|split; [exact EV|reflexivity]]]].
    intros j J J1 J2. destruct (KP j) as (P1 & P2 & _); [right; rewrite J; discriminate|].
    destruct (REST j) as [X Y]; [congruence|intros [_ [->| ->]]; contradiction|]. split; congruence.
Qed.

(** A registered token of Everscale: the recipient gets the net amount, newly minted. *)
Theorem C83_ever : forall e ext s funder author k tsk tks mint md dst sk rlsk rls rrk rr ts lt conf token name symbol decimals recipient amount attached n voters,
  let ev := WEverEvent token name symbol decimals amount recipient [] in
  let i := TpWithdrawEverRequest ts lt conf token name symbol decimals recipient amount [] attached in
  let gross := rescale amount decimals (tm_decimals md) mod 2 ^ 64 in let fee := fee_on (tk_fee_wdr tks) gross in let net := gross - fee in
  nonneg s -> clock_ok s -> okb c_tp_ix i = true -> blen name <= 32 -> blen symbol <= 32 ->
  ever_listed e s token mint tsk tks -> loader_settings e s rlsk rls -> round_open e s rrk rr ->
  request_address e (rr_number rr) ts lt conf (enc c_wever_event ev) k n -> vacant s k -> has_lamports s funder (filing_price e rr) -> lam (accs s funder) < 2 ^ 64 ->
  quorum s k rr rls voters ->
  Z.abs (decimals - tm_decimals md) <= 38 -> rescale amount decimals (tm_decimals md) < 2 ^ 128 ->
  running e s sk tks -> fee_fits (tk_fee_wdr tks) gross -> today tks s + net < 2 ^ 64 -> tk_fee_supply tks + fee < 2 ^ 64 -> ~ over_limit tks s net ->
  mint_ready s mint dst md net -> mint <> native_mint ->
  (exists r, tok_in s dst r /\ ta_state r <> TFrozen /\ ta_mint r = mint /\ ta_amount r + net < 2 ^ 64 /\ ta_owner r = recipient) ->
  exists s1 s2 s3 w,
    tp_call e ext (request_ever_accounts funder author k rlsk rrk []) i s s1 /\ confirm_all e ext k rrk voters s1 s2 /\
    tp_call e ext (ever_accounts k mint dst tsk sk) TpWithdrawEver s2 s3 /\
    balance s3 dst = balance s dst + net /\ supply s3 mint = supply s mint + net /\
    (forall j, own (accs s j) = spl_id -> j <> dst -> j <> mint -> own (accs s3 j) = spl_id /\ dat (accs s3 j) = dat (accs s j)) /\
    (forall x, In x voters -> lam (accs s2 x) = lam (accs s1 x) + 20000) /\
    ever_request e s3 k w /\ event_of w = ev /\ status_of w = WProcessed.
Proof.
  intros e ext s funder author k tsk tks mint md dst sk rlsk rls rrk rr ts lt conf token name symbol decimals recipient amount attached n voters ev i gross fee net
    N CK OI LN LS LI RL RO FK V HL LF Q SC G RU FF B1 B2 NL MRD NNM (r & TR & FR & MR & UR & OR).
  pose proof LI as (TS & LT & KT & PM).
  destruct (C80_ever e ext s funder author k rlsk rls rrk rr ts lt conf token name symbol decimals recipient amount attached n CK OI LN LS RL RO FK V HL LF)
    as (s1 & w & C1 & (OW & UW & wn & pn & WK & WF) & NF & LK & LFU & FRM). fold ev in NF, WF. fold i in C1.
  pose proof V as (V1 & V2 & V3). pose proof HL as (HL1 & HL2 & HL3).
  assert (FP : 0 <= filing_price e rr) by (unfold filing_price, record_price; lia).
  destruct (filed_confirmed c_wever_event _ e ext s s1 _ i funder author k rls rrk rr ts lt conf ev w voters C1 eq_refl N V3 V2 HL3 HL2 (proj1 RO) Q NF OW UW) as (s2 & l & A & O2 & U2 & CF & N2 & NW & LV & KP0).
  { intros x X. destruct (key_dec x funder) as [->|XF]; [lia|rewrite FRM by assumption; lia]. }
  { exact FRM. }
  { intros g m rls' rr' B. apply bo_asked in B. apply B. }
  pose proof (fun j (U : used s j) => KP0 j (used_ne s j funder HL3 HL2 U) (used_ne s j k V3 V2 U)) as KP.
  set (w2 := p_with_signers w l) in *. destruct NF as (EV & ST & _).
  assert (E2 : event_of w2 = ev) by exact EV. assert (ST2 : status_of w2 = WNew) by exact ST.
  assert (F2 : ever_filed e s2 k w2).
  { split; [exact O2|]. split; [exact U2|]. exists wn, pn. split; [exact WK|exact WF]. }
  destruct MRD as (MI & MA & MS & MN).
  assert (KD : used s dst) by (left; eapply tok_data; exact TR). assert (KM : used s mint) by (left; eapply mint_data; exact MI).
  assert (KS : used s tsk) by (left; destruct TS as (_ & U & _); eapply unpack_data; [|exact U|reflexivity]; typeclasses eauto).
  assert (KK : used s sk) by (left; destruct RU as ((st & (_ & U & _) & _) & _); eapply unpack_data; [|exact U|reflexivity]; typeclasses eauto).
  destruct (KP dst KD) as (D1 & D2 & _). destruct (KP mint KM) as (W1 & W2 & _). destruct (KP tsk KS) as (S1 & S2 & S5 & _). destruct (KP sk KK) as (S3 & S4 & _).
  assert (TD : today tks s2 = today tks s) by (unfold today; rewrite NW; reflexivity).
  assert (EG : ever_gross w2 md = rescale amount decimals (tm_decimals md)) by (unfold ever_gross; rewrite E2; reflexivity).
  destruct (C72_ever e ext s2 k w2 mint md dst tsk tks sk) as (s3 & st & tks' & C3 & _ & _ & RQ & _ & PAID); rewrite ?EG; try (unfold ever_scales; rewrite E2); rewrite ?E2 in *; cbn [ev wee_token wee_decimals wee_amount wee_payload wee_recipient] in *; try fold gross; try fold fee; try fold net; try assumption.
  - unfold clock_ok in *. rewrite NW. exact CK.
  - split; [destruct TS as (TO & TU & TA); unfold token_settings_of; rewrite S1, S2; auto|]. split; [pose proof (N tsk); lia|]. split; [exact KT|exact PM].
  - eapply same_running; [exact S3|exact S4|exact RU].
  - rewrite TD. exact B1.
  - split; [eapply same_mint; [exact W1|exact W2|exact MI]|]. split; [exact MA|]. split; [exact MS|]. intros r' TR'. apply MN. destruct TR' as [X Y]. unfold tok_in, tacc_in in *. rewrite D1, D2 in *. auto.
  - exists r. split; [eapply same_tok; [exact D1|exact D2|exact TR]|]. do 3 (split; [assumption|]). left. split; [reflexivity|exact OR].
  - rewrite EG in PAID. fold gross in PAID. fold fee in PAID. fold net in PAID. destruct PAID as (-> & _ & SU & _ & BB & REST).
    { unfold over_limit in *. rewrite TD. exact NL. }
    exists s1, s2, s3, (w_set_status w2 (settled_status [])).
    split; [exact C1|]. split; [exact A|]. split; [exact C3|].
    split; [rewrite (BB NNM), (same_balance s s2 dst D1 D2); reflexivity|]. split; [rewrite SU, (same_supply s s2 mint W1 W2); reflexivity|].
    split; [|split; [exact LV|split; [exact RQ|split; [exact EV|reflexivity]]]].
    intros j J J1 J2. destruct (KP j) as (P1 & P2 & _); [right; rewrite J; discriminate|].
    destruct (REST j) as [X Y]; [congruence|intros [->| ->]; contradiction|]. split; congruence.
Qed.

(** The first withdrawal of a token of Everscale: somebody pays for the accounts of the token, and nobody has prepared anything on Solana. *)
Theorem C83_first : forall e ext s funder payer author k tsk mint ata sk rlsk rls rrk rr ts lt conf token name symbol decimals recipient amount attached n mn tn an voters,
  let ev := WEverEvent token name symbol decimals amount recipient [] in
  let i := TpWithdrawEverRequest ts lt conf token name symbol decimals recipient amount [] attached in
  let gross := rescale amount decimals (Z.min 9 decimals) mod 2 ^ 64 in let fee := fee_on (FeeInfo 5 10000) gross in let net := gross - fee in
  nonneg s -> clock_ok s -> okb c_tp_ix i = true -> blen name <= 32 -> blen symbol <= 32 -> decimals <= 47 -> fee <= gross ->
  loader_settings e s rlsk rls -> round_open e s rrk rr -> (exists st, bridge_settings e s sk st /\ gs_emergency st = false) ->
  request_address e (rr_number rr) ts lt conf (enc c_wever_event ev) k n -> vacant s k -> has_lamports s funder (filing_price e rr) -> lam (accs s funder) < 2 ^ 64 ->
  quorum s k rr rls voters ->
  find_pda e (str "mint" ++ kb (token_hash e token)) tp_id = Ok (mint, mn) -> find_pda e (str "settings" ++ kb (token_hash e token)) tp_id = Ok (tsk, tn) ->
  find_pda e (kb recipient ++ kb spl_id ++ kb mint) ata_id = Ok (ata, an) ->
  vacant s mint -> vacant s tsk -> AtaGo.unused s ata -> lam (accs s ata) < 2 ^ 64 -> mint <> native_mint ->
  NoDup [k; mint; tsk; ata; funder; payer] -> (forall x, In x voters -> x <> mint /\ x <> tsk /\ x <> ata) ->
  has_lamports s payer (mint_price e + token_price e + record_price e) ->
  exists s1 s2 s3 w,
    tp_call e ext (request_ever_accounts funder author k rlsk rrk []) i s s1 /\ confirm_all e ext k rrk voters s1 s2 /\
    tp_call e ext (first_accounts payer k mint ata tsk sk recipient) TpWithdrawEver s2 s3 /\
    balance s3 ata = net /\ supply s3 mint = net /\ (exists r, tok_in s3 ata r /\ ta_mint r = mint /\ ta_owner r = recipient) /\
    (forall j, own (accs s j) = spl_id -> own (accs s3 j) = spl_id /\ dat (accs s3 j) = dat (accs s j)) /\
    (forall x, In x voters -> lam (accs s2 x) = lam (accs s1 x) + 20000) /\
    ever_request e s3 k w /\ event_of w = ev /\ status_of w = WProcessed.
Proof.
  intros e ext s funder payer author k tsk mint ata sk rlsk rls rrk rr ts lt conf token name symbol decimals recipient amount attached n mn tn an voters ev i gross fee net
    N CK OI LN LS D47 FF RL RO BS FK V HL LF Q FM FT FA VM VT UA LA NNM ND NV HP.
  destruct (C80_ever e ext s funder author k rlsk rls rrk rr ts lt conf token name symbol decimals recipient amount attached n CK OI LN LS RL RO FK V HL LF)
    as (s1 & w & C1 & (OW & UW & wn & pn & WK & WF) & NF & LK & LFU & FRM). fold ev in NF, WF. fold i in C1.
  pose proof V as (V1 & V2 & V3). pose proof HL as (HL1 & HL2 & HL3).
  assert (FP : 0 <= filing_price e rr) by (unfold filing_price, record_price; lia).
  destruct (filed_confirmed c_wever_event _ e ext s s1 _ i funder author k rls rrk rr ts lt conf ev w voters C1 eq_refl N V3 V2 HL3 HL2 (proj1 RO) Q NF OW UW) as (s2 & l & A & O2 & U2 & CF & N2 & NW & LV & KP0).
  { intros x X. destruct (key_dec x funder) as [->|XF]; [lia|rewrite FRM by assumption; lia]. }
  { exact FRM. }
  { intros g m rls' rr' B. apply bo_asked in B. apply B. }
  pose proof (fun j (U : used s j) => KP0 j (used_ne s j funder HL3 HL2 U) (used_ne s j k V3 V2 U)) as KP.
  set (w2 := p_with_signers w l) in *. destruct NF as (EV & ST & _).
  assert (E2 : event_of w2 = ev) by exact EV. assert (ST2 : status_of w2 = WNew) by exact ST.
  assert (F2 : ever_filed e s2 k w2).
  { split; [exact O2|]. split; [exact U2|]. exists wn, pn. split; [exact WK|exact WF]. }
  rewrite !NoDup_cons_iff in ND. cbn [In] in ND.
  assert (NI : (k <> mint /\ k <> tsk /\ k <> ata /\ k <> payer) /\ (mint <> tsk /\ mint <> ata /\ mint <> funder) /\ (tsk <> ata /\ tsk <> funder) /\ ata <> funder /\ ata <> payer /\ funder <> payer) by (repeat split; intros X; subst; tauto).
  destruct NI as ((I1 & I2 & I3 & I4) & (I5 & I6 & I7) & (I8 & I9) & I10 & I11 & I12).
  assert (KK : used s sk) by (left; destruct BS as (st & (_ & U & _) & _); eapply unpack_data; [|exact U|reflexivity]; typeclasses eauto).
  destruct (KP sk KK) as (S3 & S4 & _).
  destruct (KP0 mint I7) as (M1 & M2 & _ & M3); [congruence|]. specialize (M3 (fun X => proj1 (NV _ X) eq_refl)).
  destruct (KP0 tsk I9) as (T1 & T2 & _ & T3); [congruence|]. specialize (T3 (fun X => proj1 (proj2 (NV _ X)) eq_refl)).
  destruct (KP0 ata I10) as (A1 & A2 & _ & A3); [congruence|]. specialize (A3 (fun X => proj2 (proj2 (NV _ X)) eq_refl)).
  destruct (KP0 payer) as (P1 & P2 & P3 & _); [congruence|congruence|].
  assert (BS2 : exists st, bridge_settings e s2 sk st /\ gs_emergency st = false).
  { destruct BS as (st & (X1 & X2 & X3) & Y). exists st. split; [|exact Y]. unfold bridge_settings. rewrite S3, S4. auto. }
  destruct VM as (VM1 & VM2 & VM3). destruct VT as (VT1 & VT2 & VT3). destruct UA as (UA1 & UA2 & UA3). destruct HP as (HP1 & HP2 & HP3).
  destruct (C79_first_partial e ext s2 payer k w2 mint tsk ata sk mn tn an) as (s3 & tks & C3 & _ & _ & RQ & PAID); rewrite ?E2; cbn [ev wee_token wee_decimals wee_amount wee_payload wee_recipient wee_name wee_symbol]; try assumption; try reflexivity; try congruence.
  - unfold clock_ok in *. rewrite NW. exact CK.
  - unfold vacant. rewrite M1, M2, M3. auto.
  - unfold vacant. rewrite T1, T2, T3. auto.
  - unfold AtaGo.unused. rewrite A1, A2, A3. auto.
  - unfold has_lamports. rewrite P1, P2. split; [lia|auto].
  - rewrite E2 in *. cbn [ev wee_token wee_decimals wee_amount wee_payload wee_recipient wee_name wee_symbol] in *. fold gross in PAID. fold fee in PAID. fold net in PAID.
    destruct PAID as ((r & BE & RM) & SU & _ & BB & REST). rewrite E2 in BE.
    exists s1, s2, s3, (w_set_status w2 WProcessed). split; [exact C1|]. split; [exact A|]. split; [exact C3|].
    split; [rewrite (BB NNM); unfold balance; rewrite A1, UA2; reflexivity|]. split; [rewrite SU; unfold supply; rewrite M1, VM2; reflexivity|].
    split; [|split; [|split; [exact LV|split; [exact RQ|split; [exact EV|reflexivity]]]]].
    + exists r. unfold belongs in BE. cbn [ev wee_payload wee_recipient] in BE. destruct BE as [X [[_ Y]|[Y _]]]; [|contradiction]. split; [exact X|split; [exact RM|exact Y]].
    + intros j J. destruct (KP j) as (X1 & X2 & _); [right; rewrite J; discriminate|].
      destruct (REST j) as [X Y]; [congruence|intros [->| ->]; [rewrite UA2 in J|rewrite VM2 in J]; discriminate J|]. split; congruence.
Qed.

(** * Examples *)

Definition fb : list key := [trls; tround; tfunder; tw1; ttsS; tvault; trecvS; tset; trelay1; trelay2; trelay3; tw5; tmintE; ttsE; trecvE; tuser; tw7].
Definition xb2 : list acct := Eval vm_compute in map (accs ts2) fb.
Lemma xb2_is : map (accs ts2) fb = xb2. Proof. vm_compute. reflexivity. Qed.
Lemma atb2 n k : nth_error fb n = Some k -> accs ts2 k = nth n xb2 no_acct.
Proof. intros H. pose proof (map_nth_error (accs ts2) n fb H) as M. rewrite xb2_is in M. symmetry. apply nth_error_nth. exact M. Qed.
Definition xb8 : list acct := Eval vm_compute in map (accs ts8) fb.
Lemma xb8_is : map (accs ts8) fb = xb8. Proof. vm_compute. reflexivity. Qed.
Lemma atb8 n k : nth_error fb n = Some k -> accs ts8 k = nth n xb8 no_acct.
Proof. intros H. pose proof (map_nth_error (accs ts8) n fb H) as M. rewrite xb8_is in M. symmetry. apply nth_error_nth. exact M. Qed.
Ltac in_bridge a := cbv zeta; unfold loader_settings, round_open, round_stands, vacant, AtaGo.unused, has_lamports, sol_listed, ever_listed, token_settings_of, running, bridge_settings, vault_ready, mint_ready, mint_in, tmint_in, tok_in, tacc_in, balance, the_token, the_mint;
  rewrite ?(a 0%nat trls eq_refl), ?(a 1%nat tround eq_refl), ?(a 2%nat tfunder eq_refl), ?(a 3%nat tw1 eq_refl), ?(a 4%nat ttsS eq_refl), ?(a 5%nat tvault eq_refl), ?(a 6%nat trecvS eq_refl),
    ?(a 7%nat tset eq_refl), ?(a 11%nat tw5 eq_refl), ?(a 12%nat tmintE eq_refl), ?(a 13%nat ttsE eq_refl), ?(a 14%nat trecvE eq_refl), ?(a 15%nat tuser eq_refl), ?(a 16%nat tw7 eq_refl).
Definition voters3 : list key := [trelay3; trelay1; trelay2].
Lemma voters3_quorum s k : k <> trelay1 -> k <> trelay2 -> k <> trelay3 -> (forall x, In x voters3 -> lam (accs s x) + 20000 < 2 ^ 64) -> quorum s k rrD rlsD voters3.
Proof.
  intros K1 K2 K3 L. assert (D : NoDup (rr_relays rrD) /\ NoDup voters3).
  { unfold rrD, voters3. cbn [rr_relays]. split; repeat constructor; cbn [In]; intros X; repeat (destruct X as [X|X]; [vm_compute in X; discriminate X|]); exact X. }
  destruct D as [D1 D2]. split; [exact D1|]. split; [exact D2|]. split; [intros x [<-|[<-|[<-|[]]]]; unfold rrD; cbn [rr_relays In]; tauto|]. split; [reflexivity|]. split; [vm_compute; discriminate|].
  intros x X. split; [|apply L; exact X]. destruct X as [<-|[<-|[<-|[]]]]; congruence.
Qed.
Lemma voters3_in_2 k : k <> trelay1 -> k <> trelay2 -> k <> trelay3 -> quorum ts2 k rrD rlsD voters3.
Proof.
  intros K1 K2 K3. apply voters3_quorum; try assumption. intros x [<-|[<-|[<-|[]]]]; rewrite ?(atb2 8%nat trelay1 eq_refl), ?(atb2 9%nat trelay2 eq_refl), ?(atb2 10%nat trelay3 eq_refl); vm_compute; reflexivity.
Qed.
Lemma voters3_in_8 k : k <> trelay1 -> k <> trelay2 -> k <> trelay3 -> quorum ts8 k rrD rlsD voters3.
Proof.
  intros K1 K2 K3. apply voters3_quorum; try assumption. intros x [<-|[<-|[<-|[]]]]; rewrite ?(atb8 8%nat trelay1 eq_refl), ?(atb8 9%nat trelay2 eq_refl), ?(atb8 10%nat trelay3 eq_refl); vm_compute; reflexivity.
Qed.
Ltac ex_quorum L := apply L; vm_compute; discriminate.
Ltac ex_not_in := vm_compute; intros X; repeat (destruct X as [X|X]; [discriminate X|]); exact X.

(** State [ts2] holds 100000 tokens in the vault; the request [tw1] for 50000. *)
Example C83_sol_ex : let ts := the_token ts2 ttsS in let gross := 50000 mod 2 ^ 64 in let fee := fee_on (tk_fee_wdr ts) gross in let net := gross - fee in
  nonneg ts2 /\ clock_ok ts2 /\ okb c_tp_ix (TpWithdrawSolRequest 7 8 tconf trecv 50000 [] 5000) = true /\ sol_listed te ts2 tmintS tvault ttsS ts /\ loader_settings te ts2 trls rlsD /\ round_open te ts2 tround rrD /\
  request_address te 10 7 8 tconf (enc c_wsol_event (WSolEvent tmintS 50000 trecv [])) tw1 255 /\ vacant ts2 tw1 /\ has_lamports ts2 tfunder (filing_price te rrD) /\ lam (accs ts2 tfunder) < 2 ^ 64 /\
  quorum ts2 tw1 rrD rlsD voters3 /\ ~ In trecvS voters3 /\
  running te ts2 tset ts /\ fee_fits (tk_fee_wdr ts) gross /\ today ts ts2 + net < 2 ^ 64 /\ tk_fee_supply ts + fee < 2 ^ 64 /\ ~ over_limit ts ts2 net /\
  tvault <> trecvS /\ vault_ready ts2 tmintS tvault trecvS net /\ net <= balance ts2 tvault /\
  (exists r, tok_in ts2 trecvS r /\ ta_state r <> TFrozen /\ ta_mint r = tmintS /\ ta_amount r + net < 2 ^ 64 /\ ta_owner r = trecv) /\ net = 49975.
Proof.
  cbv zeta. split; [apply fine2|]. split; [apply fine2|]. in_bridge atb2. split; [ex_vm|]. split; [ex_sol|]. split; [ex_loader|]. split; [ex_round|]. split; [ex_vm|]. split; [split; [ex_vm|split; ex_vm]|].
  split; [split; [ex_vm|split; ex_vm]|]. split; [ex_vm|]. split; [ex_quorum voters3_in_2|]. split; [ex_not_in|]. split; [split; [eexists; split; [ex_bridge|reflexivity]|ex_vm]|]. split; [split; ex_vm|].
  split; [ex_vm|]. split; [ex_vm|]. split; [intros [X|X]; vm_compute in X; discriminate X|]. split; [ex_vm|]. split; [ex_vault|]. split; [ex_vm|].
  split; [eexists; split; [split; ex_vm|]; split; [ex_vm|]; split; [ex_vm|]; split; ex_vm|ex_vm].
Qed.

(** The same state: nothing is known of the Ever token of the request [tw5]. *)
Example C83_first_ex : let gross := rescale 80000 9 (Z.min 9 9) mod 2 ^ 64 in let fee := fee_on (FeeInfo 5 10000) gross in let net := gross - fee in
  okb c_tp_ix (TpWithdrawEverRequest 47 8 tconf tever (str "Ever Token") (str "EVT") 9 trecv 80000 [] 5000) = true /\ fee <= gross /\
  (exists st, bridge_settings te ts2 tset st /\ gs_emergency st = false) /\
  request_address te 10 47 8 tconf (enc c_wever_event tev5) tw5 255 /\ vacant ts2 tw5 /\ quorum ts2 tw5 rrD rlsD voters3 /\
  find_pda te (str "mint" ++ kb (token_hash te tever)) tp_id = Ok (tmintE, 255) /\ find_pda te (str "settings" ++ kb (token_hash te tever)) tp_id = Ok (ttsE, 255) /\
  find_pda te (kb trecv ++ kb spl_id ++ kb tmintE) ata_id = Ok (trecvE, 255) /\ vacant ts2 tmintE /\ vacant ts2 ttsE /\ AtaGo.unused ts2 trecvE /\ lam (accs ts2 trecvE) < 2 ^ 64 /\ tmintE <> native_mint /\
  NoDup [tw5; tmintE; ttsE; trecvE; tfunder; tuser] /\ (forall x, In x voters3 -> x <> tmintE /\ x <> ttsE /\ x <> trecvE) /\ has_lamports ts2 tuser (mint_price te + token_price te + record_price te) /\ net = 79960.
Proof.
  in_bridge atb2. split; [ex_vm|]. split; [ex_vm|]. split; [eexists; split; [ex_bridge|reflexivity]|]. split; [ex_vm|]. split; [split; [ex_vm|split; ex_vm]|]. split; [ex_quorum voters3_in_2|].
  do 3 (split; [ex_vm|]). do 3 (split; [split; [ex_vm|split; ex_vm]|]). split; [ex_vm|]. split; [ex_vm|].
  split; [repeat constructor; ex_not_in|]. split; [intros x [<-|[<-|[<-|[]]]]; vm_compute; repeat split; discriminate|]. split; [split; [ex_vm|split; ex_vm]|ex_vm].
Qed.
(** State [ts8], where the token is registered; the request [tw7]. *)
Lemma fine8 : fine ts8.
Proof. unfold ts8; fine_step. fine_frozen. Qed.
Example C83_ever_ex : let ts := the_token ts8 ttsE in let md := the_mint ts8 tmintE in let amount := 2 ^ 64 + 70000 in
  let gross := rescale amount 9 (tm_decimals md) mod 2 ^ 64 in let fee := fee_on (tk_fee_wdr ts) gross in let net := gross - fee in
  nonneg ts8 /\ clock_ok ts8 /\ okb c_tp_ix (TpWithdrawEverRequest 67 8 tconf tever (str "Ever Token") (str "EVT") 9 trecv amount [] 5000) = true /\
  ever_listed te ts8 tever tmintE ttsE ts /\ loader_settings te ts8 trls rlsD /\ round_open te ts8 tround rrD /\
  request_address te 10 67 8 tconf (enc c_wever_event tev7) tw7 255 /\ vacant ts8 tw7 /\ has_lamports ts8 tfunder (filing_price te rrD) /\ lam (accs ts8 tfunder) < 2 ^ 64 /\
  quorum ts8 tw7 rrD rlsD voters3 /\ Z.abs (9 - tm_decimals md) <= 38 /\ rescale amount 9 (tm_decimals md) < 2 ^ 128 /\
  running te ts8 tset ts /\ fee_fits (tk_fee_wdr ts) gross /\ today ts ts8 + net < 2 ^ 64 /\ tk_fee_supply ts + fee < 2 ^ 64 /\ ~ over_limit ts ts8 net /\
  mint_ready ts8 tmintE trecvE md net /\ tmintE <> native_mint /\
  (exists r, tok_in ts8 trecvE r /\ ta_state r <> TFrozen /\ ta_mint r = tmintE /\ ta_amount r + net < 2 ^ 64 /\ ta_owner r = trecv) /\ net = 69965.
Proof.
  cbv zeta. split; [apply fine8|]. split; [apply fine8|]. in_bridge atb8. split; [ex_vm|]. split; [ex_ever|]. split; [ex_loader|]. split; [ex_round|]. split; [ex_vm|]. split; [split; [ex_vm|split; ex_vm]|].
  split; [split; [ex_vm|split; ex_vm]|]. split; [ex_vm|]. split; [ex_quorum voters3_in_8|]. split; [ex_vm|]. split; [ex_vm|]. split; [split; [eexists; split; [ex_bridge|reflexivity]|ex_vm]|]. split; [split; ex_vm|].
  split; [ex_vm|]. split; [ex_vm|]. split; [intros [X|X]; vm_compute in X; discriminate X|].
  split; [split; [split; ex_vm|]; split; [ex_vm|]; split; [ex_vm|]; intros r [_ R]; vm_compute in R; injection R as <-; reflexivity|]. split; [ex_vm|].
  split; [eexists; split; [split; ex_vm|]; split; [ex_vm|]; split; [ex_vm|]; split; ex_vm|ex_vm].
Qed.

Print Assumptions C83_sol.
Print Assumptions C83_ever.
Print Assumptions C83_first.
