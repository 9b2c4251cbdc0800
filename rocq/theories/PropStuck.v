(** Property C86: a withdrawal that comes to nothing can never be finished. *)

From Coq Require Import Strings.String ZifyBool ZifyNat ZifyN.
From Verif Require Import TpDemoLaws TpFlow TpOk TpEffects PropTpReq PropTpFlow PropTpPay PropTpMoney PropTpMisc PropTpOutcome PropLive PropExec PropFees PropBasics.
Open Scope Z_scope.
Open Scope list_scope.
Ltac Zify.zify_post_hook ::= Z.div_mod_to_equations.

(** * Lemmas *)

(** A new request with event [b], with lamports for the missing votes. *)
Definition waiting (e : env) (k : key) (b : bytes) (s : state) : Prop :=
  nonneg s /\ exists g m, request_at e s k g m /\ p_event g = b /\ wm_status m = WNew /\ funded s k g.

Lemma waiting_step e k b ext c i s s' : no_collision e k -> tp_call e ext c i s s' -> tp_ext e 0 ext -> payload_checked e c i s -> waiting e k b s ->
  (forall g m st, request_at e s k g m -> p_event g = b -> wm_status m = WNew -> nth_error (c_keys c) 0 = Some k -> p_required g <= confirms (p_signers g) ->
     request_at e s' k (g_meta g (m_status m st)) (m_status m st) -> i = TpWithdrawEver \/ i = TpWithdrawSol -> st = WNew) ->
  waiting e k b s'.
Proof.
  intros NC C X PC (N & g & m & R & EB & ST & F) NO.
  pose proof (req_call _ _ _ _ _ _ _ _ _ C (ext0_outside _ _ X) PC NC R) as CH.
  assert (NCL : not_closing k c i).
  { intros [-> HD]. destruct CH as [SO|? ? ? ? ? ? E|? ? ? E|st MV|E HD' [Y|Y] _]; try discriminate; try congruence.
    apply tp_call_exec in C as (_ & _ & _ & C). cbn [tp_exec] in C.
    apply tp_close_withdrawal_ok in C as (wk & a & rest & g0 & m0 & KS & _ & _ & _ & _ & _ & D). rewrite KS in HD. injection HD as ->.
    destruct D as (_ & O & _). destruct SO as [SO _]. destruct R as (O1 & _). rewrite SO, O1 in O. discriminate. }
  destruct (req_step _ _ _ _ _ _ _ _ _ C X PC NC R NCL N F) as (g' & m' & R' & EV & F' & N').
  split; [exact N'|]. exists g', m'. split; [exact R'|]. split; [rewrite (ev_event _ _ _ _ EV); exact EB|]. split; [|exact F'].
  destruct CH as [SO|v relay rrk rr j n Ei NV SG _ _ _ PO NO' LR DL SO R2|b' a ev Ei SG _ AU PST R2|st' MV WP QU R2|Ei HD Y _].
  - destruct (request_fun _ _ _ _ _ _ _ (request_same _ _ _ _ _ _ SO R) R') as [_ ->]. exact ST.
  - destruct (request_fun _ _ _ _ _ _ _ R2 R') as [_ ->]. exact ST.
  - congruence.
  - destruct (request_fun _ _ _ _ _ _ _ R2 R') as [_ ->]. rewrite ST in MV.
    change (st' = WNew). clear - MV WP QU R R2 EB ST NO.
    assert (J : (i = TpWithdrawEver \/ i = TpWithdrawSol) /\ nth_error (c_keys c) 0 = Some k /\ is_exec i = true).
    { clear - MV WP. destruct i; cbn in MV; try discriminate MV; cbn [wpos] in WP; auto. }
    destruct J as (J1 & J2 & J3). exact (NO g m st' R EB ST J2 (QU J3) R2 J1).
  - destruct Y as [Y|Y]; congruence.
Qed.

Lemma waiting_hist e k b (prog : state -> state -> Prop) s s' : no_collision e k -> (forall s s', prog s s' -> waiting e k b s -> waiting e k b s') -> hist e tp_id prog s s' ->
  waiting e k b s -> waiting e k b s'.
Proof.
  intros NC ST H. induction H as [s|s s1 s2 _ IH H|s s1 s2 _ IH H|s s1 s2 _ IH H]; intros W; [exact W| | |]; specialize (IH W).
  - exact (ST _ _ H IH).
  - destruct IH as (N1 & g & m & R & EB & NE & F). split; [intros j; apply (H j); apply N1|]. exists g, m.
    destruct (H k) as (_ & H2 & _). destruct (H2 (proj1 R)) as [SO LE].
    split; [eapply request_same; eassumption|]. split; [exact EB|]. split; [exact NE|]. exact (Z.le_trans _ _ _ F LE).
  - destruct IH as (N1 & g & m & R & EB & NE & F). split; [intros j; destruct (H j) as [->|[_ ->]]; [apply N1|apply Z.le_refl]|]. exists g, m.
    assert (EA : accs s2 k = accs s1 k).
    { destruct (H k) as [E|[Z _]]; [exact E|]. exfalso. clear - F Z. unfold funded, RELAY_REPARATION in F.
      pose proof (blen_nonneg (filter (vote_eqb VNone) (p_signers g))). unfold missing in F. lia. }
    split; [unfold request_at; rewrite EA; exact R|]. split; [exact EB|]. split; [exact NE|]. unfold funded; rewrite EA; exact F.
Qed.

Lemma fee_positive f x : 1 <= fee_on f x.
Proof. unfold fee_on. lia. Qed.
Lemma funded_lam s k g : funded s k g -> 0 < lam (accs s k).
Proof. unfold funded, RELAY_REPARATION, missing. pose proof (blen_nonneg (filter (vote_eqb VNone) (p_signers g))). lia. Qed.

Lemma confirms_confirmed l : confirms l = confirmed l.
Proof.
  unfold confirms, confirmed, blen. do 2 f_equal.
Qed.
Lemma wever_event_ok e s k w : wever_in e tp_id s k w -> okb c_wever_event (wl_data (p_event w)) = true.
Proof.
  intros V. destruct (wever_facts _ _ _ _ _ V) as (OW & _). unfold c_wever, wever in OW. rewrite (okb_prop (c_withlen c_wever_event) (c_withlen c_wmeta)) in OW.
  rewrite !andb_true_iff in OW. destruct OW as (_ & _ & _ & _ & OW & _). rewrite okb_withlen, andb_true_iff in OW. apply OW.
Qed.
Lemma wsol_event_ok e s k w : wsol_in e tp_id s k w -> okb c_wsol_event (wl_data (p_event w)) = true.
Proof.
  intros V. destruct (wsol_facts _ _ _ _ _ V) as (OW & _). unfold c_wsol, wsol in OW. rewrite (okb_prop (c_withlen c_wsol_event) (c_withlen c_wmeta)) in OW.
  rewrite !andb_true_iff in OW. destruct OW as (_ & _ & _ & _ & OW & _). rewrite okb_withlen, andb_true_iff in OW. apply OW.
Qed.
Lemma sol_stays e k ext c s s' g m w : tp_call e ext c TpWithdrawSol s s' -> request_at e s k g m -> wm_status m = WNew -> nth_error (c_keys c) 0 = Some k ->
  p_required g <= confirms (p_signers g) -> wsol_in e tp_id s k w -> g = gen_prop c_wsol_event c_wmeta w -> m = wl_data (p_meta w) ->
  wse_amount (event_of w) mod 2 ^ 64 = 0 -> False.
Proof.
  intros C R ST K0 QU WI EG EM Z0. pose proof C as CC.
  apply tp_call_exec in C as (Hp & _ & CK & H). cbn [tp_exec] in H.
  apply withdraw_sol_outcome in H as (k' & w' & K' & WI' & SO); [|exact Hp|exact CK].
  rewrite K0 in K'. injection K' as <-.
  assert (w' = w). { destruct WI as [U _], WI' as [U' _]. pose proof (eq_trans (eq_sym U) U') as E'. injection E' as E'. symmetry. exact E'. } subst w'.
  subst g m. change (status_of w = WNew) in ST.
  cbn [gen_prop p_required p_signers] in QU. rewrite (confirms_confirmed (p_signers w)) in QU.
  destruct SO as [_ [[X _]|[X|X]]|vault tsk ts fee net st dst _ X|vault tsk ts fee net st dst _ _ _ _ _ _ _ EF EN N0]; try congruence; [lia|].
  rewrite Z0 in *. pose proof (fee_positive (tk_fee_wdr ts) 0). lia.
Qed.

(** If a confirmed Ever request moves on, its amount in units of the mint covers the fee. *)
Lemma ever_exec_mint e c s0 s' k mint dst tsk settings rest w : c_pid c = tp_id -> clock_ok s0 -> c_keys c = k :: mint :: dst :: tsk :: settings :: rest ->
  wever_in e tp_id s0 k w -> ever_exec_eff e c w k mint dst tsk (now s0) s0 s' -> status_of w = WNew -> p_required w <= confirmed (p_signers w) ->
  lam (accs s0 tsk) <> 0 \/ own (accs s0 mint) = spl_id ->
  exists md ts amount, tp_addr e (str "mint" ++ kb (token_hash e (wee_token (event_of w)))) mint /\ tmint_in s' mint md /\
    get_withdrawal_amount (wee_amount (event_of w)) (wee_decimals (event_of w)) (tm_decimals md) = Ok amount /\ fee_on (tk_fee_wdr ts) amount <= amount.
Proof.
  intros Hp CK K WI E ST QU D.
  pose proof (exec_outcome e c s0 s0 s' k mint dst tsk settings rest w Hp CK K (prelude_refl s0) (same_od_refl _ _) WI E) as OC.
  pose proof (ever_confirms _ _ _ _ _ WI) as CF.
  destruct OC as [SU RE [X|[X|(tsk' & K3 & L0)]]|s1 mint' md md' tsk' ts amount fee net st dst' PR _ _ _ K1 _ _ ET GA EF EN N0 _ TM DE _ _].
  - congruence.
  - lia.
  - rewrite K in K3. injection K3 as <-. destruct D as [D|D]; [contradiction|].
    destruct E as (ts & mn & m & d & md & V & KT & EM & PM & TM & CASE). rewrite Hp in *.
    destruct CASE as [(_ & [Y|Y])|(_ & _ & amount & fee & net & st & s1 & GA & F & NE & N0 & _)]; [lia|contradiction|].
    destruct (fee_on_of _ _ _ _ F) as [_ FE]. exists md, ts, amount. split; [exists mn; exact PM|]. split.
    + destruct (RE mint D) as [_ RD]; [intros []|]. unfold tmint_in. rewrite RD. exact TM.
    + split; [exact GA|lia].
  - rewrite K in K1. injection K1 as <-. exists md', ts, amount. destruct ET as (PM & _). split; [exact PM|]. split; [exact TM|]. rewrite DE. split; [exact GA|lia].
Qed.

(** * C86 A withdrawal that comes to nothing can never be finished *)

(** A new request to pay from a vault, for an amount that is 0 as a 64-bit number: whatever anybody does with the bridge, and
    however the relays vote, it stays new.  It is neither paid nor approved, cancelled, filled or closed, and its lamports stay in it.
    (The event must not read as one of an Everscale token as well, see C06.) *)
Theorem C86_sol : forall e k s s' g m ev, no_collision e k -> req_hist e any_instr s s' -> nonneg s -> request_at e s k g m -> funded s k g ->
  wm_status m = WNew -> okb c_wsol_event ev = true -> p_event g = enc c_wsol_event ev -> (forall v, okb c_wever_event v = true -> enc c_wever_event v <> p_event g) ->
  wse_amount ev mod 2 ^ 64 = 0 ->
  exists g' m', request_at e s' k g' m' /\ p_event g' = p_event g /\ wm_status m' = WNew /\ 0 < lam (accs s' k).
Proof.
  intros e k s s' g m ev NC H N R F ST OE EB UN Z0.
  assert (W : waiting e k (p_event g) s').
  { refine (waiting_hist e k (p_event g) _ s s' NC _ H (conj N (ex_intro _ g (ex_intro _ m (conj R (conj eq_refl (conj ST F))))))).
    clear s s' m H N R F ST; intros s s' (c & ext & i & C & S & X & PC & _) W.
    refine (waiting_step _ _ _ _ _ _ _ _ NC C X PC W _).
    intros g1 m1 st R1 E1 S1 K0 QU R2 [-> | ->]; exfalso.
    - apply tp_call_exec in C as (Hp & _ & CK & H). cbn [tp_exec] in H.
      apply withdraw_ever_outcome in H as (k' & w' & K' & WI' & _); [|exact Hp|exact CK]. rewrite K0 in K'. injection K' as <-.
      destruct (wever_request _ _ _ _ _ _ NC R1 WI') as (EG & _ & _ & _).
      apply (UN (wl_data (p_event w'))); [|rewrite <- E1, EG; reflexivity]. eapply wever_event_ok; exact WI'.
    - assert (WI : exists w, wsol_in e tp_id s k w).
      { apply tp_call_exec in C as (Hp & _ & CK & H). cbn [tp_exec] in H.
        apply withdraw_sol_outcome in H as (k' & w' & K' & WI' & _); [|exact Hp|exact CK]. rewrite K0 in K'. injection K' as <-. exists w'. exact WI'. }
      destruct WI as [w WI]. destruct (wsol_request _ _ _ _ _ _ NC R1 WI) as (EG & EM & _ & _).
      refine (sol_stays e k ext c s s' g1 m1 w C R1 S1 K0 QU WI EG EM _).
      assert (EV : event_of w = ev).
      { apply (enc_inj c_wsol_event _); [eapply wsol_event_ok; exact WI|exact OE|]. rewrite <- EB, <- E1, EG. reflexivity. }
      rewrite EV. exact Z0. }
  destruct W as (_ & g' & m' & R' & E' & S' & F'). exists g', m'. split; [exact R'|]. split; [exact E'|]. split; [exact S'|]. eapply funded_lam; exact F'.
Qed.

(** The same for tokens of Everscale.  [coarse e ev s]: in units of the token's mint on Solana, if there is one in [s], the amount is
    0 as a 64-bit number. *)
Definition coarse (e : env) (ev : wever_event) (s : state) : Prop := forall mint md,
  tp_addr e (str "mint" ++ kb (token_hash e (wee_token ev))) mint -> tmint_in s mint md ->
  Z.abs (wee_decimals ev - tm_decimals md) <= 38 /\ rescale (wee_amount ev) (wee_decimals ev) (tm_decimals md) mod 2 ^ 64 = 0.
Theorem C86_ever : forall e k s s' g m ev, no_collision e k -> hist e tp_id (fun s1 s2 => req_instr e any_instr s1 s2 /\ coarse e ev s2) s s' -> nonneg s ->
  request_at e s k g m -> funded s k g ->
  wm_status m = WNew -> okb c_wever_event ev = true -> p_event g = enc c_wever_event ev -> (forall v, okb c_wsol_event v = true -> enc c_wsol_event v <> p_event g) ->
  exists g' m', request_at e s' k g' m' /\ p_event g' = p_event g /\ wm_status m' = WNew /\ 0 < lam (accs s' k).
Proof.
  intros e k s s' g m ev NC H N R F ST OE EB UN.
  assert (W : waiting e k (p_event g) s').
  { refine (waiting_hist e k (p_event g) _ s s' NC _ H (conj N (ex_intro _ g (ex_intro _ m (conj R (conj eq_refl (conj ST F))))))).
    clear s s' m H N R F ST; intros s s' ((c & ext & i & C & S & X & PC & _) & CO) W.
    refine (waiting_step _ _ _ _ _ _ _ _ NC C X PC W _).
    intros g1 m1 st R1 E1 S1 K0 QU R2 [-> | ->].
    - apply tp_call_exec in C as (Hp & _ & CK & H). cbn [tp_exec] in H.
      apply tp_withdraw_ever_ok in H as (k' & mint & dst & tsk & sk & x & y & z & u & rest & w & t & K & -> & WI & _ & CASE).
      rewrite Hp in *. rewrite K in K0. cbn [nth_error] in K0. injection K0 as ->.
      destruct (wever_request _ _ _ _ _ _ NC R1 WI) as (EG & EM & _ & _).
      assert (EV : event_of w = ev).
      { apply (enc_inj c_wever_event _); [eapply wever_event_ok; exact WI|exact OE|]. rewrite <- EB, <- E1, EG. reflexivity. }
      assert (SW : status_of w = WNew) by (rewrite EM in S1; exact S1).
      assert (QW : p_required w <= confirmed (p_signers w)) by (rewrite EG in QU; cbn [gen_prop p_required p_signers] in QU; rewrite (confirms_confirmed (p_signers w)) in QU; exact QU).
      assert (NO : forall md ts amount, tp_addr e (str "mint" ++ kb (token_hash e (wee_token (event_of w)))) mint -> tmint_in s' mint md ->
         get_withdrawal_amount (wee_amount (event_of w)) (wee_decimals (event_of w)) (tm_decimals md) = Ok amount -> fee_on (tk_fee_wdr ts) amount <= amount -> False).
      { intros md ts amount PM TM GA LE. rewrite EV in *. destruct (CO mint md PM TM) as [D Z0]. rewrite (gwa_rescale _ _ _ _ D GA), Z0 in LE.
        pose proof (fee_positive (tk_fee_wdr ts) 0). lia. }
      destruct CASE as [(L0 & _ & ->)|[(L0 & E)|(_ & f & r' & s0 & _ & RG & WI0 & E)]].
      + destruct (request_fun _ _ _ _ _ _ _ R1 R2) as [_ EM2]. rewrite <- EM2 in S1. exact S1.
      + exfalso. destruct (ever_exec_mint e c s s' k mint dst tsk sk _ w Hp CK K WI E SW QW (or_introl L0)) as (md & ts & amount & A1 & A2 & A3 & A4).
        exact (NO md ts amount A1 A2 A3 A4).
      + exfalso. pose proof (prelude_registered _ _ _ _ _ _ _ _ Hp RG) as (_ & _ & NW).
        assert (OM : own (accs s0 mint) = spl_id).
        { destruct RG as (mn & tn & ata & an & m & t & _ & _ & _ & _ & _ & _ & _ & _ & (OM & _) & _). exact OM. }
        rewrite <- NW in E. assert (CK0 : clock_ok s0) by (unfold clock_ok in *; rewrite NW; exact CK).
        destruct (ever_exec_mint e c s0 s' k mint dst tsk sk _ w Hp CK0 K WI0 E SW QW (or_intror OM)) as (md & ts & amount & A1 & A2 & A3 & A4).
        exact (NO md ts amount A1 A2 A3 A4).
    - exfalso. apply tp_call_exec in C as (Hp & _ & CK & H). cbn [tp_exec] in H.
      apply withdraw_sol_outcome in H as (k' & w' & K' & WI' & _); [|exact Hp|exact CK]. rewrite K0 in K'. injection K' as <-.
      destruct (wsol_request _ _ _ _ _ _ NC R1 WI') as (EG & _ & _ & _).
      apply (UN (wl_data (p_event w'))); [|rewrite <- E1, EG; reflexivity]. eapply wsol_event_ok; exact WI'. }
  destruct W as (_ & g' & m' & R' & E' & S' & F'). exists g', m'. split; [exact R'|]. split; [exact E'|]. split; [exact S'|]. eapply funded_lam; exact F'.
Qed.
(** Amounts below one unit of the mint come to nothing. *)
Theorem C86_dust : forall x from to, to <= from -> 0 <= x < 10 ^ (from - to) -> rescale x from to mod 2 ^ 64 = 0.
Proof.
  intros x from to L H. unfold rescale. destruct (to <? from) eqn:B; [rewrite Z.div_small by exact H; reflexivity|].
  replace (from - to) with 0 in H by lia. change (10 ^ 0) with 1 in H. replace x with 0 by lia. reflexivity.
Qed.

(** * Examples *)

(** The demo ledger with two more requests: for 2^64 units of the Solana token, and for 0.000000000999 of the Ever token,
    whose mint has 9 decimals. *)
Definition tw_s := knum 260.
Definition tw_e := knum 261.
Definition tev_s : wsol_event := WSolEvent tmintS (2 ^ 64) trecv [].
Definition tev_e : wever_event := WEverEvent tever (str "Ever Token") (str "EVT") 12 999 trecv [].
Definition ttab2 : list (bytes * key * key) :=
  (with_bump (sd_proposal 10 91 8 tconf (knum 521)) 255, tp_id, tw_s) :: (with_bump (sd_proposal 10 92 8 tconf (knum 522)) 255, tp_id, tw_e) :: ttab.
Definition thash2 : list (bytes * key) := (enc c_wsol_event tev_s, knum 521) :: (enc c_wever_event tev_e, knum 522) :: thash.
Definition te2 : env := demo_env ttab2 thash2.
Definition tstp2 (s : state) (x : list meta * tp_ix) : res state := do_tp te2 no_ext (fst x) (snd x) s.
(** Both filed, then confirmed. *)
Definition tq2r := unres (rbind (tstp2 ts8 (treqS trecv tw_s tround 91 tev_s [])) (fun s => tstp2 s (treqE trecv tw_e tround 92 tev_e []))).
Definition tq2_changes : list (key * acct) := Eval vm_compute in (tw_s, accs tq2r tw_s) :: (tw_e, accs tq2r tw_e) :: changes tq2r.
Definition tq2 : state := frozen tq2_changes [].
Definition tq3 := unres (tstp2 tq2 (tvote trelay1 tw_s tround)).
Definition tq4 := unres (tstp2 tq3 (tvote trelay2 tw_s tround)).
Definition tq5 := unres (tstp2 tq4 (tvote trelay3 tw_s tround)).
Definition tr3 := unres (tstp2 tq2 (tvote trelay1 tw_e tround)).
Definition tr4 := unres (tstp2 tr3 (tvote trelay2 tw_e tround)).
Definition tr5 := unres (tstp2 tr4 (tvote trelay3 tw_e tround)).

Definition is_req2 (s : state) (k : key) : bool :=
  keqb (own (accs s k)) tp_id && is_ok (unpack c_gprop TP_LEN (@p_init _ _) (dat (accs s k))) &&
  match try_from_slice c_wmeta (p_meta (the_req s k)) with Some _ => true | None => false end &&
  match p_kind (the_req s k) with KProposal wn _ =>
    match find_pda te2 (let g := the_req s k in sd_proposal (p_round g) (pd_ts (p_pda g)) (pd_lt (p_pda g)) (pd_conf (p_pda g)) (e_hash te2 (p_event g))) tp_id with
    | Ok (k', n) => keqb k' k && (n =? wn) | Err _ => false end | _ => false end.
Lemma is_req2_at s k : is_req2 s k = true -> request_at te2 s k (the_req s k) (the_meta s k).
Proof.
  unfold is_req2. intros H. rewrite !andb_true_iff in H. destruct H as [[[H1 H2] H3] H4]. apply keqb_eq in H1.
  split; [exact H1|]. unfold the_meta. unfold the_req in *. destruct (unpack c_gprop TP_LEN (@p_init _ _) (dat (accs s k))) as [g|] eqn:U; [|discriminate H2].
  split; [reflexivity|]. destruct (try_from_slice c_wmeta (p_meta g)) as [m|] eqn:M; [|discriminate].
  apply try_from_slice_can in M as [M1 M2]; [|typeclasses eauto]. split; [exact M1|]. split; [exact M2|].
  destruct (p_kind g) as [ | |wn pn| | | ] eqn:KG; try discriminate. destruct (find_pda te2 _ tp_id) as [[k' n]|] eqn:F; [|discriminate].
  apply andb_true_iff in H4 as [H4 H5]. apply keqb_eq in H4. apply Z.eqb_eq in H5. subst. exists wn, pn. split; [reflexivity|first [exact F|reflexivity]].
Qed.
Lemma tstp2_req s x : demo_plainb ttab2 (fst x) = true -> okb c_tp_ix (snd x) = true -> clock_ok s -> is_ok (tstp2 s x) = true -> is_payload (snd x) = false ->
  req_instr te2 any_instr s (unres (tstp2 s x)).
Proof.
  intros B O CK R NP. exists (ctx_of tp_id (fst x)), no_ext, (snd x).
  split; [apply do_tp_call; assumption|]. split; [intros k S P; destruct (demo_plain _ _ _ _ B _ S P)|].
  split; [apply no_ext_tp|]. split; [|exact Logic.I]. intros k _. split; intros E; rewrite E in NP; discriminate.
Qed.

(** What is evaluated: the filing, the votes, and that nothing happens then. *)
Definition tq_list : list bool :=
  [is_ok (tstp2 ts8 (treqS trecv tw_s tround 91 tev_s []));
   is_req2 tq2 tw_s; wstatus_eqb (wm_status (the_meta tq2 tw_s)) WNew; beqb (p_event (the_req tq2 tw_s)) (enc c_wsol_event tev_s); 1 + 20000 * missing (the_req tq2 tw_s) <=? lam (accs tq2 tw_s);
   is_req2 tq2 tw_e; wstatus_eqb (wm_status (the_meta tq2 tw_e)) WNew; beqb (p_event (the_req tq2 tw_e)) (enc c_wever_event tev_e); 1 + 20000 * missing (the_req tq2 tw_e) <=? lam (accs tq2 tw_e);
   is_ok (tstp2 tq2 (tvote trelay1 tw_s tround)); is_ok (tstp2 tq3 (tvote trelay2 tw_s tround)); is_ok (tstp2 tq4 (tvote trelay3 tw_s tround));
   is_ok (tstp2 tq2 (tvote trelay1 tw_e tround)); is_ok (tstp2 tr3 (tvote trelay2 tw_e tround)); is_ok (tstp2 tr4 (tvote trelay3 tw_e tround));
   p_required (the_req tq5 tw_s) <=? confirms (p_signers (the_req tq5 tw_s)); p_required (the_req tr5 tw_e) <=? confirms (p_signers (the_req tr5 tw_e));
   negb (is_ok (tstp2 tq5 (texecS tw_s trecvS tmintS))); negb (is_ok (tstp2 tr5 (texecE tw_e trecvE [])));
   match unpack c_tmint TMINT_LEN tm_init (dat (accs tr5 tmintE)) with Ok m => tm_decimals m =? 9 | Err _ => false end;
   beqb (dat (accs tr3 tmintE)) (dat (accs tq2 tmintE)); beqb (dat (accs tr4 tmintE)) (dat (accs tq2 tmintE)); beqb (dat (accs tr5 tmintE)) (dat (accs tq2 tmintE));
   now tq3 =? 1700000000; now tq4 =? 1700000000; now tr3 =? 1700000000; now tr4 =? 1700000000].
Lemma tq_runs : forallb (fun b => b) tq_list = true.
Proof. vm_compute. reflexivity. Qed.
Lemma tq_run n b : nth_error tq_list n = Some b -> b = true.
Proof. intros H. apply nth_error_In in H. exact (proj1 (forallb_forall _ _) tq_runs b H). Qed.

Lemma tq2_nonneg : nonneg tq2.
Proof. apply frozen_nonneg. vm_compute. reflexivity. Qed.
Lemma weqb_eq a b : wstatus_eqb a b = true -> a = b.
Proof. destruct a, b; cbn; congruence. Qed.
Lemma tmintE_coarse s : beqb (dat (accs s tmintE)) (dat (accs tq2 tmintE)) = true -> coarse te2 tev_e s.
Proof.
  intros E mint md [n A] TM. assert (F : find_pda te2 (str "mint" ++ kb (token_hash te2 (wee_token tev_e))) tp_id = Ok (tmintE, 255)) by (vm_compute; reflexivity).
  rewrite F in A. injection A as <- _. apply beqb_eq in E. unfold tmint_in in TM. rewrite E in TM.
  assert (D : match unpack c_tmint TMINT_LEN tm_init (dat (accs tq2 tmintE)) with Ok m => tm_decimals m | Err _ => 0 end = 9) by (vm_compute; reflexivity).
  rewrite TM in D. rewrite D. split; vm_compute; [discriminate|reflexivity].
Qed.
(** All three relays confirm the request for 2^64 units. *)
Example C86_sol_ex : no_collision te2 tw_s /\ req_hist te2 any_instr tq2 tq5 /\ nonneg tq2 /\ request_at te2 tq2 tw_s (the_req tq2 tw_s) (the_meta tq2 tw_s) /\
  funded tq2 tw_s (the_req tq2 tw_s) /\ wm_status (the_meta tq2 tw_s) = WNew /\ okb c_wsol_event tev_s = true /\ p_event (the_req tq2 tw_s) = enc c_wsol_event tev_s /\
  (forall v, okb c_wever_event v = true -> enc c_wever_event v <> p_event (the_req tq2 tw_s)) /\ wse_amount tev_s mod 2 ^ 64 = 0 /\
  p_required (the_req tq5 tw_s) <= confirms (p_signers (the_req tq5 tw_s)) /\ is_ok (tstp2 tq5 (texecS tw_s trecvS tmintS)) = false.
Proof.
  assert (EV : p_event (the_req tq2 tw_s) = enc c_wsol_event tev_s) by (apply beqb_eq; exact (tq_run 3 _ eq_refl)).
  assert (OV : okb c_wsol_event tev_s = true) by (vm_compute; reflexivity).
  split; [apply (demo_no_collision _ _ _ (enc c_wsol_event tev_s)); vm_compute; reflexivity|]. split.
  { apply (h_prog _ _ _ _ tq4); [apply (h_prog _ _ _ _ tq3); [apply (h_prog _ _ _ _ tq2); [apply h_refl|]|]|]; [unfold tq3|unfold tq4|unfold tq5].
    - apply tstp2_req; [vm_compute; reflexivity|vm_compute; reflexivity|unfold clock_ok; change (now tq2) with 1700000000; unfold i64max; lia|exact (tq_run 9 _ eq_refl)|reflexivity].
    - apply tstp2_req; [vm_compute; reflexivity|vm_compute; reflexivity| |exact (tq_run 10 _ eq_refl)|reflexivity].
      unfold clock_ok. rewrite (proj1 (Z.eqb_eq _ _) (tq_run 23 _ eq_refl)). unfold i64max; lia.
    - apply tstp2_req; [vm_compute; reflexivity|vm_compute; reflexivity| |exact (tq_run 11 _ eq_refl)|reflexivity].
      unfold clock_ok. rewrite (proj1 (Z.eqb_eq _ _) (tq_run 24 _ eq_refl)). unfold i64max; lia. }
  split; [exact tq2_nonneg|]. split; [apply is_req2_at; exact (tq_run 1 _ eq_refl)|]. split; [apply Z.leb_le; exact (tq_run 4 _ eq_refl)|].
  split; [apply weqb_eq; exact (tq_run 2 _ eq_refl)|]. split; [exact OV|]. split; [exact EV|]. split.
  { intros v OK E. rewrite EV in E. destruct (C06_partial v tev_s OK OV E) as [_ X]. vm_compute in X. discriminate X. }
  split; [reflexivity|]. split; [apply Z.leb_le; exact (tq_run 15 _ eq_refl)|]. exact (proj1 (negb_true_iff _) (tq_run 17 _ eq_refl)).
Qed.
(** The same for the 0.000000000999 of the Ever token. *)
Example C86_ever_ex : no_collision te2 tw_e /\ hist te2 tp_id (fun s1 s2 => req_instr te2 any_instr s1 s2 /\ coarse te2 tev_e s2) tq2 tr5 /\ nonneg tq2 /\
  request_at te2 tq2 tw_e (the_req tq2 tw_e) (the_meta tq2 tw_e) /\
  funded tq2 tw_e (the_req tq2 tw_e) /\ wm_status (the_meta tq2 tw_e) = WNew /\ okb c_wever_event tev_e = true /\ p_event (the_req tq2 tw_e) = enc c_wever_event tev_e /\
  (forall v, okb c_wsol_event v = true -> enc c_wsol_event v <> p_event (the_req tq2 tw_e)) /\
  p_required (the_req tr5 tw_e) <= confirms (p_signers (the_req tr5 tw_e)) /\ is_ok (tstp2 tr5 (texecE tw_e trecvE [])) = false /\
  (exists m, tmint_in tr5 tmintE m /\ tm_decimals m = 9).
Proof.
  assert (EV : p_event (the_req tq2 tw_e) = enc c_wever_event tev_e) by (apply beqb_eq; exact (tq_run 7 _ eq_refl)).
  split; [apply (demo_no_collision _ _ _ (enc c_wever_event tev_e)); vm_compute; reflexivity|]. split.
  { apply (h_prog _ _ _ _ tr4); [apply (h_prog _ _ _ _ tr3); [apply (h_prog _ _ _ _ tq2); [apply h_refl|]|]|]; (split; [|]); [unfold tr3| |unfold tr4| |unfold tr5|].
    - apply tstp2_req; [vm_compute; reflexivity|vm_compute; reflexivity|unfold clock_ok; change (now tq2) with 1700000000; unfold i64max; lia|exact (tq_run 12 _ eq_refl)|reflexivity].
    - apply tmintE_coarse. exact (tq_run 20 _ eq_refl).
    - apply tstp2_req; [vm_compute; reflexivity|vm_compute; reflexivity| |exact (tq_run 13 _ eq_refl)|reflexivity].
      unfold clock_ok. rewrite (proj1 (Z.eqb_eq _ _) (tq_run 25 _ eq_refl)). unfold i64max; lia.
    - apply tmintE_coarse. exact (tq_run 21 _ eq_refl).
    - apply tstp2_req; [vm_compute; reflexivity|vm_compute; reflexivity| |exact (tq_run 14 _ eq_refl)|reflexivity].
      unfold clock_ok. rewrite (proj1 (Z.eqb_eq _ _) (tq_run 26 _ eq_refl)). unfold i64max; lia.
    - apply tmintE_coarse. exact (tq_run 22 _ eq_refl). }
  split; [exact tq2_nonneg|]. split; [apply is_req2_at; exact (tq_run 5 _ eq_refl)|]. split; [apply Z.leb_le; exact (tq_run 8 _ eq_refl)|].
  split; [apply weqb_eq; exact (tq_run 6 _ eq_refl)|]. split; [vm_compute; reflexivity|]. split; [exact EV|]. split.
  { intros v OK E. rewrite EV in E. pose proof (rt (c := c_wsol_event) v [] OK) as X. rewrite app_nil_r, E in X.
    vm_compute in X. discriminate X. }
  split; [apply Z.leb_le; exact (tq_run 16 _ eq_refl)|]. split; [exact (proj1 (negb_true_iff _) (tq_run 18 _ eq_refl))|].
  pose proof (proj1 (beqb_eq _ _) (tq_run 22 _ eq_refl)) as D. unfold tmint_in. rewrite D. clear.
  assert (U : match unpack c_tmint TMINT_LEN tm_init (dat (accs tq2 tmintE)) with Ok m => tm_decimals m = 9 | Err _ => False end) by (vm_compute; reflexivity).
  destruct (unpack c_tmint TMINT_LEN tm_init (dat (accs tq2 tmintE))) as [m|]; [|contradiction].
  exists m. split; [reflexivity|exact U].
Qed.
Example C86_dust_ex : 9 <= 12 /\ 0 <= 999 < 10 ^ (12 - 9).
Proof. lia. Qed.

Print Assumptions C86_sol.
Print Assumptions C86_ever.
Print Assumptions C86_dust.
