(** Property C90: a withdrawal that waits for approval can be approved on every day. *)

From Coq Require Import Strings.String ZifyBool ZifyNat ZifyN.
From Verif Require Import TpDemoLaws TpFlow Touch TpOk TpDeposit TpEffects PropTpReq PropTpAdmin PropTpFlow PropTpPay PropTpMoney PropTpMisc PropTpOutcome PropTpDaily PropLive PropExec.
Open Scope Z_scope.
Open Scope list_scope.
Ltac Zify.zify_post_hook ::= Z.div_mod_to_equations.

(** * Vocabulary *)

(** The settings of the token, if readable, name the withdrawal fee [f]. *)
Definition fee_stays (e : env) (tsk : key) (f : fee_info) (s : state) : Prop := forall ts, token_at e s tsk ts -> tk_fee_wdr ts = f.
(** No request to pay [mint] reads as a request to mint as well (see C06). *)
Definition sol_plain (e : env) (mint : key) (s : state) : Prop := forall k g m ev v, request_at e s k g m ->
  p_event g = enc c_wsol_event ev -> okb c_wsol_event ev = true -> wse_mint ev = mint -> okb c_wever_event v = true -> enc c_wever_event v <> p_event g.
(** A history of the bridge from [s0] to [s] of which [keep] holds throughout: see [day_hist]. *)
Definition kept_hist (e : env) (mint : key) (keep : state -> Prop) (s0 s : state) : Prop := exists n, day_hist e mint keep 0 (fun _ _ _ _ => 0) s0 s n.

(** * Counting *)

(** The waiting requests of day [D] together are at most what the counter of the day shows. *)
Definition covered (D : Z) (ts : token_settings) (W : key -> Z -> Prop) : Prop :=
  exists L, (forall k x, In (k, x) L -> 0 <= x) /\ (forall k x, W k x -> In (k, x) L) /\ total L <= counted ts D.
Lemma covered_step D lim ts ts' W W' p : day_step D D lim ts ts' W W' p -> 0 <= tk_wdamount ts -> covered D ts W -> covered D ts' W'.
Proof.
  intros S A0 (L & LN & LW & C). unfold counted in *. pose proof (total_nonneg _ LN) as T0.
  destruct S as [P E A WW|net N0 P LI E A WW|k0 net N0 P E A WW|k0 net N0 P WK E A WW].
  - exists L. split; [exact LN|]. split; [auto|]. unfold counted. rewrite E, A. exact C.
  - exists L. split; [exact LN|]. split; [auto|]. unfold counted. unfold spent in A. rewrite E, A, Z.eqb_refl. lia.
  - exists ((k0, net) :: L). split; [|split].
    + intros k x [H|H]; [injection H as <- <-; exact N0|eapply LN; exact H].
    + intros k x H. destruct (WW _ _ H) as [H1|[-> ->]]; [right; auto|left; reflexivity].
    + unfold counted. unfold spent in A. cbn [total]. rewrite E, A, Z.eqb_refl. lia.
  - exists (drop k0 L). split; [|split].
    + intros k x H. eapply LN. eapply drop_sub. exact H.
    + intros k x H. destruct (WW _ _ H) as [H1 H2]. apply drop_in; auto.
    + pose proof (total_drop L k0 net LN (LW _ _ (WK eq_refl))). unfold counted. rewrite E, A. destruct (tk_wepoch ts =? D); lia.
Qed.
Lemma total_in L k x : (forall k x, In (k, x) L -> 0 <= x) -> In (k, x) L -> x <= total L.
Proof.
  intros LN I. pose proof (total_drop L k x LN I). assert (0 <= total (drop k L)) by (apply total_nonneg; intros; eapply LN; eapply drop_sub; eassumption). lia.
Qed.
Lemma covered_one D ts W k x : covered D ts W -> 0 <= tk_wdamount ts -> W k x -> x <= tk_wdamount ts.
Proof.
  intros (L & LN & LW & C) A Wk. pose proof (total_in _ _ _ LN (LW _ _ Wk)). unfold counted in C. destruct (_ =? D); lia.
Qed.

Section Count.
  Context (e : env) (mint tsk : key) (K : token_kind) (D : Z) (W : state -> key -> Z -> Prop) (keep : state -> Prop) (NC : forall k, no_collision e k).
  Definition base (s : state) (ts : token_settings) : Prop :=
    nonneg s /\ listed e s tsk ts /\ tk_kind ts = K /\ 1 <= lam (accs s tsk) /\ (exists md, mint_in s mint md) /\ forall k, known e s k.
  Hypothesis WD : forall s k x, W s k x -> exists g m, request_at e s k g m /\ wm_epoch m = D.
  Hypothesis step : forall ext c i s s' ts, tp_call e ext c i s s' -> signs (ordinary e) c -> tp_ext e 0 ext ->
    (forall c' d a x b, ext c' d a = Ok (x, b) -> mint_stays mint a b) -> payload_checked e c i s -> keep s -> base s ts ->
    now s' = now s /\ exists ts' lim p, base s' ts' /\ day_step D (day_of (now s)) lim ts ts' (W s) (W s') p.
  Hypothesis other : forall s s' ts, foreign e tp_id s s' \/ purge s s' -> mint_stays mint s s' -> base s ts -> base s' ts /\ forall k x, W s' k x -> W s k x.

  Lemma count_hist s0 s ts0 n DD paid : day_hist e mint keep DD paid s0 s n -> base s0 ts0 -> early e s0 D -> day_of (now s0) <= D ->
    exists ts, base s ts /\ (day_of (now s) <= D -> covered D ts (W s)).
  Proof.
    intros H B0 E0 D0.
    enough (Q : exists ts, base s ts /\ (day_of (now s) <= D -> covered D ts (W s)) /\ (day_of (now s) < D -> early e s D)) by (destruct Q as (ts & B & C & _); exists ts; auto).
    assert (NONE : forall a ts, early e a D -> base a ts -> covered D ts (W a)).
    { intros a ts E (_ & L & _). exists []. split; [intros k x []|]. split; [|cbn [total]; apply counted_pos; apply (listed_nums _ _ _ _ L)].
      intros k x Wk. exfalso. destruct (WD _ _ _ Wk) as (g & m & R & EP). destruct (E k) as [NR|(g2 & m2 & RR & LT)].
      - destruct (request_kind _ _ _ _ _ R) as (a1 & b1 & KK). destruct R as (O' & _). exact (NR O' a1 b1 KK).
      - destruct (request_fun _ _ _ _ _ _ _ RR R) as [-> ->]. lia. }
    revert B0 E0 D0. induction H as [s KP|s0 s s' n c ext i H IH C SG X XM PC KP|s0 s s' n H IH F NW MS KP]; intros B0 E0 D0.
    - exists ts0. split; [exact B0|]. split; [intros _; apply (NONE s); assumption|auto].
    - destruct (IH B0 E0 D0) as (ts1 & B1 & CO & EA).
      destruct (step ext c i s s' ts1 C SG X XM PC (day_keep _ _ _ _ _ _ _ _ H) B1) as (NW & ts2 & lim & p & B2 & DS).
      exists ts2. split; [exact B2|]. rewrite NW.
      assert (E2 : day_of (now s) < D -> early e s' D) by (intros LT; eapply early_step; [exact C|exact X|exact PC|exact NC|apply EA; exact LT|exact LT]).
      split; [|exact E2]. intros LE. destruct (Z.eq_dec (day_of (now s)) D) as [ED|ED].
      + rewrite ED in DS. eapply covered_step; [exact DS| |apply CO; exact LE]. destruct B1 as (_ & L1 & _). apply (listed_nums _ _ _ _ L1).
      + apply (NONE s'); [apply E2; lia|exact B2].
    - destruct (IH B0 E0 D0) as (ts1 & B1 & CO & EA). destruct (other s s' ts1 F MS B1) as (B2 & WW).
      pose proof (day_of_le _ _ NW) as DL. exists ts1. split; [exact B2|]. split.
      + intros LE. destruct CO as (L & LN & LW & LC); [lia|]. exists L. auto.
      + intros LT k. destruct B1 as (_ & _ & _ & _ & _ & KN). destruct (known_other _ _ _ k F (KN k)) as [NR|(g & m & R & R')]; [left; exact NR|right].
        exists g, m. split; [exact R'|]. destruct (EA ltac:(lia) k) as [NR|(g2 & m2 & RR & LT2)].
        * exfalso. destruct (request_kind _ _ _ _ _ R) as (a & b & KK). destruct R as (O' & _). exact (NR O' a b KK).
        * destruct (request_fun _ _ _ _ _ _ _ RR R) as [-> ->]. exact LT2.
  Qed.
End Count.

(** All requests stay requests. *)
Lemma known_step e ext c i s s' : tp_call e ext c i s s' -> tp_ext e 0 ext -> payload_checked e c i s -> (forall k, no_collision e k) ->
  (forall k, known e s k) -> forall k, known e s' k.
Proof.
  intros C X PC NC KN k. destruct (reqs_step _ _ _ _ _ _ k C X PC (NC k) (KN k)) as [NR|(g' & m' & R' & _)]; [left; exact NR|right; exists g', m'; exact R'].
Qed.
Lemma known_stays e s s' : foreign e tp_id s s' \/ purge s s' -> (forall k, known e s k) -> forall k, known e s' k.
Proof. intros F KN k. destruct (known_other _ _ _ k F (KN k)) as [NR|(g & m & _ & R')]; [left; exact NR|right; exists g, m; exact R']. Qed.

(** * Requests to mint *)

Section Ever.
  Context (e : env) (mint : key) (token : ever) (f : fee_info) (D : Z) (tsk m0 : key) (d0 : Z)
    (NC : forall k, no_collision e k)
    (MA : tp_addr e (str "mint" ++ kb (token_hash e token)) mint)
    (MU : forall t, okb c_ever t = true -> tp_addr e (str "mint" ++ kb (token_hash e t)) mint -> t = token).
  Lemma ever_count s0 s ts0 n DD paid : day_hist e mint (fun s => fee_stays e tsk f s /\ ever_plain e token s) DD paid s0 s n ->
    base e mint tsk (TKEver m0 token d0) s0 ts0 -> early e s0 D -> day_of (now s0) <= D ->
    exists ts, base e mint tsk (TKEver m0 token d0) s ts /\ (day_of (now s) <= D -> covered D ts (waits e mint token f D s)).
  Proof.
    apply count_hist.
    - exact NC.
    - intros a k x (g & m & ev & md & am & R & _ & E & _). exists g, m. auto.
    - intros ext c i a b ts C SG X XM PC [FS EP] (NN & L & K & LA & (md & M) & KN).
      assert (TE : terms e tsk f (tk_wdlimit ts) a).
      { intros ts' T. assert (ts' = ts) by (destruct L as [_ (vn & V)]; eapply token_at_fun; [eapply token_spec; exact V|exact T]). subst ts'. split; [apply FS; exact T|reflexivity]. }
      destruct (ever_step e mint token f (tk_wdlimit ts) D tsk NC MA MU ext c i a b ts m0 d0 md C SG X XM PC TE EP NN L K LA M KN)
        as (NN2 & NW & M2 & ts2 & L2 & K2 & LA2 & DS).
      split; [exact NW|]. exists ts2, (tk_wdlimit ts), (auto_minted mint c i a b). split; [|exact DS].
      split; [exact NN2|]. split; [exact L2|]. split; [exact K2|]. split; [exact LA2|]. split; [exact M2|]. eapply known_step; eassumption.
    - intros a b ts F MS (NN & L & K & LA & (md & M) & KN).
      destruct (ever_other e mint token f D tsk NC MA MU a b ts m0 d0 md F MS NN L K LA M KN) as (NN2 & M2 & L2 & LA2 & WW).
      split; [|exact WW]. split; [exact NN2|]. split; [exact L2|]. split; [exact K|]. split; [exact LA2|]. split; [exact M2|]. eapply known_stays; eassumption.
  Qed.
End Ever.

(** * Requests to pay from a vault *)

Definition sol_waits (e : env) (mint : key) (f : fee_info) (D : Z) (s : state) (k : key) (x : Z) : Prop :=
  exists g m ev, request_at e s k g m /\ wm_status m = WWaitApprove /\ wm_epoch m = D /\ p_event g = enc c_wsol_event ev /\ okb c_wsol_event ev = true /\
    wse_mint ev = mint /\ x = wse_amount ev mod 2 ^ 64 - fee_on f (wse_amount ev mod 2 ^ 64).
Lemma wsol_event_ok e pid s k w : wsol_in e pid s k w -> okb c_wsol_event (event_of w) = true.
Proof.
  intros [U _]. apply okb_unpack in U; [|typeclasses eauto].
  unfold c_wsol, wsol in U. rewrite (okb_prop (c_withlen c_wsol_event) (c_withlen c_wmeta)), !andb_true_iff, okb_withlen, !andb_true_iff in U. apply U.
Qed.
Lemma sol_view e s k g m w : no_collision e k -> request_at e s k g m -> sol_request e s k w -> g = gen_prop c_wsol_event c_wmeta w /\ m = wl_data (p_meta w).
Proof.
  intros NC (O & U & PM & OM & n & pn & K & P) (O' & U' & n' & P').
  destruct (typed_view c_wsol_event _ _ _ w g m _ _ U' U PM OM) as (A & B & _); [eapply NC; [exact P'|exact P]|auto].
Qed.

Section Sol.
  Context (e : env) (mint v0 : key) (f : fee_info) (D : Z) (tsk : key) (NC : forall k, no_collision e k).
  Notation W := (sol_waits e mint f D).
  Notation B := (base e mint tsk (TKSol mint v0)).

  (** A request that waits afterwards waited before or was executed. *)
  Lemma sol_back ext c i s s' k x : tp_call e ext c i s s' -> tp_ext e 0 ext -> payload_checked e c i s -> known e s k -> W s' k x ->
    W s k x \/ (i = TpWithdrawEver \/ i = TpWithdrawSol) /\ nth_error (c_keys c) 0 = Some k /\
      exists g m ev, request_at e s k g m /\ wm_status m = WNew /\ p_event g = enc c_wsol_event ev /\ okb c_wsol_event ev = true /\ wse_mint ev = mint /\
        x = wse_amount ev mod 2 ^ 64 - fee_on f (wse_amount ev mod 2 ^ 64).
  Proof.
    intros C X PC KN (g' & m' & ev & R' & S' & E' & EV & OE & TK & ->).
    destruct (reqs_step _ _ _ _ _ _ k C X PC (NC k) KN) as [NR|(g2 & m2 & R2 & CASE)].
    { exfalso. destruct (request_kind _ _ _ _ _ R') as (n & pn & KK). destruct R' as (O & _). exact (NR O n pn KK). }
    destruct (request_fun _ _ _ _ _ _ _ R' R2) as [-> ->].
    destruct CASE as [(g & m & R & EE & PE & [ST|[MV WP]])|[_ ST]]; [| |congruence].
    - left. exists g, m, ev. split; [exact R|]. split; [congruence|]. split; [congruence|]. split; [congruence|]. split; [exact OE|]. split; [exact TK|reflexivity].
    - right. rewrite S' in MV.
      assert (IW : (i = TpWithdrawEver \/ i = TpWithdrawSol)) by (destruct i; try discriminate; auto; destruct (wm_status m); discriminate).
      split; [exact IW|]. split; [destruct IW as [-> | ->]; exact WP|].
      exists g, m, ev. split; [exact R|]. split; [destruct IW as [-> | ->]; destruct (wm_status m); try discriminate MV; reflexivity|].
      split; [congruence|]. split; [exact OE|]. split; [exact TK|reflexivity].
  Qed.

  Lemma sol_count_step ext c i s s' ts : tp_call e ext c i s s' -> signs (ordinary e) c -> tp_ext e 0 ext ->
    (forall c' d a x b, ext c' d a = Ok (x, b) -> mint_stays mint a b) -> payload_checked e c i s -> fee_stays e tsk f s /\ sol_plain e mint s -> B s ts ->
    now s' = now s /\ exists ts' lim p, B s' ts' /\ day_step D (day_of (now s)) lim ts ts' (W s) (W s') p.
  Proof.
    intros C SG X XM PC [FS SP] (NN & [TO (vn & TV)] & KT & LA & (md & M) & KN).
    pose proof (call_mint _ _ _ _ _ _ _ C XM) as MS. pose proof (tp_call_exec _ _ _ _ _ _ C) as (Hp & Oi & CK & H).
    assert (HI : tp_instr e 0 s s').
    { pose proof C as (_ & _ & d & _ & R). exists c, ext, d. auto. }
    assert (HH : tp_hist e 0 s s') by (eapply h_prog; [apply h_refl|exact HI]).
    assert (NS : now s' = now s /\ nonneg s').
    { pose proof HI as (c1 & ext1 & d & A1 & A2 & A3 & A4 & A5). split.
      - eapply (induct_run e (fun _ => True) (fun _ _ => Logic.I) (fun _ _ => True)); try eassumption; auto. intros ? ?. exact Logic.I.
      - eapply (kept_instr c_token_settings tk_init (fun ts => (tk_akind ts, tk_kind ts)) e tsk tk_akind (fun _ => False)); try eassumption; try contradiction. intros d1 x. apply kind_token_settings. }
    destruct NS as [NW NN']. split; [exact NW|].
    destruct (token_kept _ _ _ _ _ _ _ HH NN (conj TO (proj1 TV)) TV LA) as (ts' & T' & V' & _ & KD & LA').
    exists ts', 0, 0. split.
    { split; [exact NN'|]. split; [split; [apply T'|exists vn; exact V']|]. split; [congruence|]. split; [exact LA'|].
      split; [destruct (MS _ M) as (md' & M' & _); exists md'; exact M'|]. eapply known_step; eassumption. }
    pose proof (TpPay.token_len _ _ _ _ _ _ TV) as TL. pose proof (token_spec _ _ _ _ _ TV) as TA. pose proof (token_spec _ _ _ _ _ V') as TA'.
    assert (WB : forall k x, W s' k x -> W s k x \/ (i = TpWithdrawEver \/ i = TpWithdrawSol) /\ nth_error (c_keys c) 0 = Some k /\
      exists g m ev, request_at e s k g m /\ wm_status m = WNew /\ p_event g = enc c_wsol_event ev /\ okb c_wsol_event ev = true /\ wse_mint ev = mint /\
        x = wse_amount ev mod 2 ^ 64 - fee_on f (wse_amount ev mod 2 ^ 64)) by (intros k x; eapply sol_back; eauto).
    assert (SAME : same_od s s' tsk -> ts' = ts).
    { intros [_ E]. destruct V' as [U' _]. destruct TV as [U _]. rewrite E in U'. congruence. }
    assert (STILL : same_od s s' tsk -> (forall k x, W s' k x -> W s k x) -> day_step D (day_of (now s)) 0 ts ts' (W s) (W s') 0).
    { intros SO WW. rewrite (SAME SO). apply DS_none; [apply Z.le_refl|reflexivity|reflexivity|exact WW]. }
    assert (OTHER : i <> TpWithdrawEver -> i <> TpWithdrawSol -> i <> TpApproveEver -> i <> TpApproveSol ->
      day_step D (day_of (now s)) 0 ts ts' (W s) (W s') 0).
    { intros N1 N2 N3 N4. assert (LT : live_token e s tsk ts) by (apply listed_live; split; [exact TO|exists vn; exact TV]).
      destruct (token_step _ _ _ _ _ _ _ _ C (ext0_outside _ _ X) LT) as (t2 & (_ & (_ & U2) & _) & CA).
      assert (t2 = ts') by (destruct V' as [U' _]; congruence). subst t2.
      assert (EQ : tk_wepoch ts' = tk_wepoch ts /\ tk_wdamount ts' = tk_wdamount ts)
        by (destruct CA as [-> |CA]; [split; reflexivity|eapply token_cause_count; eassumption]).
      apply DS_none; [apply Z.le_refl|apply EQ|apply EQ|].
      intros k x Wk. destruct (WB _ _ Wk) as [|([? | ?] & _)]; [assumption|contradiction|contradiction]. }
    destruct i; try (apply OTHER; discriminate); clear OTHER.
    - (* execution of a request to mint *)
      cbn [tp_exec] in H. destruct (withdraw_ever_frame _ _ _ _ Hp H) as (k & tk & w & NT & NT3 & WI & FR & CASE).
      assert (NEK : tsk <> k) by (intros ->; destruct WI as [UW RA]; exact (request_ne_token _ _ _ _ _ _ _ _ _ _ _ _ _ _ UW RA TV eq_refl)).
      apply STILL.
      + destruct CASE as [[ID _]|(_ & _ & s0 & tk0 & vn0 & m1 & d1 & P0 & V0 & K0)]; [apply ID; exact TL|].
        apply FR; [exact NEK| |exact TL]. intros <-. destruct V0 as [U0 _]. destruct (P0 _ TL) as [_ E0]. rewrite E0 in U0. destruct TV as [U1 _]. assert (tk0 = ts) by congruence. subst tk0. congruence.
      + intros k1 x1 W1. destruct (WB _ _ W1) as [|(_ & NT1 & g & m & ev & R & _ & PE & OE & TK & _)]; [assumption|exfalso].
        assert (k1 = k) by congruence. subst k1. destruct (wever_request _ _ _ _ _ _ (NC k) R WI) as (EG & _).
        apply (SP k g m ev (event_of w) R PE OE TK); [eapply wever_event_ok; exact WI|]. rewrite EG. reflexivity.
    - (* execution of a request to pay *)
      cbn [tp_exec] in H. apply tp_withdraw_sol_ok in H as (k & vault & dst & tk & pm & sk & x & y & rest & w & gs & pn & K & WI & _ & _ & E).
      destruct E as (ts1 & vn1 & sv & V1 & K1 & _ & _ & CASE). rewrite Hp in *.
      assert (NEK : tsk <> k) by (intros ->; destruct WI as [UW RA]; exact (request_ne_token _ _ _ _ _ _ _ _ _ _ _ _ _ _ UW RA TV eq_refl)).
      assert (TKW : forall k1 x1, W s' k1 x1 -> W s k1 x1 \/ k1 = k /\ status_of w = WNew /\ wse_mint (event_of w) = mint /\
        x1 = wse_amount (event_of w) mod 2 ^ 64 - fee_on f (wse_amount (event_of w) mod 2 ^ 64)).
      { intros k1 x1 W1. destruct (WB _ _ W1) as [|(_ & NT1 & g & m & ev & R & ST & PE & OE & TK & EX)]; [left; assumption|right].
        rewrite K in NT1. injection NT1 as <-. split; [reflexivity|]. destruct (wsol_request _ _ _ _ _ _ (NC k) R WI) as (EG & EM & _).
        rewrite EG in PE. cbn [gen_prop p_event] in PE. apply (enc_inj c_wsol_event _) in PE; [|exact (wsol_event_ok _ _ _ _ _ WI)|exact OE].
        split; [rewrite EM in ST; exact ST|]. unfold event_of. rewrite PE. split; [exact TK|exact EX]. }
      destruct (key_dec tk tsk) as [-> |NT].
      + assert (ts1 = ts) by (destruct V1 as [U1 _], TV as [U _]; congruence). subst ts1.
        assert (EMT : wse_mint (event_of w) = mint) by (unfold event_of; congruence).
        destruct CASE as [[-> _]|(_ & fee & net & st & s1 & F & NE & N0 & CASE)].
        { assert (ts' = ts) by (eapply token_at_fun; [exact TA|exact TA']). subst ts'. apply DS_none; [apply Z.le_refl|reflexivity|reflexivity|auto]. }
        rewrite (FS _ TA) in F. destruct (fee_on_of _ _ _ _ F) as [FD FE]. change (wrap64 (wse_amount (wl_data (p_event w)))) with (wse_amount (event_of w) mod 2 ^ 64) in *.
        destruct CASE as [(ST & B1 & B2 & PAY & SE)|CASE].
        * assert (TS : token_at e s' tsk (charge ts (epoch_of (now s)) fee net)).
          { exact (charged_token _ _ _ _ _ _ _ _ _ _ _ _ _ _ _ _ CK TV F NE N0 B1 B2 SE). }
          rewrite (token_at_fun _ _ _ _ _ TS TA') in *. apply (DS_parked _ _ _ _ _ _ _ _ k net); [exact N0|apply Z.le_refl|reflexivity|reflexivity|].
          intros k1 x1 W1. destruct (TKW _ _ W1) as [|(-> & _ & _ & ->)]; [left; assumption|right]. split; [reflexivity|]. subst fee net. reflexivity.
        * assert (TS : token_at e s' tsk ts).
          { destruct CASE as [(_ & _ & SE)|(_ & _ & _ & _ & SE)]; exact (settled_token _ _ _ _ _ _ _ _ _ None _ _ _ TV SE Logic.I). }
          rewrite (token_at_fun _ _ _ _ _ TS TA') in *. apply DS_none; [apply Z.le_refl|reflexivity|reflexivity|].
          intros k1 x1 W1. destruct (TKW _ _ W1) as [|(_ & ST & _)]; [assumption|exfalso]. change (status_of w) with (w_status w) in ST.
          destruct CASE as [(Q & _)|(Q & _)]; congruence.
      + apply STILL.
        * destruct CASE as [[-> _]|(_ & fee & net & st' & s1 & _ & _ & _ & CASE)]; [apply same_od_refl|].
          assert (Q : exists ts2 l, spl_step s s1 /\ settled c c_wsol s s1 s' tk ts2 k (w_set_status w st') l).
          { destruct CASE as [(_ & _ & _ & [(_ & _ & ->)|(_ & _ & P)] & SE)|[(_ & P & SE)|(_ & _ & _ & -> & SE)]];
              (eexists _, _; split; [|exact SE]); first [apply spl_step_refl|eapply sol_paid_step; exact P]. }
          destruct Q as (ts2 & l & SS & SE). destruct SE as (_ & _ & _ & _ & SO & _). eapply same_od_trans; [apply SS; exact TL|]. apply SO; intros ->; [exact (NEK eq_refl)|exact (NT eq_refl)].
        * intros k1 x1 W1. destruct (TKW _ _ W1) as [|(_ & _ & EMT & _)]; [assumption|exfalso]. apply NT.
          destruct V1 as [_ (n & _ & F0)]. destruct TV as [_ (n' & _ & F1)]. unfold event_of in EMT. rewrite K1, EMT in F0. rewrite KT in F1. cbn [ts_seeds] in F0, F1. congruence.
    - (* approval of a request to mint *)
      cbn [tp_exec] in H. apply tp_approve_ever_ok in H as (au & mint1 & k & dst & tk & sk & x & y & rest & w & KS & B).
      destruct B as (ts1 & mn & m1 & d1 & md1 & gs & pn & _ & _ & _ & _ & WI & ST & V1 & K1 & _ & PM & TM & amount & fee & net & st & s1 & ts2 & GA & FE & NE & N0 & MI & DS & _ & _ & _ & RL & SE).
      rewrite Hp in *.
      assert (NEK : k <> tsk) by (intros ->; destruct WI as [UW RA]; exact (request_ne_token _ _ _ _ _ _ _ _ _ _ _ _ _ _ UW RA TV eq_refl)).
      assert (NT : tk <> tsk) by (intros ->; destruct V1 as [U1 _], TV as [U _]; congruence).
      apply STILL.
      + destruct SE as (_ & _ & _ & _ & SO & _). eapply same_od_trans; [eapply minted_step; [exact MI|exact TL]|]. apply SO; congruence.
      + intros k1 x1 W1. destruct (WB _ _ W1) as [|([? | ?] & _)]; [assumption|discriminate|discriminate].
    - (* approval of a request to pay *)
      cbn [tp_exec] in H. apply tp_approve_sol_ok in H as (au & vault & k & dst & tk & sk & x & y & rest & w & KS & B).
      destruct B as (ts1 & vn1 & sv & gs & pn & _ & _ & _ & _ & WI & ST & V1 & K1 & _ & PV & fee & net & st & s1 & ts2 & FE & NE & N0 & P & RL & SE).
      rewrite Hp in *.
      assert (RQ : sol_request e s k w /\ exists st', sol_request e s' k (w_set_status w st') /\ st' <> WWaitApprove).
      { destruct (C63_approve_sol _ _ _ _ _ C) as (k2 & w2 & vault2 & tsk2 & ts3 & dst2 & ts4 & st' & N2 & _ & _ & RQ2 & _ & _ & _ & _ & _ & RQ3 & Q1 & Q2).
        rewrite KS in N2. injection N2 as <-. assert (w2 = w) by (destruct WI as [U1 _], RQ2 as (_ & U2 & _); congruence). subst w2.
        split; [exact RQ2|]. exists st'. split; [exact RQ3|].
        destruct (Z_lt_le_dec (balance s vault2) (wse_amount (event_of w) mod 2 ^ 64 - fee_on (tk_fee_wdr ts3) (wse_amount (event_of w) mod 2 ^ 64))) as [LT|LE];
          [destruct (Q1 LT) as [-> _]|destruct (Q2 LE) as [-> _]]; [discriminate|]. unfold settled_status. destruct (wse_payload (event_of w)); discriminate. }
      destruct RQ as [RQ (st' & RQ' & NST)].
      assert (WW : forall k1 x1, W s' k1 x1 -> k1 <> k /\ W s k1 x1).
      { intros k1 x1 W1. split.
        - intros ->. destruct W1 as (g' & m' & ev & R' & S' & _). destruct (sol_view _ _ _ _ _ _ (NC k) R' RQ') as [_ ->]. exact (NST S').
        - destruct (WB _ _ W1) as [|([? | ?] & _)]; [assumption|discriminate|discriminate]. }
      assert (NEK : k <> tsk) by (intros ->; destruct WI as [UW RA]; exact (request_ne_token _ _ _ _ _ _ _ _ _ _ _ _ _ _ UW RA TV eq_refl)).
      destruct (key_dec tk tsk) as [-> |NT].
      + assert (ts1 = ts) by (destruct V1 as [U1 _], TV as [U _]; congruence). subst ts1.
        assert (EMT : wse_mint (event_of w) = mint) by (unfold event_of; congruence).
        rewrite (FS _ TA) in FE. destruct (fee_on_of _ _ _ _ FE) as [_ FE2].
        pose proof RL as RL0. destruct RL0 as [[EP1 ->]|(EP1 & LE & ->)].
        * assert (TS : token_at e s' tsk ts) by exact (settled_token _ _ _ _ _ _ _ _ _ None _ _ _ TV SE Logic.I).
          rewrite (token_at_fun _ _ _ _ _ TS TA') in *.
          apply DS_none; [apply Z.le_refl|reflexivity|reflexivity|]. intros k1 x1 W1. apply WW. exact W1.
        * assert (TS : token_at e s' tsk (tk_set_daily ts (tk_wepoch ts) (tk_wdamount ts - net))).
          { refine (settled_token _ _ _ _ _ _ _ _ _ (Some _) _ _ _ TV SE _).
            destruct (released_facts _ _ _ _ _ RL (token_ok _ _ _ _ _ _ TV) N0 (token_init _ _ _ _ _ _ TV)) as (A1 & _ & A2 & A3). auto. }
          rewrite (token_at_fun _ _ _ _ _ TS TA').
          apply (DS_released _ _ _ _ _ _ _ _ k net); [exact N0|apply Z.le_refl| |reflexivity|reflexivity|exact WW].
          intros DD. destruct (KN k) as [NR|(g & m & R)].
          { exfalso. destruct RQ as (O2 & _). destruct WI as [UW (n & pn1 & KK & _)]. apply (NR O2 n pn1). rewrite <- KK.
            eapply kind_prop; [| |exact UW]; typeclasses eauto. }
          destruct (wsol_request _ _ _ _ _ _ (NC k) R WI) as (EG & EM & _).
          exists g, m, (event_of w). split; [exact R|]. split; [rewrite EM; exact ST|]. split; [rewrite EM, <- DD; exact EP1|].
          split; [rewrite EG; reflexivity|]. split; [exact (wsol_event_ok _ _ _ _ _ WI)|]. split; [exact EMT|]. subst fee net. reflexivity.
      + apply STILL; [|intros k1 x1 W1; apply WW; exact W1].
        destruct SE as (_ & _ & _ & _ & SO & _). eapply same_od_trans; [eapply sol_paid_step; [exact P|exact TL]|]. apply SO; congruence.
  Qed.
End Sol.

Section SolHist.
  Context (e : env) (mint v0 : key) (f : fee_info) (D : Z) (tsk : key) (NC : forall k, no_collision e k).
  Lemma sol_count s0 s ts0 n DD paid : day_hist e mint (fun s => fee_stays e tsk f s /\ sol_plain e mint s) DD paid s0 s n ->
    base e mint tsk (TKSol mint v0) s0 ts0 -> early e s0 D -> day_of (now s0) <= D ->
    exists ts, base e mint tsk (TKSol mint v0) s ts /\ (day_of (now s) <= D -> covered D ts (sol_waits e mint f D s)).
  Proof.
    apply count_hist.
    - exact NC.
    - intros a k x (g & m & ev & R & _ & E & _). exists g, m. auto.
    - intros ext c i a b ts C SG X XM PC KP B. exact (sol_count_step e mint v0 f D tsk NC ext c i a b ts C SG X XM PC KP B).
    - intros s1 s' ts F MS (NN & [TO (vn & TV)] & KT & LA & (md & M) & KN).
      assert (HH : tp_hist e 0 s1 s') by (destruct F as [F|F]; [eapply h_foreign|eapply h_purge]; try apply h_refl; exact F).
      split; [split; [|split; [|split; [|split; [|split]]]]|].
      + intros j. destruct F as [F|F]; [apply (F j); apply NN|]. destruct (F j) as [->|[_ ->]]; [apply NN|cbn; lia].
      + destruct F as [F|F].
        * destruct (F tsk) as (_ & A & _). destruct (A TO) as [[SO SD] _]. split; [congruence|]. exists vn. unfold token_in. rewrite SD. exact TV.
        * destruct (F tsk) as [E|[E _]]; [|lia]. split; [congruence|]. exists vn. unfold token_in. rewrite E. exact TV.
      + exact KT.
      + destruct (token_kept _ _ _ _ _ _ _ HH NN (conj TO (proj1 TV)) TV LA) as (ts' & _ & _ & _ & _ & LA'). exact LA'.
      + destruct (MS _ M) as (md' & M' & _). exists md'. exact M'.
      + eapply known_stays; eassumption.
      + intros k x (g' & m' & ev & R' & A1 & A2 & A3 & A4 & A5 & A6).
        destruct (known_other _ _ _ k F (KN k)) as [NR|(g & m & R & R2)].
        * exfalso. destruct (request_kind _ _ _ _ _ R') as (n1 & pn & KK). destruct R' as (O' & _). exact (NR O' n1 pn KK).
        * destruct (request_fun _ _ _ _ _ _ _ R2 R') as [-> ->]. exists g, m, ev. repeat (split; [assumption|]). assumption.
  Qed.
End SolHist.

(** * C90 *)

(** Let no request of the day of [s] have been executed at [s0], and let the withdrawal fee of the token stay the same
    since. Then the counter of the day shows at least the net amount of each request of the day that still waits, and
    its approval succeeds once the conditions of C72 other than the counter are met. *)
Theorem C90_ever_partial : forall e ext s0 s k w mint md dst tsk ts0 ts m0 d0 f sk st a x,
  (forall k, no_collision e k) -> let token := wee_token (event_of w) in
  (forall t, okb c_ever t = true -> tp_addr e (str "mint" ++ kb (token_hash e t)) mint -> t = token) ->
  listed e s0 tsk ts0 -> tk_kind ts0 = TKEver m0 token d0 -> 1 <= lam (accs s0 tsk) -> nonneg s0 -> (exists md0, mint_in s0 mint md0) ->
  early e s0 (day_of (now s)) -> day_of (now s0) <= day_of (now s) ->
  kept_hist e mint (fun s => fee_stays e tsk f s /\ ever_plain e token s) s0 s ->
  clock_ok s -> ever_filed e s k w -> status_of w = WWaitApprove -> ever_scales w md -> ever_gross w md < 2 ^ 128 ->
  let gross := ever_gross w md mod 2 ^ 64 in let net := gross - fee_on (tk_fee_wdr ts) gross in
  bridge_settings e s sk st -> gs_emergency st = false -> tk_emergency ts = false -> acts e s (gs_wmanager st) a x ->
  ever_listed e s token mint tsk ts -> fee_fits (tk_fee_wdr ts) gross -> mint_ready s mint dst md net ->
  can_receive e s (p_kind w) (wee_payload (event_of w)) mint (wee_recipient (event_of w)) dst net ->
  exists s' ts', tp_call e ext (approve_accounts a mint k dst tsk sk x) TpApproveEver s s' /\ token_at e s' tsk ts' /\
    booked ts ts' (tk_fee_supply ts) (tk_wepoch ts) (after_approval ts s (wm_epoch (wl_data (p_meta w))) net) /\
    ever_request e s' k (w_set_status w (settled_status (wee_payload (event_of w)))) /\ ever_paid e s s' w mint dst net.
Proof.
  intros e ext s0 s k w mint md dst tsk ts0 ts m0 d0 f sk st a x NC token MU L0 K0 LA0 NN0 M0 E0 D0 [n H] CK RQ ST SC G gross net BS GE TE AC LI FF MR CR.
  apply (C72_approve_ever e ext s k w mint md dst tsk ts sk st a x); try assumption. intros EP. fold gross net.
  pose proof LI as (TS & _ & KT & n1 & mn & _ & PM).
  assert (MA : tp_addr e (str "mint" ++ kb (token_hash e token)) mint) by (exists mn; exact PM).
  assert (KN0 : forall j, known e s0 j).
  { intros j. destruct (E0 j) as [NR|(g & m & R & _)]; [left; exact NR|right; exists g, m; exact R]. }
  destruct (ever_count e mint token f (day_of (now s)) tsk m0 d0 NC MA MU s0 s ts0 n 0 _ H (conj NN0 (conj L0 (conj K0 (conj LA0 (conj M0 KN0))))) E0 D0)
    as (ts' & (_ & L & KT' & _ & (md' & M) & KN) & CO).
  assert (ts' = ts). { destruct L as [_ (vn & [U _])]. destruct TS as (_ & U' & _). congruence. } subst ts'.
  eapply (covered_one _ _ _ k); [apply CO; apply Z.le_refl|apply (listed_nums _ _ _ _ L)|].
  assert (WI : wever_in e tp_id s k w) by (destruct RQ as (_ & U & n2 & pn & K & F); split; [exact U|]; exists n2, pn; split; [exact K|exact F]).
  destruct (KN k) as [NR|(g & m & R)].
  { exfalso. destruct RQ as (O2 & UW & n2 & pn1 & KK & _). apply (NR O2 n2 pn1). rewrite <- KK. eapply kind_prop; [| |exact UW]; typeclasses eauto. }
  destruct (wever_request _ _ _ _ _ _ (NC k) R WI) as (EG & EM & _).
  assert (FS : tk_fee_wdr ts = f). { apply (proj1 (day_keep _ _ _ _ _ _ _ _ H)). destruct L as [_ (vn & V)]. exact (token_spec _ _ _ _ _ V). }
  pose proof (wever_event_ok _ _ _ _ _ WI) as OE.
  exists g, m, (event_of w), md', gross. split; [exact R|]. split; [rewrite EM; exact ST|]. split; [rewrite EM; exact EP|].
  split; [rewrite EG; reflexivity|]. split; [exact OE|]. split; [reflexivity|]. split; [exact M|].
  assert (md' = md) by (destruct MR as [[_ T] _]; exact (tmint_in_fun _ _ _ _ (proj2 M) T)). subst md'.
  split; [|unfold net; rewrite FS; reflexivity].
  apply gwa_go; [|exact SC|exact G].
  apply (proj2 (proj2 (wever_facts _ _ _ _ _ WI))).
Qed.

Theorem C90_sol_partial : forall e ext s0 s k w vault dst tsk ts0 ts v0 f sk st a x,
  (forall k, no_collision e k) -> let mint := wse_mint (event_of w) in
  listed e s0 tsk ts0 -> tk_kind ts0 = TKSol mint v0 -> 1 <= lam (accs s0 tsk) -> nonneg s0 -> (exists md0, mint_in s0 mint md0) ->
  early e s0 (day_of (now s)) -> day_of (now s0) <= day_of (now s) ->
  kept_hist e mint (fun s => fee_stays e tsk f s /\ sol_plain e mint s) s0 s ->
  clock_ok s -> sol_filed e s k w -> status_of w = WWaitApprove ->
  let gross := wse_amount (event_of w) mod 2 ^ 64 in let net := gross - fee_on (tk_fee_wdr ts) gross in
  bridge_settings e s sk st -> gs_emergency st = false -> tk_emergency ts = false -> acts e s (gs_wmanager st) a x ->
  sol_listed e s mint vault tsk ts -> fee_fits (tk_fee_wdr ts) gross -> vault <> dst -> vault_ready s mint vault dst net ->
  can_receive e s (p_kind w) (wse_payload (event_of w)) mint (wse_recipient (event_of w)) dst net ->
  exists s' st' ts', tp_call e ext (approve_accounts a vault k dst tsk sk x) TpApproveSol s s' /\ token_at e s' tsk ts' /\
    booked ts ts' (tk_fee_supply ts) (tk_wepoch ts) (after_approval ts s (wm_epoch (wl_data (p_meta w))) net) /\ sol_request e s' k (w_set_status w st') /\
    (balance s vault < net -> st' = WPending /\ spl_still s s') /\
    (net <= balance s vault -> st' = settled_status (wse_payload (event_of w)) /\ sol_paid_to e s s' w vault dst net).
Proof.
  intros e ext s0 s k w vault dst tsk ts0 ts v0 f sk st a x NC mint L0 K0 LA0 NN0 M0 E0 D0 [n H] CK RQ ST gross net BS GE TE AC LI FF NE VR CR.
  assert (KN0 : forall j, known e s0 j).
  { intros j. destruct (E0 j) as [NR|(g & m & R & _)]; [left; exact NR|right; exists g, m; exact R]. }
  destruct (sol_count e mint v0 f (day_of (now s)) tsk NC s0 s ts0 n 0 _ H (conj NN0 (conj L0 (conj K0 (conj LA0 (conj M0 KN0))))) E0 D0)
    as (ts' & (NN & L & KT' & _ & _ & KN) & CO).
  apply (C72_approve_sol e ext s k w vault dst tsk ts sk st a x); try assumption. intros EP. fold gross net.
  pose proof LI as (TS & _).
  assert (ts' = ts). { destruct L as [_ (vn & [U _])]. destruct TS as (_ & U' & _). congruence. } subst ts'.
  eapply (covered_one _ _ _ k); [apply CO; apply Z.le_refl|apply (listed_nums _ _ _ _ L)|].
  pose proof (sol_filed_in _ _ _ _ RQ) as WI.
  destruct (KN k) as [NR|(g & m & R)].
  { exfalso. destruct RQ as (O2 & UW & n2 & pn1 & KK & _). apply (NR O2 n2 pn1). rewrite <- KK. eapply kind_prop; [| |exact UW]; typeclasses eauto. }
  destruct (wsol_request _ _ _ _ _ _ (NC k) R WI) as (EG & EM & _).
  assert (FS : tk_fee_wdr ts = f). { apply (proj1 (day_keep _ _ _ _ _ _ _ _ H)). destruct L as [_ (vn & V)]. exact (token_spec _ _ _ _ _ V). }
  exists g, m, (event_of w). split; [exact R|]. split; [rewrite EM; exact ST|]. split; [rewrite EM; exact EP|].
  split; [rewrite EG; reflexivity|]. split; [exact (wsol_event_ok _ _ _ _ _ WI)|]. split; [reflexivity|unfold net; rewrite FS; reflexivity].
Qed.

(** If the counter of the day shows less than the net amount, no approval succeeds on that day, whoever sends it. *)
Theorem C90_blocked_sol : forall e ext c s s' k w tsk ts, 
  nth_error (c_keys c) 2 = Some k -> nth_error (c_keys c) 4 = Some tsk -> sol_request e s k w -> token_at e s tsk ts ->
  wm_epoch (wl_data (p_meta w)) = day_of (now s) ->
  let gross := wse_amount (event_of w) mod 2 ^ 64 in tk_wdamount ts < gross - fee_on (tk_fee_wdr ts) gross ->
  ~ tp_call e ext c TpApproveSol s s'.
Proof.
  intros e ext c s s' k w0 tsk ts0 K0 K3 RQ TA EP gross LT C. apply tp_call_exec in C as (Hp & _ & CK & H). cbn [tp_exec] in H.
  apply tp_approve_sol_ok in H as (au & vault & k' & dst & tsk' & sk & x & y & rest & w & K & B).
  destruct B as (ts & vn & sv & gs & pn & SG & VS & GE & EN & WI & ST & V & KT & EM & PV & fee & net & st & s1 & ts2 & F & NE & N0 & PAID & RL & SE).
  rewrite Hp in *. rewrite K in *. cbn [nth_error] in *. injection K0 as ->. injection K3 as ->.
  assert (w = w0). { destruct WI as [U _], RQ as (_ & U' & _). pose proof (eq_trans (eq_sym U) U') as E'. injection E' as E'. exact E'. } subst w0.
  assert (ts = ts0). { destruct V as [U' _], TA as [_ U]. congruence. } subst ts0.
  destruct (fee_on_of _ _ _ _ F) as [FD FE]. change (wrap64 (wse_amount (wl_data (p_event w)))) with gross in *.
  rewrite FE in NE. rewrite <- NE in LT. destruct RL as [[NEP _]|(_ & LE & _)]; [apply NEP; exact EP|clear - LE LT; lia].
Qed.
Theorem C90_blocked_ever : forall e ext c s s' k w mint md tsk ts,
  nth_error (c_keys c) 2 = Some k -> nth_error (c_keys c) 4 = Some tsk -> ever_request e s k w ->
  ever_token e s w mint md tsk ts -> ever_scales w md ->
  wm_epoch (wl_data (p_meta w)) = day_of (now s) ->
  let gross := ever_gross w md mod 2 ^ 64 in tk_wdamount ts < gross - fee_on (tk_fee_wdr ts) gross ->
  ~ tp_call e ext c TpApproveEver s s'.
Proof.
  intros e ext c s s' k w0 mint0 md0 tsk ts0 K0 K3 RQ (PM0 & TM0 & TA & TK) SC EP gross LT C. apply tp_call_exec in C as (Hp & _ & CK & H). cbn [tp_exec] in H.
  apply tp_approve_ever_ok in H as (au & mint & k' & dst & tsk' & sk & x & y & rest & w & K & B).
  destruct B as (ts & mn & m & d & md & gs & pn & SG & VS & GE & EN & WI & ST & V & KT & EM & PM & TM & amount & fee & net & st & s1 & ts2 & GA & F & NE & N0 & MI & DS & _ & _ & _ & RL & SE).
  rewrite Hp in *. rewrite K in *. cbn [nth_error] in *. injection K0 as ->. injection K3 as ->.
  assert (w = w0). { destruct WI as [U _], RQ as (_ & U' & _). pose proof (eq_trans (eq_sym U) U') as E'. injection E' as E'. exact E'. } subst w0.
  assert (ts = ts0). { destruct V as [U' _], TA as [_ U]. congruence. } subst ts0.
  assert (mint0 = mint). { destruct PM0 as [n PM0]. change (sd_mint (token_hash e (wee_token (wl_data (p_event w))))) with (str "mint" ++ kb (token_hash e (wee_token (event_of w)))) in PM. congruence. } subst mint0.
  assert (md0 = md) by (unfold tmint_in in *; congruence). subst md0.
  destruct (fee_on_of _ _ _ _ F) as [FD FE]. pose proof (gwa_rescale _ _ _ _ SC GA) as GR. change (amount = gross) in GR. subst amount.
  rewrite FE in NE. rewrite <- NE in LT. destruct RL as [[NEP _]|(_ & LE & _)]; [apply NEP; exact EP|clear - LE LT; lia].
Qed.

(** Every request to pay a mint whose address does not begin with a zero byte is plain. *)
Lemma plain_mint e mint b r s : kb mint = b :: r -> b <> x00 -> sol_plain e mint s.
Proof.
  intros K N k g m ev v _ PE _ EM _ E. apply N. rewrite PE in E.
  assert (Q : firstn 32 (enc c_wsol_event ev) = b :: r) by (rewrite head_sol, EM; exact K). rewrite <- E, head_ever in Q. cbn [c_ever enc firstn] in Q. injection Q as Q _. symmetry. exact Q.
Qed.

(** * The demo ledger *)

(** A day after [ts2] the manager sets the limits, [tw1] is requested, confirmed and executed and waits. *)
Definition tr0 := later 86400 ts2.
Definition lrel := tadmT tman ttsS (TpChangeWithdrawalLimits (Some 10000) (Some 90000)) :: treqS trecv tw1 tround 7 tev1 [] :: tvotes tw1 tround ++ [texecS tw1 trecvS tmintS].
Definition tr1 := unres (tstps tr0 lrel).
Definition xr_tw1 := Eval vm_compute in accs tr1 tw1.
Definition xr_ttsS := Eval vm_compute in accs tr1 ttsS.
Definition xr_tset := Eval vm_compute in accs tr1 tset.
Definition xr_tvault := Eval vm_compute in accs tr1 tvault.
Definition xr_trecvS := Eval vm_compute in accs tr1 trecvS.
Lemma xr_is : accs tr1 tw1 = xr_tw1 /\ accs tr1 ttsS = xr_ttsS /\ accs tr1 tset = xr_tset /\ accs tr1 tvault = xr_tvault /\ accs tr1 trecvS = xr_trecvS.
Proof. apply (@eqs_5 acct). vm_compute. reflexivity. Qed.
Definition feeb (tsk : key) (f : fee_info) (s : state) : bool :=
  match unpack c_token_settings TP_LEN tk_init (dat (accs s tsk)) with Ok t => fee_eqb (tk_fee_wdr t) f | Err _ => true end.
Lemma feeb_stays tsk f s : feeb tsk f s = true -> fee_stays te tsk f s.
Proof.
  unfold feeb. intros B ts [_ U]. rewrite U in B. unfold fee_eqb in B. apply andb_true_iff in B as [B1 B3].
  destruct (tk_fee_wdr ts) as [a b], f as [a0 b0]. cbn [fi_mul fi_div] in *. f_equal; lia.
Qed.
(** [ts2] and what happened since meet the conditions of C90_sol_partial; the request can be approved. *)
Example C90_sol_ex : let w := the_wsol tr1 tw1 in let ts := the_token tr1 ttsS in let f := FeeInfo 5 10000 in
  let gross := wse_amount (event_of w) mod 2 ^ 64 in let net := gross - fee_on (tk_fee_wdr ts) gross in
  listed te ts2 ttsS (the_token ts2 ttsS) /\ tk_kind (the_token ts2 ttsS) = TKSol tmintS tvault /\ 1 <= lam (accs ts2 ttsS) /\ nonneg ts2 /\ (exists md, mint_in ts2 tmintS md) /\
  early te ts2 19676 /\ day_of (now ts2) <= 19676 /\ kept_hist te tmintS (fun s => fee_stays te ttsS f s /\ sol_plain te tmintS s) ts2 tr1 /\
  clock_ok tr1 /\ day_of (now tr1) = 19676 /\
  sol_filed te tr1 tw1 w /\ wse_mint (event_of w) = tmintS /\ status_of w = WWaitApprove /\ wm_epoch (wl_data (p_meta w)) = 19676 /\ net = 49975 /\
  bridge_settings te tr1 tset (TpSettings true (KSettings 255 254) false tguard tman twman) /\
  acts te tr1 twman twman [] /\ tk_emergency ts = false /\
  sol_listed te tr1 tmintS tvault ttsS ts /\ fee_fits (tk_fee_wdr ts) gross /\ vault_ready tr1 tmintS tvault trecvS net /\
  can_receive te tr1 (p_kind w) (wse_payload (event_of w)) tmintS (wse_recipient (event_of w)) trecvS net.
Proof.
  cbv zeta. split; [split; [vm_compute; reflexivity|exists 255; split; [vm_compute; reflexivity|exists 255; split; vm_compute; reflexivity]]|].
  split; [vm_compute; reflexivity|]. split; [vm_compute; discriminate|]. split; [apply (sane2 19676); reflexivity|].
  split; [exists (the_mint ts2 tmintS); split; vm_compute; reflexivity|]. split; [apply (sane2 19676); reflexivity|]. split; [vm_compute; discriminate|].
  split.
  { assert (KB : forall s, feeb ttsS (FeeInfo 5 10000) s = true -> fee_stays te ttsS (FeeInfo 5 10000) s /\ sol_plain te tmintS s).
    { intros s B. split; [apply feeb_stays; exact B|]. eapply plain_mint; [vm_compute; reflexivity|discriminate]. }
    exists (0 + 0). unfold tr1.
    apply (day_tstps _ _ (feeb ttsS (FeeInfo 5 10000))); [exact KB| |vm_compute; reflexivity|vm_compute; split; [discriminate|reflexivity]|vm_compute; reflexivity|vm_compute; reflexivity].
    unfold tr0. apply day_later; [|discriminate|apply KB; vm_compute; reflexivity]. apply dh_refl. apply KB. vm_compute. reflexivity. }
  split; [vm_compute; split; [discriminate|reflexivity]|]. split; [vm_compute; reflexivity|].
  pose proof xr_is as E. ex_in E. split; [ex_request|]. split; [ex_vm|]. split; [ex_vm|]. split; [ex_vm|]. split; [ex_vm|]. split; [ex_bridge|]. split; [apply acts_role|].
  split; [ex_vm|]. split; [ex_sol|]. split; [split; ex_vm|]. split; [ex_vault|ex_dst].
Qed.
(** The day of [C35_ever_ex], before the approval of [tw6], which is for a proxy. *)
Definition lday4 := treqE trecv tw7 tround 67 tev7 [] :: tvotes tw7 tround ++ texecE tw7 trecvE [] ::
  treqE trecv tw6 tround 57 tev6 [ww tproxyE; ro tmintE; ro spl_id] :: tvotes tw6 tround ++ [texecE tw6 tproxyE []].
Definition tr2 := unres (tstps ts75 lday4).
Definition xe_tw6 := Eval vm_compute in accs tr2 tw6.
Definition xe_ttsE := Eval vm_compute in accs tr2 ttsE.
Definition xe_tset := Eval vm_compute in accs tr2 tset.
Definition xe_tmintE := Eval vm_compute in accs tr2 tmintE.
Definition xe_tproxyE := Eval vm_compute in accs tr2 tproxyE.
Lemma xe_is : accs tr2 tw6 = xe_tw6 /\ accs tr2 ttsE = xe_ttsE /\ accs tr2 tset = xe_tset /\ accs tr2 tmintE = xe_tmintE /\ accs tr2 tproxyE = xe_tproxyE.
Proof. apply (@eqs_5 acct). vm_compute. reflexivity. Qed.
Example C90_ever_ex : let w := the_wever tr2 tw6 in let md := the_mint tr2 tmintE in let ts := the_token tr2 ttsE in let f := tk_fee_wdr (the_token ts74 ttsE) in
  let gross := ever_gross w md mod 2 ^ 64 in let net := gross - fee_on (tk_fee_wdr ts) gross in
  kept_hist te tmintE (fun s => fee_stays te ttsE f s /\ ever_plain te tever s) ts74 tr2 /\
  clock_ok tr2 /\ day_of (now tr2) = 19676 /\
  ever_filed te tr2 tw6 w /\ wee_token (event_of w) = tever /\ status_of w = WWaitApprove /\ wm_epoch (wl_data (p_meta w)) = 19676 /\ net = 89955 /\
  bridge_settings te tr2 tset (TpSettings true (KSettings 255 254) false tguard tman twman) /\
  acts te tr2 twman twman [] /\ tk_emergency ts = false /\ ever_scales w md /\
  ever_gross w md < 2 ^ 128 /\
  ever_listed te tr2 tever tmintE ttsE ts /\ fee_fits (tk_fee_wdr ts) gross /\ mint_ready tr2 tmintE tproxyE md net /\
  can_receive te tr2 (p_kind w) (wee_payload (event_of w)) tmintE (wee_recipient (event_of w)) tproxyE net.
Proof.
  cbv zeta. split.
  { assert (KB : forall s, feeb ttsE (tk_fee_wdr (the_token ts74 ttsE)) s = true -> fee_stays te ttsE (tk_fee_wdr (the_token ts74 ttsE)) s /\ ever_plain te tever s).
    { intros s B. split; [apply feeb_stays; exact B|apply te_plain]. }
    exists (0 + 0). unfold tr2.
    apply (day_tstps _ _ (feeb ttsE (tk_fee_wdr (the_token ts74 ttsE)))); [exact KB| |vm_compute; reflexivity|vm_compute; split; [discriminate|reflexivity]|vm_compute; reflexivity|vm_compute; reflexivity].
    unfold ts75. apply day_later; [|discriminate|apply KB; vm_compute; reflexivity]. apply dh_refl. apply KB. vm_compute. reflexivity. }
  split; [vm_compute; split; [discriminate|reflexivity]|]. split; [vm_compute; reflexivity|].
  pose proof xe_is as E. ex_in E. split; [split; [ex_vm|]; split; [ex_vm|]; eexists _, _; split; ex_vm|]. split; [ex_vm|]. split; [ex_vm|]. split; [ex_vm|]. split; [ex_vm|]. split; [ex_bridge|]. split; [apply acts_role|].
  split; [ex_vm|]. split; [ex_vm|]. split; [ex_vm|]. split; [ex_ever|]. split; [split; ex_vm|].
  split; [split; [split; ex_vm|]; split; [ex_vm|]; split; [ex_vm|]; intros r [_ U]; vm_compute in U; injection U as <-; reflexivity|].
  eexists; split; [split; ex_vm|]; split; [ex_vm|]; split; [ex_vm|]; split; [ex_vm|]; right.
  split; [ex_vm|]. eexists _, _. split; ex_vm.
Qed.

(** The full claim is false: the manager lowers the fee while [tw1] waits; the net amount now exceeds what was counted
    when the request was executed, and no call approves it on that day. A day later it can be approved. *)
Lemma sol_request_one e s k w w' : sol_request e s k w -> sol_request e s k w' -> w = w'.
Proof. intros (_ & U & _) (_ & U' & _). congruence. Qed.
Definition xlow : list meta * tp_ix := tadmT tman ttsS (TpUpdateFee FWithdrawal 1 10000).
Definition tr3 := unres (tstp ts16 xlow).
Theorem C90_refuted : exists s s1 k w, reached s /\ sol_request te s k w /\ status_of w = WWaitApprove /\
  (exists s2, tp_call te no_ext (ctx_of tp_id (fst (tapprS twman k trecvS))) TpApproveSol s s2) /\
  tp_call te no_ext (ctx_of tp_id (fst xlow)) (TpUpdateFee FWithdrawal 1 10000) s s1 /\ 50000 <= balance s1 tvault /\
  (forall ext c s', nth_error (c_keys c) 2 = Some k -> ~ tp_call te ext c TpApproveSol s1 s') /\
  exists s3, tp_call te no_ext (ctx_of tp_id (fst (tapprS twman k trecvS))) TpApproveSol (later 86400 s1) s3.
Proof.
  exists ts16, tr3, tw1, (the_wsol ts16 tw1).
  assert (RQ : sol_request te ts16 tw1 (the_wsol ts16 tw1)).
  { destruct x16_is as (E & _). unfold sol_request, the_wsol, the_wreq. rewrite E. clear. split; [ex_vm|]. split; [ex_vm|]. exists 255. ex_vm. }
  split; [reach16|]. split; [exact RQ|]. split; [vm_compute; reflexivity|].
  split; [exists (unres (tstp ts16 (tapprS twman tw1 trecvS))); demo_call|].
  split; [unfold tr3; demo_call|]. split; [vm_compute; discriminate|].
  split; [|exists (unres (tstp (later 86400 tr3) (tapprS twman tw1 trecvS))); demo_call].
  intros ext c s' K0 CALL.
  assert (A : accs tr3 tw1 = accs ts16 tw1 /\ now tr3 = 1700000000 /\
    match unpack c_token_settings TP_LEN tk_init (dat (accs tr3 ttsS)) with Ok ts => tk_fee_wdr ts = FeeInfo 1 10000 /\ tk_wdamount ts = 49975 | _ => True end).
  { split; [vm_compute; reflexivity|]. split; [vm_compute; reflexivity|]. vm_compute. split; reflexivity. }
  destruct A as (A1 & A2 & A3).
  assert (RQ1 : sol_request te tr3 tw1 (the_wsol ts16 tw1)) by (unfold sol_request; rewrite A1; exact RQ).
  destruct (C63_approve_sol _ _ _ _ _ CALL) as (k & w & vault & tsk & ts & dst & ts' & st & N2 & _ & N4 & RQ2 & _ & (_ & TA & v & KT) & _).
  rewrite K0 in N2. injection N2 as <-.
  pose proof (sol_request_one _ _ _ _ _ RQ2 RQ1) as W. subst w.
  assert (tsk = ttsS). { destruct TA as [TA _]. rewrite KT in TA. destruct TA as [n TA]. vm_compute in TA. injection TA as <- _. reflexivity. } subst tsk.
  assert (M : wse_amount (event_of (the_wsol ts16 tw1)) mod 2 ^ 64 = 50000 /\ wm_epoch (wl_data (p_meta (the_wsol ts16 tw1))) = day_of 1700000000) by (vm_compute; split; reflexivity).
  destruct M as [M1 M2]. pose proof TA as [_ TU]. rewrite TU in A3. destruct A3 as [A3 A4].
  apply (C90_blocked_sol te ext c tr3 s' tw1 (the_wsol ts16 tw1) ttsS ts K0 N4 RQ1 TA); [rewrite A2; exact M2| |exact CALL].
  rewrite M1, A3, A4. vm_compute. reflexivity.
Qed.

Print Assumptions C90_ever_partial.
Print Assumptions C90_sol_partial.
Print Assumptions C90_blocked_sol.
Print Assumptions C90_blocked_ever.
Print Assumptions C90_refuted.
