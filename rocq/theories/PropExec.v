(** Property C72: a confirmed withdrawal can be executed by anyone. *)

From Coq Require Import Strings.String ZifyBool ZifyNat ZifyN.
From Verif Require Import TpDemoLaws SplGo PropTpFlow PropTpPay PropTpMoney PropTpMisc PropTpOutcome PropTpAdmin PropLive.
Open Scope Z_scope.
Open Scope list_scope.
Ltac Zify.zify_post_hook ::= Z.div_mod_to_equations.

(** * Vocabulary *)

(** As [sol_request]; the record carries the bump of its address. *)
Definition sol_filed (e : env) (s : state) (k : key) (w : wsol) : Prop :=
  own (accs s k) = tp_id /\ unpack c_wsol TP_LEN (@p_init _ _) (dat (accs s k)) = Ok w /\ exists n pn, p_kind w = KProposal n pn /\
  find_pda e (sd_proposal (p_round w) (pd_ts (p_pda w)) (pd_lt (p_pda w)) (pd_conf (p_pda w)) (e_hash e (enc c_wsol_event (event_of w)))) tp_id = Ok (k, n).
(** [tsk] holds the settings [ts] of the Solana token [mint], with the bump of the address [vault]. *)
Definition sol_listed (e : env) (s : state) (mint vault tsk : key) (ts : token_settings) : Prop :=
  token_settings_of e s tsk ts /\ (exists v, tk_kind ts = TKSol mint v) /\
  exists n vn, tk_akind ts = KTokenSettings n vn /\ find_pda e (str "vault" ++ kb mint) tp_id = Ok (vault, vn).
(** Bridge and token are not stopped. *)
Definition running (e : env) (s : state) (sk : key) (ts : token_settings) : Prop :=
  (exists st, bridge_settings e s sk st /\ gs_emergency st = false) /\ tk_emergency ts = false.
(** [dst] can receive [net] tokens of [mint] for [recipient]: a token account of theirs or, for a request with
    payload, of their proxy, whose bump is in the request. *)
Definition can_receive (e : env) (s : state) (kind : account_kind) (payload : bytes) (mint recipient dst : key) (net : Z) : Prop := exists r,
  tok_in s dst r /\ ta_state r <> TFrozen /\ ta_mint r = mint /\ ta_amount r + net < 2 ^ 64 /\
  (payload = [] /\ ta_owner r = recipient \/
   payload <> [] /\ exists n pn, kind = KProposal n (Some pn) /\ find_pda e (str "proxy" ++ kb mint ++ kb recipient) tp_id = Ok (dst, pn)).
(** The vault of [mint] is a token account owned by its own address; a vault of wrapped lamports has the lamports
    and [dst] room for [net]. *)
Definition vault_ready (s : state) (mint vault dst : key) (net : Z) : Prop := exists v,
  tok_in s vault v /\ ta_state v <> TFrozen /\ ta_mint v = mint /\ ta_owner v = vault /\ fst (ta_delegate v) = false /\
  (fst (ta_native v) = true -> ta_amount v <= lam (accs s vault) /\ lam (accs s dst) + net < 2 ^ 64).
(** The fee of [gross] is defined and not more than [gross]. *)
Definition fee_fits (f : fee_info) (gross : Z) : Prop := fi_div f <> 0 /\ fee_on f gross <= gross.
(** The account list of the Rust bindings (token-proxy/src/bindings.rs:584-611). *)
Definition sol_accounts (k vault dst tsk mint sk : key) : ctx := ctx_of tp_id
  [Meta k false true; Meta vault false true; Meta dst false true; Meta tsk false true; Meta mint false false; Meta sk false false;
   Meta spl_id false false; Meta clock_id false false].

(** The same for requests to mint. *)
Definition ever_filed (e : env) (s : state) (k : key) (w : wever) : Prop :=
  own (accs s k) = tp_id /\ unpack c_wever TP_LEN (@p_init _ _) (dat (accs s k)) = Ok w /\ exists n pn, p_kind w = KProposal n pn /\
  find_pda e (sd_proposal (p_round w) (pd_ts (p_pda w)) (pd_lt (p_pda w)) (pd_conf (p_pda w)) (e_hash e (enc c_wever_event (event_of w)))) tp_id = Ok (k, n).
Definition ever_listed (e : env) (s : state) (token : ever) (mint tsk : key) (ts : token_settings) : Prop :=
  token_settings_of e s tsk ts /\ lam (accs s tsk) <> 0 /\ (exists m d, tk_kind ts = TKEver m token d) /\
  exists n mn, tk_akind ts = KTokenSettings n mn /\ find_pda e (str "mint" ++ kb (token_hash e token)) tp_id = Ok (mint, mn).
(** The mint has its own address as authority and room for [net]; [dst] does not hold wrapped lamports. *)
Definition mint_ready (s : state) (mint dst : key) (md : tmint) (net : Z) : Prop :=
  mint_in s mint md /\ tm_auth md = (true, mint) /\ tm_supply md + net < 2 ^ 64 /\ forall r, tok_in s dst r -> fst (ta_native r) = false.
(** The account lists of the Rust bindings (token-proxy/src/bindings.rs:443-472, 925-983); [x] is the program-data
    account if the upgrade authority approves. *)
Definition ever_accounts (k mint dst tsk sk : key) : ctx := ctx_of tp_id
  [Meta k false true; Meta mint false true; Meta dst false true; Meta tsk false true; Meta sk false false; Meta sys_id false false;
   Meta spl_id false false; Meta rent_id false false; Meta clock_id false false].
(** [source]: the vault or the mint. *)
Definition approve_accounts (a source k dst tsk sk : key) (x : list meta) : ctx := ctx_of tp_id
  (Meta a true true :: Meta source false true :: Meta k false true :: Meta dst false true :: Meta tsk false true :: Meta sk false false ::
   Meta spl_id false false :: Meta clock_id false false :: x).

(** * Lemmas *)

Lemma sol_filed_in e s k w : sol_filed e s k w -> wsol_in e tp_id s k w.
Proof. intros (_ & U & n & pn & K & F). split; [exact U|]. exists n, pn. split; [exact K|exact F]. Qed.
Lemma wsol_go e c s k w : c_pid c = tp_id -> wsol_in e tp_id s k w -> valid_wsol e c k s = Ok ((w, k), s).
Proof.
  intros P (U & n & pn & K & F). unfold valid_wsol, wsol_at. eapply bind_go; [apply unpack_at_go; exact U|]. cbv beta.
  eapply bind_go; [|reflexivity]. unfold tp_valid_prop. eapply bind_go; [apply lift_go; rewrite K; reflexivity|]. cbv beta iota.
  apply lift_go. rewrite P. apply pda_go. exact F.
Qed.
Lemma ts_sol_go e c s k ts mint v vn : c_pid c = tp_id -> token_in e tp_id s k ts vn -> tk_kind ts = TKSol mint v ->
  valid_ts_sol e c k s = Ok ((ts, mint, v, vn), s).
Proof.
  intros P (U & n & K & F) KT. unfold valid_ts_sol, token_settings_at. eapply bind_go; [apply unpack_at_go; exact U|]. cbv beta.
  eapply bind_go; [apply lift_go; rewrite KT; reflexivity|]. cbv beta iota. eapply bind_go; [apply lift_go; rewrite K; reflexivity|]. cbv beta iota.
  eapply bind_go; [|reflexivity]. apply lift_go. rewrite P. apply pda_go. unfold ts_seeds in F. rewrite KT in F. exact F.
Qed.
Lemma clock_go s : check_clock clock_id s = Ok (now s, s).
Proof. unfold check_clock. eapply bind_go; [apply guard_go; apply keqb_refl|]. reflexivity. Qed.
Lemma fee_go f gross : 0 <= gross < 2 ^ 64 -> 0 <= fi_mul f -> 0 <= fi_div f -> fee_fits f gross -> fee_of u64max f gross = Ok (fee_on f gross).
Proof.
  intros G M D [D0 F]. unfold fee_of, cdiv. replace (fi_div f =? 0) with false by lia. cbn [rbind]. unfold cmul.
  unfold fee_on in *. change u64max with (2 ^ 64). replace (gross / fi_div f * fi_mul f <? 2 ^ 64) with true by lia. reflexivity.
Qed.

Lemma pay_sol_go e c w vault dst mint vn net s : c_pid c = tp_id -> c_wr c vault = true -> c_wr c dst = true ->
  In vault (c_keys c) -> In dst (c_keys c) -> In spl_id (c_keys c) -> nonneg s -> 0 <= net ->
  find_pda e (sd_vault mint) tp_id = Ok (vault, vn) -> vault <> dst -> vault_ready s mint vault dst net ->
  can_receive e s (p_kind w) (wse_payload (event_of w)) mint (wse_recipient (event_of w)) dst net ->
  exists st s1, pay_sol e c w vault dst mint mint vn net s = Ok (st, s1) /\ only_two vault dst s s1 /\ lam_sum (c_keys c) s1 = lam_sum (c_keys c) s.
Proof.
  intros P W1 W2 I1 I2 I3 NN N0 PV NE (v & TV & FV & MV & OV & DV & NV) (r & TR & FR & MR & UR & CR).
  assert (PS : pda_signer e c (with_bump (sd_vault mint) vn) s = Ok (vault, s)).
  { apply find_pda_some in PV as [PV _]. unfold pda_signer. apply lift_go. rewrite P. unfold with_bump. rewrite PV. reflexivity. }
  assert (FV' : ta_frozen v = false) by (unfold ta_frozen; destruct (ta_state v); congruence).
  assert (FR' : ta_frozen r = false) by (unfold ta_frozen; destruct (ta_state r); congruence).
  assert (ON : only_two vault dst s s) by (unfold only_two; repeat split; auto).
  assert (T : exists y s1, (if ta_amount v <? net then ret false else make_sol_transfer e c vault dst mint vn net ;;; ret true) s = Ok (y, s1) /\
    only_two vault dst s s1 /\ lam_sum (c_keys c) s1 = lam_sum (c_keys c) s).
  { destruct (ta_amount v <? net) eqn:B; [exists false, s; split; [reflexivity|split; [exact ON|reflexivity]]|].
    destruct (transfer_go (ctx_of spl_id [Meta vault false true; Meta dst false true; Meta vault false false; Meta vault true false]) vault dst vault net s v r)
      as (s1 & T1 & O1 & D1); try assumption; try reflexivity; try lia; try congruence.
    - cbn [ctx_of c_wr existsb m_key m_wr]. rewrite keqb_refl. reflexivity.
    - cbn [ctx_of c_wr existsb m_key m_wr]. rewrite keqb_refl. cbn [andb]. apply orb_true_r.
    - cbn [ctx_of c_sg existsb m_key m_sg]. rewrite !keqb_refl, !andb_false_r. reflexivity.
    - intros NA. destruct (NV NA) as [X Y]. split; [lia|exact Y].
    - exists true, s1. split; [|split; [exact O1|]].
      + eapply bind_go; [|reflexivity]. unfold make_sol_transfer. eapply bind_go; [exact PS|]. cbv beta. unfold invoke_tok_transfer.
        apply cpi_go; [exact I3| |exact T1].
        repeat constructor; cbn [m_key m_sg m_wr]; try assumption; try discriminate; try (intros _; right; left; reflexivity); intros _; assumption.
      + unfold native_moves in D1. destruct (fst (ta_native v)).
        * eapply lam_sum_pay; [exact D1|exact I2|exact I1].
        * rewrite (lam_sum_dlam _ _ _ _ D1). assert (Z0 : forall l, ksum (fun _ => 0) l = 0) by (unfold ksum; induction l as [|x l IH]; [reflexivity|cbn [fold_right]; rewrite IH; reflexivity]).
          rewrite Z0. lia. }
  destruct T as (y & s1 & T1 & T2 & T3).
  assert (T0 : forall sy, exists st, (if ta_amount v <? net then ret WPending else make_sol_transfer e c vault dst mint vn net ;;; ret sy) s = Ok (st, s1)).
  { intros sy. destruct (ta_amount v <? net); [injection T1 as _ <-; exists WPending; reflexivity|]. exists sy.
    unfold bind in T1 |- *. destruct (make_sol_transfer e c vault dst mint vn net s) as [[u s2]|er]; [|discriminate]. injection T1 as _ <-. reflexivity. }
  destruct TV as [OV1 UV]. destruct TR as [OR1 UR1]. unfold event_of in CR. unfold pay_sol. destruct CR as [[PL OWN]|(PL & n & pn & KD & F)].
  - destruct (T0 WProcessed) as (st & E). exists st, s1. split; [|split; [exact T2|exact T3]]. rewrite PL. cbn [nil_b]. cbv iota.
    eapply bind_go. { unfold check_recipient. eapply bind_go; [apply tacc_go; exact UR1|]. cbv beta. apply guard_go. rewrite OWN. apply keqb_refl. }
    eapply bind_go; [apply tacc_go; exact UV|]. exact E.
  - destruct (T0 WWaitExecute) as (st & E). exists st, s1. split; [|split; [exact T2|exact T3]].
    replace (nil_b (wse_payload (wl_data (p_event w)))) with false by (destruct (wse_payload (wl_data (p_event w))); [contradiction|reflexivity]). cbv iota.
    eapply bind_go. { unfold check_proxy. eapply bind_go; [apply lift_go; rewrite KD; reflexivity|]. cbv beta iota. eapply bind_go; [apply lift_go; reflexivity|]. cbv beta.
      eapply bind_go; [apply lift_go; rewrite P; apply pda_go; exact F|]. reflexivity. }
    eapply bind_go; [apply tacc_go; exact UV|]. exact E.
Qed.

Lemma sum_go c (m : M unit) s s' : m s = Ok (tt, s') -> lam_sum (c_keys c) s' = lam_sum (c_keys c) s -> run c m s = Ok s'.
Proof. intros H L. unfold run. rewrite H, L, Z.eqb_refl. reflexivity. Qed.
Lemma lam_sum_written {A} (cd : codec A) l s k x : lam_sum l (written cd s k x) = lam_sum l s.
Proof.
  unfold lam_sum. induction (dedup l) as [|y r IH]; [reflexivity|]. cbn [fold_right]. rewrite IH. f_equal.
  apply (lam_same_only k). apply written_only.
Qed.
Lemma written_len {A} (cd : codec A) s k x LEN j : blen (enc cd x) <= blen (dat (accs s k)) -> blen (dat (accs s j)) = LEN -> blen (dat (accs (written cd s k x) j)) = LEN.
Proof.
  intros B L. destruct (key_dec j k) as [J|J].
  - rewrite J in *. unfold written. rewrite dat_put_dat, blen_app. unfold blen in *. rewrite skipn_length. lia.
  - destruct (written_only cd s k x) as [(_ & _ & S) _]. rewrite S by exact J. exact L.
Qed.
Lemma written_own {A} (cd : codec A) s k x j : own (accs (written cd s k x) j) = own (accs s j).
Proof. unfold written. apply own_put_dat. Qed.
Lemma status_size {E} (ce : codec E) (w : prop E (withlen wmeta)) st :
  blen (enc (c_prop ce (c_withlen c_wmeta)) (w_set_status w st)) = blen (enc (c_prop ce (c_withlen c_wmeta)) w).
Proof.
  rewrite !size_prop. cbn [w_set_status p_with_meta p_kind p_event p_meta p_signers]. 
  assert (X : forall a, blen (enc (c_withlen c_wmeta) a) = 21); [|rewrite !X; reflexivity].
  intros a. unfold c_withlen. cbn [c_iso enc]. rewrite blen_pair, blen_u32, blen_wmeta. reflexivity.
Qed.
(** Writing the status of a request. *)
Lemma restatus_go {E} (ce : codec E) c s0 s k (w : prop E (withlen wmeta)) st : c_pid c = tp_id -> c_wr c k = true ->
  own (accs s k) = tp_id -> blen (dat (accs s k)) = TP_LEN -> Lawful (c_prop ce (c_withlen c_wmeta)) -> unpack (c_prop ce (c_withlen c_wmeta)) TP_LEN (@p_init _ _) (dat (accs s0 k)) = Ok w ->
  exists s', pack_at c (c_prop ce (c_withlen c_wmeta)) TP_LEN k (w_set_status w st) s = Ok (tt, s') /\ lam_sum (c_keys c) s' = lam_sum (c_keys c) s.
Proof.
  intros P W O B LW U. eapply unpack_ok in U as (r & D & _ & LEN & _); [|exact LW].
  eexists. split.
  - apply pack_at_go; [rewrite P; exact O|exact W|exact B|].
    rewrite status_size. rewrite D, blen_app in LEN. pose proof (blen_nonneg r). lia.
  - rewrite lam_sum_written. reflexivity.
Qed.
(** Writing the status of a request, after its log entry. *)
Lemma status_go {E} (ce : codec E) c s0 s k (w : prop E (withlen wmeta)) st wk : c_pid c = tp_id -> c_wr c k = true ->
  own (accs s k) = tp_id -> blen (dat (accs s k)) = TP_LEN -> Lawful (c_prop ce (c_withlen c_wmeta)) -> unpack (c_prop ce (c_withlen c_wmeta)) TP_LEN (@p_init _ _) (dat (accs s0 k)) = Ok w ->
  exists s', (emit (enc c_ev_status (EvStatus wk st)) ;;; pack_at c (c_prop ce (c_withlen c_wmeta)) TP_LEN k (w_set_status w st)) s = Ok (tt, s') /\
    lam_sum (c_keys c) s' = lam_sum (c_keys c) s.
Proof.
  intros P W O B LW U. eapply unpack_ok in U as (r & D & _ & LEN & _); [|exact LW].
  eexists. split.
  - eapply bind_go; [reflexivity|]. apply pack_at_go; [rewrite P; exact O|exact W|exact B|].
    rewrite status_size. rewrite D, blen_app in LEN. pose proof (blen_nonneg r). lia.
  - rewrite lam_sum_written. reflexivity.
Qed.

Lemma token_len e s k ts : token_settings_of e s k ts -> blen (dat (accs s k)) = TP_LEN /\ blen (enc c_token_settings ts) <= TP_LEN /\ okb c_token_settings ts = true.
Proof.
  intros (_ & U & _). apply unpack_ok in U as (r & D & OK & LEN & _); [|typeclasses eauto].
  split; [exact LEN|]. split; [|exact OK]. rewrite D, blen_app in LEN. pose proof (blen_nonneg r). lia.
Qed.

Lemma sol_exec e ext s k w vault dst tsk ts sk : nonneg s -> clock_ok s -> sol_filed e s k w -> p_required w <= confirmed (p_signers w) ->
  let mint := wse_mint (event_of w) in let gross := wse_amount (event_of w) mod 2 ^ 64 in
  let fee := fee_on (tk_fee_wdr ts) gross in let net := gross - fee in
  (status_of w = WNew /\ today ts s + net < 2 ^ 64 /\ tk_fee_supply ts + fee < 2 ^ 64 \/ status_of w = WPending) ->
  sol_listed e s mint vault tsk ts -> running e s sk ts -> fee_fits (tk_fee_wdr ts) gross -> vault <> dst ->
  vault_ready s mint vault dst net -> can_receive e s (p_kind w) (wse_payload (event_of w)) mint (wse_recipient (event_of w)) dst net ->
  exists s', tp_call e ext (sol_accounts k vault dst tsk mint sk) TpWithdrawSol s s'.
Proof.
  intros NN CK RQ QU mint gross fee net ST LI ([stt [BS GE]] & TE) FF NE VR CR. set (c := sol_accounts k vault dst tsk mint sk).
  pose proof (sol_filed_in _ _ _ _ RQ) as WI. destruct RQ as (OK_ & UW & _).
  destruct LI as (TS & [v0 KT] & n & vn & KA & PV). pose proof (token_len _ _ _ _ TS) as (TL & TB & TO). pose proof TS as (OT & UT & n1 & vn1 & KA1 & FT).
  rewrite KA in KA1. injection KA1 as <- <-.
  assert (TI : token_in e tp_id s tsk ts vn) by (split; [exact UT|]; exists n; split; [exact KA|]; unfold ts_seeds; destruct (tk_kind ts); exact FT).
  destruct BS as (_ & US & n2 & pd & pn2 & FS & FP & GK).
  assert (SI : tp_settings_in e tp_id s sk stt pn2) by (split; [exact US|]; exists n2; split; [exact GK|exact FS]).
  assert (WLEN : blen (dat (accs s k)) = TP_LEN) by (apply unpack_ok in UW as (r & _ & _ & L & _); [exact L|typeclasses eauto]).
  assert (G : 0 <= gross < 2 ^ 64) by (apply Z.mod_pos_bound; lia).
  apply okb_ts in TO. destruct TO as (_ & _ & _ & _ & _ & _ & _ & DA & _ & FSU & _ & FW).
  assert (FM : 0 <= fi_mul (tk_fee_wdr ts) /\ 0 <= fi_div (tk_fee_wdr ts)).
  { clear - FW. unfold c_fee_info in FW. cbn [c_iso okb c_pair fst snd] in FW. apply andb_true_iff in FW as [A B]. apply okb_u64 in A, B. lia. }
  assert (FE : fee_of u64max (tk_fee_wdr ts) gross = Ok fee) by (apply fee_go; [exact G|apply FM|apply FM|exact FF]).
  assert (N0 : 0 <= net) by (destruct FF as [_ FF]; unfold net, fee; lia).
  assert (CN : csub gross fee = Ok net) by (unfold csub; replace (fee <=? gross) with true by (unfold net in N0; lia); reflexivity).
  assert (W1 : c_wr c vault = true) by (unfold c, sol_accounts; cbn [ctx_of c_wr existsb m_key m_wr]; rewrite keqb_refl; cbn [andb orb]; rewrite ?orb_true_r; reflexivity).
  assert (W2 : c_wr c dst = true) by (unfold c, sol_accounts; cbn [ctx_of c_wr existsb m_key m_wr]; rewrite keqb_refl; cbn [andb orb]; rewrite ?orb_true_r; reflexivity).
  assert (W3 : c_wr c k = true) by (unfold c, sol_accounts; cbn [ctx_of c_wr existsb m_key m_wr]; rewrite keqb_refl; cbn [andb orb]; rewrite ?orb_true_r; reflexivity).
  assert (W4 : c_wr c tsk = true) by (unfold c, sol_accounts; cbn [ctx_of c_wr existsb m_key m_wr]; rewrite keqb_refl; cbn [andb orb]; rewrite ?orb_true_r; reflexivity).
  destruct (pay_sol_go e c w vault dst mint vn net s eq_refl W1 W2) as (st & s1 & PAY & (O1 & A1 & _) & LS1); try assumption; try (unfold c, sol_accounts; cbn; tauto).
  assert (KV : forall j, own (accs s j) = tp_id -> accs s1 j = accs s j).
  { intros j J. apply A1; intros ->; [destruct VR as (v & [X _] & _)|destruct CR as (r & [X _] & _)]; rewrite X in J; discriminate. }
  assert (MID : exists st' s2, match w_status w with
            | WNew =>
              let ts1 := roll_day ts (epoch_of (now s)) in
              daily <- lift (cadd u64max (tk_wdamount ts1) net) ;;
              fs <- lift (cadd u64max (tk_fee_supply ts1) fee) ;;
              let ts2 := tk_set_daily (tk_set_fee_supply ts1 fs) (tk_wepoch ts1) daily in
              st <- (if (tk_wlimit ts <? net) || (tk_wdlimit ts <? daily) then ret WWaitApprove
                     else pay_sol e c w vault dst mint mint vn net) ;;
              pack_at c c_token_settings TP_LEN tsk ts2 ;;;
              ret st
            | WPending => pay_sol e c w vault dst mint mint vn net
            | s => ret s
            end s = Ok (st', s2) /\ own (accs s2 k) = tp_id /\ blen (dat (accs s2 k)) = TP_LEN /\ lam_sum (c_keys c) s2 = lam_sum (c_keys c) s).
  { change (w_status w) with (status_of w). destruct ST as [(-> & B1 & B2)| ->].
    - set (ts1 := roll_day ts (epoch_of (now s))). cbv zeta.
      assert (D1 : tk_wdamount ts1 = today ts s) by (unfold ts1, roll_day, today; change day_of with epoch_of; destruct (tk_wepoch ts =? epoch_of (now s)); reflexivity).
      assert (D2 : tk_fee_supply ts1 = tk_fee_supply ts) by (unfold ts1, roll_day; destruct (tk_wepoch ts =? epoch_of (now s)); reflexivity).
      set (ts2 := tk_set_daily (tk_set_fee_supply ts1 (tk_fee_supply ts + fee)) (tk_wepoch ts1) (today ts s + net)).
      assert (SZ : blen (enc c_token_settings ts2) <= TP_LEN).
      { rewrite size_token_settings in *. unfold ts2, ts1, roll_day. destruct (tk_wepoch ts =? epoch_of (now s)); exact TB. }
      assert (P0 : exists st' s2, (if (tk_wlimit ts <? net) || (tk_wdlimit ts <? today ts s + net) then ret WWaitApprove
                     else pay_sol e c w vault dst mint mint vn net) s = Ok (st', s2) /\
                     (forall j, own (accs s j) = tp_id -> accs s2 j = accs s j) /\ lam_sum (c_keys c) s2 = lam_sum (c_keys c) s).
      { destruct ((tk_wlimit ts <? net) || (tk_wdlimit ts <? today ts s + net)); [exists WWaitApprove, s|exists st, s1]; auto. }
      destruct P0 as (st' & s2 & P1 & P2 & P3). exists st', (written c_token_settings s2 tsk ts2).
      split; [|split; [|split]].
      + eapply bind_go; [apply lift_go; unfold cadd; rewrite D1; replace (today ts s + net <? u64max) with true by (symmetry; apply Z.ltb_lt; exact B1); reflexivity|]. cbv beta.
        eapply bind_go; [apply lift_go; unfold cadd; rewrite D2; replace (tk_fee_supply ts + fee <? u64max) with true by (symmetry; apply Z.ltb_lt; exact B2); reflexivity|]. cbv beta zeta.
        eapply bind_go; [exact P1|]. cbv beta. eapply bind_go; [apply pack_at_go; [rewrite P2; exact OT|exact W4|rewrite P2; [exact TL|exact OT]|exact SZ]|]. reflexivity.
      + rewrite written_own, P2; exact OK_.
      + apply written_len; [rewrite P2 by exact OT; rewrite TL; exact SZ|rewrite P2 by exact OK_; exact WLEN].
      + rewrite lam_sum_written. exact P3.
    - exists st, s1. split; [exact PAY|]. rewrite KV by exact OK_. auto. }
  destruct MID as (st' & s2 & M1 & M2 & M3 & M4).
  destruct (status_go (c_withlen c_wsol_event) c s s2 k w st' k eq_refl W3 M2 M3 ltac:(typeclasses eauto) UW) as (s' & E1 & E2).
  exists s'. apply call_go; [reflexivity|exact CK|reflexivity|]. apply sum_go; [|rewrite E2; exact M4].
  cbn [tp_exec]. unfold tp_withdraw_sol. change (c_keys c) with [k; vault; dst; tsk; mint; sk; spl_id; clock_id]. cbv beta iota.
  eapply bind_go; [apply clock_go|]. cbv beta. eapply bind_go; [eapply live_go; [reflexivity|exact SI|exact GE]|]. 
  eapply bind_go; [apply wsol_go; [reflexivity|exact WI]|]. cbv beta iota. eapply bind_go; [eapply ts_sol_go; [reflexivity|exact TI|exact KT]|]. cbv beta iota.
  eapply bind_go; [unfold token_live; apply guard_go; rewrite TE; reflexivity|]. eapply bind_go; [apply lift_go, pda_go; exact PV|]. cbv zeta.
  eapply bind_go; [apply guard_go; apply keqb_refl|].
  assert (QW : wrap32 (confirms (p_signers w)) = confirmed (p_signers w)) by (rewrite <- (sol_confirms _ _ _ _ _ WI); reflexivity).
  rewrite QW. replace (p_required w <=? confirmed (p_signers w)) with true by lia.
  eapply bind_go; [apply lift_go; exact FE|]. cbv beta. eapply bind_go; [apply lift_go; exact CN|]. cbv beta.
  eapply bind_go; [exact M1|]. cbv beta. exact E1.
Qed.

Lemma ever_filed_in e s k w : ever_filed e s k w -> wever_in e tp_id s k w.
Proof. intros (_ & U & n & pn & K & F). split; [exact U|]. exists n, pn. split; [exact K|exact F]. Qed.
Lemma wever_go e c s k w : c_pid c = tp_id -> wever_in e tp_id s k w -> valid_wever e c k s = Ok ((w, k), s).
Proof.
  intros P (U & n & pn & K & F). unfold valid_wever, wever_at. eapply bind_go; [apply unpack_at_go; exact U|]. cbv beta.
  eapply bind_go; [|reflexivity]. unfold tp_valid_prop. eapply bind_go; [apply lift_go; rewrite K; reflexivity|]. cbv beta iota.
  apply lift_go. rewrite P. apply pda_go. exact F.
Qed.
Lemma ts_ever_go e c s k ts m token d mn : c_pid c = tp_id -> token_in e tp_id s k ts mn -> tk_kind ts = TKEver m token d ->
  valid_ts_ever e c k s = Ok ((ts, token, d, mn), s).
Proof.
  intros P (U & n & K & F) KT. unfold valid_ts_ever, token_settings_at. eapply bind_go; [apply unpack_at_go; exact U|]. cbv beta.
  eapply bind_go; [apply lift_go; rewrite KT; reflexivity|]. cbv beta iota. eapply bind_go; [apply lift_go; rewrite K; reflexivity|]. cbv beta iota.
  eapply bind_go; [|reflexivity]. apply lift_go. rewrite P. apply pda_go. unfold ts_seeds in F. rewrite KT in F. exact F.
Qed.
Lemma gwa_go x a b : 0 <= x -> Z.abs (a - b) <= 38 -> rescale x a b < 2 ^ 128 -> get_withdrawal_amount x a b = Ok (rescale x a b mod 2 ^ 64).
Proof.
  intros X D F. unfold get_withdrawal_amount, rescale in *. destruct (b <? a) eqn:L.
  - destruct (pow10_small (a - b)) as [E P]; [lia|]. unfold cdiv. rewrite E. replace (10 ^ (a - b) =? 0) with false by lia. reflexivity.
  - destruct (pow10_small (b - a)) as [E P]; [lia|]. unfold cmul. rewrite E. change u128max with (2 ^ 128).
    apply Z.ltb_lt in F. rewrite F. reflexivity.
Qed.

Lemma pay_ever_go e c w mint dst token mn md net s : c_pid c = tp_id -> c_wr c mint = true -> c_wr c dst = true ->
  In mint (c_keys c) -> In dst (c_keys c) -> In spl_id (c_keys c) -> 0 <= net ->
  find_pda e (sd_mint (token_hash e token)) tp_id = Ok (mint, mn) -> mint_ready s mint dst md net ->
  can_receive e s (p_kind w) (wee_payload (event_of w)) mint (wee_recipient (event_of w)) dst net ->
  exists st s1, pay_ever e c w mint dst token mn net s = Ok (st, s1) /\ only_two mint dst s s1 /\ lam_sum (c_keys c) s1 = lam_sum (c_keys c) s.
Proof.
  intros P W1 W2 I1 I2 I3 N0 PM (TM & AU & SU & NA) (r & TR & FR & MR & UR & CR).
  assert (PS : pda_signer e c (with_bump (sd_mint (token_hash e token)) mn) s = Ok (mint, s)).
  { apply find_pda_some in PM as [PM _]. unfold pda_signer. apply lift_go. rewrite P. unfold with_bump. rewrite PM. reflexivity. }
  assert (FR' : ta_frozen r = false) by (unfold ta_frozen; destruct (ta_state r); congruence).
  destruct (mint_go (ctx_of spl_id [Meta mint false true; Meta dst false true; Meta mint false false; Meta mint true false]) mint dst mint net s md r)
    as (s1 & T1 & O1 & D1); try assumption; try reflexivity.
  { cbn [ctx_of c_wr existsb m_key m_wr]. rewrite keqb_refl. reflexivity. }
  { cbn [ctx_of c_wr existsb m_key m_wr]. rewrite keqb_refl. cbn [andb]. apply orb_true_r. }
  { cbn [ctx_of c_sg existsb m_key m_sg]. rewrite !keqb_refl, !andb_false_r. reflexivity. }
  { apply NA. exact TR. }
  assert (T : make_ever_transfer e c mint dst token mn net s = Ok (tt, s1)).
  { unfold make_ever_transfer. eapply bind_go; [exact PS|]. cbv beta. unfold invoke_tok_mint_to. apply cpi_go; [exact I3| |exact T1].
    repeat constructor; cbn [m_key m_sg m_wr]; try assumption; try discriminate; try (intros _; right; left; reflexivity); intros _; assumption. }
  assert (LS : lam_sum (c_keys c) s1 = lam_sum (c_keys c) s).
  { unfold lam_sum. induction (dedup (c_keys c)) as [|x l IH]; [reflexivity|]. cbn [fold_right]. rewrite IH, D1. reflexivity. }
  destruct TR as [OR1 UR1]. unfold event_of in CR. unfold pay_ever. destruct CR as [[PL OWN]|(PL & n & pn & KD & F)].
  - exists WProcessed, s1. split; [|split; [exact O1|exact LS]]. rewrite PL. cbn [nil_b]. cbv iota.
    eapply bind_go. { unfold check_recipient. eapply bind_go; [apply tacc_go; exact UR1|]. cbv beta. apply guard_go. rewrite OWN. apply keqb_refl. }
    eapply bind_go; [exact T|]. reflexivity.
  - exists WWaitExecute, s1. split; [|split; [exact O1|exact LS]].
    replace (nil_b (wee_payload (wl_data (p_event w)))) with false by (destruct (wee_payload (wl_data (p_event w))); [contradiction|reflexivity]). cbv iota.
    eapply bind_go. { unfold check_proxy. eapply bind_go; [apply lift_go; rewrite KD; reflexivity|]. cbv beta iota. eapply bind_go; [apply lift_go; reflexivity|]. cbv beta.
      eapply bind_go; [apply lift_go; rewrite P; apply pda_go; exact F|]. reflexivity. }
    eapply bind_go; [exact T|]. reflexivity.
Qed.
Lemma ever_eqb_same a : ever_eqb a a = true.
Proof. unfold ever_eqb. rewrite Z.eqb_refl, keqb_refl. reflexivity. Qed.

Lemma ever_exec e ext s k w mint md dst tsk ts sk : clock_ok s -> ever_filed e s k w -> p_required w <= confirmed (p_signers w) -> ever_scales w md ->
  let gross := ever_gross w md mod 2 ^ 64 in
  let fee := fee_on (tk_fee_wdr ts) gross in let net := gross - fee in
  ever_gross w md < 2 ^ 128 -> status_of w = WNew -> today ts s + net < 2 ^ 64 -> tk_fee_supply ts + fee < 2 ^ 64 ->
  ever_listed e s (wee_token (event_of w)) mint tsk ts -> running e s sk ts -> fee_fits (tk_fee_wdr ts) gross ->
  mint_ready s mint dst md net -> can_receive e s (p_kind w) (wee_payload (event_of w)) mint (wee_recipient (event_of w)) dst net ->
  exists s', tp_call e ext (ever_accounts k mint dst tsk sk) TpWithdrawEver s s'.
Proof.
  intros CK RQ QU SC gross fee net G128 ST B1 B2 LI ([stt [BS GE]] & TE) FF MR CR. set (c := ever_accounts k mint dst tsk sk).
  pose proof (ever_filed_in _ _ _ _ RQ) as WI. destruct RQ as (OK_ & UW & _).
  destruct LI as (TS & LT & (m0 & d0 & KT) & n & mn & KA & PM). pose proof (token_len _ _ _ _ TS) as (TL & TB & TO). pose proof TS as (OT & UT & n1 & vn1 & KA1 & FT).
  rewrite KA in KA1. injection KA1 as <- <-.
  assert (TI : token_in e tp_id s tsk ts mn) by (split; [exact UT|]; exists n; split; [exact KA|]; unfold ts_seeds; destruct (tk_kind ts); exact FT).
  destruct BS as (_ & US & n2 & pd & pn2 & FS & FP & GK).
  assert (SI : tp_settings_in e tp_id s sk stt pn2) by (split; [exact US|]; exists n2; split; [exact GK|exact FS]).
  assert (WLEN : blen (dat (accs s k)) = TP_LEN) by (apply unpack_ok in UW as (r & _ & _ & L & _); [exact L|typeclasses eauto]).
  assert (A0 : 0 <= wee_amount (event_of w)).
  { apply (ever_amount e s k). split; [exact OK_|]. split; [exact UW|]. destruct WI as (_ & wn & wp & _ & WF). exists wn. exact WF. }
  assert (G : 0 <= gross < 2 ^ 64) by (apply Z.mod_pos_bound; lia).
  apply okb_ts in TO. destruct TO as (_ & _ & _ & _ & _ & _ & _ & DA & _ & FSU & _ & FW).
  assert (FM : 0 <= fi_mul (tk_fee_wdr ts) /\ 0 <= fi_div (tk_fee_wdr ts)).
  { clear - FW. unfold c_fee_info in FW. cbn [c_iso okb c_pair fst snd] in FW. apply andb_true_iff in FW as [A B]. apply okb_u64 in A, B. lia. }
  assert (FE : fee_of u64max (tk_fee_wdr ts) gross = Ok fee) by (apply fee_go; [exact G|apply FM|apply FM|exact FF]).
  assert (N0 : 0 <= net) by (destruct FF as [_ FF]; unfold net, fee; lia).
  assert (CN : csub gross fee = Ok net) by (unfold csub; replace (fee <=? gross) with true by (unfold net in N0; lia); reflexivity).
  assert (GA : get_withdrawal_amount (wee_amount (event_of w)) (wee_decimals (event_of w)) (tm_decimals md) = Ok gross) by (apply gwa_go; assumption).
  assert (W1 : c_wr c mint = true) by (unfold c, ever_accounts; cbn [ctx_of c_wr existsb m_key m_wr]; rewrite keqb_refl; cbn [andb orb]; rewrite ?orb_true_r; reflexivity).
  assert (W2 : c_wr c dst = true) by (unfold c, ever_accounts; cbn [ctx_of c_wr existsb m_key m_wr]; rewrite keqb_refl; cbn [andb orb]; rewrite ?orb_true_r; reflexivity).
  assert (W3 : c_wr c k = true) by (unfold c, ever_accounts; cbn [ctx_of c_wr existsb m_key m_wr]; rewrite keqb_refl; cbn [andb orb]; rewrite ?orb_true_r; reflexivity).
  assert (W4 : c_wr c tsk = true) by (unfold c, ever_accounts; cbn [ctx_of c_wr existsb m_key m_wr]; rewrite keqb_refl; cbn [andb orb]; rewrite ?orb_true_r; reflexivity).
  destruct (pay_ever_go e c w mint dst (wee_token (event_of w)) mn md net s eq_refl W1 W2) as (st & s1 & PAY & (O1 & A1 & _) & LS1); try assumption; try (unfold c, ever_accounts; cbn; tauto).
  assert (KV : forall j, own (accs s j) = tp_id -> accs s1 j = accs s j).
  { intros j J. apply A1; intros ->; [destruct MR as ([X _] & _)|destruct CR as (r & [X _] & _)]; rewrite X in J; discriminate. }
  set (ts1 := roll_day ts (epoch_of (now s))).
  assert (D1 : tk_wdamount ts1 = today ts s) by (unfold ts1, roll_day, today; change day_of with epoch_of; destruct (tk_wepoch ts =? epoch_of (now s)); reflexivity).
  assert (D2 : tk_fee_supply ts1 = tk_fee_supply ts) by (unfold ts1, roll_day; destruct (tk_wepoch ts =? epoch_of (now s)); reflexivity).
  assert (D3 : tk_fee_wdr ts1 = tk_fee_wdr ts) by (unfold ts1, roll_day; destruct (tk_wepoch ts =? epoch_of (now s)); reflexivity).
  set (ts2 := tk_set_daily (tk_set_fee_supply ts1 (tk_fee_supply ts + fee)) (tk_wepoch ts1) (today ts s + net)).
  assert (SZ : blen (enc c_token_settings ts2) <= TP_LEN).
  { rewrite size_token_settings in *. unfold ts2, ts1, roll_day. destruct (tk_wepoch ts =? epoch_of (now s)); exact TB. }
  assert (P0 : exists st' s2, (if (tk_wlimit ts <? net) || (tk_wdlimit ts <? today ts s + net) then ret WWaitApprove
                 else pay_ever e c w mint dst (wee_token (event_of w)) mn net) s = Ok (st', s2) /\
                 (forall j, own (accs s j) = tp_id -> accs s2 j = accs s j) /\ lam_sum (c_keys c) s2 = lam_sum (c_keys c) s).
  { destruct ((tk_wlimit ts <? net) || (tk_wdlimit ts <? today ts s + net)); [exists WWaitApprove, s|exists st, s1]; auto. }
  destruct P0 as (st' & s2 & P1 & P2 & P3). set (s3 := written c_token_settings s2 tsk ts2).
  assert (M2 : own (accs s3 k) = tp_id) by (unfold s3; rewrite written_own, P2; exact OK_).
  assert (M3 : blen (dat (accs s3 k)) = TP_LEN) by (apply written_len; [rewrite P2 by exact OT; rewrite TL; exact SZ|rewrite P2 by exact OK_; exact WLEN]).
  assert (M4 : lam_sum (c_keys c) s3 = lam_sum (c_keys c) s) by (unfold s3; rewrite lam_sum_written; exact P3).
  destruct (status_go (c_withlen c_wever_event) c s s3 k w st' k eq_refl W3 M2 M3 ltac:(typeclasses eauto) UW) as (s' & E1 & E2).
  exists s'. apply call_go; [reflexivity|exact CK|reflexivity|]. apply sum_go; [|rewrite E2; exact M4].
  cbn [tp_exec]. unfold tp_withdraw_ever. change (c_keys c) with [k; mint; dst; tsk; sk; sys_id; spl_id; rent_id; clock_id]. cbv beta iota.
  eapply bind_go; [unfold check_rent; apply guard_go; apply keqb_refl|].
  eapply bind_go; [apply clock_go|]. cbv beta. eapply bind_go; [eapply live_go; [reflexivity|exact SI|exact GE]|].
  eapply bind_go; [apply wever_go; [reflexivity|exact WI]|]. cbv beta iota. eapply bind_go; [reflexivity|]. cbv beta.
  replace (lam (accs s tsk) =? 0) with false by lia. unfold withdraw_ever_exec. cbv zeta.
  eapply bind_go; [eapply ts_ever_go; [reflexivity|exact TI|exact KT]|]. cbv beta iota.
  eapply bind_go; [unfold token_live; apply guard_go; rewrite TE; reflexivity|]. eapply bind_go; [apply lift_go, pda_go; exact PM|].
  eapply bind_go; [apply guard_go; apply ever_eqb_same|]. eapply bind_go; [apply tmint_go; exact (proj2 (proj1 MR))|]. cbv beta.
  assert (QW : wrap32 (confirms (p_signers w)) = confirmed (p_signers w)) by (rewrite <- (ever_confirms _ _ _ _ _ WI); reflexivity).
  rewrite QW. replace (p_required w <=? confirmed (p_signers w)) with true by lia. change (w_status w) with (status_of w). rewrite ST.
  cbn [andb wstatus_eqb]. cbv iota. fold ts1.
  eapply bind_go; [apply lift_go; exact GA|]. cbv beta. eapply bind_go; [apply lift_go; rewrite D3; exact FE|]. cbv beta.
  eapply bind_go; [apply lift_go; unfold cadd; rewrite D2; replace (tk_fee_supply ts + fee <? u64max) with true by (symmetry; apply Z.ltb_lt; exact B2); reflexivity|]. cbv beta.
  eapply bind_go; [apply lift_go; exact CN|]. cbv beta.
  eapply bind_go; [apply lift_go; unfold cadd; rewrite D1; replace (today ts s + net <? u64max) with true by (symmetry; apply Z.ltb_lt; exact B1); reflexivity|]. cbv beta.
  eapply bind_go; [exact P1|]. cbv beta. eapply bind_go; [apply pack_at_go; [rewrite P2; exact OT|exact W4|rewrite P2; [exact TL|exact OT]|exact SZ]|].
  exact E1.
Qed.

Lemma acts_backed e s role a x : acts e s role a x -> backed e s role a (map m_key x).
Proof. intros [|a' pd n w A F]; [left; reflexivity|right]. exists pd, n. split; [exact F|]. split; [exact A|reflexivity]. Qed.
(** The day's amount is given back if the request is of today. *)
Lemma release_go {E} (ce : codec E) e c s0 s k (w : prop E (withlen wmeta)) tsk ts net : c_pid c = tp_id -> c_wr c tsk = true -> token_settings_of e s0 tsk ts ->
  (forall j, own (accs s0 j) = tp_id -> accs s j = accs s0 j) -> own (accs s0 k) = tp_id -> blen (dat (accs s0 k)) = TP_LEN ->
  (wm_epoch (wl_data (p_meta w)) = day_of (now s0) -> net <= tk_wdamount ts) ->
  exists s', release_daily c tsk ts w (now s0) net s = Ok (tt, s') /\ own (accs s' k) = tp_id /\ blen (dat (accs s' k)) = TP_LEN /\
    lam_sum (c_keys c) s' = lam_sum (c_keys c) s.
Proof.
  intros P W TS KV OK_ WLEN DAY. pose proof (token_len _ _ _ _ TS) as (TL & TB & TO). destruct TS as (OT & _).
  unfold release_daily. change epoch_of with day_of. destruct (wm_epoch (wl_data (p_meta w)) =? day_of (now s0)) eqn:D.
  - apply Z.eqb_eq in D. specialize (DAY D). set (ts2 := tk_set_daily ts (tk_wepoch ts) (tk_wdamount ts - net)).
    assert (SZ : blen (enc c_token_settings ts2) <= TP_LEN) by (rewrite size_token_settings in *; exact TB).
    exists (written c_token_settings s tsk ts2). split; [|split; [|split]].
    + eapply bind_go; [apply lift_go; unfold csub; replace (net <=? tk_wdamount ts) with true by lia; reflexivity|]. cbv beta.
      apply pack_at_go; [rewrite P, KV; exact OT|exact W|rewrite KV by exact OT; exact TL|exact SZ].
    + rewrite written_own, KV; exact OK_.
    + apply written_len; [rewrite KV by exact OT; rewrite TL; exact SZ|rewrite KV by exact OK_; exact WLEN].
    + apply lam_sum_written.
  - exists s. rewrite KV by exact OK_. auto.
Qed.

Lemma approve_sol_exec e ext s k w vault dst tsk ts sk st a x : nonneg s -> clock_ok s -> sol_filed e s k w -> status_of w = WWaitApprove ->
  let mint := wse_mint (event_of w) in let gross := wse_amount (event_of w) mod 2 ^ 64 in
  let net := gross - fee_on (tk_fee_wdr ts) gross in
  bridge_settings e s sk st -> gs_emergency st = false -> tk_emergency ts = false -> acts e s (gs_wmanager st) a x ->
  (wm_epoch (wl_data (p_meta w)) = day_of (now s) -> net <= tk_wdamount ts) ->
  sol_listed e s mint vault tsk ts -> fee_fits (tk_fee_wdr ts) gross -> vault <> dst ->
  vault_ready s mint vault dst net -> can_receive e s (p_kind w) (wse_payload (event_of w)) mint (wse_recipient (event_of w)) dst net ->
  exists s', tp_call e ext (approve_accounts a vault k dst tsk sk x) TpApproveSol s s'.
Proof.
  intros NN CK RQ ST mint gross net BS GE TE AC DAY LI FF NE VR CR. set (c := approve_accounts a vault k dst tsk sk x).
  pose proof (sol_filed_in _ _ _ _ RQ) as WI. destruct RQ as (OK_ & UW & _).
  destruct LI as (TS & [v0 KT] & n & vn & KA & PV). pose proof (token_len _ _ _ _ TS) as (TL & TB & TO). pose proof TS as (OT & UT & n1 & vn1 & KA1 & FT).
  rewrite KA in KA1. injection KA1 as <- <-.
  assert (TI : token_in e tp_id s tsk ts vn) by (split; [exact UT|]; exists n; split; [exact KA|]; unfold ts_seeds; destruct (tk_kind ts); exact FT).
  destruct BS as (_ & US & n2 & pd & pn2 & FS & FP & GK).
  assert (SI : tp_settings_in e tp_id s sk st pn2) by (split; [exact US|]; exists n2; split; [exact GK|exact FS]).
  assert (WLEN : blen (dat (accs s k)) = TP_LEN) by (apply unpack_ok in UW as (r & _ & _ & L & _); [exact L|typeclasses eauto]).
  assert (G : 0 <= gross < 2 ^ 64) by (apply Z.mod_pos_bound; lia).
  apply okb_ts in TO. destruct TO as (_ & _ & _ & _ & _ & _ & _ & DA & _ & FSU & _ & FW).
  assert (FM : 0 <= fi_mul (tk_fee_wdr ts) /\ 0 <= fi_div (tk_fee_wdr ts)).
  { clear - FW. unfold c_fee_info in FW. cbn [c_iso okb c_pair fst snd] in FW. apply andb_true_iff in FW as [A B]. apply okb_u64 in A, B. lia. }
  assert (FE : fee_of u64max (tk_fee_wdr ts) gross = Ok (fee_on (tk_fee_wdr ts) gross)) by (apply fee_go; [exact G|apply FM|apply FM|exact FF]).
  assert (N0 : 0 <= net) by (destruct FF as [_ FF]; unfold net; lia).
  assert (CN : csub gross (fee_on (tk_fee_wdr ts) gross) = Ok net) by (unfold csub; replace (fee_on (tk_fee_wdr ts) gross <=? gross) with true by (unfold net in N0; lia); reflexivity).
  assert (W1 : c_wr c vault = true) by (unfold c, approve_accounts; cbn [ctx_of c_wr existsb m_key m_wr]; rewrite keqb_refl; cbn [andb orb]; rewrite ?orb_true_r; reflexivity).
  assert (W2 : c_wr c dst = true) by (unfold c, approve_accounts; cbn [ctx_of c_wr existsb m_key m_wr]; rewrite keqb_refl; cbn [andb orb]; rewrite ?orb_true_r; reflexivity).
  assert (W3 : c_wr c k = true) by (unfold c, approve_accounts; cbn [ctx_of c_wr existsb m_key m_wr]; rewrite keqb_refl; cbn [andb orb]; rewrite ?orb_true_r; reflexivity).
  assert (W4 : c_wr c tsk = true) by (unfold c, approve_accounts; cbn [ctx_of c_wr existsb m_key m_wr]; rewrite keqb_refl; cbn [andb orb]; rewrite ?orb_true_r; reflexivity).
  assert (SG : c_sg c a = true) by (unfold c, approve_accounts; cbn [ctx_of c_sg existsb m_key m_sg]; rewrite keqb_refl; reflexivity).
  assert (IK : In vault (c_keys c) /\ In dst (c_keys c) /\ In spl_id (c_keys c)) by (unfold c, approve_accounts; cbn [ctx_of c_keys map m_key In]; tauto).
  destruct IK as (I1 & I2 & I3).
  destruct (pay_sol_go e c w vault dst mint vn net s eq_refl W1 W2 I1 I2 I3) as (st' & s1 & PAY & (O1 & A1 & _) & LS1); try assumption.
  assert (KV : forall j, own (accs s j) = tp_id -> accs s1 j = accs s j).
  { intros j J. apply A1; intros ->; [destruct VR as (v & [X _] & _)|destruct CR as (r & [X _] & _)]; rewrite X in J; discriminate. }
  destruct (release_go (c_withlen c_wsol_event) e c s s1 k w tsk ts net eq_refl W4 TS KV OK_ WLEN DAY) as (s2 & R1 & M2 & M3 & M4).
  destruct (restatus_go (c_withlen c_wsol_event) c s s2 k w st' eq_refl W3 M2 M3 ltac:(typeclasses eauto) UW) as (s' & E1 & E2).
  exists s'. apply call_go; [reflexivity|exact CK|reflexivity|]. apply sum_go; [|rewrite E2, M4; exact LS1].
  cbn [tp_exec]. unfold tp_approve_sol. change (c_keys c) with (a :: vault :: k :: dst :: tsk :: sk :: spl_id :: clock_id :: map m_key x). cbv beta iota.
  eapply bind_go; [apply clock_go|]. cbv beta. eapply bind_go; [apply guard_go; exact SG|]. eapply bind_go; [eapply live_go; [reflexivity|exact SI|exact GE]|]. cbv beta iota.
  eapply bind_go; [apply wsol_go; [reflexivity|exact WI]|]. cbv beta iota. eapply bind_go; [apply guard_go; change (w_status w) with (status_of w); rewrite ST; reflexivity|].
  eapply bind_go; [eapply authority_go; [reflexivity|exact FP|apply acts_backed; exact AC]|].
  eapply bind_go; [eapply ts_sol_go; [reflexivity|exact TI|exact KT]|]. cbv beta iota.
  eapply bind_go; [unfold token_live; apply guard_go; rewrite TE; reflexivity|]. eapply bind_go; [apply lift_go, pda_go; exact PV|]. cbv zeta.
  eapply bind_go; [apply guard_go; apply keqb_refl|].
  eapply bind_go; [apply lift_go; exact FE|]. cbv beta. eapply bind_go; [apply lift_go; exact CN|]. cbv beta.
  eapply bind_go; [exact PAY|]. cbv beta. eapply bind_go; [exact R1|]. exact E1.
Qed.
Lemma approve_ever_exec e ext s k w mint md dst tsk ts sk st a x : clock_ok s -> ever_filed e s k w -> status_of w = WWaitApprove -> ever_scales w md ->
  ever_gross w md < 2 ^ 128 -> let gross := ever_gross w md mod 2 ^ 64 in
  let net := gross - fee_on (tk_fee_wdr ts) gross in
  bridge_settings e s sk st -> gs_emergency st = false -> tk_emergency ts = false -> acts e s (gs_wmanager st) a x ->
  (wm_epoch (wl_data (p_meta w)) = day_of (now s) -> net <= tk_wdamount ts) ->
  ever_listed e s (wee_token (event_of w)) mint tsk ts -> fee_fits (tk_fee_wdr ts) gross ->
  mint_ready s mint dst md net -> can_receive e s (p_kind w) (wee_payload (event_of w)) mint (wee_recipient (event_of w)) dst net ->
  exists s', tp_call e ext (approve_accounts a mint k dst tsk sk x) TpApproveEver s s'.
Proof.
  intros CK RQ ST SC G128 gross net BS GE TE AC DAY LI FF MR CR. set (c := approve_accounts a mint k dst tsk sk x).
  pose proof (ever_filed_in _ _ _ _ RQ) as WI. destruct RQ as (OK_ & UW & _).
  destruct LI as (TS & LT & (m0 & d0 & KT) & n & vn & KA & PM). pose proof (token_len _ _ _ _ TS) as (TL & TB & TO). pose proof TS as (OT & UT & n1 & vn1 & KA1 & FT).
  rewrite KA in KA1. injection KA1 as <- <-.
  assert (TI : token_in e tp_id s tsk ts vn) by (split; [exact UT|]; exists n; split; [exact KA|]; unfold ts_seeds; destruct (tk_kind ts); exact FT).
  destruct BS as (_ & US & n2 & pd & pn2 & FS & FP & GK).
  assert (SI : tp_settings_in e tp_id s sk st pn2) by (split; [exact US|]; exists n2; split; [exact GK|exact FS]).
  assert (WLEN : blen (dat (accs s k)) = TP_LEN) by (apply unpack_ok in UW as (r & _ & _ & L & _); [exact L|typeclasses eauto]).
  assert (A0 : 0 <= wee_amount (event_of w)).
  { apply (ever_amount e s k). split; [exact OK_|]. split; [exact UW|]. destruct WI as (_ & wn & wp & _ & WF). exists wn. exact WF. }
  assert (GA : get_withdrawal_amount (wee_amount (event_of w)) (wee_decimals (event_of w)) (tm_decimals md) = Ok gross) by (apply gwa_go; assumption).
  assert (G : 0 <= gross < 2 ^ 64) by (apply Z.mod_pos_bound; lia).
  apply okb_ts in TO. destruct TO as (_ & _ & _ & _ & _ & _ & _ & DA & _ & FSU & _ & FW).
  assert (FM : 0 <= fi_mul (tk_fee_wdr ts) /\ 0 <= fi_div (tk_fee_wdr ts)).
  { clear - FW. unfold c_fee_info in FW. cbn [c_iso okb c_pair fst snd] in FW. apply andb_true_iff in FW as [A B]. apply okb_u64 in A, B. lia. }
  assert (FE : fee_of u64max (tk_fee_wdr ts) gross = Ok (fee_on (tk_fee_wdr ts) gross)) by (apply fee_go; [exact G|apply FM|apply FM|exact FF]).
  assert (N0 : 0 <= net) by (destruct FF as [_ FF]; unfold net; lia).
  assert (CN : csub gross (fee_on (tk_fee_wdr ts) gross) = Ok net) by (unfold csub; replace (fee_on (tk_fee_wdr ts) gross <=? gross) with true by (unfold net in N0; lia); reflexivity).
  assert (W1 : c_wr c mint = true) by (unfold c, approve_accounts; cbn [ctx_of c_wr existsb m_key m_wr]; rewrite keqb_refl; cbn [andb orb]; rewrite ?orb_true_r; reflexivity).
  assert (W2 : c_wr c dst = true) by (unfold c, approve_accounts; cbn [ctx_of c_wr existsb m_key m_wr]; rewrite keqb_refl; cbn [andb orb]; rewrite ?orb_true_r; reflexivity).
  assert (W3 : c_wr c k = true) by (unfold c, approve_accounts; cbn [ctx_of c_wr existsb m_key m_wr]; rewrite keqb_refl; cbn [andb orb]; rewrite ?orb_true_r; reflexivity).
  assert (W4 : c_wr c tsk = true) by (unfold c, approve_accounts; cbn [ctx_of c_wr existsb m_key m_wr]; rewrite keqb_refl; cbn [andb orb]; rewrite ?orb_true_r; reflexivity).
  assert (SG : c_sg c a = true) by (unfold c, approve_accounts; cbn [ctx_of c_sg existsb m_key m_sg]; rewrite keqb_refl; reflexivity).
  assert (IK : In mint (c_keys c) /\ In dst (c_keys c) /\ In spl_id (c_keys c)) by (unfold c, approve_accounts; cbn [ctx_of c_keys map m_key In]; tauto).
  destruct IK as (I1 & I2 & I3).
  destruct (pay_ever_go e c w mint dst (wee_token (event_of w)) vn md net s eq_refl W1 W2 I1 I2 I3) as (st' & s1 & PAY & (O1 & A1 & _) & LS1); try assumption.
  assert (KV : forall j, own (accs s j) = tp_id -> accs s1 j = accs s j).
  { intros j J. apply A1; intros ->; [destruct MR as ([X _] & _)|destruct CR as (r & [X _] & _)]; rewrite X in J; discriminate. }
  destruct (release_go (c_withlen c_wever_event) e c s s1 k w tsk ts net eq_refl W4 TS KV OK_ WLEN DAY) as (s2 & R1 & M2 & M3 & M4).
  destruct (status_go (c_withlen c_wever_event) c s s2 k w st' k eq_refl W3 M2 M3 ltac:(typeclasses eauto) UW) as (s' & E1 & E2).
  exists s'. apply call_go; [reflexivity|exact CK|reflexivity|]. apply sum_go; [|rewrite E2, M4; exact LS1].
  cbn [tp_exec]. unfold tp_approve_ever. change (c_keys c) with (a :: mint :: k :: dst :: tsk :: sk :: spl_id :: clock_id :: map m_key x). cbv beta iota.
  eapply bind_go; [apply clock_go|]. cbv beta. eapply bind_go; [apply guard_go; exact SG|]. eapply bind_go; [eapply live_go; [reflexivity|exact SI|exact GE]|]. cbv beta iota.
  eapply bind_go; [apply wever_go; [reflexivity|exact WI]|]. cbv beta iota. eapply bind_go; [apply guard_go; change (w_status w) with (status_of w); rewrite ST; reflexivity|].
  eapply bind_go; [eapply ts_ever_go; [reflexivity|exact TI|exact KT]|]. cbv beta iota.
  eapply bind_go; [unfold token_live; apply guard_go; rewrite TE; reflexivity|]. eapply bind_go; [apply lift_go, pda_go; exact PM|]. cbv zeta.
  eapply bind_go; [apply guard_go; apply ever_eqb_same|].
  eapply bind_go; [eapply authority_go; [reflexivity|exact FP|apply acts_backed; exact AC]|].
  eapply bind_go; [apply tmint_go; exact (proj2 (proj1 MR))|]. cbv beta. eapply bind_go; [apply lift_go; exact GA|]. cbv beta.
  eapply bind_go; [apply lift_go; exact FE|]. cbv beta. eapply bind_go; [apply lift_go; exact CN|]. cbv beta.
  eapply bind_go; [exact PAY|]. cbv beta. eapply bind_go; [exact R1|]. exact E1.
Qed.

Lemma filed_sol e s k w : sol_filed e s k w -> sol_request e s k w.
Proof. intros (O & U & n & pn & _ & F). split; [exact O|]. split; [exact U|]. exists n. exact F. Qed.
Lemma filed_ever e s k w : ever_filed e s k w -> ever_request e s k w.
Proof. intros (O & U & n & pn & _ & F). split; [exact O|]. split; [exact U|]. exists n. exact F. Qed.
Lemma settings_token e s k ts : token_settings_of e s k ts -> token_at e s k ts.
Proof.
  intros (O & U & n & vn & KA & F). eapply token_spec. split; [exact U|]. exists n. split; [exact KA|]. unfold ts_seeds. destruct (tk_kind ts); exact F.
Qed.

(** * C72 A confirmed withdrawal can be executed by anyone *)

(** A request to pay from a vault that has its confirmations and was not executed before: unless bridge or token are
    stopped, and if the token's fee is defined and not more than the amount, the counters have room and [dst] can
    receive, the instruction of the bindings - which nobody has to sign - succeeds.  Above the limits the request waits
    for approval; below them it is paid if the vault holds the net amount, and waits as pending otherwise. *)
Theorem C72_sol : forall e ext s k w vault dst tsk ts sk, nonneg s -> clock_ok s -> sol_filed e s k w -> status_of w = WNew ->
  p_required w <= confirmed (p_signers w) ->
  let mint := wse_mint (event_of w) in let gross := wse_amount (event_of w) mod 2 ^ 64 in
  let fee := fee_on (tk_fee_wdr ts) gross in let net := gross - fee in
  sol_listed e s mint vault tsk ts -> running e s sk ts -> fee_fits (tk_fee_wdr ts) gross ->
  today ts s + net < 2 ^ 64 -> tk_fee_supply ts + fee < 2 ^ 64 -> vault <> dst -> vault_ready s mint vault dst net ->
  can_receive e s (p_kind w) (wse_payload (event_of w)) mint (wse_recipient (event_of w)) dst net ->
  exists s' st ts', tp_call e ext (sol_accounts k vault dst tsk mint sk) TpWithdrawSol s s' /\
    token_at e s' tsk ts' /\ booked ts ts' (tk_fee_supply ts + fee) (day_of (now s)) (today ts s + net) /\ sol_request e s' k (w_set_status w st) /\
    (over_limit ts s net -> st = WWaitApprove /\ spl_still s s') /\
    (~ over_limit ts s net -> balance s vault < net -> st = WPending /\ spl_still s s') /\
    (~ over_limit ts s net -> net <= balance s vault -> st = settled_status (wse_payload (event_of w)) /\ sol_paid_to e s s' w vault dst net).
Proof.
  intros e ext s k w vault dst tsk ts sk NN CK RQ ST QU mint gross fee net LI RU FF B1 B2 NE VR CR.
  destruct (sol_exec e ext s k w vault dst tsk ts sk NN CK RQ QU (or_introl (conj ST (conj B1 B2))) LI RU FF NE VR CR) as (s' & C).
  destruct LI as (TS & KT & n & vn & _ & PV).
  destruct (C63_sol e ext (sol_accounts k vault dst tsk mint sk) s s' k w vault tsk ts gross) as (dst' & st & ts' & D & _ & R).
  { split; [exact C|]. split; [reflexivity|]. split; [reflexivity|]. split; [apply filed_sol; exact RQ|]. split; [exact ST|]. split; [exact QU|].
    split; [|reflexivity]. split; [exists vn; exact PV|]. split; [apply settings_token; exact TS|exact KT]. }
  injection D as <-. exists s', st, ts'. split; [exact C|]. exact R.
Qed.

(** The same for a pending request: it is paid if the vault now holds the net amount and stays pending otherwise. *)
Theorem C72_sol_again : forall e ext s k w vault dst tsk ts sk, nonneg s -> clock_ok s -> sol_filed e s k w -> status_of w = WPending ->
  p_required w <= confirmed (p_signers w) ->
  let mint := wse_mint (event_of w) in let gross := wse_amount (event_of w) mod 2 ^ 64 in let net := gross - fee_on (tk_fee_wdr ts) gross in
  sol_listed e s mint vault tsk ts -> running e s sk ts -> fee_fits (tk_fee_wdr ts) gross -> vault <> dst -> vault_ready s mint vault dst net ->
  can_receive e s (p_kind w) (wse_payload (event_of w)) mint (wse_recipient (event_of w)) dst net ->
  exists s' st, tp_call e ext (sol_accounts k vault dst tsk mint sk) TpWithdrawSol s s' /\ token_at e s' tsk ts /\ sol_request e s' k (w_set_status w st) /\
    (balance s vault < net -> st = WPending /\ spl_still s s') /\
    (net <= balance s vault -> st = settled_status (wse_payload (event_of w)) /\ sol_paid_to e s s' w vault dst net).
Proof.
  intros e ext s k w vault dst tsk ts sk NN CK RQ ST QU mint gross net LI RU FF NE VR CR.
  destruct (sol_exec e ext s k w vault dst tsk ts sk NN CK RQ QU (or_intror ST) LI RU FF NE VR CR) as (s' & C).
  destruct LI as (TS & KT & n & vn & _ & PV).
  destruct (C63_sol_again e ext (sol_accounts k vault dst tsk mint sk) s s' k w vault tsk ts C) as (dst' & st & D & _ & R); try assumption; try reflexivity.
  { apply filed_sol; exact RQ. }
  { split; [exists vn; exact PV|]. split; [apply settings_token; exact TS|exact KT]. }
  injection D as <-. exists s', st. split; [exact C|]. exact R.
Qed.

(** The same for a request to mint, once the token is registered. *)
Theorem C72_ever : forall e ext s k w mint md dst tsk ts sk, clock_ok s -> ever_filed e s k w -> status_of w = WNew ->
  p_required w <= confirmed (p_signers w) -> ever_scales w md -> ever_gross w md < 2 ^ 128 ->
  let gross := ever_gross w md mod 2 ^ 64 in let fee := fee_on (tk_fee_wdr ts) gross in let net := gross - fee in
  ever_listed e s (wee_token (event_of w)) mint tsk ts -> running e s sk ts -> fee_fits (tk_fee_wdr ts) gross ->
  today ts s + net < 2 ^ 64 -> tk_fee_supply ts + fee < 2 ^ 64 -> mint_ready s mint dst md net ->
  can_receive e s (p_kind w) (wee_payload (event_of w)) mint (wee_recipient (event_of w)) dst net ->
  exists s' st ts', tp_call e ext (ever_accounts k mint dst tsk sk) TpWithdrawEver s s' /\
    token_at e s' tsk ts' /\ booked ts ts' (tk_fee_supply ts + fee) (day_of (now s)) (today ts s + net) /\ ever_request e s' k (w_set_status w st) /\
    (over_limit ts s net -> st = WWaitApprove /\ (forall j, supply s' j = supply s j) /\ spl_rest s s' (fun _ => False)) /\
    (~ over_limit ts s net -> st = settled_status (wee_payload (event_of w)) /\ ever_paid e s s' w mint dst net).
Proof.
  intros e ext s k w mint md dst tsk ts sk CK RQ ST QU SC G gross fee net LI RU FF B1 B2 MR CR.
  destruct (ever_exec e ext s k w mint md dst tsk ts sk CK RQ QU SC G ST B1 B2 LI RU FF MR CR) as (s' & C).
  destruct LI as (TS & LT & KT & n & mn & _ & PM).
  destruct (C63_ever e ext (ever_accounts k mint dst tsk sk) s s' k w mint tsk ts gross) as (dst' & st & ts' & D & _ & R).
  { split; [exact C|]. split; [reflexivity|]. split; [reflexivity|]. split; [apply filed_ever; exact RQ|]. split; [exact ST|]. split; [exact QU|].
    split; [exact LT|]. exists md. split; [|split; [exact SC|reflexivity]]. split; [exists mn; exact PM|]. split; [exact (proj2 (proj1 MR))|].
    split; [apply settings_token; exact TS|exact KT]. }
  injection D as <-. exists s', st, ts'. split; [exact C|]. exact R.
Qed.

(** A request that waits for approval can be approved by the withdrawal manager or the upgrade authority, with the
    account list of the bindings; if it was filed today the day's amount must cover it. *)
Theorem C72_approve_sol : forall e ext s k w vault dst tsk ts sk st a x, nonneg s -> clock_ok s -> sol_filed e s k w -> status_of w = WWaitApprove ->
  let mint := wse_mint (event_of w) in let gross := wse_amount (event_of w) mod 2 ^ 64 in let net := gross - fee_on (tk_fee_wdr ts) gross in
  bridge_settings e s sk st -> gs_emergency st = false -> tk_emergency ts = false -> acts e s (gs_wmanager st) a x ->
  (wm_epoch (wl_data (p_meta w)) = day_of (now s) -> net <= tk_wdamount ts) ->
  sol_listed e s mint vault tsk ts -> fee_fits (tk_fee_wdr ts) gross -> vault <> dst -> vault_ready s mint vault dst net ->
  can_receive e s (p_kind w) (wse_payload (event_of w)) mint (wse_recipient (event_of w)) dst net ->
  exists s' st' ts', tp_call e ext (approve_accounts a vault k dst tsk sk x) TpApproveSol s s' /\ token_at e s' tsk ts' /\
    booked ts ts' (tk_fee_supply ts) (tk_wepoch ts) (after_approval ts s (wm_epoch (wl_data (p_meta w))) net) /\ sol_request e s' k (w_set_status w st') /\
    (balance s vault < net -> st' = WPending /\ spl_still s s') /\
    (net <= balance s vault -> st' = settled_status (wse_payload (event_of w)) /\ sol_paid_to e s s' w vault dst net).
Proof.
  intros e ext s k w vault dst tsk ts sk st a x NN CK RQ ST mint gross net BS GE TE AC DAY LI FF NE VR CR.
  destruct (approve_sol_exec e ext s k w vault dst tsk ts sk st a x NN CK RQ ST BS GE TE AC DAY LI FF NE VR CR) as (s' & C).
  destruct LI as (TS & KT & n & vn & _ & PV). destruct (C63_approve_sol e ext _ s s' C) as (k' & w' & vault' & tsk' & ts0 & dst' & ts' & st' & K1 & K2 & K3 & RQ' & _ & (PV' & TA & _) & R).
  injection K1 as <-. injection K2 as <-. injection K3 as <-.
  destruct RQ' as (_ & U' & _). destruct RQ as (_ & U & _). rewrite U in U'. injection U' as <-.
  destruct PV' as (vn' & PV'). fold mint in PV'. rewrite PV in PV'. injection PV' as <- <-.
  destruct TA as (_ & UT'). destruct TS as (_ & UT & _). rewrite UT in UT'. injection UT' as <-.
  destruct R as (_ & R). exists s', st', ts'. split; [exact C|]. exact R.
Qed.

Theorem C72_approve_ever : forall e ext s k w mint md dst tsk ts sk st a x, clock_ok s -> ever_filed e s k w -> status_of w = WWaitApprove ->
  ever_scales w md -> ever_gross w md < 2 ^ 128 ->
  let gross := ever_gross w md mod 2 ^ 64 in let net := gross - fee_on (tk_fee_wdr ts) gross in
  bridge_settings e s sk st -> gs_emergency st = false -> tk_emergency ts = false -> acts e s (gs_wmanager st) a x ->
  (wm_epoch (wl_data (p_meta w)) = day_of (now s) -> net <= tk_wdamount ts) ->
  ever_listed e s (wee_token (event_of w)) mint tsk ts -> fee_fits (tk_fee_wdr ts) gross -> mint_ready s mint dst md net ->
  can_receive e s (p_kind w) (wee_payload (event_of w)) mint (wee_recipient (event_of w)) dst net ->
  exists s' ts', tp_call e ext (approve_accounts a mint k dst tsk sk x) TpApproveEver s s' /\ token_at e s' tsk ts' /\
    booked ts ts' (tk_fee_supply ts) (tk_wepoch ts) (after_approval ts s (wm_epoch (wl_data (p_meta w))) net) /\
    ever_request e s' k (w_set_status w (settled_status (wee_payload (event_of w)))) /\ ever_paid e s s' w mint dst net.
Proof.
  intros e ext s k w mint md dst tsk ts sk st a x CK RQ ST SC G gross net BS GE TE AC DAY LI FF MR CR.
  destruct (approve_ever_exec e ext s k w mint md dst tsk ts sk st a x CK RQ ST SC G BS GE TE AC DAY LI FF MR CR) as (s' & C).
  destruct LI as (TS & LT & KT & n & mn & _ & PM).
  destruct (C63_approve_ever e ext _ s s' C) as (k' & w' & mint' & md' & tsk' & ts0 & dst' & ts' & gross' & K1 & K2 & K3 & RQ' & _ & (PM' & TM' & TA & _) & GR & R).
  injection K1 as <-. injection K2 as <-. injection K3 as <-.
  destruct RQ' as (_ & U' & _). destruct RQ as (_ & U & _). rewrite U in U'. injection U' as <-.
  destruct PM' as (mn' & PM'). rewrite PM in PM'. injection PM' as <- <-.
  destruct MR as ([_ TM] & _). unfold tmint_in in *. rewrite TM in TM'. injection TM' as <-.
  destruct TA as (_ & UT'). destruct TS as (_ & UT & _). rewrite UT in UT'. injection UT' as <-.
  specialize (GR SC). subst gross'. destruct R as (_ & R). exists s', ts'. split; [exact C|]. exact R.
Qed.

(** The accounts of demo states, computed once. *)
Lemma eqs_5 {A} (a0 b0 a1 b1 a2 b2 a3 b3 a4 b4 : A) : (a0, a1, a2, a3, a4) = (b0, b1, b2, b3, b4) -> a0 = b0 /\ a1 = b1 /\ a2 = b2 /\ a3 = b3 /\ a4 = b4.
Proof. intros H. injection H. intuition congruence. Qed.
Definition x4_tw1 := Eval vm_compute in accs ts4 tw1.
Definition x4_ttsS := Eval vm_compute in accs ts4 ttsS.
Definition x4_tset := Eval vm_compute in accs ts4 tset.
Definition x4_tvault := Eval vm_compute in accs ts4 tvault.
Definition x4_trecvS := Eval vm_compute in accs ts4 trecvS.
Lemma x4_is : accs ts4 tw1 = x4_tw1 /\ accs ts4 ttsS = x4_ttsS /\ accs ts4 tset = x4_tset /\ accs ts4 tvault = x4_tvault /\ accs ts4 trecvS = x4_trecvS.
Proof. apply (@eqs_5 acct). vm_compute. reflexivity. Qed.
Definition x16_tw1 := Eval vm_compute in accs ts16 tw1.
Definition x16_ttsS := Eval vm_compute in accs ts16 ttsS.
Definition x16_tset := Eval vm_compute in accs ts16 tset.
Definition x16_tvault := Eval vm_compute in accs ts16 tvault.
Definition x16_trecvS := Eval vm_compute in accs ts16 trecvS.
Lemma x16_is : accs ts16 tw1 = x16_tw1 /\ accs ts16 ttsS = x16_ttsS /\ accs ts16 tset = x16_tset /\ accs ts16 tvault = x16_tvault /\ accs ts16 trecvS = x16_trecvS.
Proof. apply (@eqs_5 acct). vm_compute. reflexivity. Qed.
Definition x19_tw2 := Eval vm_compute in accs ts19 tw2.
Definition x19_ttsS := Eval vm_compute in accs ts19 ttsS.
Definition x19_tset := Eval vm_compute in accs ts19 tset.
Definition x19_tvault := Eval vm_compute in accs ts19 tvault.
Definition x19_trecvS := Eval vm_compute in accs ts19 trecvS.
Lemma x19_is : accs ts19 tw2 = x19_tw2 /\ accs ts19 ttsS = x19_ttsS /\ accs ts19 tset = x19_tset /\ accs ts19 tvault = x19_tvault /\ accs ts19 trecvS = x19_trecvS.
Proof. apply (@eqs_5 acct). vm_compute. reflexivity. Qed.
Definition x27_tw7 := Eval vm_compute in accs ts27 tw7.
Definition x27_ttsE := Eval vm_compute in accs ts27 ttsE.
Definition x27_tset := Eval vm_compute in accs ts27 tset.
Definition x27_tmintE := Eval vm_compute in accs ts27 tmintE.
Definition x27_trecvE := Eval vm_compute in accs ts27 trecvE.
Lemma x27_is : accs ts27 tw7 = x27_tw7 /\ accs ts27 ttsE = x27_ttsE /\ accs ts27 tset = x27_tset /\ accs ts27 tmintE = x27_tmintE /\ accs ts27 trecvE = x27_trecvE.
Proof. apply (@eqs_5 acct). vm_compute. reflexivity. Qed.
Definition x28_tw7 := Eval vm_compute in accs ts28 tw7.
Definition x28_ttsE := Eval vm_compute in accs ts28 ttsE.
Definition x28_tset := Eval vm_compute in accs ts28 tset.
Definition x28_tmintE := Eval vm_compute in accs ts28 tmintE.
Definition x28_trecvE := Eval vm_compute in accs ts28 trecvE.
Lemma x28_is : accs ts28 tw7 = x28_tw7 /\ accs ts28 ttsE = x28_ttsE /\ accs ts28 tset = x28_tset /\ accs ts28 tmintE = x28_tmintE /\ accs ts28 trecvE = x28_trecvE.
Proof. apply (@eqs_5 acct). vm_compute. reflexivity. Qed.

Ltac ex_vm := vm_compute; first [reflexivity | discriminate | (split; first [discriminate | reflexivity])].
Ltac ex_request := split; [ex_vm|]; split; [ex_vm|]; exists 255, None; split; ex_vm.
Ltac ex_bridge := split; [ex_vm|]; split; [ex_vm|]; exists 255, tpd, 254; split; [ex_vm|]; split; ex_vm.
Ltac ex_token := split; [ex_vm|]; split; [ex_vm|]; exists 255, 255; split; ex_vm.
Ltac ex_sol := split; [ex_token|]; split; [exists tvault; ex_vm|]; exists 255, 255; split; ex_vm.
Ltac ex_ever := split; [ex_token|]; split; [ex_vm|]; split; [exists tmintE, 9; ex_vm|]; exists 255, 255; split; ex_vm.
Ltac ex_vault := eexists; split; [split; ex_vm|]; split; [ex_vm|]; split; [ex_vm|]; split; [ex_vm|]; split; ex_vm.
Ltac ex_dst := eexists; split; [split; ex_vm|]; split; [ex_vm|]; split; [ex_vm|]; split; [ex_vm|]; left; split; ex_vm.
Ltac ex_in E := cbv zeta; destruct E as (E1 & E2 & E3 & E4 & E5); unfold the_wsol, the_wever, the_wreq, the_token, the_tok, the_mint, sol_filed, ever_filed, sol_listed, ever_listed, running, bridge_settings, token_settings_of,
  can_receive, vault_ready, mint_ready, tok_in, mint_in, tacc_in, tmint_in, balance; rewrite ?E1, ?E2, ?E3, ?E4, ?E5; clear.

(** [tw1], confirmed, in state [ts4]. *)
Example C72_sol_ex : let w := the_wsol ts4 tw1 in let ts := the_token ts4 ttsS in let gross := wse_amount (event_of w) mod 2 ^ 64 in
  let net := gross - fee_on (tk_fee_wdr ts) gross in
  clock_ok ts4 /\ sol_filed te ts4 tw1 w /\ status_of w = WNew /\ p_required w <= confirmed (p_signers w) /\
  sol_listed te ts4 (wse_mint (event_of w)) tvault ttsS ts /\ running te ts4 tset ts /\ fee_fits (tk_fee_wdr ts) gross /\
  today ts ts4 + net < 2 ^ 64 /\ tk_fee_supply ts + fee_on (tk_fee_wdr ts) gross < 2 ^ 64 /\ tvault <> trecvS /\
  vault_ready ts4 (wse_mint (event_of w)) tvault trecvS net /\
  can_receive te ts4 (p_kind w) (wse_payload (event_of w)) (wse_mint (event_of w)) (wse_recipient (event_of w)) trecvS net /\ 0 < net.
Proof.
  pose proof x4_is as E. ex_in E.
  split; [ex_vm|]. split; [ex_request|]. split; [ex_vm|]. split; [ex_vm|]. split; [ex_sol|].
  split; [split; [eexists; split; [ex_bridge|reflexivity]|ex_vm]|].
  split; [split; ex_vm|]. split; [ex_vm|]. split; [ex_vm|]. split; [ex_vm|]. split; [ex_vault|]. split; [ex_dst|]. ex_vm.
Qed.
(** [tw2], pending, in state [ts19]. *)
Example C72_sol_again_ex : let w := the_wsol ts19 tw2 in let ts := the_token ts19 ttsS in let gross := wse_amount (event_of w) mod 2 ^ 64 in
  let net := gross - fee_on (tk_fee_wdr ts) gross in
  sol_filed te ts19 tw2 w /\ status_of w = WPending /\ p_required w <= confirmed (p_signers w) /\
  sol_listed te ts19 (wse_mint (event_of w)) tvault ttsS ts /\ running te ts19 tset ts /\ fee_fits (tk_fee_wdr ts) gross /\
  vault_ready ts19 (wse_mint (event_of w)) tvault trecvS net /\
  can_receive te ts19 (p_kind w) (wse_payload (event_of w)) (wse_mint (event_of w)) (wse_recipient (event_of w)) trecvS net.
Proof.
  pose proof x19_is as E. ex_in E. split; [ex_request|]. split; [ex_vm|]. split; [ex_vm|]. split; [ex_sol|].
  split; [split; [eexists; split; [ex_bridge|reflexivity]|ex_vm]|]. split; [split; ex_vm|]. split; [ex_vault|ex_dst].
Qed.
(** [tw1], above the limits, in state [ts16]. *)
Example C72_approve_sol_ex : let w := the_wsol ts16 tw1 in let ts := the_token ts16 ttsS in let gross := wse_amount (event_of w) mod 2 ^ 64 in
  let net := gross - fee_on (tk_fee_wdr ts) gross in
  sol_filed te ts16 tw1 w /\ status_of w = WWaitApprove /\ bridge_settings te ts16 tset (TpSettings true (KSettings 255 254) false tguard tman twman) /\
  acts te ts16 twman twman [] /\ tk_emergency ts = false /\ net <= tk_wdamount ts /\
  sol_listed te ts16 (wse_mint (event_of w)) tvault ttsS ts /\ fee_fits (tk_fee_wdr ts) gross /\
  vault_ready ts16 (wse_mint (event_of w)) tvault trecvS net /\
  can_receive te ts16 (p_kind w) (wse_payload (event_of w)) (wse_mint (event_of w)) (wse_recipient (event_of w)) trecvS net.
Proof.
  pose proof x16_is as E. ex_in E. split; [ex_request|]. split; [ex_vm|]. split; [ex_bridge|]. split; [apply acts_role|]. split; [ex_vm|]. split; [ex_vm|].
  split; [ex_sol|]. split; [split; ex_vm|]. split; [ex_vault|ex_dst].
Qed.
(** [tw7] in state [ts27], and above the limits in state [ts28]. *)
Example C72_ever_ex : let w := the_wever ts27 tw7 in let md := the_mint ts27 tmintE in let ts := the_token ts27 ttsE in let gross := ever_gross w md mod 2 ^ 64 in
  let net := gross - fee_on (tk_fee_wdr ts) gross in
  ever_filed te ts27 tw7 w /\ status_of w = WNew /\ p_required w <= confirmed (p_signers w) /\ ever_scales w md /\ ever_gross w md < 2 ^ 128 /\
  ever_listed te ts27 (wee_token (event_of w)) tmintE ttsE ts /\ running te ts27 tset ts /\ fee_fits (tk_fee_wdr ts) gross /\
  today ts ts27 + net < 2 ^ 64 /\ mint_in ts27 tmintE md /\ tm_auth md = (true, tmintE) /\ fst (ta_native (the_tok ts27 trecvE)) = false /\
  can_receive te ts27 (p_kind w) (wee_payload (event_of w)) tmintE (wee_recipient (event_of w)) trecvE net.
Proof.
  pose proof x27_is as E. ex_in E. split; [ex_request|]. split; [ex_vm|]. split; [ex_vm|]. split; [ex_vm|]. split; [ex_vm|].
  split; [ex_ever|]. split; [split; [eexists; split; [ex_bridge|reflexivity]|ex_vm]|]. split; [split; ex_vm|].
  split; [ex_vm|]. split; [split; ex_vm|]. split; [ex_vm|]. split; [ex_vm|ex_dst].
Qed.
Example C72_approve_ever_ex : let w := the_wever ts28 tw7 in let md := the_mint ts28 tmintE in let ts := the_token ts28 ttsE in let gross := ever_gross w md mod 2 ^ 64 in
  let net := gross - fee_on (tk_fee_wdr ts) gross in
  ever_filed te ts28 tw7 w /\ status_of w = WWaitApprove /\ net <= tk_wdamount ts /\ ever_listed te ts28 (wee_token (event_of w)) tmintE ttsE ts /\
  mint_in ts28 tmintE md /\ tm_auth md = (true, tmintE) /\
  can_receive te ts28 (p_kind w) (wee_payload (event_of w)) tmintE (wee_recipient (event_of w)) trecvE net.
Proof.
  pose proof x28_is as E. ex_in E. split; [ex_request|]. split; [ex_vm|]. split; [ex_vm|]. split; [ex_ever|]. split; [split; ex_vm|]. split; [ex_vm|ex_dst].
Qed.
Print Assumptions C72_sol.
Print Assumptions C72_sol_again.
Print Assumptions C72_ever.
Print Assumptions C72_approve_sol.
Print Assumptions C72_approve_ever.
