(** Property C80: every event of Everscale can be submitted by anyone while a relay round is running: the request comes
    into being with exactly the event, waiting for the votes of the round. *)

From Coq Require Import Strings.String ZifyBool ZifyNat ZifyN.
From Verif Require Import TpDemoLaws AtaGo TpDeposit PropTpReq PropTpFlow PropTpPay PropTpMoney PropTpMisc PropTpOutcome PropTpDaily PropLive PropVotes PropExec PropExits PropDust PropFirst.
Open Scope Z_scope.
Open Scope list_scope.
Ltac Zify.zify_post_hook ::= Z.div_mod_to_equations.

(** * Vocabulary *)

(** The settings of the round loader. *)
Definition loader_settings (e : env) (s : state) (k : key) (st : rl_settings) : Prop := exists n pn,
  find_pda e (str "settings") rl_id = Ok (k, n) /\ rs_kind st = KSettings n pn /\ unpack c_rl_settings RL_SETTINGS_LEN rs_init (dat (accs s k)) = Ok st.
(** The relay round [rr] is recorded at [k] and has not ended. *)
Definition round_open (e : env) (s : state) (k : key) (rr : relay_round) : Prop := round_stands e s (rr_number rr) k rr /\ now s mod 2 ^ 32 < rr_end rr.
(** The address of the request for the event bytes [evb] of a round. *)
Definition request_address (e : env) (round ts lt : Z) (conf : key) (evb : bytes) (k : key) (n : Z) : Prop :=
  find_pda e (str "proposal" ++ le 4 round ++ le 4 ts ++ le 8 lt ++ kb conf ++ kb (e_hash e evb)) tp_id = Ok (k, n).
(** What filing a request costs: the record, and the reparation of every relay. *)
Definition filing_price (e : env) (rr : relay_round) : Z := record_price e + 20000 * Z.of_nat (List.length (rr_relays rr)).
(** The account lists of the Rust bindings (token-proxy/src/bindings.rs:270-417). *)
Definition request_ever_accounts (funder author k rlsk rrk : key) (extra : list meta) : ctx := ctx_of tp_id
  ([Meta funder true true; Meta author true true; Meta k false true; Meta rlsk false false; Meta rrk false false; Meta sys_id false false;
    Meta rent_id false false; Meta clock_id false false] ++ extra).
Definition request_sol_accounts (funder author k tsk rlsk rrk : key) (extra : list meta) : ctx := ctx_of tp_id
  ([Meta funder true true; Meta author true true; Meta k false true; Meta tsk false false; Meta rlsk false false; Meta rrk false false; Meta sys_id false false;
    Meta rent_id false false; Meta clock_id false false] ++ extra).
Definition proxy_accounts (proxy mint : key) : list meta := [Meta proxy false true; Meta mint false true; Meta spl_id false true].
(** A new request of [author] for the event [ev], open for the votes of the round [rr]. *)
Definition new_filing {E} (w : prop (withlen E) (withlen wmeta)) (ev : E) (author : key) (rr : relay_round) (rls : rl_settings) (ts lt : Z) (conf : key) : Prop :=
  event_of w = ev /\ status_of w = WNew /\ wm_bounty (wl_data (p_meta w)) = 0 /\ p_author w = author /\ p_round w = rr_number rr /\ p_pda w = Pda ts lt conf /\
  p_signers w = repeat VNone (List.length (rr_relays rr)) /\ 2 * Z.of_nat (List.length (rr_relays rr)) < 3 * p_required w /\ rs_min_votes rls <= p_required w /\
  (3 * p_required w <= 2 * Z.of_nat (List.length (rr_relays rr)) + 3 \/ p_required w = rs_min_votes rls).

(** * Lemmas *)

Lemma loader_go e s k st : loader_settings e s k st -> tp_valid_rl_settings e k s = Ok (st, s).
Proof.
  intros (n & pn & F & K & U). unfold tp_valid_rl_settings, rl_settings_at. eapply bind_go; [apply unpack_at_go; exact U|]. cbv beta.
  eapply bind_go; [apply lift_go; rewrite K; reflexivity|]. cbv beta iota. eapply bind_go; [apply lift_go; apply pda_go; exact F|]. reflexivity.
Qed.
Lemma round_go e s k rr : round_stands e s (rr_number rr) k rr -> tp_valid_round e k s = Ok (rr, s).
Proof.
  intros (n & F & K & U). unfold tp_valid_round, relay_round_at. eapply bind_go; [apply unpack_at_go; exact U|]. cbv beta.
  eapply bind_go; [apply lift_go; rewrite K; reflexivity|]. cbv beta. eapply bind_go; [apply lift_go; apply pda_go; exact F|]. reflexivity.
Qed.
(** A round has at most 100 relays. *)
Lemma round_small e s n k rr : round_stands e s n k rr -> blen (rr_relays rr) <= 100 /\ okb c_relay_round rr = true.
Proof.
  intros (b & _ & K & U). apply unpack_ok in U as (r & D & O & L & _); [|typeclasses eauto]. split; [|exact O].
  rewrite D, blen_app, size_relay_round, K in L. cbn [kind_len] in L. pose proof (blen_nonneg r). unfold RELAY_ROUND_LEN in L. lia.
Qed.

Lemma tail_go {E} (ce : codec E) (Le : Lawful ce) e c funder author k rls rr ts lt conf (ev : withlen E) evb pn epoch tok rcp amt s wn :
  let w := new_request wn pn author rls rr ts lt conf ev epoch in
  c_pid c = tp_id -> In funder (c_keys c) -> In k (c_keys c) -> In sys_id (c_keys c) -> c_sg c funder = true -> c_wr c funder = true -> c_wr c k = true ->
  request_address e (rr_number rr) ts lt conf evb k wn -> vacant s k -> has_lamports s funder (filing_price e rr) -> lam (accs s funder) < 2 ^ 64 -> blen (rr_relays rr) <= 100 ->
  okb (c_prop (c_withlen ce) (c_withlen c_wmeta)) w = true -> blen (enc (c_prop (c_withlen ce) (c_withlen c_wmeta)) w) <= 1000 ->
  exists s', request_tail e c (c_withlen ce) funder author k rls rr ts lt conf ev evb pn epoch tok rcp amt s = Ok (tt, s') /\
    own (accs s' k) = tp_id /\ unpack (c_prop (c_withlen ce) (c_withlen c_wmeta)) TP_LEN (@p_init _ _) (dat (accs s' k)) = Ok w /\ lam (accs s' k) = filing_price e rr /\
    accs s' funder = Acct (lam (accs s funder) - filing_price e rr) sys_id [] /\ (forall j, j <> funder -> j <> k -> accs s' j = accs s j) /\ now s' = now s /\
    lam_sum (c_keys c) s' = lam_sum (c_keys c) s.
Proof.
  intros w P I1 I2 I3 SG W1 W2 FK V HL LF RN OKW SZ. pose proof (blen_nonneg (rr_relays rr)) as R0.
  assert (PR : 0 < record_price e < u64max) by (unfold record_price, u64max; lia).
  unfold filing_price in *. fold (blen (rr_relays rr)) in *. set (n := blen (rr_relays rr)) in *.
  pose proof HL as (HL1 & HL2 & HL3). pose proof V as (V1 & V2 & V3).
  assert (NE : funder <> k) by (intros E1; rewrite E1 in *; lia).
  pose proof FK as FK0. apply find_pda_some in FK0 as [FK0 _].
  destruct (create_go e c funder k (record_price e) TP_LEN tp_id (with_bump (sd_proposal (rr_number rr) ts lt conf (e_hash e evb)) wn) s) as (s1 & C1 & A1 & A2 & A3 & L1 & T1); try assumption.
  { rewrite P. exact FK0. } { split; [lia|auto]. } { unfold TP_LEN, MAX_DATA. lia. } { discriminate. }
  set (s2 := written (c_prop (c_withlen ce) (c_withlen c_wmeta)) s1 k w).
  assert (D1 : blen (dat (accs s1 k)) = TP_LEN) by (rewrite A1; cbn [dat]; unfold blen; rewrite repeat_length; reflexivity).
  assert (U2 : unpack (c_prop (c_withlen ce) (c_withlen c_wmeta)) TP_LEN (@p_init _ _) (dat (accs s2 k)) = Ok w).
  { unfold s2. apply written_reads; [typeclasses eauto|exact D1|unfold TP_LEN; lia|exact OKW|reflexivity]. }
  assert (O2 : own (accs s2 k) = tp_id) by (unfold s2; rewrite written_own, A1; reflexivity).
  assert (LK2 : lam (accs s2 k) = record_price e) by (unfold s2, written; rewrite lam_put_dat, A1; reflexivity).
  assert (S2 : forall j, j <> k -> accs s2 j = accs s1 j) by (intros j J; apply accs_put_dat_other; exact J).
  set (s3 := put_log s2 (enc c_ev_request (EvRequest k tok rcp amt ts lt conf (kb (e_hash e evb)) 0))).
  destruct (pay_go c funder k (20000 * n) s3) as (s' & C3 & B1 & B2 & B3 & L3 & T3); try assumption; try lia.
  { unfold has_lamports. change (accs s3) with (accs s2). rewrite S2, A2 by exact NE. cbn [lam own dat]. split; [lia|auto]. }
  { change (accs s3) with (accs s2). lia. } { change (accs s3) with (accs s2). rewrite LK2. unfold u64max in *. lia. }
  change (accs s3) with (accs s2) in *.
  exists s'. split; [|split; [|split; [|split; [|split; [|split; [|split]]]]]].
  - unfold request_tail. cbv zeta. rewrite P. eapply bind_go; [apply lift_go; exact FK|]. cbv beta iota. eapply bind_go; [apply guard_go; apply keqb_refl|].
    eapply bind_go; [reflexivity|]. cbv beta. rewrite V1. cbn [Z.eqb]. cbv iota. eapply bind_go; [exact C1|].
    apply (bind_go _ _ s1 tt s2). { unfold s2. apply pack_at_go; [rewrite P, A1; reflexivity|exact W2|exact D1|unfold TP_LEN; lia]. }
    apply (bind_go _ _ s2 tt s3); [reflexivity|]. unfold RELAY_REPARATION. fold n. unfold wrap64. rewrite Z.mod_small by (unfold u64max; lia). exact C3.
  - rewrite B1. exact O2.
  - rewrite B1. exact U2.
  - rewrite B1. cbn [lam]. lia.
  - rewrite B2, S2, A2 by exact NE. cbn [lam]. f_equal. lia.
  - intros j J1 J2. rewrite B3, S2, A3 by assumption. reflexivity.
  - rewrite T3. exact T1.
  - transitivity (lam_sum (c_keys c) s3).
    + apply (two_sum _ s3 s' k funder (20000 * n)); try assumption; try congruence; change (accs s3) with (accs s2).
      * rewrite B1. reflexivity.
      * rewrite B2. reflexivity.
      * intros j J1 J2. rewrite B3 by congruence. reflexivity.
    + change (lam_sum (c_keys c) s3) with (lam_sum (c_keys c) s2). unfold s2. rewrite lam_sum_written. apply (two_sum _ s s1 k funder (record_price e)); try assumption; try congruence.
      * rewrite A1. cbn [lam]. lia.
      * rewrite A2. reflexivity.
      * intros j J1 J2. rewrite A3 by congruence. reflexivity.
Qed.

Lemma blank_tacc : spl_unpack_unchecked c_tacc TACC_LEN (repeat x00 165) = Ok (TAcc key0 key0 0 (false, key0) TUninit (false, 0) 0 (false, key0)).
Proof. vm_compute. reflexivity. Qed.
(** The proxy account of a recipient is created and receives the attached lamports. *)
Lemma proxy_go e c funder proxy mint recipient payload mintk attached pn s m :
  c_pid c = tp_id -> In funder (c_keys c) -> In proxy (c_keys c) -> In mint (c_keys c) -> In sys_id (c_keys c) -> In spl_id (c_keys c) ->
  c_sg c funder = true -> c_wr c funder = true -> c_wr c proxy = true -> payload <> [] -> mintk = Ok mint ->
  find_pda e (str "proxy" ++ kb mint ++ kb recipient) tp_id = Ok (proxy, pn) -> unused s proxy -> mint_in s mint m -> funder <> proxy ->
  0 <= attached -> has_lamports s funder (token_price e + attached) -> lam (accs s proxy) + token_price e + attached < 2 ^ 64 ->
  exists s' p t, request_proxy e c payload mintk recipient funder sys_id attached [proxy; mint; spl_id] s = Ok (Some pn, s') /\ p = Z.max 0 (token_price e - lam (accs s proxy)) /\
    tok_in s' proxy t /\ ta_mint t = mint /\ ta_owner t = proxy /\ ta_state t = TInit /\ (mint <> native_mint -> ta_amount t = 0) /\
    lam (accs s' proxy) = lam (accs s proxy) + p + attached /\ accs s' funder = Acct (lam (accs s funder) - p - attached) sys_id [] /\
    (forall j, j <> funder -> j <> proxy -> accs s' j = accs s j) /\ now s' = now s /\ lam_sum (c_keys c) s' = lam_sum (c_keys c) s.
Proof.
  intros P I1 I2 I3 I4 I5 SG W1 W2 NP -> FP UP MI NE AT HL LB.
  pose proof UP as (U0 & U1 & U2). pose proof HL as (HL1 & HL2 & HL3).
  assert (TP : Z.max (rent_min e TACC_LEN) 1 = token_price e) by (unfold token_price, rent_min, wrap64, TACC_LEN; change u64max with (2 ^ 64); lia).
  assert (PT : 0 < token_price e < u64max) by (unfold token_price, u64max; lia).
  pose proof FP as FP0. apply find_pda_some in FP0 as [FP0 _].
  destruct (create_pda_go e c funder TACC_LEN spl_id proxy (with_bump (sd_proxy mint recipient) pn) s) as (s1 & p & C & PE & A1 & A2 & A3 & L1 & T1); try assumption.
  { rewrite P. exact FP0. } { rewrite TP. split; [lia|auto]. } { rewrite TP. lia. } { unfold u64max in *. lia. } { unfold TACC_LEN, MAX_DATA. lia. } { discriminate. }
  rewrite TP in PE.
  assert (NMA : mint <> proxy) by (intros E; destruct MI as [MI _]; rewrite E, U1 in MI; discriminate).
  assert (NMF : mint <> funder) by (intros E; destruct MI as [MI _]; rewrite E, HL2 in MI; discriminate).
  assert (MI1 : mint_in s1 mint m) by (split; unfold tmint_in; rewrite A3 by assumption; apply MI).
  assert (D1 : dat (accs s1 proxy) = repeat x00 165) by (rewrite A1; reflexivity).
  destruct (init3_go e (ctx_of spl_id [Meta proxy false true; Meta mint false false]) proxy mint proxy s1) as (t & IN & OKT & TI & TM & TO & TST & TA & TN); try reflexivity; try assumption; try (rewrite A1; reflexivity).
  { cbn [ctx_of c_wr existsb m_key m_wr]. rewrite keqb_refl. reflexivity. }
  { rewrite A1. cbn [lam]. unfold token_price in *. lia. } { rewrite A1. cbn [lam]. unfold u64max in *. lia. } { exists m. exact MI1. }
  set (s2 := written c_tacc s1 proxy t).
  assert (AP : accs s2 proxy = Acct (lam (accs s proxy) + p) spl_id (dat (accs s2 proxy))).
  { unfold s2, written, put_dat. rewrite accs_put, keqb_refl. cbn [dat]. rewrite A1. reflexivity. }
  assert (S2 : forall j, j <> proxy -> accs s2 j = accs s1 j) by (intros j J; apply accs_put_dat_other; exact J).
  destruct (pay_go c funder proxy attached s2) as (s' & C3 & B1 & B2 & B3 & L3 & T3); try assumption.
  { unfold has_lamports. rewrite S2, A2 by exact NE. cbn [lam own dat]. split; [lia|auto]. }
  { rewrite AP. cbn [lam]. lia. } { rewrite AP. cbn [lam]. unfold u64max in *. lia. }
  exists s', p, t. split; [|split; [exact PE|]].
  - unfold request_proxy. destruct payload; [contradiction|]. cbn [nil_b]. cbv iota. eapply bind_go; [apply lift_go; reflexivity|]. cbv beta.
    eapply bind_go; [apply guard_go; apply keqb_refl|]. apply (bind_go _ _ s pn s2); [|eapply bind_go; [exact C3|reflexivity]].
    unfold create_proxy_account. rewrite P. eapply bind_go; [apply lift_go; exact FP|]. cbv beta iota. eapply bind_go; [apply guard_go; apply keqb_refl|].
    eapply bind_go; [reflexivity|]. cbv beta. eapply bind_go; [apply guard_go; rewrite U1; apply keqb_refl|]. rewrite U2. cbn [nil_b]. cbv iota.
    eapply bind_go; [exact C|]. eapply bind_go; [apply guard_go; apply keqb_refl|].
    apply (bind_go _ _ s1 tt s1).
    { unfold invoke_init_immutable. apply cpi_go; [cbn [In]; tauto| |].
      - apply Forall_cons; [|apply Forall_nil]. cbn [m_key m_sg m_wr In]. split; [tauto|]. split; [assumption|]. split; [discriminate|auto].
      - unfold tok_init_immutable. eapply bind_go; [reflexivity|]. cbv beta. rewrite D1. eapply bind_go; [apply lift_go; exact blank_tacc|]. reflexivity. }
    apply (bind_go _ _ s1 tt s2); [|reflexivity].
    unfold invoke_init_account3. apply cpi_go; [cbn [In]; tauto| |exact IN].
    apply Forall_cons; [|apply Forall_cons; [|apply Forall_nil]]; cbn [m_key m_sg m_wr In]; (split; [tauto|]; split; [assumption|]; split; [discriminate|try discriminate; auto]).
  - split; [split; [rewrite B1, AP; reflexivity|]|].
    { unfold tacc_in. rewrite B1. cbn [dat]. apply written_reads; try assumption; try typeclasses eauto; [rewrite D1; reflexivity|unfold TACC_LEN; rewrite size_tacc; lia]. }
    split; [exact TM|]. split; [exact TO|]. split; [exact TST|]. split; [intros NN; rewrite TA, keqb_ne by exact NN; reflexivity|].
    split; [rewrite B1, AP; reflexivity|]. split; [rewrite B2, S2, A2 by exact NE; reflexivity|].
    split; [intros j J1 J2; rewrite B3, S2, A3 by assumption; reflexivity|]. split; [rewrite T3; exact T1|].
    transitivity (lam_sum (c_keys c) s2).
    + apply (two_sum _ s2 s' proxy funder attached); try assumption; try congruence.
      * rewrite B1. reflexivity.
      * rewrite B2. reflexivity.
      * intros j J1 J2. rewrite B3 by congruence. reflexivity.
    + unfold s2. rewrite lam_sum_written. apply (two_sum _ s s1 proxy funder p); try assumption; try congruence.
      * rewrite A1. reflexivity.
      * rewrite A2. reflexivity.
      * intros j J1 J2. rewrite A3 by congruence. reflexivity.
Qed.

Lemma filing_parts {E} wn pn author (rls : rl_settings) (rr : relay_round) ts lt conf (ev : withlen E) epoch : blen (rr_relays rr) <= 100 -> 
  new_filing (new_request wn pn author rls rr ts lt conf ev epoch) (wl_data ev) author rr rls ts lt conf.
Proof.
  intros R. pose proof (blen_nonneg (rr_relays rr)) as R0. unfold new_filing, new_request. cbn [p_meta p_author p_round p_pda p_signers p_required]. do 7 (split; [reflexivity|]).
  fold (blen (rr_relays rr)). unfold required_votes, two_thirds, wrap32, u32max. rewrite Z.mod_small by lia. lia.
Qed.

Lemma request_size {E} (ce : codec E) wn pn author rls rr ts lt conf (ev : withlen E) ep :
  blen (enc (c_prop (c_withlen ce) (c_withlen c_wmeta)) (new_request wn pn author rls rr ts lt conf ev ep)) =
  (match pn with None => 117 | Some _ => 118 end) + blen (enc ce (wl_data ev)) + blen (rr_relays rr).
Proof.
  rewrite size_prop. unfold new_request. cbn [p_kind p_event p_meta p_signers]. destruct ev as [n ev]. unfold wmeta_new. rewrite !blen_withlen. cbn [wl_data].
  rewrite blen_wmeta. unfold blen at 2. rewrite repeat_length. fold (blen (rr_relays rr)). destruct pn; cbn [kind_len]; lia.
Qed.

(** * C80 *)

(** Without payload. *)
Theorem C80_ever : forall e ext s funder author k rlsk rls rrk rr ts lt conf token name symbol decimals recipient amount attached n,
  let ev := WEverEvent token name symbol decimals amount recipient [] in
  let i := TpWithdrawEverRequest ts lt conf token name symbol decimals recipient amount [] attached in
  clock_ok s -> okb c_tp_ix i = true -> blen name <= 32 -> blen symbol <= 32 -> loader_settings e s rlsk rls -> round_open e s rrk rr ->
  request_address e (rr_number rr) ts lt conf (enc c_wever_event ev) k n -> vacant s k -> has_lamports s funder (filing_price e rr) -> lam (accs s funder) < 2 ^ 64 ->
  exists s' w, tp_call e ext (request_ever_accounts funder author k rlsk rrk []) i s s' /\ ever_filed e s' k w /\ new_filing w ev author rr rls ts lt conf /\
    lam (accs s' k) = filing_price e rr /\ lam (accs s' funder) = lam (accs s funder) - filing_price e rr /\ (forall j, j <> funder -> j <> k -> accs s' j = accs s j).
Proof.
  intros e ext s funder author k rlsk rls rrk rr ts lt conf token name symbol decimals recipient amount attached n ev i CK OI LN LSY RL [RS RE] FK V HL LF.
  set (c := request_ever_accounts funder author k rlsk rrk []).
  destruct (round_small _ _ _ _ _ RS) as [RN OR]. pose proof (ix_ever_request _ _ _ _ _ _ _ _ _ _ _ OI) as (O1 & O2 & O3 & _). fold ev in O3.
  assert (KY : c_keys c = [funder; author; k; rlsk; rrk; sys_id; rent_id; clock_id]) by reflexivity.
  assert (OS : okb c_rl_settings rls = true) by (destruct RL as (? & ? & _ & _ & U); eapply okb_unpack; [typeclasses eauto|exact U]).
  destruct (tail_go c_wever_event _ e c funder author k rls rr ts lt conf (wever_event_new ev) (enc c_wever_event ev) None (epoch_of (now s)) (ever_to_string token) recipient amount s n)
    as (s' & EX & OW & UW & LK & AF & AO & NW & SUM); try assumption; try reflexivity; try (rewrite KY; cbn [In]; tauto); try (unfold c, request_ever_accounts; cbn [app]; metas).
  { apply new_request_ok; try assumption; try discriminate; [eapply bump_ok; exact FK|unfold wever_event_new; cbn [wl_len]; unfold wrap32, u32max; lia|apply epoch_ok; exact CK]. }
  { rewrite (request_size c_wever_event). cbn [wever_event_new wl_data]. rewrite size_wever_event. unfold ev. cbn [wee_name wee_symbol wee_payload]. change (blen []) with 0. lia. }
  exists s', (new_request n None author rls rr ts lt conf (wever_event_new ev) (epoch_of (now s))).
  split; [|split; [split; [exact OW|split; [exact UW|exists n, None; split; [reflexivity|exact FK]]]|split; [apply filing_parts; exact RN|split; [exact LK|split; [rewrite AF; reflexivity|exact AO]]]]].
  apply call_go; [reflexivity|exact CK|exact OI|]. apply sum_go; [|exact SUM]. cbn [tp_exec i]. unfold tp_withdraw_ever_request. rewrite KY. cbv beta iota.
  eapply bind_go; [unfold check_rent; apply guard_go; apply keqb_refl|]. eapply bind_go; [apply clock_go|]. cbv beta.
  eapply bind_go; [apply guard_go; unfold c, request_ever_accounts; cbn [app]; metas|].
  eapply bind_go; [apply guard_go; apply Z.leb_le; exact LN|]. eapply bind_go; [apply guard_go; apply Z.leb_le; exact LSY|].
  eapply bind_go; [apply loader_go; exact RL|]. cbv beta. eapply bind_go; [apply round_go; exact RS|]. cbv beta.
  eapply bind_go; [apply guard_go; apply Z.ltb_lt; exact RE|]. eapply bind_go; [reflexivity|]. exact EX.
Qed.

(** With payload: the proxy account of the recipient is created as well. *)
Theorem C80_ever_payload : forall e ext s funder author k rlsk rls rrk rr ts lt conf token name symbol decimals recipient amount payload attached n mint mn m proxy pn,
  let ev := WEverEvent token name symbol decimals amount recipient payload in
  let i := TpWithdrawEverRequest ts lt conf token name symbol decimals recipient amount payload attached in
  clock_ok s -> okb c_tp_ix i = true -> blen name <= 32 -> blen symbol <= 32 -> loader_settings e s rlsk rls -> round_open e s rrk rr ->
  request_address e (rr_number rr) ts lt conf (enc c_wever_event ev) k n -> vacant s k ->
  payload <> [] -> blen name + blen symbol + blen payload + blen (rr_relays rr) <= 787 ->
  find_pda e (str "mint" ++ kb (token_hash e token)) tp_id = Ok (mint, mn) -> mint_in s mint m -> find_pda e (str "proxy" ++ kb mint ++ kb recipient) tp_id = Ok (proxy, pn) ->
  unused s proxy -> lam (accs s proxy) + token_price e + attached < 2 ^ 64 -> proxy <> k -> funder <> proxy ->
  has_lamports s funder (filing_price e rr + token_price e + attached) -> lam (accs s funder) < 2 ^ 64 ->
  exists s' w t, tp_call e ext (request_ever_accounts funder author k rlsk rrk (proxy_accounts proxy mint)) i s s' /\
    ever_filed e s' k w /\ new_filing w ev author rr rls ts lt conf /\ lam (accs s' k) = filing_price e rr /\
    tok_in s' proxy t /\ ta_mint t = mint /\ ta_owner t = proxy /\ ta_state t = TInit /\ (mint <> native_mint -> ta_amount t = 0) /\
    lam (accs s' proxy) = Z.max (lam (accs s proxy)) (token_price e) + attached /\
    lam (accs s' funder) = lam (accs s funder) - filing_price e rr - (lam (accs s' proxy) - lam (accs s proxy)) /\ (forall j, j <> funder -> j <> k -> j <> proxy -> accs s' j = accs s j).
Proof.
  intros e ext s funder author k rlsk rls rrk rr ts lt conf token name symbol decimals recipient amount payload attached n mint mn m proxy pn ev i CK OI LN LSY RL [RS RE] FK V NP SZ FM MI FP UP LB NPK NFP HL LF.
  set (c := request_ever_accounts funder author k rlsk rrk (proxy_accounts proxy mint)).
  destruct (round_small _ _ _ _ _ RS) as [RN OR]. pose proof (ix_ever_request _ _ _ _ _ _ _ _ _ _ _ OI) as (O1 & O2 & O3 & O4). fold ev in O3. apply okb_u64 in O4.
  assert (KY : c_keys c = [funder; author; k; rlsk; rrk; sys_id; rent_id; clock_id; proxy; mint; spl_id]) by reflexivity.
  assert (OS : okb c_rl_settings rls = true) by (destruct RL as (? & ? & _ & _ & U); eapply okb_unpack; [typeclasses eauto|exact U]).
  pose proof HL as (HL1 & HL2 & HL3). pose proof V as (V1 & V2 & V3). pose proof (blen_nonneg (rr_relays rr)) as R0. pose proof UP as (U0 & _).
  assert (PR : 0 < record_price e < 2 ^ 64 /\ 0 < token_price e < 2 ^ 64) by (unfold record_price, token_price; lia). destruct PR as [PR PT].
  assert (FPR : record_price e <= filing_price e rr) by (unfold filing_price; lia).
  assert (NFK : funder <> k) by (intros E; rewrite E in *; lia).
  destruct (proxy_go e c funder proxy mint recipient payload (rbind (find_pda e (sd_mint (token_hash e token)) (c_pid c)) (fun '(k, _) => Ok k)) attached pn s m)
    as (s1 & p & t & PX & PE & TI & TM & TO & TST & TA & LP & AF1 & AO1 & NW1 & SUM1); try assumption; try reflexivity; try lia; try (rewrite KY; cbn [In]; tauto); try (unfold c, request_ever_accounts, proxy_accounts; cbn [app]; metas).
  { change (c_pid c) with tp_id. unfold sd_mint. rewrite FM. reflexivity. }
  { split; [lia|auto]. }
  assert (PB : 0 <= p <= token_price e) by lia.
  destruct (tail_go c_wever_event _ e c funder author k rls rr ts lt conf (wever_event_new ev) (enc c_wever_event ev) (Some pn) (epoch_of (now s)) (ever_to_string token) recipient amount s1 n)
    as (s' & EX & OW & UW & LK & AF & AO & NW & SUM); try assumption; try reflexivity; try (rewrite KY; cbn [In]; tauto); try (unfold c, request_ever_accounts, proxy_accounts; cbn [app]; metas).
  { unfold vacant. rewrite AO1 by congruence. exact V. }
  { unfold has_lamports. rewrite AF1. cbn [lam own dat]. split; [lia|auto]. } { rewrite AF1. cbn [lam]. lia. }
  { apply new_request_ok; try assumption; [eapply bump_ok; exact FK|intros ? E; injection E as <-; eapply bump_ok; exact FP|unfold wever_event_new; cbn [wl_len]; unfold wrap32, u32max; lia|apply epoch_ok; exact CK]. }
  { rewrite (request_size c_wever_event). cbn [wever_event_new wl_data]. rewrite size_wever_event. unfold ev. cbn [wee_name wee_symbol wee_payload]. lia. }
  assert (APX : accs s' proxy = accs s1 proxy) by (apply AO; congruence).
  exists s', (new_request n (Some pn) author rls rr ts lt conf (wever_event_new ev) (epoch_of (now s))), t.
  split; [|split; [split; [exact OW|split; [exact UW|exists n, (Some pn); split; [reflexivity|exact FK]]]|split; [apply filing_parts; exact RN|split; [exact LK|]]]].
  - apply call_go; [reflexivity|exact CK|exact OI|]. apply sum_go; [|rewrite SUM; exact SUM1]. cbn [tp_exec i]. unfold tp_withdraw_ever_request. rewrite KY. cbv beta iota.
    eapply bind_go; [unfold check_rent; apply guard_go; apply keqb_refl|]. eapply bind_go; [apply clock_go|]. cbv beta.
    eapply bind_go; [apply guard_go; unfold c, request_ever_accounts; cbn [app]; metas|].
    eapply bind_go; [apply guard_go; apply Z.leb_le; exact LN|]. eapply bind_go; [apply guard_go; apply Z.leb_le; exact LSY|].
    eapply bind_go; [apply loader_go; exact RL|]. cbv beta. eapply bind_go; [apply round_go; exact RS|]. cbv beta.
    eapply bind_go; [apply guard_go; apply Z.ltb_lt; exact RE|]. eapply bind_go; [exact PX|]. exact EX.
  - split; [split; unfold tacc_in; rewrite APX; apply TI|]. do 4 (split; [assumption|]). rewrite APX, AF, AF1, LP. cbn [lam]. split; [lia|]. split; [lia|].
    intros j J1 J2 J3. rewrite AO, AO1 by assumption. reflexivity.
Qed.

(** The same for tokens of Solana. *)
Theorem C80_sol : forall e ext s funder author k tsk tks mint vault rlsk rls rrk rr ts lt conf recipient amount attached n,
  let ev := WSolEvent mint amount recipient [] in
  let i := TpWithdrawSolRequest ts lt conf recipient amount [] attached in
  clock_ok s -> okb c_tp_ix i = true -> token_settings_of e s tsk tks -> tk_kind tks = TKSol mint vault -> loader_settings e s rlsk rls -> round_open e s rrk rr ->
  request_address e (rr_number rr) ts lt conf (enc c_wsol_event ev) k n -> vacant s k -> has_lamports s funder (filing_price e rr) -> lam (accs s funder) < 2 ^ 64 ->
  exists s' w, tp_call e ext (request_sol_accounts funder author k tsk rlsk rrk []) i s s' /\ sol_filed e s' k w /\ new_filing w ev author rr rls ts lt conf /\
    lam (accs s' k) = filing_price e rr /\ lam (accs s' funder) = lam (accs s funder) - filing_price e rr /\ (forall j, j <> funder -> j <> k -> accs s' j = accs s j).
Proof.
  intros e ext s funder author k tsk tks mint vault rlsk rls rrk rr ts lt conf recipient amount attached n ev i CK OI TS KT RL [RS RE] FK V HL LF.
  set (c := request_sol_accounts funder author k tsk rlsk rrk []).
  destruct (token_of_in _ _ _ _ TS) as (vn & _ & TIN).
  destruct (round_small _ _ _ _ _ RS) as [RN OR]. pose proof (ix_sol_request _ _ _ _ _ _ _ mint OI) as (O1 & O2 & O3 & _). fold ev in O3.
  assert (KY : c_keys c = [funder; author; k; tsk; rlsk; rrk; sys_id; rent_id; clock_id]) by reflexivity.
  assert (OS : okb c_rl_settings rls = true) by (destruct RL as (? & ? & _ & _ & U); eapply okb_unpack; [typeclasses eauto|exact U]).
  destruct (tail_go c_wsol_event _ e c funder author k rls rr ts lt conf (wsol_event_new ev) (enc c_wsol_event ev) None (epoch_of (now s)) (e_b58 e mint) recipient amount s n)
    as (s' & EX & OW & UW & LK & AF & AO & NW & SUM); try assumption; try reflexivity; try (rewrite KY; cbn [In]; tauto); try (unfold c, request_sol_accounts; cbn [app]; metas).
  { apply new_request_ok; try assumption; try discriminate; [eapply bump_ok; exact FK|unfold wsol_event_new; cbn [wl_len]; unfold wrap32, u32max; lia|apply epoch_ok; exact CK]. }
  { rewrite (request_size c_wsol_event). cbn [wsol_event_new wl_data]. rewrite size_wsol_event. unfold ev. cbn [wse_payload]. change (blen []) with 0. lia. }
  exists s', (new_request n None author rls rr ts lt conf (wsol_event_new ev) (epoch_of (now s))).
  split; [|split; [split; [exact OW|split; [exact UW|exists n, None; split; [reflexivity|exact FK]]]|split; [apply filing_parts; exact RN|split; [exact LK|split; [rewrite AF; reflexivity|exact AO]]]]].
  apply call_go; [reflexivity|exact CK|exact OI|]. apply sum_go; [|exact SUM]. cbn [tp_exec i]. unfold tp_withdraw_sol_request. rewrite KY. cbv beta iota.
  eapply bind_go; [unfold check_rent; apply guard_go; apply keqb_refl|]. eapply bind_go; [apply clock_go|]. cbv beta.
  eapply bind_go; [apply guard_go; unfold c, request_sol_accounts; cbn [app]; metas|].
  eapply bind_go; [eapply ts_sol_go; [reflexivity|exact TIN|exact KT]|]. cbv beta iota.
  eapply bind_go; [apply loader_go; exact RL|]. cbv beta. eapply bind_go; [apply round_go; exact RS|]. cbv beta.
  eapply bind_go; [apply guard_go; apply Z.ltb_lt; exact RE|]. eapply bind_go; [reflexivity|]. exact EX.
Qed.
Theorem C80_sol_payload : forall e ext s funder author k tsk tks mint vault rlsk rls rrk rr ts lt conf recipient amount payload attached n m proxy pn,
  let ev := WSolEvent mint amount recipient payload in
  let i := TpWithdrawSolRequest ts lt conf recipient amount payload attached in
  clock_ok s -> okb c_tp_ix i = true -> token_settings_of e s tsk tks -> tk_kind tks = TKSol mint vault -> loader_settings e s rlsk rls -> round_open e s rrk rr ->
  request_address e (rr_number rr) ts lt conf (enc c_wsol_event ev) k n -> vacant s k ->
  payload <> [] -> blen payload + blen (rr_relays rr) <= 798 ->
  mint_in s mint m -> find_pda e (str "proxy" ++ kb mint ++ kb recipient) tp_id = Ok (proxy, pn) ->
  unused s proxy -> lam (accs s proxy) + token_price e + attached < 2 ^ 64 -> proxy <> k -> funder <> proxy ->
  has_lamports s funder (filing_price e rr + token_price e + attached) -> lam (accs s funder) < 2 ^ 64 ->
  exists s' w t, tp_call e ext (request_sol_accounts funder author k tsk rlsk rrk (proxy_accounts proxy mint)) i s s' /\
    sol_filed e s' k w /\ new_filing w ev author rr rls ts lt conf /\ lam (accs s' k) = filing_price e rr /\
    tok_in s' proxy t /\ ta_mint t = mint /\ ta_owner t = proxy /\ ta_state t = TInit /\ (mint <> native_mint -> ta_amount t = 0) /\
    lam (accs s' proxy) = Z.max (lam (accs s proxy)) (token_price e) + attached /\
    lam (accs s' funder) = lam (accs s funder) - filing_price e rr - (lam (accs s' proxy) - lam (accs s proxy)) /\ (forall j, j <> funder -> j <> k -> j <> proxy -> accs s' j = accs s j).
Proof.
  intros e ext s funder author k tsk tks mint vault rlsk rls rrk rr ts lt conf recipient amount payload attached n m proxy pn ev i CK OI TS KT RL [RS RE] FK V NP SZ MI FP UP LB NPK NFP HL LF.
  set (c := request_sol_accounts funder author k tsk rlsk rrk (proxy_accounts proxy mint)).
  destruct (token_of_in _ _ _ _ TS) as (vn & _ & TIN).
  destruct (round_small _ _ _ _ _ RS) as [RN OR]. pose proof (ix_sol_request _ _ _ _ _ _ _ mint OI) as (O1 & O2 & O3 & O4). fold ev in O3. apply okb_u64 in O4.
  assert (KY : c_keys c = [funder; author; k; tsk; rlsk; rrk; sys_id; rent_id; clock_id; proxy; mint; spl_id]) by reflexivity.
  assert (OS : okb c_rl_settings rls = true) by (destruct RL as (? & ? & _ & _ & U); eapply okb_unpack; [typeclasses eauto|exact U]).
  pose proof HL as (HL1 & HL2 & HL3). pose proof V as (V1 & V2 & V3). pose proof (blen_nonneg (rr_relays rr)) as R0. pose proof UP as (U0 & _).
  assert (PR : 0 < record_price e < 2 ^ 64 /\ 0 < token_price e < 2 ^ 64) by (unfold record_price, token_price; lia). destruct PR as [PR PT].
  assert (FPR : record_price e <= filing_price e rr) by (unfold filing_price; lia).
  assert (NFK : funder <> k) by (intros E; rewrite E in *; lia).
  destruct (proxy_go e c funder proxy mint recipient payload (Ok mint) attached pn s m)
    as (s1 & p & t & PX & PE & TI & TM & TO & TST & TA & LP & AF1 & AO1 & NW1 & SUM1); try assumption; try reflexivity; try lia; try (rewrite KY; cbn [In]; tauto); try (unfold c, request_sol_accounts, proxy_accounts; cbn [app]; metas).
  { split; [lia|auto]. }
  assert (PB : 0 <= p <= token_price e) by lia.
  destruct (tail_go c_wsol_event _ e c funder author k rls rr ts lt conf (wsol_event_new ev) (enc c_wsol_event ev) (Some pn) (epoch_of (now s)) (e_b58 e mint) recipient amount s1 n)
    as (s' & EX & OW & UW & LK & AF & AO & NW & SUM); try assumption; try reflexivity; try (rewrite KY; cbn [In]; tauto); try (unfold c, request_sol_accounts, proxy_accounts; cbn [app]; metas).
  { unfold vacant. rewrite AO1 by congruence. exact V. }
  { unfold has_lamports. rewrite AF1. cbn [lam own dat]. split; [lia|auto]. } { rewrite AF1. cbn [lam]. lia. }
  { apply new_request_ok; try assumption; [eapply bump_ok; exact FK|intros ? E; injection E as <-; eapply bump_ok; exact FP|unfold wsol_event_new; cbn [wl_len]; unfold wrap32, u32max; lia|apply epoch_ok; exact CK]. }
  { rewrite (request_size c_wsol_event). cbn [wsol_event_new wl_data]. rewrite size_wsol_event. unfold ev. cbn [wse_payload]. lia. }
  assert (APX : accs s' proxy = accs s1 proxy) by (apply AO; congruence).
  exists s', (new_request n (Some pn) author rls rr ts lt conf (wsol_event_new ev) (epoch_of (now s))), t.
  split; [|split; [split; [exact OW|split; [exact UW|exists n, (Some pn); split; [reflexivity|exact FK]]]|split; [apply filing_parts; exact RN|split; [exact LK|]]]].
  - apply call_go; [reflexivity|exact CK|exact OI|]. apply sum_go; [|rewrite SUM; exact SUM1]. cbn [tp_exec i]. unfold tp_withdraw_sol_request. rewrite KY. cbv beta iota.
    eapply bind_go; [unfold check_rent; apply guard_go; apply keqb_refl|]. eapply bind_go; [apply clock_go|]. cbv beta.
    eapply bind_go; [apply guard_go; unfold c, request_sol_accounts; cbn [app]; metas|].
    eapply bind_go; [eapply ts_sol_go; [reflexivity|exact TIN|exact KT]|]. cbv beta iota.
    eapply bind_go; [apply loader_go; exact RL|]. cbv beta. eapply bind_go; [apply round_go; exact RS|]. cbv beta.
    eapply bind_go; [apply guard_go; apply Z.ltb_lt; exact RE|]. eapply bind_go; [exact PX|]. exact EX.
  - split; [split; unfold tacc_in; rewrite APX; apply TI|]. do 4 (split; [assumption|]). rewrite APX, AF, AF1, LP. cbn [lam]. split; [lia|]. split; [lia|].
    intros j J1 J2 J3. rewrite AO, AO1 by assumption. reflexivity.
Qed.

(** The record of a request has 1000 bytes: in no state whatsoever is there a request for an event and a relay round
    that together need more than 883 bytes of it, so a withdrawal of an Ever token whose name, symbol and payload have
    more than 788 bytes can never be requested, let alone paid. *)
Theorem C80_bound : forall e s k g m, request_at e s k g m -> blen (p_event g) + blen (p_signers g) <= 883.
Proof.
  intros e s k g m (_ & U & MM & _ & wn & pn & K & _). apply unpack_ok in U as (r & D & _ & L & _); [|typeclasses eauto].
  rewrite D, blen_app in L. unfold c_gprop in L. rewrite (size_prop c_bytes c_bytes), K, !blen_bytes, MM, blen_wmeta in L. pose proof (blen_nonneg r). unfold TP_LEN in L.
  destruct pn; cbn [kind_len] in L; lia.
Qed.
Theorem C80_long : forall e s k g m ev, request_at e s k g m -> 788 < blen (wee_name ev) + blen (wee_symbol ev) + blen (wee_payload ev) -> p_event g <> enc c_wever_event ev.
Proof.
  intros e s k g m ev R L E. pose proof (C80_bound _ _ _ _ _ R) as B. rewrite E, size_wever_event in B. pose proof (blen_nonneg (p_signers g)). lia.
Qed.

Theorem C80_long_sol : forall e s k g m ev, request_at e s k g m -> 799 < blen (wse_payload ev) -> p_event g <> enc c_wsol_event ev.
Proof.
  intros e s k g m ev R L E. pose proof (C80_bound _ _ _ _ _ R) as B. rewrite E, size_wsol_event in B. pose proof (blen_nonneg (p_signers g)). lia.
Qed.

(** FALSE of the code: not every event that the instruction can carry can be requested.  In a state of the demo history
    with a running round, the withdrawal of 60000 tokens of a registered token with a payload of 800 bytes is never
    requested: there is no state with a request for it. *)
Definition tev_long : wsol_event := WSolEvent tmintS 60000 trecv (repeat x01 800).
Definition rlsD : rl_settings := RlSettings true (KSettings 255 254) 11 (knum 11) 3 1000.
Definition rrD : relay_round := RelayRound true (KRelayRound 255) 10 1800000000 [trelay1; trelay2; trelay3].
Definition fq : list key := [trls; tround; tfunder; tw5; tw6; tw1; tw3; tproxyE; tproxyS; tmintE; tmintS; ttsS].
Definition xq2 : list acct := Eval vm_compute in map (accs ts2) fq.
Lemma xq2_is : map (accs ts2) fq = xq2. Proof. vm_compute. reflexivity. Qed.
Lemma atq2 n k : nth_error fq n = Some k -> accs ts2 k = nth n xq2 no_acct.
Proof. intros H. pose proof (map_nth_error (accs ts2) n fq H) as M. rewrite xq2_is in M. symmetry. apply nth_error_nth. exact M. Qed.
Ltac in_req a := cbv zeta; unfold loader_settings, round_open, round_stands, vacant, unused, has_lamports, token_settings_of, mint_in, tmint_in, the_token, the_mint;
  rewrite ?(a 0%nat trls eq_refl), ?(a 1%nat tround eq_refl), ?(a 2%nat tfunder eq_refl), ?(a 3%nat tw5 eq_refl), ?(a 4%nat tw6 eq_refl), ?(a 5%nat tw1 eq_refl), ?(a 6%nat tw3 eq_refl),
    ?(a 7%nat tproxyE eq_refl), ?(a 8%nat tproxyS eq_refl), ?(a 9%nat tmintE eq_refl), ?(a 10%nat tmintS eq_refl), ?(a 11%nat ttsS eq_refl).
Ltac ex_loader := exists 255, 254; split; [ex_vm|split; ex_vm].
Ltac ex_round := split; [exists 255; split; [ex_vm|split; ex_vm]|ex_vm].
Theorem C80_refuted : exists s tsk ts mint vault rlsk rls rrk rr t lt conf ev,
  reached s /\ token_settings_of te s tsk ts /\ tk_kind ts = TKSol mint vault /\ wse_mint ev = mint /\ loader_settings te s rlsk rls /\ round_open te s rrk rr /\
  okb c_tp_ix (TpWithdrawSolRequest t lt conf (wse_recipient ev) (wse_amount ev) (wse_payload ev) 0) = true /\ wse_amount ev = 60000 /\ blen (wse_payload ev) = 800 /\
  forall s1 k g m, request_at te s1 k g m -> p_event g <> enc c_wsol_event ev.
Proof.
  exists ts2, ttsS, (the_token ts2 ttsS), tmintS, tvault, trls, rlsD, tround, rrD, 57, 8, tconf, tev_long.
  split; [unfold ts2; demo_more; unfold ts1; demo_more; apply h_refl|]. in_req atq2.
  split; [ex_token|]. split; [ex_vm|]. split; [reflexivity|]. split; [ex_loader|]. split; [ex_round|]. split; [ex_vm|]. split; [ex_vm|]. split; [ex_vm|].
  intros s1 k g m R. apply (C80_long_sol _ _ _ _ _ _ R). vm_compute. reflexivity.
Qed.

(** * Examples *)

(** State [ts2]: the Solana token is registered.  The request [tw1] for 50000 tokens without payload, and [tw3] for
    60000 with an (empty) list of calls. *)
Example C80_sol_ex : clock_ok ts2 /\ okb c_tp_ix (TpWithdrawSolRequest 7 8 tconf trecv 50000 [] 5000) = true /\ token_settings_of te ts2 ttsS (the_token ts2 ttsS) /\
  tk_kind (the_token ts2 ttsS) = TKSol tmintS tvault /\ loader_settings te ts2 trls rlsD /\ round_open te ts2 tround rrD /\
  request_address te 10 7 8 tconf (enc c_wsol_event (WSolEvent tmintS 50000 trecv [])) tw1 255 /\ vacant ts2 tw1 /\ filing_price te rrD = 68000 /\
  has_lamports ts2 tfunder 68000 /\ lam (accs ts2 tfunder) < 2 ^ 64.
Proof.
  split; [vm_compute; split; [discriminate|reflexivity]|]. in_req atq2. split; [ex_vm|]. split; [ex_token|]. split; [ex_vm|]. split; [ex_loader|]. split; [ex_round|]. split; [ex_vm|].
  split; [split; [ex_vm|split; ex_vm]|]. split; [ex_vm|]. split; [split; [ex_vm|split; ex_vm]|ex_vm].
Qed.
Example C80_sol_payload_ex : okb c_tp_ix (TpWithdrawSolRequest 27 8 tconf trecv 60000 tpay 5000) = true /\
  request_address te 10 27 8 tconf (enc c_wsol_event (WSolEvent tmintS 60000 trecv tpay)) tw3 255 /\ vacant ts2 tw3 /\ tpay <> [] /\ blen tpay + blen (rr_relays rrD) = 11 /\
  mint_in ts2 tmintS (the_mint ts2 tmintS) /\ find_pda te (str "proxy" ++ kb tmintS ++ kb trecv) tp_id = Ok (tproxyS, 255) /\ unused ts2 tproxyS /\
  lam (accs ts2 tproxyS) + token_price te + 5000 < 2 ^ 64 /\ tproxyS <> tw3 /\ tfunder <> tproxyS /\ has_lamports ts2 tfunder (filing_price te rrD + token_price te + 5000).
Proof.
  in_req atq2. split; [ex_vm|]. split; [ex_vm|]. split; [split; [ex_vm|split; ex_vm]|]. split; [ex_vm|]. split; [ex_vm|]. split; [split; ex_vm|]. split; [ex_vm|].
  split; [split; [ex_vm|split; ex_vm]|]. do 3 (split; [ex_vm|]). split; [ex_vm|split; ex_vm].
Qed.
(** The request [tw5] for 80000 of an Ever token in state [ts2], and [tw6] with payload once the token is registered
    (state [ts8]). *)
Example C80_ever_ex : okb c_tp_ix (TpWithdrawEverRequest 47 8 tconf tever (str "Ever Token") (str "EVT") 9 trecv 80000 [] 5000) = true /\
  request_address te 10 47 8 tconf (enc c_wever_event tev5) tw5 255 /\ vacant ts2 tw5.
Proof. in_req atq2. split; [ex_vm|]. split; [ex_vm|]. split; [ex_vm|split; ex_vm]. Qed.
Definition xq8 : list acct := Eval vm_compute in map (accs ts8) fq.
Lemma xq8_is : map (accs ts8) fq = xq8. Proof. vm_compute. reflexivity. Qed.
Lemma atq8 n k : nth_error fq n = Some k -> accs ts8 k = nth n xq8 no_acct.
Proof. intros H. pose proof (map_nth_error (accs ts8) n fq H) as M. rewrite xq8_is in M. symmetry. apply nth_error_nth. exact M. Qed.
Example C80_ever_payload_ex : clock_ok ts8 /\ okb c_tp_ix (TpWithdrawEverRequest 57 8 tconf tever (str "Ever Token") (str "EVT") 9 trecv 90000 tpay 5000) = true /\
  loader_settings te ts8 trls rlsD /\ round_open te ts8 tround rrD /\ request_address te 10 57 8 tconf (enc c_wever_event tev6) tw6 255 /\ vacant ts8 tw6 /\
  blen (str "Ever Token") + blen (str "EVT") + blen tpay + blen (rr_relays rrD) = 24 /\ find_pda te (str "mint" ++ kb (token_hash te tever)) tp_id = Ok (tmintE, 255) /\
  mint_in ts8 tmintE (the_mint ts8 tmintE) /\ find_pda te (str "proxy" ++ kb tmintE ++ kb trecv) tp_id = Ok (tproxyE, 255) /\ unused ts8 tproxyE /\
  lam (accs ts8 tproxyE) = 0 /\ tproxyE <> tw6 /\ tfunder <> tproxyE /\ has_lamports ts8 tfunder (filing_price te rrD + token_price te + 5000) /\ lam (accs ts8 tfunder) < 2 ^ 64.
Proof.
  split; [vm_compute; split; [discriminate|reflexivity]|]. in_req atq8. split; [ex_vm|]. split; [ex_loader|]. split; [ex_round|]. split; [ex_vm|]. split; [split; [ex_vm|split; ex_vm]|].
  split; [ex_vm|]. split; [ex_vm|]. split; [split; ex_vm|]. split; [ex_vm|]. split; [split; [ex_vm|split; ex_vm]|]. do 3 (split; [ex_vm|]). split; [split; [ex_vm|split; ex_vm]|ex_vm].
Qed.

Print Assumptions C80_ever.
Print Assumptions C80_ever_payload.
Print Assumptions C80_sol.
Print Assumptions C80_sol_payload.
Print Assumptions C80_bound.
Print Assumptions C80_long.
Print Assumptions C80_long_sol.
Print Assumptions C80_refuted.
