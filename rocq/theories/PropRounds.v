(** Property C73: a new relay round can be installed. *)

From Coq Require Import Strings.String ZifyBool ZifyNat ZifyN.
From Verif Require Import DemoLaws PropRoundLoader SysGo PropLive PropVotes.
Open Scope Z_scope.
Open Scope list_scope.
Ltac Zify.zify_post_hook ::= Z.div_mod_to_equations.

(** * Vocabulary *)

(** [k] is the settings account of the round loader with record [st], which carries the bumps of its own
    address and of the program-data account's. *)
Definition loader_settings (e : env) (s : state) (k : key) (st : rl_settings) : Prop :=
  own (accs s k) = rl_id /\ unpack c_rl_settings RL_SETTINGS_LEN rs_init (dat (accs s k)) = Ok st /\
  exists n pd pn, find_pda e (str "settings") rl_id = Ok (k, n) /\ find_pda e (kb rl_id) loader_id = Ok (pd, pn) /\ rs_kind st = KSettings n pn.
(** [k] is the account of the relay round [rr]. *)
Definition round_account (e : env) (s : state) (k : key) (rr : relay_round) : Prop :=
  own (accs s k) = rl_id /\ unpack c_relay_round RELAY_ROUND_LEN rr_init (dat (accs s k)) = Ok rr /\
  exists n, rr_kind rr = KRelayRound n /\ find_pda e (str "relay_round" ++ le 4 (rr_number rr)) rl_id = Ok (k, n).
(** The address of a proposal, with the bump the proposal carries. *)
Definition proposal_address (e : env) (k : key) (p : rl_proposal) : Prop := exists n pn, p_kind p = KProposal n pn /\
  find_pda e (str "proposal" ++ le 4 (p_round p) ++ le 4 (pd_ts (p_pda p)) ++ le 8 (pd_lt (p_pda p)) ++
          kb (pd_conf (p_pda p)) ++ kb (e_hash e (enc c_rl_event (wl_data (p_event p))))) rl_id = Ok (k, n).
(** [k] is the account of the finalized proposal [p]. *)
Definition proposal_account (e : env) (s : state) (k : key) (p : rl_proposal) : Prop :=
  own (accs s k) = rl_id /\ unpack c_rl_proposal RL_PROPOSAL_LEN (@p_init _ _) (dat (accs s k)) = Ok p /\ proposal_address e k p.
(** [k] is the account of the proposal [p], not finalized. *)
Definition draft_account (e : env) (s : state) (k : key) (p : rl_proposal) : Prop :=
  own (accs s k) = rl_id /\ unpack_unchecked c_rl_proposal RL_PROPOSAL_LEN (dat (accs s k)) = Ok p /\ p_init p = false /\ proposal_address e k p.

(** What the creation of a relay round costs. *)
Definition round_price (e : env) : Z := Z.max 1 (e_rent e 3215 mod 2 ^ 64).
(** Round [n] with [relays] is at [rrk] and has become the current round; [funder] has paid for it; nothing
    but these accounts and those of [but] has changed. *)
Definition installed (e : env) (s s' : state) (funder k : key) (st : rl_settings) (rrk : key) (n : Z) (relays : list key) (t : Z) (but : list key) : Prop :=
  vacant s rrk /\
  (exists b, round_account e s' rrk (RelayRound true (KRelayRound b) n ((t + rs_ttl st) mod 2 ^ 32) relays)) /\
  loader_settings e s' k (RlSettings (rs_init st) (rs_kind st) n (rs_submitter st) (rs_min_votes st) (rs_ttl st)) /\
  lam (accs s' rrk) = round_price e /\ lam (accs s' k) = lam (accs s k) /\
  accs s' funder = Acct (lam (accs s funder) - round_price e) sys_id [] /\
  (forall j, j <> funder -> j <> k -> j <> rrk -> ~ In j but -> accs s' j = accs s j) /\ logs s' = logs s /\ now s' = now s.

(** The account lists of the Rust bindings (round-loader/src/bindings.rs:81-297). *)
Definition update_accounts (author k pd : key) : ctx := ctx_of rl_id [Meta author true true; Meta k false true; Meta pd false false].
Definition round_accounts (funder creator k rrk : key) : ctx :=
  ctx_of rl_id [Meta funder true true; Meta creator true true; Meta k false true; Meta rrk false true; Meta sys_id false false; Meta rent_id false false].
Definition final_accounts (funder p k rrk : key) : ctx :=
  ctx_of rl_id [Meta funder true true; Meta p false true; Meta k false false; Meta rrk false false; Meta sys_id false false].
Definition ballot (relay p rrk : key) : ctx := ctx_of rl_id [Meta relay true true; Meta p false true; Meta rrk false false].
Definition execute_accounts (funder k p rrk : key) : ctx :=
  ctx_of rl_id [Meta funder true true; Meta k false true; Meta p false true; Meta rrk false true; Meta sys_id false false; Meta rent_id false false].
Definition admin_accounts (funder creator k p rrk : key) : ctx :=
  ctx_of rl_id [Meta funder true true; Meta creator true true; Meta k false true; Meta p false true; Meta rrk false true; Meta sys_id false false; Meta rent_id false false].

(** * Lemmas *)

Lemma loader_in e s k st : loader_settings e s k st -> exists pd pn, rl_sets s k st /\ rl_settings_in e rl_id s k st pn /\ find_pda e (kb rl_id) loader_id = Ok (pd, pn).
Proof.
  intros (O & U & n & pd & pn & F & G & K). exists pd, pn. split; [split; assumption|]. split; [|exact G]. split; [exact U|]. exists n. split; [exact K|exact F].
Qed.
Lemma rl_settings_go e c k st pn s : c_pid c = rl_id -> rl_settings_in e rl_id s k st pn -> rl_valid_settings e c k s = Ok ((st, pn), s).
Proof.
  intros P (U & n & KD & F). unfold rl_valid_settings, rl_settings_at. eapply bind_go; [apply unpack_at_go; exact U|]. cbv beta.
  eapply bind_go; [apply lift_go; rewrite KD; reflexivity|]. cbv beta iota.
  eapply bind_go; [apply lift_go; rewrite P; apply pda_go; exact F|]. reflexivity.
Qed.
Lemma rl_round_go e c k rr s : c_pid c = rl_id -> round_account e s k rr -> rl_valid_round e c k s = Ok (rr, s).
Proof.
  intros P (_ & U & n & KD & F). unfold rl_valid_round, relay_round_at. eapply bind_go; [apply unpack_at_go; exact U|]. cbv beta.
  eapply bind_go; [apply lift_go; rewrite KD; reflexivity|]. cbv beta.
  eapply bind_go; [apply lift_go; rewrite P; apply pda_go; exact F|]. reflexivity.
Qed.
Lemma rl_prop_go e c k p s : c_pid c = rl_id -> proposal_address e k p -> rl_valid_proposal e c k p s = Ok (k, s).
Proof.
  intros P (n & pn & KD & F). unfold rl_valid_proposal. eapply bind_go; [apply lift_go; rewrite KD; reflexivity|]. cbv beta iota.
  apply lift_go. rewrite P. apply pda_go. exact F.
Qed.
Lemma rl_call_go e c i s s' : c_pid c = rl_id -> okb c_rl_ix i = true -> run c (rl_exec e c i) s = Ok s' -> rl_call e c i s s'.
Proof.
  intros P O R. split; [exact P|]. exists (enc c_rl_ix i).
  assert (D : try_from_slice c_rl_ix (enc c_rl_ix i) = Some i) by (apply try_from_slice_rt; [typeclasses eauto|exact O]).
  split; [exact D|]. unfold run, rl_process, bind, lift. rewrite D. exact R.
Qed.
Lemma authority_rl e s a pd n : find_pda e (kb rl_id) loader_id = Ok (pd, n) -> authority_is e s a -> validate_initializer (dat (accs s pd)) a = Ok tt.
Proof.
  intros F (pd' & n' & slot & rest & F' & L & D). rewrite F in F'. injection F' as <- <-.
  unfold validate_initializer, upgrade_authority. rewrite D.
  replace ([x03; x00; x00; x00] ++ slot ++ [x01] ++ kb a ++ rest)
    with (enc (c_u32 ** c_u64 ** c_option c_key) (3, (unle slot, Some a)) ++ rest).
  - rewrite rt; [rewrite keqb_refl; reflexivity|]. cbn [okb c_pair c_option c_key fst snd]. unfold c_u32, c_u64, c_uint. cbn [okb].
    pose proof (unle_range slot) as R. unfold blen in R. rewrite L in R. change (256 ^ Z.of_nat 8) with (256 ^ 8).
    replace (0 <=? unle slot) with true by lia. replace (unle slot <? 256 ^ 8) with true by lia. reflexivity.
  - cbn [enc c_pair c_option c_key fst snd]. unfold c_u32, c_u64, c_uint. cbn [enc]. rewrite <- L, le_unle, <- !app_assoc. reflexivity.
Qed.
Lemma written_accs {A} (cd : codec A) s k x j : j <> k -> accs (written cd s k x) j = accs s j.
Proof. intros J. destruct (written_only cd s k x) as [(_ & _ & S) _]. apply S. exact J. Qed.
Lemma written_lam {A} (cd : codec A) s k x j : lam (accs (written cd s k x) j) = lam (accs s j).
Proof. apply (lam_same_only k). apply written_only. Qed.
Lemma written_own' {A} (cd : codec A) s k x j : own (accs (written cd s k x) j) = own (accs s j).
Proof. unfold written. apply own_put_dat. Qed.

(** The common tail of the three instructions that install a round. *)
Lemma new_round_go e c funder k rrk st pn b n relays t s : c_pid c = rl_id ->
  In funder (c_keys c) -> In rrk (c_keys c) -> In sys_id (c_keys c) -> c_sg c funder = true -> c_wr c funder = true -> c_wr c rrk = true -> c_wr c k = true ->
  rl_sets s k st -> rl_settings_in e rl_id s k st pn -> find_pda e (str "relay_round" ++ le 4 n) rl_id = Ok (rrk, b) ->
  vacant s rrk -> has_lamports s funder (round_price e) -> 0 <= n < 2 ^ 32 -> blen relays <= 100 ->
  exists s', rl_new_round e c funder k rrk st n relays t s = Ok (tt, s') /\
    round_account e s' rrk (RelayRound true (KRelayRound b) n ((t + rs_ttl st) mod 2 ^ 32) relays) /\
    rl_sets s' k (rs_with_current st n) /\
    dlam s s' (fun j => at_key rrk (round_price e) j - at_key funder (round_price e) j) /\
    accs s' funder = Acct (lam (accs s funder) - round_price e) sys_id [] /\
    (forall j, j <> funder -> j <> k -> j <> rrk -> accs s' j = accs s j) /\ logs s' = logs s /\ now s' = now s.
Proof.
  intros P I1 I2 I3 S1 W1 W2 W3 [O U] V F VA HL N NR.
  pose proof (find_pda_some _ _ _ _ _ F) as [FB BB].
  assert (D1 : k <> rrk) by (intros E; rewrite E in *; destruct VA as (_ & VA & _); rewrite VA in O; discriminate).
  assert (D2 : k <> funder) by (intros E; rewrite E in *; destruct HL as (_ & HL & _); rewrite HL in O; discriminate).
  assert (PR : 0 < round_price e < u64max) by (unfold round_price, u64max; lia).
  assert (D3 : funder <> rrk) by (intros E; rewrite E in *; destruct VA as (VA & _), HL as (HL & _); lia).
  pose proof U as U0. apply unpack_ok in U0 as (r0 & DD & OKS & LS & IS); [|typeclasses eauto].
  destruct (create_go e c funder rrk (round_price e) RELAY_ROUND_LEN rl_id (with_bump (sd_relay_round n) b) s) as (s1 & C & A1 & A2 & A3 & L1 & T1); try assumption.
  { rewrite P. exact FB. }
  { unfold RELAY_ROUND_LEN, MAX_DATA. lia. }
  { discriminate. }
  set (rr := RelayRound true (KRelayRound b) n (wrap32 (t + rs_ttl st)) relays).
  set (s2 := written c_relay_round s1 rrk rr). set (s3 := written c_rl_settings s2 k (rs_with_current st n)).
  assert (LR : blen (dat (accs s1 rrk)) = RELAY_ROUND_LEN).
  { rewrite A1. cbn [dat]. unfold blen. rewrite repeat_length. unfold RELAY_ROUND_LEN. lia. }
  assert (SR : blen (enc c_relay_round rr) <= RELAY_ROUND_LEN).
  { rewrite size_relay_round. unfold rr. cbn [rr_kind rr_relays]. unfold kind_len, RELAY_ROUND_LEN. lia. }
  assert (E1 : accs s1 k = accs s k) by (apply A3; assumption).
  assert (E2 : accs s2 k = accs s k) by (unfold s2; rewrite written_accs by exact D1; exact E1).
  assert (SS : blen (enc c_rl_settings (rs_with_current st n)) <= RL_SETTINGS_LEN).
  { rewrite size_rl_settings. destruct V as (_ & m & KD & _). cbn [rs_with_current rs_kind]. rewrite KD. unfold kind_len, RL_SETTINGS_LEN. lia. }
  exists s3. split; [|split; [|split; [|split; [|split; [|split; [|split]]]]]].
  - unfold rl_new_round. eapply bind_go; [apply lift_go; rewrite P; exact F|]. cbv beta iota.
    eapply bind_go; [apply guard_go, keqb_refl|]. rewrite P.
    change (Z.max 1 (rent_min e RELAY_ROUND_LEN)) with (round_price e). eapply bind_go; [exact C|].
    apply (bind_go _ _ s1 tt s2).
    + apply pack_at_go; [rewrite A1, P; reflexivity|exact W2|exact LR|exact SR].
    + apply pack_at_go; [rewrite E2, P; exact O|exact W3|rewrite E2; exact LS|exact SS].
  - assert (E3 : accs s3 rrk = accs s2 rrk) by (apply written_accs; congruence).
    split; [|split].
    + rewrite E3. unfold s2. rewrite written_own', A1. reflexivity.
    + rewrite E3. unfold s2. apply written_reads; [typeclasses eauto|exact LR|exact SR| |reflexivity].
      apply okb_new_round; [exact BB|unfold u32max; lia|unfold u32max; lia].
    + exists b. split; [reflexivity|exact F].
  - split.
    + unfold s3. rewrite written_own', E2. exact O.
    + unfold s3. apply written_reads; [typeclasses eauto|rewrite E2; exact LS|exact SS| |exact IS].
      apply okb_sets_with; [exact OKS|unfold u32max; lia].
  - intros j. unfold s3, s2. rewrite !written_lam. destruct (key_dec j rrk) as [J|J].
    + rewrite J, A1, at_same, at_other by congruence. cbn [lam]. destruct VA as (-> & _). lia.
    + rewrite (at_other rrk) by exact J. destruct (key_dec j funder) as [J'|J'].
      * rewrite J', A2, at_same. cbn [lam]. lia.
      * rewrite A3, at_other by assumption. lia.
  - unfold s3, s2. rewrite !written_accs by congruence. exact A2.
  - intros j J1 J2 J3. unfold s3, s2. rewrite !written_accs by assumption. apply A3; assumption.
  - exact L1.
  - exact T1.
Qed.

Lemma okb_ix_round n l t : 0 <= n < 2 ^ 32 -> 0 <= t < 2 ^ 32 -> blen l <= 100 -> okb c_rl_ix (RlCreateRelayRound n l t) = true.
Proof.
  intros N T L. cbn [okb c_rl_ix]. unfold c_rl_3. cbn [c_iso okb c_pair c_vec fst snd]. rewrite !andb_true_iff.
  assert (A : (blen l <? u32max) = true) by (unfold u32max; lia).
  assert (B : forallb (okb c_key) l = true) by (apply forallb_forall; reflexivity).
  repeat match goal with |- _ /\ _ => split end; try assumption; try (apply okb_u32; unfold u32max; lia); reflexivity.
Qed.
Lemma settings_after e s s' k st n : loader_settings e s k st -> rl_sets s' k (rs_with_current st n) -> loader_settings e s' k (rs_with_current st n).
Proof. intros (_ & _ & m & pd & pn & F & G & K) [O U]. split; [exact O|]. split; [exact U|]. exists m, pd, pn. auto. Qed.

(** * C73 *)

(** The upgrade authority can change the settings at any time. *)
Theorem C73_owner : forall e s k st a pd n cur sub mv ttl, loader_settings e s k st -> authority_is e s a -> find_pda e (kb rl_id) loader_id = Ok (pd, n) ->
  okb c_rl_ix (RlUpdateSettings cur sub mv ttl) = true ->
  exists s', rl_call e (update_accounts a k pd) (RlUpdateSettings cur sub mv ttl) s s' /\
    loader_settings e s' k (RlSettings (rs_init st) (rs_kind st) (match cur with Some x => x | None => rs_current st end)
      (match sub with Some x => x | None => rs_submitter st end) (match mv with Some x => x | None => rs_min_votes st end)
      (match ttl with Some x => x | None => rs_ttl st end)) /\
    only_data_of k s s' /\ logs s' = logs s /\ now s' = now s.
Proof.
  intros e s k st a pd n cur sub mv ttl B A F OI. destruct (loader_in _ _ _ _ B) as (pd' & pn & [O U] & V & F'). rewrite F in F'. injection F' as <- <-.
  pose proof U as U0. apply unpack_ok in U0 as (r & D & OK & LEN & I0); [|typeclasses eauto].
  match goal with |- context [loader_settings e _ k ?x] => set (st' := x) end.
  set (s' := written c_rl_settings s k st'). set (c := update_accounts a k pd).
  assert (SZ : blen (enc c_rl_settings st') <= RL_SETTINGS_LEN).
  { rewrite size_rl_settings. destruct V as (_ & m & K & _). unfold st'. cbn [rs_kind]. rewrite K. unfold kind_len, RL_SETTINGS_LEN. lia. }
  assert (EX : rl_exec e c (RlUpdateSettings cur sub mv ttl) s = Ok (tt, s')).
  { cbn [rl_exec]. unfold rl_update_settings. change (c_keys c) with [a; k; pd]. cbv beta iota.
    eapply bind_go; [apply guard_go; unfold c, update_accounts; metas|]. eapply bind_go; [apply rl_settings_go; [reflexivity|exact V]|]. cbv beta iota.
    eapply bind_go; [reflexivity|]. cbv beta. eapply bind_go; [apply guard_go; rewrite O; apply keqb_refl|].
    eapply bind_go; [apply lift_go, pd_go; exact F|]. eapply bind_go; [reflexivity|]. cbv beta.
    eapply bind_go; [apply lift_go; eapply authority_rl; eassumption|].
    apply pack_at_go; [exact O|unfold c, update_accounts; metas|exact LEN|exact SZ]. }
  destruct (written_only c_rl_settings s k st') as (W1 & W2 & W3).
  exists s'. split; [|split; [|split; [exact W1|split; [exact W2|exact W3]]]].
  - apply rl_call_go; [reflexivity|exact OI|]. apply run_go; [exact EX|]. eapply lam_same_only. exact W1.
  - destruct B as (_ & _ & m & pd' & pn' & F1 & F2 & K). split; [destruct W1 as (_ & W & _); unfold s'; rewrite W; exact O|]. split.
    + apply written_reads; [typeclasses eauto|exact LEN|exact SZ| |exact I0]. exact (okb_ix_update cur sub mv ttl st OI OK).
    + exists m, pd', pn'. auto.
Qed.

(** The submitter can install every round that is not older than the current one, if no account is at the
    round's address. *)
Theorem C73_submitter_partial : forall e s k st funder rrk b n relays t, loader_settings e s k st ->
  (rs_current st = 0 \/ rs_current st <= n) -> 0 <= n < 2 ^ 32 -> 0 <= t < 2 ^ 32 -> blen relays <= 100 ->
  find_pda e (str "relay_round" ++ le 4 n) rl_id = Ok (rrk, b) -> vacant s rrk -> has_lamports s funder (round_price e) ->
  exists s', rl_call e (round_accounts funder (rs_submitter st) k rrk) (RlCreateRelayRound n relays t) s s' /\ installed e s s' funder k st rrk n relays t [].
Proof.
  intros e s k st funder rrk b n relays t B CU N T NR F VA HL. destruct (loader_in _ _ _ _ B) as (pd & pn & R & V & _).
  set (c := round_accounts funder (rs_submitter st) k rrk).
  destruct (new_round_go e c funder k rrk st pn b n relays t s) as (s' & X & A1 & A2 & A3 & A4 & A5 & A6 & A7); try assumption; try reflexivity;
    try (unfold c, round_accounts; metas).
  { left; reflexivity. } { do 3 right; left; reflexivity. } { do 4 right; left; reflexivity. }
  exists s'. split.
  - apply rl_call_go; [reflexivity|apply okb_ix_round; assumption|]. apply (run_pay c _ s s' rrk funder (round_price e)); [|exact A3|do 3 right; left; reflexivity|left; reflexivity].
    cbn [rl_exec]. unfold rl_create_relay_round. change (c_keys c) with [funder; rs_submitter st; k; rrk; sys_id; rent_id]. cbv beta iota.
    eapply bind_go; [apply guard_go, keqb_refl|]. eapply bind_go; [apply guard_go; unfold c, round_accounts; metas|].
    eapply bind_go; [apply rl_settings_go; [reflexivity|exact V]|]. cbv beta iota. eapply bind_go; [apply guard_go, keqb_refl|].
    eapply bind_go; [apply guard_go; lia|]. exact X.
  - split; [exact VA|]. split; [exists b; exact A1|]. split; [eapply settings_after; [exact B|exact A2]|].
    assert (D1 : k <> rrk) by (intros E; rewrite E in *; destruct VA as (_ & VA & _), R as [R _]; rewrite VA in R; discriminate).
    assert (D2 : k <> funder) by (intros E; rewrite E in *; destruct HL as (_ & HL & _), R as [R _]; rewrite HL in R; discriminate).
    assert (D3 : rrk <> funder) by (intros E; rewrite E in *; destruct VA as (VA & _), HL as (HL & _); unfold round_price in HL; lia).
    split; [rewrite A3, at_same, at_other by exact D3; destruct VA as (-> & _); lia|].
    split; [rewrite A3, !at_other by assumption; lia|]. split; [exact A4|]. split; [intros j J1 J2 J3 _; apply A5; assumption|]. split; assumption.
Qed.

(** Execution writes the proposal after the round. *)
Lemma size_rl_prop p : blen (enc c_rl_proposal p) = 110 + kind_len (p_kind p) + 32 * blen (re_relays (wl_data (p_event p))) + blen (p_signers p).
Proof.
  unfold c_rl_proposal. pose proof (size_prop (c_withlen c_rl_event) (c_withlen c_pstatus) p) as Z. unfold rl_proposal in *. rewrite Z. clear Z. destruct (p_event p) as [l x], (p_meta p) as [l' x']. rewrite !blen_withlen, size_rl_event.
  cbn [wl_data]. destruct x'; change (blen (enc c_pstatus _)) with 1; lia.
Qed.
Lemma executed_size p : blen (enc c_rl_proposal (executed p)) = blen (enc c_rl_proposal p).
Proof. rewrite !size_rl_prop. reflexivity. Qed.

Lemma installed_with e s s1 s' funder k st rrk n relays t b p q : loader_settings e s k st -> vacant s rrk -> has_lamports s funder (round_price e) ->
  own (accs s p) = rl_id -> p <> k ->
  round_account e s1 rrk (RelayRound true (KRelayRound b) n ((t + rs_ttl st) mod 2 ^ 32) relays) ->
  rl_sets s1 k (rs_with_current st n) -> dlam s s1 (fun j => at_key rrk (round_price e) j - at_key funder (round_price e) j) ->
  accs s1 funder = Acct (lam (accs s funder) - round_price e) sys_id [] ->
  (forall j, j <> funder -> j <> k -> j <> rrk -> accs s1 j = accs s j) -> logs s1 = logs s -> now s1 = now s ->
  s' = written c_rl_proposal s1 p q ->
  installed e s s' funder k st rrk n relays t [p] /\ dlam s s' (fun j => at_key rrk (round_price e) j - at_key funder (round_price e) j).
Proof.
  intros B VA HL OP NE A1 A2 A3 A4 A5 A6 A7 E.
  assert (R : own (accs s k) = rl_id) by apply B.
  assert (D1 : k <> rrk) by (intros X; rewrite X in *; destruct VA as (_ & VA & _); rewrite VA in R; discriminate).
  assert (D2 : k <> funder) by (intros X; rewrite X in *; destruct HL as (_ & HL & _); rewrite HL in R; discriminate).
  assert (D3 : rrk <> funder) by (intros X; rewrite X in *; destruct VA as (VA & _), HL as (HL & _); unfold round_price in HL; lia).
  assert (D4 : rrk <> p) by (intros X; rewrite <- X in *; destruct VA as (_ & VA & _); rewrite VA in OP; discriminate).
  assert (D5 : funder <> p) by (intros X; rewrite <- X in *; destruct HL as (_ & HL & _); rewrite HL in OP; discriminate).
  assert (LL : dlam s s' (fun j => at_key rrk (round_price e) j - at_key funder (round_price e) j)) by (intros j; rewrite E, written_lam; apply A3).
  split; [|exact LL]. split; [exact VA|]. split; [|split].
  - exists b. unfold round_account. rewrite E, written_accs by exact D4. exact A1.
  - eapply settings_after; [exact B|]. unfold rl_sets. rewrite E, written_accs by congruence. exact A2.
  - split; [rewrite LL, at_same, at_other by exact D3; destruct VA as (-> & _); lia|].
    split; [rewrite LL, !at_other by assumption; lia|]. split; [rewrite E, written_accs by exact D5; exact A4|].
    split; [|rewrite E; split; assumption]. intros j J1 J2 J3 J4. rewrite E, written_accs by (intros X; apply J4; left; congruence). apply A5; assumption.
Qed.
Lemma prop_not_settings e s k st p q : loader_settings e s k st -> unpack c_rl_proposal RL_PROPOSAL_LEN (@p_init _ _) (dat (accs s p)) = Ok q -> p <> k.
Proof.
  intros (_ & U & _) U' E. rewrite E in U'. apply unpack_ok in U as (_ & _ & _ & L & _); [|typeclasses eauto]. apply unpack_ok in U' as (_ & _ & _ & L' & _); [|typeclasses eauto].
  rewrite L in L'. discriminate.
Qed.

(** Anybody can install the round of an open proposal that has the required confirmations, if no account is
    at the round's address.  The proposal is executed then. *)
Theorem C73_execute_partial : forall e s k st funder p q rrk b, loader_settings e s k st -> proposal_account e s p q ->
  wl_data (p_meta q) = PNew -> p_required q <= PropRoundLoader.confirmations q -> blen (re_relays (wl_data (p_event q))) <= 100 ->
  find_pda e (str "relay_round" ++ le 4 (re_round (wl_data (p_event q)))) rl_id = Ok (rrk, b) -> vacant s rrk -> has_lamports s funder (round_price e) ->
  exists s', rl_call e (execute_accounts funder k p rrk) RlExecute s s' /\
    installed e s s' funder k st rrk (re_round (wl_data (p_event q))) (re_relays (wl_data (p_event q))) (re_end (wl_data (p_event q))) [p] /\
    lam (accs s' p) = lam (accs s p) /\ proposal_account e s' p (p_with_meta q (WithLen (wl_len (p_meta q)) PExecuted)).
Proof.
  intros e s k st funder p q rrk b B (OP & UP & AP) ME CF NR F VA HL. destruct (loader_in _ _ _ _ B) as (pd & pn & R & V & _).
  pose proof UP as U0. apply unpack_ok in U0 as (r & D & OK & LEN & I0); [|typeclasses eauto].
  pose proof (okb_event_parts _ OK) as (RN & _ & RE). pose proof (prop_not_settings _ _ _ _ _ _ B UP) as NE.
  set (c := execute_accounts funder k p rrk). set (ev := wl_data (p_event q)) in *.
  destruct (new_round_go e c funder k rrk st pn b (re_round ev) (re_relays ev) (re_end ev) s) as (s1 & X & A1 & A2 & A3 & A4 & A5 & A6 & A7); try assumption; try reflexivity;
    try (unfold c, execute_accounts; metas).
  { left; reflexivity. } { do 3 right; left; reflexivity. } { do 4 right; left; reflexivity. }
  assert (D4 : p <> rrk) by (intros Y; rewrite Y in *; destruct VA as (_ & VA & _); rewrite VA in OP; discriminate).
  assert (D5 : p <> funder) by (intros Y; rewrite Y in *; destruct HL as (_ & HL & _); rewrite HL in OP; discriminate).
  assert (E1 : accs s1 p = accs s p) by (apply A5; assumption).
  set (s' := written c_rl_proposal s1 p (executed q)).
  assert (SZ : blen (enc c_rl_proposal (executed q)) <= RL_PROPOSAL_LEN).
  { rewrite executed_size, <- LEN, D, blen_app. pose proof (blen_nonneg r). lia. }
  destruct (installed_with e s s1 s' funder k st rrk (re_round ev) (re_relays ev) (re_end ev) b p (executed q)) as [IN LL]; try assumption; [reflexivity|].
  exists s'. split; [|split; [exact IN|split]].
  - apply rl_call_go; [reflexivity|reflexivity|]. apply (run_pay c _ s s' rrk funder (round_price e)); [|exact LL|do 3 right; left; reflexivity|left; reflexivity].
    cbn [rl_exec]. unfold rl_execute. change (c_keys c) with [funder; k; p; rrk; sys_id; rent_id]. cbv beta iota.
    eapply bind_go; [apply guard_go, keqb_refl|]. eapply bind_go; [apply rl_settings_go; [reflexivity|exact V]|]. cbv beta iota.
    eapply bind_go; [unfold rl_proposal_at; apply unpack_at_go; exact UP|]. cbv beta. eapply bind_go; [apply rl_prop_go; [reflexivity|exact AP]|].
    assert (CO : pstatus_eqb (wl_data (p_meta q)) PNew && (p_required q <=? wrap32 (confirms (p_signers q))) = true).
    { rewrite ME, wrap_confirms by exact OK. apply Z.leb_le in CF. rewrite CF. reflexivity. }
    rewrite CO. eapply bind_go; [exact X|].
    apply pack_at_go; [rewrite E1; exact OP|unfold c, execute_accounts; metas|rewrite E1; exact LEN|exact SZ].
  - rewrite LL, !at_other by congruence. lia.
  - split; [unfold s'; rewrite written_own', E1; exact OP|]. split; [|exact AP].
    unfold s'. apply written_reads; [typeclasses eauto|rewrite E1; exact LEN|exact SZ|apply okb_executed; exact OK|exact I0].
Qed.

(** The submitter can execute every finalized proposal, with or without votes. *)
Theorem C73_admin_partial : forall e s k st funder p q rrk b, loader_settings e s k st -> proposal_account e s p q ->
  blen (re_relays (wl_data (p_event q))) <= 100 ->
  find_pda e (str "relay_round" ++ le 4 (re_round (wl_data (p_event q)))) rl_id = Ok (rrk, b) -> vacant s rrk -> has_lamports s funder (round_price e) ->
  exists s', rl_call e (admin_accounts funder (rs_submitter st) k p rrk) RlExecuteByAdmin s s' /\
    installed e s s' funder k st rrk (re_round (wl_data (p_event q))) (re_relays (wl_data (p_event q))) (re_end (wl_data (p_event q))) [p] /\
    lam (accs s' p) = lam (accs s p) /\ proposal_account e s' p (p_with_meta q (WithLen (wl_len (p_meta q)) PExecuted)).
Proof.
  intros e s k st funder p q rrk b B (OP & UP & AP) NR F VA HL. destruct (loader_in _ _ _ _ B) as (pd & pn & R & V & _).
  pose proof UP as U0. apply unpack_ok in U0 as (r & D & OK & LEN & I0); [|typeclasses eauto].
  pose proof (okb_event_parts _ OK) as (RN & _ & RE). pose proof (prop_not_settings _ _ _ _ _ _ B UP) as NE.
  set (c := admin_accounts funder (rs_submitter st) k p rrk). set (ev := wl_data (p_event q)) in *.
  destruct (new_round_go e c funder k rrk st pn b (re_round ev) (re_relays ev) (re_end ev) s) as (s1 & X & A1 & A2 & A3 & A4 & A5 & A6 & A7); try assumption; try reflexivity;
    try (unfold c, admin_accounts; metas).
  { left; reflexivity. } { do 4 right; left; reflexivity. } { do 5 right; left; reflexivity. }
  assert (D4 : p <> rrk) by (intros Y; rewrite Y in *; destruct VA as (_ & VA & _); rewrite VA in OP; discriminate).
  assert (D5 : p <> funder) by (intros Y; rewrite Y in *; destruct HL as (_ & HL & _); rewrite HL in OP; discriminate).
  assert (E1 : accs s1 p = accs s p) by (apply A5; assumption).
  set (s' := written c_rl_proposal s1 p (executed q)).
  assert (SZ : blen (enc c_rl_proposal (executed q)) <= RL_PROPOSAL_LEN).
  { rewrite executed_size, <- LEN, D, blen_app. pose proof (blen_nonneg r). lia. }
  destruct (installed_with e s s1 s' funder k st rrk (re_round ev) (re_relays ev) (re_end ev) b p (executed q)) as [IN LL]; try assumption; [reflexivity|].
  exists s'. split; [|split; [exact IN|split]].
  - apply rl_call_go; [reflexivity|reflexivity|]. apply (run_pay c _ s s' rrk funder (round_price e)); [|exact LL|do 4 right; left; reflexivity|left; reflexivity].
    cbn [rl_exec]. unfold rl_execute_by_admin. change (c_keys c) with [funder; rs_submitter st; k; p; rrk; sys_id; rent_id]. cbv beta iota.
    eapply bind_go; [apply guard_go, keqb_refl|]. eapply bind_go; [apply guard_go; unfold c, admin_accounts; metas|].
    eapply bind_go; [apply rl_settings_go; [reflexivity|exact V]|]. cbv beta iota. eapply bind_go; [apply guard_go, keqb_refl|].
    eapply bind_go; [unfold rl_proposal_at; apply unpack_at_go; exact UP|]. cbv beta. eapply bind_go; [exact X|].
    apply pack_at_go; [rewrite E1; exact OP|unfold c, admin_accounts; metas|rewrite E1; exact LEN|exact SZ].
  - rewrite LL, !at_other by congruence. lia.
  - split; [unfold s'; rewrite written_own', E1; exact OP|]. split; [|exact AP].
    unfold s'. apply written_reads; [typeclasses eauto|rewrite E1; exact LEN|exact SZ|apply okb_executed; exact OK|exact I0].
Qed.

(** Anybody can finalize a draft for a round that stands, paying the reparation of the round's relays. *)
Theorem C73_finalize : forall e s k st funder p q rrk rr, loader_settings e s k st -> draft_account e s p q -> round_account e s rrk rr ->
  rr_number rr = p_round q -> blen (re_relays (wl_data (p_event q))) <= 100 ->
  has_lamports s funder (20000 * blen (rr_relays rr)) -> 0 <= lam (accs s p) -> lam (accs s p) + 20000 * blen (rr_relays rr) < 2 ^ 64 ->
  exists s', rl_call e (final_accounts funder p k rrk) RlFinalize s s' /\
    proposal_account e s' p (Prop_ true (p_kind q) (p_author q) (p_round q) (Z.max (blen (rr_relays rr) * 2 / 3 + 1) (rs_min_votes st)) (p_pda q) (p_event q)
      (WithLen 1 PNew) (repeat VNone (List.length (rr_relays rr)))) /\
    lam (accs s' p) = lam (accs s p) + 20000 * blen (rr_relays rr) /\
    accs s' funder = Acct (lam (accs s funder) - 20000 * blen (rr_relays rr)) sys_id [] /\
    (forall j, j <> funder -> j <> p -> accs s' j = accs s j) /\ logs s' = logs s /\ now s' = now s.
Proof.
  intros e s k st funder p q rrk rr B (OP & UP & IP & AP) R NU NR HL LP LU. destruct (loader_in _ _ _ _ B) as (pd & pn & RS & V & _).
  pose proof UP as U0. apply unpack_unchecked_ok in U0 as (r & D & OK & LEN); [|typeclasses eauto].
  assert (RI : round_in e rl_id s rrk rr) by (destruct R as (_ & U & n & K & F); split; [exact U|exists n; auto]).
  pose proof (round_in_le100 _ _ _ _ _ RI) as R100. pose proof (blen_nonneg (rr_relays rr)) as R0.
  assert (OKR : okb c_relay_round rr = true) by (destruct R as (_ & U & _); apply unpack_ok in U as (? & _ & U & _); [exact U|typeclasses eauto]).
  assert (OKT : okb c_rl_settings st = true) by (destruct RS as (_ & U); apply unpack_ok in U as (? & _ & U & _); [exact U|typeclasses eauto]).
  assert (D5 : funder <> p) by (intros Y; rewrite Y in *; destruct HL as (_ & HL & _); rewrite HL in OP; discriminate).
  set (c := final_accounts funder p k rrk).
  assert (T2 : two_thirds (blen (rr_relays rr)) = blen (rr_relays rr) * 2 / 3 + 1).
  { unfold two_thirds. apply wrap32_small. unfold u32max. lia. }
  match goal with |- context [proposal_account e _ p ?x] => set (q' := x) end.
  set (s1 := written c_rl_proposal s p q').
  assert (KL : kind_len (p_kind q) <= 4) by (destruct AP as (n & x & K & _); rewrite K; unfold kind_len; destruct x; lia).
  assert (SZ : blen (enc c_rl_proposal q') <= RL_PROPOSAL_LEN).
  { rewrite size_rl_prop. unfold q'. cbn [p_kind p_event p_signers]. unfold blen at 2. rewrite repeat_length. fold (blen (rr_relays rr)). unfold RL_PROPOSAL_LEN. lia. }
  assert (OQ : okb c_rl_proposal q' = true) by (unfold q'; rewrite <- NU, <- T2; apply okb_final; assumption).
  destruct (pay_go c funder p (20000 * blen (rr_relays rr)) s1) as (s' & X & A1 & A2 & A3 & A4 & A5); try (unfold c, final_accounts; metas).
  { left; reflexivity. } { right; left; reflexivity. } { do 4 right; left; reflexivity. }
  { unfold has_lamports, s1. rewrite written_accs by exact D5. exact HL. }
  { exact D5. } { lia. } { unfold s1. rewrite written_lam. exact LP. } { unfold s1. rewrite written_lam. exact LU. }
  assert (LF : lam (accs s1 funder) = lam (accs s funder)) by (unfold s1; apply written_lam).
  assert (LQ : lam (accs s1 p) = lam (accs s p)) by (unfold s1; apply written_lam).
  exists s'. split; [|split; [|split; [|split; [|split; [|split]]]]].
  - apply rl_call_go; [reflexivity|reflexivity|]. apply (run_pay c _ s s' p funder (20000 * blen (rr_relays rr))); [| |right; left; reflexivity|left; reflexivity].
    + cbn [rl_exec]. unfold rl_finalize. change (c_keys c) with [funder; p; k; rrk; sys_id]. cbv beta iota.
      eapply bind_go; [apply rl_settings_go; [reflexivity|exact V]|]. cbv beta iota. eapply bind_go; [reflexivity|]. cbv beta.
      eapply bind_go; [apply lift_go; exact UP|]. cbv beta. eapply bind_go; [apply rl_prop_go; [reflexivity|exact AP]|]. cbv beta.
      eapply bind_go; [apply guard_go; rewrite IP; reflexivity|]. eapply bind_go; [apply rl_round_go; [reflexivity|exact R]|]. cbv beta.
      apply (bind_go _ _ s tt s1).
      * rewrite NU, T2. apply pack_at_go; [exact OP|unfold c, final_accounts; metas|exact LEN|exact SZ].
      * replace (wrap64 (RELAY_REPARATION * blen (rr_relays rr))) with (20000 * blen (rr_relays rr)); [exact X|].
        unfold RELAY_REPARATION, wrap64, u64max. symmetry. apply Z.mod_small. lia.
    + intros j. destruct (key_dec j p) as [J|J].
      * rewrite J, A1, at_same, at_other by congruence. cbn [lam]. lia.
      * rewrite (at_other p) by exact J. destruct (key_dec j funder) as [J'|J'].
        -- rewrite J', A2, at_same. cbn [lam]. lia.
        -- rewrite A3, at_other by assumption. unfold s1. rewrite written_lam. lia.
  - split; [|split; [|exact AP]].
    + rewrite A1. cbn [own]. unfold s1. rewrite written_own'. exact OP.
    + rewrite A1. cbn [dat]. unfold s1. apply written_reads; [typeclasses eauto|exact LEN|exact SZ|exact OQ|reflexivity].
  - rewrite A1. cbn [lam]. lia.
  - rewrite A2, LF. reflexivity.
  - intros j J1 J2. rewrite A3 by assumption. unfold s1. apply written_accs. exact J2.
  - exact A4.
  - exact A5.
Qed.

(** A relay votes, if the proposal has the lamports for it. *)
Lemma vote_cast e s k q rrk rr relay j v : proposal_account e s k q -> round_account e s rrk rr ->
  seat (rr_relays rr) relay j -> nth_error (p_signers q) j = Some VNone -> v <> VNone -> relay <> k ->
  RELAY_REPARATION <= lam (accs s k) -> 0 <= lam (accs s relay) -> lam (accs s relay) + 20000 < 2 ^ 64 ->
  exists s' q', rl_call e (ballot relay k rrk) (RlVote v) s s' /\ proposal_account e s' k q' /\ q' = p_with_signers q (p_signers q') /\
    nth_error (p_signers q') j = Some v /\ List.length (p_signers q') = List.length (p_signers q) /\
    (forall i, i <> j -> nth_error (p_signers q') i = nth_error (p_signers q) i) /\
    (forall x, lam (accs s' x) = lam (accs s x) + (if keqb x relay then 20000 else 0) - (if keqb x k then 20000 else 0)) /\
    (forall x, x <> k -> own (accs s' x) = own (accs s x) /\ dat (accs s' x) = dat (accs s x)) /\ logs s' = logs s /\ now s' = now s.
Proof.
  intros (O & U & A) R ST NS V NE RP R0 LT.
  pose proof U as U0. apply unpack_ok in U0 as (r & D & OK & LEN & I0); [|typeclasses eauto].
  set (q' := p_with_signers q (set_nth j v (p_signers q))).
  set (c := ballot relay k rrk). set (d' := enc c_rl_proposal q' ++ skipn (List.length (enc c_rl_proposal q')) (dat (accs s k))).
  assert (SZ : blen (enc c_rl_proposal q') = blen (enc c_rl_proposal q)).
  { rewrite !size_rl_prop. unfold q'. cbn [p_with_signers p_kind p_event p_signers]. unfold blen at 2 4. rewrite set_nth_length. reflexivity. }
  assert (SL : blen (enc c_rl_proposal q') <= blen (dat (accs s k))) by (rewrite SZ, D, blen_app; pose proof (blen_nonneg r); lia).
  set (s1 := written c_rl_proposal s k q'). set (s2 := put_lam s1 k (lam (accs s1 k) - RELAY_REPARATION)).
  set (s3 := put_lam s2 relay (lam (accs s2 relay) + RELAY_REPARATION)).
  assert (L1 : lam (accs s1 k) = lam (accs s k)) by apply lam_put_dat.
  assert (L2 : lam (accs s2 relay) = lam (accs s relay)).
  { unfold s2. rewrite lam_put_lam_other by exact NE. apply lam_put_dat. }
  assert (SG : c_sg c relay = true) by (unfold c, ballot; metas).
  assert (WR : c_wr c relay = true) by (unfold c, ballot; metas).
  assert (WK : c_wr c k = true) by (unfold c, ballot; metas).
  assert (O1 : own (accs s1 k) = rl_id) by (unfold s1; rewrite written_own'; exact O).
  assert (PKD : pack_into_slice c_rl_proposal q' (dat (accs s k)) = Ok d').
  { with_strategy transparent [pack_into_slice] unfold pack_into_slice. apply Z.leb_le in SL. rewrite SL. reflexivity. }
  assert (EX : rl_exec e c (RlVote v) s = Ok (tt, s3)).
  { cbn [rl_exec]. unfold rl_vote. change (c_keys c) with [relay; k; rrk]. cbv beta iota.
    eapply bind_go; [apply guard_go; exact SG|]. eapply bind_go; [apply guard_go; destruct v; [contradiction|reflexivity|reflexivity]|].
    eapply bind_go; [unfold rl_proposal_at; apply unpack_at_go; exact U|]. cbv beta.
    eapply bind_go; [apply rl_prop_go; [reflexivity|exact A]|]. eapply bind_go; [apply rl_round_go; [reflexivity|exact R]|]. cbv beta.
    eapply bind_go; [apply lift_go; rewrite (seat_position _ _ _ ST); reflexivity|]. cbv beta.
    eapply bind_go; [apply lift_go; rewrite NS; reflexivity|]. cbv beta. change (vote_eqb VNone VNone) with true. cbv iota.
    eapply bind_go; [reflexivity|]. cbv beta. eapply bind_go; [apply lift_go; exact PKD|]. cbv beta. apply (bind_go _ _ s tt s1).
    { unfold set_data. change (c_pid c) with rl_id. rewrite O, keqb_refl, WK. cbn [andb]. rewrite orb_true_r. reflexivity. }
    unfold move_lam. apply (bind_go _ _ s1 (accs s1 k) s1); [reflexivity|].
    apply (bind_go _ _ s1 tt s1); [apply guard_go; rewrite L1; apply Z.leb_le; exact RP|].
    apply (bind_go _ _ s1 tt s2); [apply set_lam_go; [lia|exact WK|right; exact O1]|].
    apply (bind_go _ _ s2 (accs s2 relay) s2); [reflexivity|].
    apply (bind_go _ _ s2 tt s2); [apply guard_go; rewrite L2; apply Z.ltb_lt; exact LT|].
    apply set_lam_go; [rewrite L2; unfold RELAY_REPARATION; lia|exact WR|left; unfold RELAY_REPARATION; lia]. }
  assert (LL : forall x, lam (accs s3 x) = lam (accs s x) + at_key relay RELAY_REPARATION x - at_key k RELAY_REPARATION x).
  { intros x. unfold s3. destruct (key_dec x relay) as [J1|J1].
    + rewrite J1, lam_put_lam, L2, at_same, at_other by exact NE. lia.
    + rewrite lam_put_lam_other by exact J1. rewrite (at_other relay) by exact J1. unfold s2. destruct (key_dec x k) as [J2|J2].
      * rewrite J2, lam_put_lam, L1, at_same. lia.
      * rewrite lam_put_lam_other by exact J2. unfold s1. rewrite written_lam, at_other by exact J2. lia. }
  assert (OD : forall x, own (accs s3 x) = own (accs s x) /\ (x <> k -> dat (accs s3 x) = dat (accs s x))).
  { intros x. unfold s3, s2, s1. rewrite !own_put_lam, written_own', !dat_put_lam. split; [reflexivity|].
    intros J. rewrite written_accs by exact J. reflexivity. }
  exists s3, q'. split; [|split; [|split; [|split; [|split; [|split; [|split; [|split; [|split; reflexivity]]]]]]]].
  - apply rl_call_go; [reflexivity|destruct v; reflexivity|]. apply (run_pay c _ s s3 relay k RELAY_REPARATION); [exact EX| |left; reflexivity|right; left; reflexivity].
    intros x. rewrite LL. lia.
  - split; [destruct (OD k) as [-> _]; exact O|]. split; [|exact A]. unfold s3, s2. rewrite !dat_put_lam. unfold s1.
    apply written_reads; [typeclasses eauto|exact LEN|rewrite <- LEN; exact SL| |exact I0]. unfold q', c_rl_proposal. apply okb_with_signers. exact OK.
  - destruct q; reflexivity.
  - unfold q'. cbn [p_with_signers p_signers]. apply set_nth_same, nth_error_Some. rewrite NS. discriminate.
  - apply set_nth_length.
  - intros i NI. unfold q'. cbn [p_with_signers p_signers]. apply set_nth_other. congruence.
  - intros x. rewrite LL. reflexivity.
  - intros x J. destruct (OD x) as [X1 X2]. split; [exact X1|apply X2; exact J].
Qed.

(** In every reachable state every relay of a proposal's round whose position is open can vote on it: the
    vote is recorded, the relay gets 20000 lamports, and nothing else changes. *)
Theorem C73_vote : forall e s0 s p q rrk rr relay j v, genesis e rl_id s0 -> rl_hist e s0 s -> proposal_account e s p q -> round_account e s rrk rr ->
  rr_number rr = p_round q -> seat (rr_relays rr) relay j -> nth_error (p_signers q) j = Some VNone -> v <> VNone -> relay <> p ->
  lam (accs s relay) + 20000 < 2 ^ 64 ->
  exists s' q', rl_call e (ballot relay p rrk) (RlVote v) s s' /\ proposal_account e s' p q' /\ q' = p_with_signers q (p_signers q') /\
    nth_error (p_signers q') j = Some v /\ List.length (p_signers q') = List.length (p_signers q) /\
    (forall i, i <> j -> nth_error (p_signers q') i = nth_error (p_signers q) i) /\
    (forall x, lam (accs s' x) = lam (accs s x) + (if keqb x relay then 20000 else 0) - (if keqb x p then 20000 else 0)) /\
    (forall x, x <> p -> own (accs s' x) = own (accs s x) /\ dat (accs s' x) = dat (accs s x)) /\ logs s' = logs s /\ now s' = now s.
Proof.
  intros e s0 s k q rrk rr relay j v G H PA R _ ST NS V NE LT.
  pose proof (rl_inv_hist _ _ _ H (rl_genesis_inv _ _ G)) as I.
  pose proof PA as (O & U & A). pose proof U as U0. apply unpack_ok in U0 as (r & D & OK & LEN & I0); [|typeclasses eauto].
  assert (RP : RELAY_REPARATION <= lam (accs s k)).
  { destruct (I k) as (_ & _ & C). destruct (C O LEN) as [X|(p' & [_ U'] & _ & B)].
    - rewrite D, hd_init, I0 in X. discriminate.
    - rewrite U in U'. injection U' as <-. pose proof (empties_set j v (p_signers q) NS V) as E.
      assert (0 <= empties (set_nth j v (p_signers q))) by (unfold empties; apply blen_nonneg). unfold RELAY_REPARATION in *. lia. }
  eapply vote_cast; try eassumption. apply (proj1 (I relay)).
Qed.

(** ** Filing a proposal *)

(** The accounts of the filing and of an upload (round-loader/src/bindings.rs:143-195). *)
Definition file_accounts (funder creator p : key) : ctx :=
  ctx_of rl_id [Meta funder true true; Meta creator true true; Meta p false true; Meta sys_id false false; Meta rent_id false false].
Definition upload_accounts (p : key) : ctx := ctx_of rl_id [Meta p false true].
(** The pieces [bs] are uploaded one after the other from offset [o] on. *)
Inductive uploads (e : env) (p : key) : Z -> list bytes -> state -> state -> Prop :=
| up_none o s : uploads e p o [] s s
| up_piece o b bs s s1 s2 : rl_call e (upload_accounts p) (RlWriteProposal o b) s s1 -> uploads e p (o + blen b) bs s1 s2 -> uploads e p o (b :: bs) s s2.

Lemma skipn_twice {A} n m (l : list A) : skipn n (skipn m l) = skipn (n + m) l.
Proof. revert l. induction m as [|m IH]; intros l; [rewrite Nat.add_0_r; reflexivity|]. destruct l as [|x l]; [rewrite !skipn_nil; reflexivity|]. rewrite Nat.add_succ_r. cbn [skipn]. apply IH. Qed.
Lemma not_final d : hd x00 d = x00 -> match unpack_unchecked c_rl_proposal RL_PROPOSAL_LEN d with Ok p => negb (p_init p) | Err _ => true end = true.
Proof.
  intros H. destruct (unpack_unchecked c_rl_proposal RL_PROPOSAL_LEN d) as [p|] eqn:E; [|reflexivity].
  apply unpack_unchecked_ok in E as (r & -> & _); [|typeclasses eauto]. rewrite hd_init in H. destruct (p_init p); [discriminate|reflexivity].
Qed.
Lemma okb_ix_piece o b : 0 <= o -> o + blen b <= 3216 -> okb c_rl_ix (RlWriteProposal o b) = true.
Proof.
  intros O B. change (okb c_rl_5 (o, b) = true). unfold c_rl_5. cbn [c_pair okb fst snd]. rewrite andb_true_iff. pose proof (blen_nonneg b). split.
  - apply okb_u32. unfold u32max. lia.
  - cbn [okb c_bytes]. unfold u32max. lia.
Qed.
Lemma uploads_go e p pre R : hd x00 pre = x00 -> blen pre = 88 -> blen R = RL_PROPOSAL_LEN - 88 -> forall bs s done, own (accs s p) = rl_id ->
  dat (accs s p) = pre ++ done ++ skipn (List.length done) R -> blen done + blen (concat bs) <= 3216 ->
  exists s', uploads e p (blen done) bs s s' /\ own (accs s' p) = rl_id /\
    dat (accs s' p) = pre ++ (done ++ concat bs) ++ skipn (List.length (done ++ concat bs)) R /\
    (forall j, lam (accs s' j) = lam (accs s j)) /\ (forall j, j <> p -> accs s' j = accs s j) /\ logs s' = logs s /\ now s' = now s.
Proof.
  intros HP LP LR bs. induction bs as [|b bs IH]; intros s done O D L.
  - exists s. cbn [concat]. rewrite app_nil_r. split; [constructor|]. repeat split; auto.
  - cbn [concat] in *. rewrite blen_app in L. pose proof (blen_nonneg b). pose proof (blen_nonneg (concat bs)). pose proof (blen_nonneg done) as L0.
    set (d' := pre ++ (done ++ b) ++ skipn (List.length (done ++ b)) R). set (s1 := put_dat s p d').
    assert (DL : blen (dat (accs s p)) = RL_PROPOSAL_LEN).
    { rewrite D, !blen_app. unfold blen in *. rewrite skipn_length. unfold RL_PROPOSAL_LEN in *. lia. }
    assert (W : write_proposal_data (dat (accs s p)) (blen done) b = Ok d').
    { unfold write_proposal_data. rewrite DL. unfold LOAD_DATA_BEGIN, LOAD_DATA_END, RL_PROPOSAL_LEN.
      replace (88 + 4 + 4 + (4 + 32 * 100) + 4 <? 88 + blen done + blen b) with false by lia.
      replace (3415 <? 88 + blen done + blen b) with false by lia. f_equal. rewrite D.
      assert (Z1 : Z.to_nat (88 + blen done) = (List.length pre + (List.length done + 0))%nat) by (unfold blen in *; lia).
      assert (Z2 : Z.to_nat (88 + blen done + blen b) = (List.length pre + (List.length done + List.length b))%nat) by (unfold blen in *; lia).
      rewrite Z1, Z2, !firstn_app_2, !skipn_app. rewrite firstn_O, app_nil_r.
      rewrite skipn_all2 by lia. cbn [app]. replace (List.length pre + (List.length done + List.length b) - List.length pre)%nat with (List.length done + List.length b)%nat by lia.
      rewrite (skipn_all2 done) by lia. cbn [app]. replace (List.length done + List.length b - List.length done)%nat with (List.length b) by lia.
      rewrite skipn_twice. unfold d'. rewrite <- !app_assoc, app_length. do 4 f_equal. lia. }
    assert (C : rl_call e (upload_accounts p) (RlWriteProposal (blen done) b) s s1).
    { apply rl_call_go; [reflexivity|apply okb_ix_piece; lia|]. apply run_go; [|intros j; unfold s1; apply lam_put_dat].
      cbn [rl_exec]. unfold rl_write_proposal. change (c_keys (upload_accounts p)) with [p]. cbv beta iota. eapply bind_go; [reflexivity|]. cbv beta.
      eapply bind_go; [apply guard_go, not_final; rewrite D; destruct pre as [|x pre]; [discriminate LP|exact HP]|].
      eapply bind_go; [apply lift_go; exact W|]. cbv beta. unfold set_data. rewrite O. change (c_pid (upload_accounts p)) with rl_id.
      unfold upload_accounts. cbn [ctx_of c_wr existsb m_key m_wr]. rewrite !keqb_refl. cbn [andb orb]. rewrite orb_true_r. reflexivity. }
    destruct (IH s1 (done ++ b)) as (s2 & U & O2 & D2 & L2 & A2 & T2 & N2).
    { unfold s1. rewrite own_put_dat. exact O. } { unfold s1. apply dat_put_dat. } { rewrite blen_app. lia. }
    exists s2. split; [econstructor; [exact C|]; rewrite <- blen_app; exact U|]. split; [exact O2|]. split; [rewrite D2, <- !app_assoc; reflexivity|].
    split; [intros j; rewrite L2; unfold s1; apply lam_put_dat|]. split; [|split; [exact T2|exact N2]].
    intros j J. rewrite A2 by exact J. unfold s1. apply accs_put_dat_other. exact J.
Qed.

(** What the filing of a proposal costs. *)
Definition proposal_price (e : env) : Z := Z.max 1 (e_rent e 3415 mod 2 ^ 64).

Lemma enc_draft q n : p_kind q = KProposal n None -> exists pre, enc c_rl_proposal q = pre ++ enc (c_withlen c_rl_event) (p_event q) ++ enc (c_withlen c_pstatus) (p_meta q) ++ enc (c_vec c_vote) (p_signers q) /\
  blen pre = 88 /\ hd x00 pre = (if p_init q then x01 else x00) /\
  forall ev m l, enc c_rl_proposal (Prop_ (p_init q) (p_kind q) (p_author q) (p_round q) (p_required q) (p_pda q) ev m l) =
    pre ++ enc (c_withlen c_rl_event) ev ++ enc (c_withlen c_pstatus) m ++ enc (c_vec c_vote) l.
Proof.
  intros K. exists (enc c_bool (p_init q) ++ enc c_kind (p_kind q) ++ enc c_key (p_author q) ++ enc c_u32 (p_round q) ++ enc c_u32 (p_required q) ++ enc c_pda (p_pda q)).
  split; [|split; [|split]].
  - unfold c_rl_proposal, c_prop. cbn [enc c_iso c_pair fst snd p_init p_kind p_author p_round p_required p_pda p_event p_meta p_signers]. rewrite <- !app_assoc. reflexivity.
  - rewrite !blen_app, blen_bool, blen_kind, blen_key, !blen_u32, blen_pda, K. reflexivity.
  - destruct (p_init q); reflexivity.
  - intros ev m l. unfold c_rl_proposal, c_prop. cbn [enc c_iso c_pair fst snd p_init p_kind p_author p_round p_required p_pda p_event p_meta p_signers]. rewrite <- !app_assoc. reflexivity.
Qed.

(** Anybody can file a proposal whose address is vacant and upload its event in any pieces. *)
Theorem C73_file_partial : forall e s funder creator p b round ts lt conf ev pieces,
  find_pda e (str "proposal" ++ le 4 round ++ le 4 ts ++ le 8 lt ++ kb conf ++ kb (e_hash e (enc c_rl_event ev))) rl_id = Ok (p, b) ->
  vacant s p -> has_lamports s funder (proposal_price e) -> 0 <= round < 2 ^ 32 -> 0 <= ts < 2 ^ 32 -> 0 <= lt < 2 ^ 64 ->
  okb c_rl_event ev = true -> 1 <= blen (re_relays ev) <= 100 ->
  concat pieces = le 4 (12 + 32 * blen (re_relays ev)) ++ enc c_rl_event ev ->
  exists s1 s2, rl_call e (file_accounts funder creator p) (RlCreateProposal round ts lt conf (e_hash e (enc c_rl_event ev))) s s1 /\
    uploads e p 0 pieces s1 s2 /\
    draft_account e s2 p (Prop_ false (KProposal b None) creator round 0 (Pda ts lt conf) (WithLen (12 + 32 * blen (re_relays ev)) ev) (WithLen 0 PNew) []) /\
    lam (accs s2 p) = proposal_price e /\ accs s2 funder = Acct (lam (accs s funder) - proposal_price e) sys_id [] /\
    (forall j, j <> funder -> j <> p -> accs s2 j = accs s j) /\ logs s2 = logs s /\ now s2 = now s.
Proof.
  intros e s funder creator p b round ts lt conf ev pieces F VA HL RN TN LN OE NR PI.
  pose proof (find_pda_some _ _ _ _ _ F) as [FB BB].
  assert (PR : 0 < proposal_price e < u64max) by (unfold proposal_price, u64max; lia).
  assert (D3 : funder <> p) by (intros E; rewrite E in *; destruct VA as (VA & _), HL as (HL & _); lia).
  set (h := e_hash e (enc c_rl_event ev)) in *. set (c := file_accounts funder creator p).
  destruct (create_go e c funder p (proposal_price e) RL_PROPOSAL_LEN rl_id (with_bump (sd_proposal round ts lt conf h) b) s) as (s0 & C & A1 & A2 & A3 & L1 & T1); try assumption;
    try (unfold c, file_accounts; metas).
  { left; reflexivity. } { do 2 right; left; reflexivity. } { do 3 right; left; reflexivity. }
  { unfold RL_PROPOSAL_LEN, MAX_DATA. lia. } { discriminate. }
  set (q := Prop_ false (KProposal b None) creator round 0 (Pda ts lt conf) (WithLen 0 (RlEvent 0 [] 0)) (WithLen 1 PNew) [] : rl_proposal).
  set (s1 := written c_rl_proposal s0 p q).
  destruct (enc_draft q b eq_refl) as (pre & EQ & LPRE & HPRE & EQ').
  set (R := enc (c_withlen c_rl_event) (p_event q) ++ enc (c_withlen c_pstatus) (p_meta q) ++ enc (c_vec c_vote) (p_signers q) ++ repeat x00 (Z.to_nat 3302)).
  set (P25 := enc (c_withlen c_rl_event) (p_event q) ++ enc (c_withlen c_pstatus) (p_meta q) ++ enc (c_vec c_vote) (p_signers q)) in *.
  assert (LP25 : List.length P25 = 25%nat) by reflexivity.
  assert (RP : R = P25 ++ repeat x00 (Z.to_nat 3302)) by (unfold R, P25; rewrite <- !app_assoc; reflexivity).
  clearbody P25. clearbody R.
  assert (LEN0 : blen (dat (accs s0 p)) = RL_PROPOSAL_LEN) by (rewrite A1; cbn [dat]; unfold blen; rewrite repeat_length; unfold RL_PROPOSAL_LEN; lia).
  assert (SQ : blen (enc c_rl_proposal q) = 113) by (rewrite size_rl_prop; reflexivity).
  assert (D1 : dat (accs s1 p) = pre ++ [] ++ skipn (List.length (@nil byte)) R).
  { unfold s1, written. rewrite dat_put_dat, A1. cbn [dat]. rewrite skipn_repeat. cbn [app List.length]. rewrite skipn_O.
    rewrite RP, EQ, <- !app_assoc. do 3 f_equal. rewrite <- EQ. unfold blen in SQ. unfold RL_PROPOSAL_LEN. lia. }
  assert (LR : blen R = RL_PROPOSAL_LEN - 88).
  { rewrite RP, blen_app. unfold blen. rewrite LP25, repeat_length. unfold RL_PROPOSAL_LEN. lia. }
  assert (LC : blen (concat pieces) = 16 + 32 * blen (re_relays ev)).
  { rewrite PI, blen_app, size_rl_event. unfold blen at 1. rewrite le_length. lia. }
  destruct (uploads_go e p pre R HPRE LPRE LR pieces s1 []) as (s2 & UP & O2 & D2 & L2 & A4 & T2 & N2).
  { unfold s1. rewrite written_own', A1. reflexivity. } { exact D1. } { rewrite LC. change (blen (@nil byte)) with 0. lia. }
  cbn [app] in D2.
  assert (CA : rl_call e c (RlCreateProposal round ts lt conf h) s s1).
  { apply rl_call_go; [reflexivity| |].
    - change (okb c_rl_4 (round, (ts, (lt, (conf, h)))) = true). unfold c_rl_4. cbn [c_pair okb fst snd]. rewrite !andb_true_iff.
      split; [apply okb_u32; unfold u32max; lia|]. split; [apply okb_u32; unfold u32max; lia|]. split; [apply okb_u64; exact LN|]. split; reflexivity.
    - apply (run_pay c _ s s1 p funder (proposal_price e)); [| |do 2 right; left; reflexivity|left; reflexivity].
      + cbn [rl_exec]. unfold rl_create_proposal. change (c_keys c) with [funder; creator; p; sys_id; rent_id]. cbv beta iota.
        eapply bind_go; [apply guard_go, keqb_refl|]. eapply bind_go; [apply guard_go; unfold c, file_accounts; metas|].
        eapply bind_go; [apply lift_go; exact F|]. cbv beta iota. eapply bind_go; [apply guard_go, keqb_refl|]. eapply bind_go; [reflexivity|]. cbv beta.
        destruct VA as (V1 & _). rewrite V1. change (0 =? 0) with true. cbv iota. eapply bind_go; [exact C|].
        apply pack_at_go; [rewrite A1; reflexivity|unfold c, file_accounts; metas|exact LEN0|fold q; rewrite SQ; unfold RL_PROPOSAL_LEN; lia].
      + intros j. unfold s1. rewrite written_lam. destruct (key_dec j p) as [J|J].
        * rewrite J, A1, at_same, at_other by congruence. cbn [lam]. destruct VA as (-> & _). lia.
        * rewrite (at_other p) by exact J. destruct (key_dec j funder) as [J'|J'].
          -- rewrite J', A2, at_same. cbn [lam]. lia.
          -- rewrite A3, at_other by assumption. lia. }
  exists s1, s2. split; [exact CA|]. split; [exact UP|]. split; [|split; [|split; [|split; [|split]]]].
  - split; [exact O2|]. split; [|split; [reflexivity|]].
    + assert (Z : skipn (List.length (concat pieces)) R = repeat x00 (Z.to_nat (3327 - blen (concat pieces)))).
      { rewrite RP, skipn_app, skipn_all2 by (rewrite LP25; unfold blen in *; lia). rewrite LP25, skipn_repeat. cbn [app]. f_equal. unfold blen in *. lia. }
      rewrite D2, Z, PI.
      assert (SP : repeat x00 (Z.to_nat (3327 - blen (concat pieces))) = enc (c_withlen c_pstatus) (WithLen 0 PNew) ++ enc (c_vec c_vote) [] ++ repeat x00 (Z.to_nat (3318 - blen (concat pieces)))).
      { replace (Z.to_nat (3327 - blen (concat pieces))) with (9 + Z.to_nat (3318 - blen (concat pieces)))%nat by lia. rewrite repeat_app, app_assoc.
        f_equal. }
      rewrite <- PI at 2. rewrite SP. 
      match goal with |- unpack_unchecked _ _ ?d = Ok ?x => replace d with (enc c_rl_proposal x ++ repeat x00 (Z.to_nat (3318 - blen (concat pieces)))) end.
      * apply unpack_unchecked_enc; [typeclasses eauto| |].
        -- unfold c_rl_proposal. rewrite (okb_prop (c_withlen c_rl_event) (c_withlen c_pstatus)).
           cbn [p_init p_kind p_author p_round p_required p_pda p_event p_meta p_signers]. rewrite !andb_true_iff.
           repeat match goal with |- _ /\ _ => split end; try reflexivity; try (apply okb_u32; unfold u32max; lia).
           ++ cbn [okb c_kind c_pair c_option c_u8 c_uint fst snd]. rewrite !andb_true_iff. lia.
           ++ unfold c_pda. cbn [okb c_iso c_pair fst snd pd_ts pd_lt pd_conf]. rewrite !andb_true_iff. split; [apply okb_u32; unfold u32max; lia|]. split; [apply okb_u64; exact LN|reflexivity].
           ++ rewrite okb_withlen. cbn [wl_len wl_data]. rewrite andb_true_iff. split; [apply okb_u32; unfold u32max; lia|exact OE].
        -- rewrite blen_app, size_rl_prop. cbn [p_kind p_event p_signers wl_data]. change (blen (@nil vote)) with 0. unfold blen at 2. rewrite repeat_length. cbn [kind_len]. unfold RL_PROPOSAL_LEN. lia.
      * pose proof (EQ' (WithLen (12 + 32 * blen (re_relays ev)) ev) (WithLen 0 PNew) []) as EE. unfold q in EE. cbn [p_init p_kind p_author p_round p_required p_pda] in EE. rewrite EE. clear EE. rewrite <- !app_assoc. reflexivity.
    + exists b, None. split; [reflexivity|exact F].
  - rewrite L2. unfold s1. rewrite written_lam, A1. reflexivity.
  - rewrite A4 by exact D3. unfold s1. rewrite written_accs by exact D3. exact A2.
  - intros j J1 J2. rewrite A4 by exact J2. unfold s1. rewrite written_accs by exact J2. apply A3; assumption.
  - rewrite T2. exact L1.
  - rewrite N2. exact T1.
Qed.

(** ** What stops a round *)

(** An address that holds lamports but is not the round loader's does not become so by any instruction. *)
Theorem C73_blocked : forall e c i s s' k, rl_call e c i s s' -> 0 < lam (accs s k) -> own (accs s k) <> rl_id -> own (accs s' k) <> rl_id.
Proof.
  intros e c i s s' k H L O. apply call_exec in H as (P & _ & H & _). pose proof (rl_exec_effect _ _ _ _ _ H k) as E.
  assert (FR : forall A (cd : codec A) LEN x, fresh_record cd LEN x (c_pid c) s s' k -> False) by (intros A cd LEN x ((_ & _ & Y) & _); lia).
  destruct E; try (exfalso; eapply FR; eassumption); try (exfalso; apply O; congruence).
  - match goal with X : same_od _ _ _ |- _ => destruct X as [X _]; rewrite X end. exact O.
  - match goal with X : rl_voted _ _ _ _ _ _ _ _ _ |- _ => destruct X as (_ & _ & X & _) end. exfalso. apply O. congruence.
Qed.

(** FALSE of the code: the submitter cannot always install a round.  Whoever sends one lamport to the round's
    address beforehand stops it: no [CreateRelayRound] for this round succeeds, with whatever accounts and
    signatures (nor does an execution, [C73_blocked]). *)
Definition dsb0 := demo_state ((de_r10, Acct 1 sys_id []) :: de_accs).
Definition dsb1 := unres (stp dsb0 de_init).
Theorem C73_refuted : exists e s0 s k st funder rrk b n,
  genesis e rl_id s0 /\ rl_hist e s0 s /\ loader_settings e s k st /\ rs_current st <= n /\ 0 <= n < 2 ^ 32 /\
  find_pda e (str "relay_round" ++ le 4 n) rl_id = Ok (rrk, b) /\ accs s rrk = Acct 1 sys_id [] /\ has_lamports s funder (round_price e) /\
  forall c relays t s', ~ rl_call e c (RlCreateRelayRound n relays t) s s'.
Proof.
  exists de, dsb0, dsb1, de_settings, (RlSettings true (KSettings 255 254) 9 (knum 11) 3 1000), (knum 1), de_r10, 255, 10.
  split; [apply demo_genesis; vm_compute; reflexivity|]. split; [apply do_rl_hist; [apply h_refl|vm_compute; reflexivity]|].
  assert (E : (accs dsb1 de_settings, accs dsb1 de_r10, accs dsb1 (knum 1)) =
     (Acct 1700 rl_id (enc c_rl_settings (RlSettings true (KSettings 255 254) 9 (knum 11) 3 1000) ++ repeat x00 52), Acct 1 sys_id [], Acct 999998300 sys_id []))
    by (vm_compute; reflexivity).
  pose proof (f_equal (fun x => fst (fst x)) E) as E1. pose proof (f_equal (fun x => snd (fst x)) E) as E2. pose proof (f_equal snd E) as E3. cbn [fst snd] in E1, E2, E3. clear E.
  unfold loader_settings, has_lamports. rewrite E1, E2, E3.
  split; [split; [reflexivity|]; split; [vm_compute; reflexivity|]; exists 255, de_pd, 254; split; [vm_compute; reflexivity|]; split; vm_compute; reflexivity|].
  split; [vm_compute; discriminate|]. split; [lia|]. split; [vm_compute; reflexivity|]. split; [reflexivity|].
  split; [split; [vm_compute; discriminate|]; split; reflexivity|].
  intros c relays t s' H. apply call_exec in H as (P & _ & H & _). cbn [rl_exec] in H.
  apply rl_create_relay_round_ok in H as (f & cr & se & rr & sy & rest & st & pn & _ & _ & _ & _ & _ & H).
  apply rl_new_round_ok in H as (rn & F & _ & ((_ & _ & L) & _) & _). rewrite P in F.
  assert (F' : find_pda de (sd_relay_round 10) rl_id = Ok (de_r10, 255)) by (vm_compute; reflexivity).
  rewrite F' in F. injection F as <- _. rewrite E2 in L. cbn [lam] in L. lia.
Qed.

(** ** Cases *)

Definition y1_set := Eval vm_compute in accs ds1 de_settings.
Definition y6_set := Eval vm_compute in accs ds6 de_settings.
Definition y6_prop := Eval vm_compute in accs ds6 de_prop.
Definition y6_r10 := Eval vm_compute in accs ds6 de_r10.
Definition y7_prop := Eval vm_compute in accs ds7 de_prop.
Definition y7_r10 := Eval vm_compute in accs ds7 de_r10.
Definition y10_set := Eval vm_compute in accs ds10 de_settings.
Definition y10_prop := Eval vm_compute in accs ds10 de_prop.
Lemma eqs_8 {A} (a0 b0 a1 b1 a2 b2 a3 b3 a4 b4 a5 b5 a6 b6 a7 b7 : A) : (a0, a1, a2, a3, a4, a5, a6, a7) = (b0, b1, b2, b3, b4, b5, b6, b7) ->
  a0 = b0 /\ a1 = b1 /\ a2 = b2 /\ a3 = b3 /\ a4 = b4 /\ a5 = b5 /\ a6 = b6 /\ a7 = b7.
Proof. intros H. injection H. intuition congruence. Qed.
Lemma y_is : accs ds1 de_settings = y1_set /\ accs ds6 de_settings = y6_set /\ accs ds6 de_prop = y6_prop /\ accs ds6 de_r10 = y6_r10 /\
  accs ds7 de_prop = y7_prop /\ accs ds7 de_r10 = y7_r10 /\ accs ds10 de_settings = y10_set /\ accs ds10 de_prop = y10_prop.
Proof. apply (@eqs_8 acct). vm_compute. reflexivity. Qed.

Definition y_st (cur : Z) : rl_settings := RlSettings true (KSettings 255 254) cur (knum 11) 3 1000.
Definition y_q (fin : bool) (req m : Z) (sg : list vote) : rl_proposal :=
  Prop_ fin (KProposal 255 None) (knum 2) 10 req (Pda 7 8 (knum 9)) (WithLen 140 de_ev) (WithLen m PNew) sg.
Definition y_r10r : relay_round := RelayRound true (KRelayRound 255) 10 2900 [knum 21; knum 22; knum 23].
Ltac y_in := destruct y_is as (E1 & E2 & E3 & E4 & E5 & E6 & E7 & E8); unfold loader_settings, round_account, proposal_account, draft_account;
  rewrite ?E1, ?E2, ?E3, ?E4, ?E5, ?E6, ?E7, ?E8; clear.
Ltac y_vm := vm_compute; first [reflexivity | discriminate | (split; first [discriminate | reflexivity])].
Ltac y_sets := split; [y_vm|]; split; [y_vm|]; exists 255, de_pd, 254; split; [y_vm|]; split; y_vm.
Ltac y_addr := exists 255, None; split; y_vm.

(** The settings after the deployment, and an update of the round and of the submitter. *)
Example C73_owner_ex : loader_settings de ds1 de_settings (y_st 9) /\ authority_is de ds1 (knum 10) /\
  find_pda de (kb rl_id) loader_id = Ok (de_pd, 254) /\ okb c_rl_ix (RlUpdateSettings (Some 12) (Some (knum 7)) None None) = true.
Proof.
  y_in. split; [y_sets|]. split; [|split; y_vm]. exists de_pd, 254, (le 8 5), []. split; [y_vm|]. split; [reflexivity|y_vm].
Qed.
(** Round 10 is next. *)
Example C73_submitter_ex : loader_settings de ds1 de_settings (y_st 9) /\ rs_current (y_st 9) <= 10 /\ blen [knum 21; knum 22; knum 23] <= 100 /\
  find_pda de (str "relay_round" ++ le 4 10) rl_id = Ok (de_r10, 255) /\ vacant ds1 de_r10 /\ has_lamports ds1 (knum 1) (round_price de).
Proof.
  y_in. split; [y_sets|]. split; [y_vm|]. split; [y_vm|]. split; [y_vm|]. split; [split; [y_vm|]; split; y_vm|]. split; [y_vm|]. split; y_vm.
Qed.
(** The proposal of round 5, filed in pieces, finalized, confirmed. *)
Example C73_file_ex : find_pda de (str "proposal" ++ le 4 10 ++ le 4 7 ++ le 8 8 ++ kb (knum 9) ++ kb (e_hash de (enc c_rl_event de_ev))) rl_id = Ok (de_prop, 255) /\
  vacant ds1 de_prop /\ has_lamports ds1 (knum 2) (proposal_price de) /\ okb c_rl_event de_ev = true /\ blen (re_relays de_ev) = 4 /\
  concat [firstn 50 de_upload; skipn 50 de_upload] = le 4 (12 + 32 * blen (re_relays de_ev)) ++ enc c_rl_event de_ev.
Proof.
  split; [y_vm|]. split; [split; [y_vm|]; split; y_vm|]. split; [split; [y_vm|]; split; y_vm|]. split; [y_vm|]. split; y_vm.
Qed.
Example C73_finalize_ex : loader_settings de ds6 de_settings (y_st 12) /\ draft_account de ds6 de_prop (y_q false 0 0 []) /\ round_account de ds6 de_r10 y_r10r /\
  rr_number y_r10r = p_round (y_q false 0 0 []) /\ has_lamports ds6 (knum 2) (20000 * blen (rr_relays y_r10r)) /\ 0 <= lam (accs ds6 de_prop) < 2 ^ 63.
Proof.
  y_in. split; [y_sets|]. split; [split; [y_vm|]; split; [y_vm|]; split; [y_vm|y_addr]|].
  split; [split; [y_vm|]; split; [y_vm|]; exists 255; split; y_vm|]. split; [y_vm|]. split; [split; [y_vm|]; split; y_vm|y_vm].
Qed.
Example C73_vote_ex : genesis de rl_id ds0 /\ rl_hist de ds0 ds7 /\ proposal_account de ds7 de_prop (y_q true 3 1 [VNone; VNone; VNone]) /\
  round_account de ds7 de_r10 y_r10r /\ seat (rr_relays y_r10r) (knum 22) 1 /\ knum 22 <> de_prop /\ lam (accs ds7 (knum 22)) = 0.
Proof.
  split; [exact ds0_genesis|]. split; [apply ds10_hist; left; reflexivity|]. y_in.
  split; [split; [y_vm|]; split; [y_vm|y_addr]|]. split; [split; [y_vm|]; split; [y_vm|]; exists 255; split; y_vm|].
  split; [split; [reflexivity|]; intros [|[|i]] H; [y_vm|lia|lia]|]. split; y_vm.
Qed.
(** These are the hypotheses of [C73_admin_partial] as well. *)
Example C73_execute_ex : let q := y_q true 3 1 [VConfirm; VConfirm; VConfirm] in loader_settings de ds10 de_settings (y_st 12) /\ proposal_account de ds10 de_prop q /\
  p_required q <= PropRoundLoader.confirmations q /\ find_pda de (str "relay_round" ++ le 4 (re_round (wl_data (p_event q)))) rl_id = Ok (de_r5, 255) /\
  vacant ds10 de_r5 /\ has_lamports ds10 (knum 2) (round_price de).
Proof.
  cbv zeta. y_in. split; [y_sets|]. split; [split; [y_vm|]; split; [y_vm|y_addr]|]. split; [y_vm|]. split; [y_vm|].
  split; [split; [y_vm|]; split; y_vm|]. split; [y_vm|]. split; y_vm.
Qed.
(** A lamport at the address of round 10. *)
Example C73_blocked_ex : 0 < lam (accs dsb1 de_r10) /\ own (accs dsb1 de_r10) <> rl_id /\
  exists s', rl_call de (update_accounts (knum 10) de_settings de_pd) (RlUpdateSettings (Some 10) None None None) dsb1 s'.
Proof.
  split; [y_vm|]. split; [intros E; vm_compute in E; discriminate E|].
  eexists. apply (rl_call_go de); [reflexivity|reflexivity|]. apply ok_unres. vm_compute. reflexivity.
Qed.

Print Assumptions C73_owner.
Print Assumptions C73_submitter_partial.
Print Assumptions C73_execute_partial.
Print Assumptions C73_admin_partial.
Print Assumptions C73_finalize.
Print Assumptions C73_vote.
Print Assumptions C73_file_partial.
Print Assumptions C73_blocked.
Print Assumptions C73_refuted.
