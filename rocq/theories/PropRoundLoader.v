(** Properties C10 - C22: the round loader. *)

From Coq Require Import Strings.String ZifyBool ZifyNat ZifyN.
From Verif Require Import DemoLaws.
Open Scope Z_scope.
Open Scope list_scope.
Ltac Zify.zify_post_hook ::= Z.div_mod_to_equations.

(** * Vocabulary of the statements *)

(** The round loader, called in context [c] with data that decodes to [i], turns [s] into [s']. *)
Definition rl_call (e : env) (c : ctx) (i : rl_ix) (s s' : state) : Prop :=
  c_pid c = rl_id /\
  exists d, try_from_slice c_rl_ix d = Some i /\ run c (rl_process e c d) s = Ok s'.

(** [k] is the address derived from seeds [sd] for the round loader. *)
Definition addr (e : env) (sd : bytes) (k : key) : Prop := exists n, find_pda e sd rl_id = Ok (k, n).

(** The program-data account of the round loader names [a] as upgrade authority: variant number 3, a
    slot, "some", the key. *)
Definition authority_is (e : env) (s : state) (a : key) : Prop :=
  exists pd n slot rest, find_pda e (kb rl_id) loader_id = Ok (pd, n) /\ length slot = 8%nat /\
    dat (accs s pd) = [x03; x00; x00; x00] ++ slot ++ [x01] ++ kb a ++ rest.

(** Number of [Confirm] votes. *)
Definition vote_dec (a b : vote) : {a = b} + {a <> b}.
Proof. decide equality. Defined.
Definition confirmations (p : rl_proposal) : Z := Z.of_nat (count_occ vote_dec (p_signers p) VConfirm).

(** History of the round loader between two states: its instructions by anybody, anything other
    programs do, removal of empty accounts. *)
Definition rl_hist (e : env) : state -> state -> Prop := hist e rl_id (rl_instr e).

(** * Bridging lemmas *)

Lemma call_exec e c i s s' : rl_call e c i s s' ->
  c_pid c = rl_id /\ okb c_rl_ix i = true /\ rl_exec e c i s = Ok (tt, s') /\ rl_instr e s s'.
Proof.
  intros (Hp & d & D & R). split; [exact Hp|]. pose proof R as R0.
  apply rl_process_ok in R as (j & Dj & Ok & R). rewrite D in Dj. assert (j = i) by congruence. subst j.
  split; [exact Ok|]. split; [exact R|]. exists c, d. auto.
Qed.

Lemma authority_spec e s a : upgrade_auth e rl_id s a -> authority_is e s a.
Proof.
  intros (pd & n & P & U). unfold upgrade_authority in U.
  destruct (dec (c_u32 ** c_u64 ** c_option c_key) (dat (accs s pd))) as [[[v [slot o]] rest]|] eqn:D; [|discriminate].
  destruct v as [|v|v]; try discriminate. destruct v as [v|v|]; try discriminate. destruct v as [v|v|]; try discriminate.
  destruct o as [k|]; [|discriminate]. injection U as ->.
  apply can in D as [D _]. exists pd, n, (le 8 slot), rest.
  split; [exact P|]. split; [apply le_length|]. rewrite D. cbn [enc c_pair c_option fst snd c_key].
  unfold c_u32, c_u64, c_uint. cbn [enc]. rewrite <- !app_assoc. reflexivity.
Qed.

Lemma confirms_occ l : confirms l = Z.of_nat (count_occ vote_dec l VConfirm).
Proof.
  unfold confirms, blen. f_equal. induction l as [|v l IH]; [reflexivity|]. cbn [filter count_occ].
  destruct v; cbn [vote_eqb]; [destruct (vote_dec VNone VConfirm)|destruct (vote_dec VConfirm VConfirm)|destruct (vote_dec VReject VConfirm)];
    try congruence; cbn [length]; congruence.
Qed.

Lemma filter_le {A} (f : A -> bool) l : (length (filter f l) <= length l)%nat.
Proof. induction l as [|x l IH]; [apply Nat.le_refl|]. cbn [filter]. destruct (f x); cbn [length]; lia. Qed.

Lemma wrap_confirms p : okb c_rl_proposal p = true -> wrap32 (confirms (p_signers p)) = confirmations p.
Proof.
  intros H. unfold confirmations. rewrite <- confirms_occ. apply wrap32_small.
  unfold c_rl_proposal, rl_proposal in *. rewrite (okb_prop (c_withlen c_rl_event) (c_withlen c_pstatus)) in H.
  rewrite !andb_true_iff in H. destruct H as (_ & _ & _ & _ & _ & _ & H). rewrite okb_votes in H. apply Z.ltb_lt in H.
  unfold confirms, blen in *. pose proof (filter_le (vote_eqb VConfirm) (p_signers p)). unfold u32max in *. lia.
Qed.

(** * C10 Settings are controlled by the upgrade authority only *)

Lemma okb_ix_init g sub mv ttl n pn : okb c_rl_ix (RlInitialize g sub mv ttl) = true ->
  1 <= n <= 255 -> 1 <= pn <= 255 ->
  okb c_rl_settings (RlSettings true (KSettings n pn) g sub mv ttl) = true.
Proof.
  cbn [okb c_rl_ix]. unfold c_rl_1, c_rl_settings. cbn [okb c_iso c_pair fst snd rs_init rs_kind rs_current rs_submitter rs_min_votes rs_ttl].
  rewrite !andb_true_iff. intros (A & B & C & D) H1 H2. split; [reflexivity|]. split; [|auto].
  cbn [okb c_kind c_pair c_u8 c_uint fst snd]. rewrite !andb_true_iff. lia.
Qed.

Theorem C10_initialize : forall e c g sub mv ttl s s', rl_call e c (RlInitialize g sub mv ttl) s s' ->
  exists auth k n pn,
    authority_is e s auth /\ c_sg c auth = true /\ addr e (str "settings") k /\
    own (accs s k) = sys_id /\ dat (accs s k) = [] /\
    rl_sets s' k (RlSettings true (KSettings n pn) g sub mv ttl) /\
    (forall j, j <> k -> own (accs s' j) = own (accs s j) /\ dat (accs s' j) = dat (accs s j)).
Proof.
  intros e c g sub mv ttl s s' H. apply call_exec in H as (Hp & Ok & H & _). cbn [rl_exec] in H.
  apply rl_initialize_ok in H as (funder & ini & settings & pd & sys & rest & sn & pn & K & S & P & A & PS & F & SO & _).
  rewrite Hp in *. exists ini, settings, sn, pn. split; [apply authority_spec; exists pd, pn; auto|]. split; [exact S|].
  split; [exists sn; exact PS|]. destruct F as ((C1 & C2 & C3) & O & r & D & B1 & B2).
  split; [exact C1|]. split; [exact C2|]. split; [split|].
  - exact O.
  - rewrite D. apply unpack_enc; [typeclasses eauto| |reflexivity|rewrite <- D; exact B2].
    apply find_pda_some in P as [_ P], PS as [_ PS]. apply okb_ix_init; [exact Ok|lia|lia].
  - intros j N. apply (SO j N).
Qed.

Theorem C10_initialize_once : forall e s0 s c1 i1 s1 s2 c2 s3 g sub mv ttl g' sub' mv' ttl',
  genesis e rl_id s0 -> rl_hist e s0 s ->
  i1 = RlInitialize g sub mv ttl -> rl_call e c1 i1 s s1 -> rl_hist e s1 s2 ->
  ~ rl_call e c2 (RlInitialize g' sub' mv' ttl') s2 s3.
Proof.
  intros e s0 s c1 i1 s1 s2 c2 s3 g sub mv ttl g' sub' mv' ttl' G H0 -> C1 H1 C2.
  pose proof (rl_inv_hist _ _ _ H0 (rl_genesis_inv _ _ G)) as I.
  pose proof C1 as C1'. apply call_exec in C1' as (_ & _ & _ & R1).
  apply C10_initialize in C1 as (a1 & k1 & n1 & p1 & _ & _ & [m1 A1] & _ & _ & [O _] & _).
  apply C10_initialize in C2 as (a2 & k2 & n2 & p2 & _ & _ & [m2 A2] & O2 & _).
  assert (k2 = k1) by congruence. subst k2.
  pose proof (rl_inv_step _ _ _ I R1) as I1.
  rewrite (rl_own_hist _ _ _ _ I1 H1 (find_pda_is _ _ _ _ _ A1) O) in O2. discriminate.
Qed.

(** An update changes exactly the supplied fields of the one record and nothing else. *)
Theorem C10_update : forall e c cur sub mv ttl s s', rl_call e c (RlUpdateSettings cur sub mv ttl) s s' ->
  exists auth k st st',
    authority_is e s auth /\ c_sg c auth = true /\ addr e (str "settings") k /\
    rl_sets s k st /\ rl_sets s' k st' /\
    rs_init st' = rs_init st /\ rs_kind st' = rs_kind st /\
    rs_current st' = match cur with Some x => x | None => rs_current st end /\
    rs_submitter st' = match sub with Some x => x | None => rs_submitter st end /\
    rs_min_votes st' = match mv with Some x => x | None => rs_min_votes st end /\
    rs_ttl st' = match ttl with Some x => x | None => rs_ttl st end /\
    lam (accs s' k) = lam (accs s k) /\ (forall j, j <> k -> accs s' j = accs s j) /\
    logs s' = logs s.
Proof.
  intros e c cur sub mv ttl s s' H. apply call_exec in H as (Hp & Ok & H & _). cbn [rl_exec] in H.
  apply rl_update_settings_ok in H as (author & settings & pd & rest & st & pn & K & S & V & O & P & A & ES & B).
  rewrite Hp in *. destruct V as [U (n & KS & PS)].
  pose proof U as U0. apply unpack_ok in U0 as (r0 & D0 & OK0 & B0 & I0); [|typeclasses eauto].
  match type of B with blen (enc _ ?x) <= _ => set (st' := x) in * end.
  exists author, settings, st, st'. split; [apply authority_spec; exists pd, pn; auto|]. split; [exact S|].
  split; [exists n; exact PS|]. split; [split; assumption|]. split.
  { split; [rewrite ES, own_put_dat; exact O|]. apply unpack_init; [|exact I0]. eapply wrote_unpack; [typeclasses eauto| |exact B0|].
    - apply wrote_put; [exact ES|exact B].
    - apply okb_ix_update; assumption. }
  repeat (split; [reflexivity|]). split; [rewrite ES; apply lam_put_dat|]. split.
  - intros j N. rewrite ES. apply accs_put_other. exact N.
  - rewrite ES. reflexivity.
Qed.

(** Any instruction: the settings stay what they are, or the upgrade authority updated them, or only
    the current round number changed together with the creation of that relay round. *)
Theorem C10_settings_step : forall e c i s s' k st, rl_call e c i s s' -> rl_sets s k st ->
  exists st', rl_sets s' k st' /\
    (st' = st \/
     (exists cur sub mv ttl auth, i = RlUpdateSettings cur sub mv ttl /\ c_sg c auth = true /\
        authority_is e s auth) \/
     (rs_submitter st' = rs_submitter st /\ rs_min_votes st' = rs_min_votes st /\ rs_ttl st' = rs_ttl st /\
      rs_kind st' = rs_kind st /\
      exists rk rr, own (accs s rk) = sys_id /\ rl_round s' rk rr /\ rr_number rr = rs_current st')).
Proof.
  intros e c i s s' k st H R. apply call_exec in H as (Hp & Ok & H & _).
  destruct (sets_step_ok _ _ _ _ _ _ _ Hp Ok H R) as (st' & R' & S). exists st'. split; [exact R'|].
  destruct S as [->|cur sub mv ttl auth E S A ->|n l t rrk rn -> C F O RR].
  - left. reflexivity.
  - right. left. exists cur, sub, mv, ttl, auth. split; [exact E|]. split; [exact S|]. apply authority_spec. exact A.
  - right. right. repeat (split; [reflexivity|]). exists rrk. eexists. split; [exact O|]. split; [exact RR|]. reflexivity.
Qed.

(** One instruction of the round loader that the upgrade authority did not sign. *)
Definition rl_instr_unauthorised (e : env) (s s' : state) : Prop :=
  exists c d, c_pid c = rl_id /\ run c (rl_process e c d) s = Ok s' /\
    forall a, authority_is e s a -> c_sg c a = false.

Theorem C10_frozen_without_authority : forall e s0 s s' k st n, genesis e rl_id s0 -> rl_hist e s0 s ->
  find_pda e (str "settings") rl_id = Ok (k, n) -> rl_sets s k st ->
  hist e rl_id (rl_instr_unauthorised e) s s' ->
  exists st', rl_sets s' k st' /\ rs_submitter st' = rs_submitter st /\
    rs_min_votes st' = rs_min_votes st /\ rs_ttl st' = rs_ttl st /\ rs_kind st' = rs_kind st.
Proof.
  intros e s0 s s' k st n G H0 P R H. pose proof (rl_inv_hist _ _ _ H0 (rl_genesis_inv _ _ G)) as I. clear G H0.
  assert (W : forall a b, rl_instr_unauthorised e a b -> rl_instr e a b) by (intros a b (c & d & X & Y & _); exists c, d; auto).
  induction H as [s|s s1 s2 H IH Q|s s1 s2 H IH Q|s s1 s2 H IH Q].
  - exists st. auto 6.
  - destruct (IH R I) as (t & T & E1 & E2 & E3 & E4). destruct Q as (c & d & Hp & Q & NA).
    pose proof Q as Q0. apply rl_process_ok in Q0 as (i & D & _).
    assert (CALL : rl_call e c i s1 s2) by (split; [exact Hp|exists d; auto]).
    destruct (C10_settings_step _ _ _ _ _ _ _ CALL T) as (t' & T' & [->|[X|(X1 & X2 & X3 & X4 & _)]]).
    + exists t. auto 6.
    + destruct X as (cur & sub & mv & ttl & auth & _ & S & A). rewrite (NA _ A) in S. discriminate.
    + exists t'. split; [exact T'|]. repeat match goal with |- _ /\ _ => split end; congruence.
  - destruct (IH R I) as (t & [O U] & E). exists t. split; [|exact E].
    destruct (Q k) as (_ & Q2 & _). destruct (Q2 O) as [[A B] _]. split; congruence.
  - destruct (IH R I) as (t & [O U] & E). exists t. split; [|exact E].
    destruct (Q k) as [X|[L _]]; [split; congruence|]. apply (hist_weaken _ _ _ _ _ _ W) in H.
    destruct (rl_inv_hist _ _ _ H I k) as (_ & J & _).
    destruct (J (find_pda_is _ _ _ _ _ P)) as [[X _]|[_ X]]; [rewrite O in X; discriminate|lia].
Qed.

Definition de_update : list meta * rl_ix :=
  ([sw (knum 10); ww de_settings; ro de_pd], RlUpdateSettings None None (Some 7) None).

(** The hypotheses are met: initialisation by the authority works, once; an update changes one field;
    a stranger's update fails. *)
Example C10_example :
  demo_genesisb de_tab rl_id de_accs = true /\
  is_ok (stp ds0 de_init) = true /\ is_ok (stp ds1 de_init) = false /\
  rbind (stp ds1 de_update) (fun s => unpack c_rl_settings RL_SETTINGS_LEN rs_init (dat (accs s de_settings)))
    = Ok (RlSettings true (KSettings 255 254) 9 (knum 11) 7 1000) /\
  is_ok (stp ds1 ([sw (knum 2); ww de_settings; ro de_pd], RlUpdateSettings None None (Some 7) None)) = false.
Proof. vm_compute. repeat split; reflexivity. Qed.

(** * C11 A relay round only comes into being by quorum or by the round submitter *)

Theorem C11_round_origin : forall e s0 c i s s' k rr, genesis e rl_id s0 -> rl_hist e s0 s ->
  rl_call e c i s s' ->
  own (accs s k) <> rl_id -> rl_round s' k rr ->
  exists sk st,
    (* the settings in force *)
    addr e (str "settings") sk /\ rl_sets s sk st /\
    (* the new account sits at the address of its round number *)
    addr e (str "relay_round" ++ le 4 (rr_number rr)) k /\
    rr_init rr = true /\
    ((* the submitter created the round with exactly these relays *)
     (c_sg c (rs_submitter st) = true /\
      exists t, i = RlCreateRelayRound (rr_number rr) (rr_relays rr) t) \/
     (* the submitter executed a finalized proposal with this content *)
     (c_sg c (rs_submitter st) = true /\ i = RlExecuteByAdmin /\
      exists pk p, unpack c_rl_proposal RL_PROPOSAL_LEN (@p_init _ _) (dat (accs s pk)) = Ok p /\
        re_round (wl_data (p_event p)) = rr_number rr /\ re_relays (wl_data (p_event p)) = rr_relays rr) \/
     (* a proposal at the address committing to this content has enough confirmations *)
     (i = RlExecute /\
      exists pk p, rl_fin s pk p /\ wl_data (p_meta p) = PNew /\
        addr e (str "proposal" ++ le 4 (p_round p) ++ le 4 (pd_ts (p_pda p)) ++ le 8 (pd_lt (p_pda p)) ++
                kb (pd_conf (p_pda p)) ++ kb (e_hash e (enc c_rl_event (wl_data (p_event p))))) pk /\
        p_required p <= confirmations p /\
        re_round (wl_data (p_event p)) = rr_number rr /\ re_relays (wl_data (p_event p)) = rr_relays rr)).
Proof.
  intros e s0 c i s s' k rr G H0 H NO R. pose proof (rl_inv_hist _ _ _ H0 (rl_genesis_inv _ _ G)) as I.
  apply call_exec in H as (Hp & Hok & H & _). pose proof (round_len _ _ _ R) as L'.
  destruct (rl_exec_effect e c i s s' H k) as
    [E|g sub mv ttl auth sn pn E1 E2 E3 E4 E5 E6|cur sub mv ttl auth st pn E1 E2 E3 E4 E5 E6
    |st pn rrk rn m l t E1 E2 E3 E4 E5 E6|sk st pn rn m l t E1 E2 E3 E4 E5|r0 ts lt conf h pn creator E1 E2 E3 E4 E5
    |o b d' E1 E2 E3 E4 E5|p0 st sk pn rr0 rrk E1 E2 E3 E4 E5 E6 E7 E8 E9|v p0 m E|sk st pn m l t p0 E1 E2 E3 E4 E5 E6 E7];
    rewrite ?Hp in *; try congruence.
  - exfalso. destruct E as [E _], R as [R _]. congruence.
  - apply fresh_len in E5. rewrite L' in E5. discriminate.
  - pose proof (fresh_round _ _ _ _ _ _ _ _ _ _ _ _ Hok E2 E3 eq_refl E4) as [_ R2].
    destruct R as [_ R]. assert (X : rr = RelayRound true (KRelayRound rn) m (wrap32 (t + rs_ttl st)) l) by congruence.
    subst rr. cbn [rr_number rr_relays rr_init]. exists sk, st.
    split; [destruct E1 as [_ (n & _ & P)]; exists n; exact P|].
    split; [eapply settings_in_own; eassumption|]. split; [exists rn; exact E3|]. split; [reflexivity|].
    destruct E2 as [(A1 & A2 & _)|(pk & p & EV & U & _ & [(A1 & A2 & A3 & A4 & A5)|(A1 & A2 & _)])].
    + left. split; [exact A2|]. exists t. exact A1.
    + right. right. split; [exact A1|]. exists pk, p. rewrite Hp in *. split; [split; assumption|]. split; [exact A4|].
      split; [destruct A3 as (n & pn1 & _ & P); exists n; exact P|].
      split.
      { apply unpack_ok in U as (r & _ & OK & _); [|typeclasses eauto]. rewrite <- (wrap_confirms _ OK). exact A5. }
      rewrite <- EV. split; reflexivity.
    + right. left. split; [exact A2|]. split; [exact A1|]. exists pk, p. split; [exact U|]. rewrite <- EV. split; reflexivity.
  - apply fresh_len in E4. rewrite L' in E4. discriminate.
  - destruct E as (_ & _ & E3 & _). congruence.
Qed.

(** Both ways occur: the submitter's round 10 and the round 5 of the executed proposal. *)
Example C11_example :
  demo_genesisb de_tab rl_id de_accs = true /\
  rbind (stp ds1 (de_round de_r10 10 [knum 21; knum 22; knum 23] 1900)) (fun s =>
    unpack c_relay_round RELAY_ROUND_LEN rr_init (dat (accs s de_r10)))
    = Ok (RelayRound true (KRelayRound 255) 10 2900 [knum 21; knum 22; knum 23]) /\
  rbind (stp ds10 de_exec) (fun s =>
    unpack c_relay_round RELAY_ROUND_LEN rr_init (dat (accs s de_r5)))
    = Ok (RelayRound true (KRelayRound 255) 5 3000 [knum 21; knum 22; knum 23; knum 24]).
Proof. vm_compute. repeat split; reflexivity. Qed.

(** * C12 The quorum is more than two thirds *)

(** The address of [k] is the one derived from the content of [p]; voting and execution check this. *)
Definition proposal_matches (e : env) (k : key) (p : rl_proposal) : Prop :=
  addr e (str "proposal" ++ le 4 (p_round p) ++ le 4 (pd_ts (p_pda p)) ++ le 8 (pd_lt (p_pda p)) ++
          kb (pd_conf (p_pda p)) ++ kb (e_hash e (enc c_rl_event (wl_data (p_event p))))) k.

(** Finalization turns the proposal [q] of the account list, at its address and not finalized yet, into [p]:
    open for execution, without votes, with the content of [q], and holding the reparation of every relay. *)
Theorem C12_finalize : forall e s0 c s s', genesis e rl_id s0 -> rl_hist e s0 s ->
  rl_call e c RlFinalize s s' ->
  exists k q p sk st rk rr,
    nth_error (c_keys c) 1 = Some k /\ unpack_unchecked c_rl_proposal RL_PROPOSAL_LEN (dat (accs s k)) = Ok q /\ p_init q = false /\
    proposal_matches e k q /\ p_event p = p_event q /\ p_author p = p_author q /\ p_pda p = p_pda q /\ p_kind p = p_kind q /\
    wl_data (p_meta p) = PNew /\ lam (accs s' k) = lam (accs s k) + 20000 * blen (p_signers p) /\
    (forall j, j <> k -> own (accs s' j) = own (accs s j) /\ dat (accs s' j) = dat (accs s j)) /\ logs s' = logs s /\
    rl_fin s' k p /\ addr e (str "settings") sk /\ rl_sets s sk st /\
    rl_round s rk rr /\ addr e (str "relay_round" ++ le 4 (rr_number rr)) rk /\
    p_round p = rr_number rr /\
    2 * blen (rr_relays rr) < 3 * p_required p /\ rs_min_votes st <= p_required p /\
    p_signers p = repeat VNone (length (rr_relays rr)) /\
    (3 * p_required p <= 2 * blen (rr_relays rr) + 3 \/ p_required p = rs_min_votes st).
Proof.
  intros e s0 c s s' G H0 H. pose proof (rl_inv_hist _ _ _ H0 (rl_genesis_inv _ _ G)) as I.
  apply call_exec in H as (Hp & Hok & H & _). cbn [rl_exec] in H.
  apply rl_finalize_ok in H as (funder & k & sk & rrk & sys & rest & st & pn & p & rr & K & VS & U & I0 & A & VR & O & W & WR & B & SO & SE & DL & DF & _).
  rewrite Hp in *. pose proof U as U1. apply unpack_unchecked_ok in U1 as (r & _ & OK & LEN); [|typeclasses eauto].
  assert (OKr : okb c_relay_round rr = true).
  { destruct VR as [VR _]. apply unpack_ok in VR as (r1 & _ & X & _); [exact X|typeclasses eauto]. }
  assert (OKs : okb c_rl_settings st = true).
  { destruct VS as [VS _]. apply unpack_ok in VS as (r1 & _ & X & _); [exact X|typeclasses eauto]. }
  assert (NE : k <> funder).
  { intros ->. rewrite DF in LEN. discriminate. }
  exists k, p. match type of WR with wrote _ _ _ _ ?x => exists x end. exists sk, st, rrk, rr. split; [rewrite K; reflexivity|]. split; [exact U|]. split; [exact I0|].
  split; [destruct A as (n & pn1 & _ & P); exists n; exact P|]. cbn [p_event p_author p_pda p_kind p_meta wl_data p_signers].
  do 5 (split; [reflexivity|]). split.
  { rewrite DL, at_same, at_other by exact NE. unfold blen at 2. rewrite repeat_length. fold (blen (rr_relays rr)).
    pose proof (round_in_le100 _ _ _ _ _ VR) as LE. pose proof (blen_nonneg (rr_relays rr)). unfold wrap64, RELAY_REPARATION, u64max. lia. }
  split; [intros j J; apply (SO j J)|]. split; [apply SE|]. split.
  { split; [destruct WR; congruence|]. apply unpack_init; [eapply wrote_unpack; [typeclasses eauto|exact WR|exact LEN|apply okb_final; assumption]|reflexivity]. }
  split; [destruct VS as [_ (n & _ & P)]; exists n; exact P|].
  split; [eapply settings_in_own; eassumption|]. split; [eapply round_in_own; eassumption|].
  split; [destruct VR as [_ (n & _ & P)]; exists n; exact P|].
  cbn [p_round p_required p_signers]. split; [reflexivity|].
  apply round_in_le100 in VR. pose proof (blen_nonneg (rr_relays rr)) as NN.
  pose proof (two_thirds_gt (blen (rr_relays rr))) as TG.
  assert (TU : 3 * two_thirds (blen (rr_relays rr)) <= 2 * blen (rr_relays rr) + 3).
  { unfold two_thirds, wrap32, u32max. rewrite Z.mod_small by lia. lia. }
  split; [lia|]. split; [lia|]. split; [reflexivity|]. lia.
Qed.

(** In every reachable state all finalized proposals carry such a requirement. *)
Theorem C12_always : forall e s0 s k p, genesis e rl_id s0 -> rl_hist e s0 s -> rl_fin s k p ->
  2 * blen (p_signers p) < 3 * p_required p.
Proof.
  intros e s0 s k p G H F.
  refine (proj2 (fin_good_hist e s0 s (rl_genesis_inv _ _ G) _ H k p F)).
  intros k0 p0 [O _]. destruct (G k0) as (_ & N & _). contradiction.
Qed.

(** With fewer confirmations than required execution changes nothing at all. *)
Theorem C12_no_quorum : forall e c s s' pk p, rl_call e c RlExecute s s' ->
  nth_error (c_keys c) 2 = Some pk ->
  unpack c_rl_proposal RL_PROPOSAL_LEN (@p_init _ _) (dat (accs s pk)) = Ok p ->
  confirmations p < p_required p ->
  (forall k, accs s' k = accs s k) /\ logs s' = logs s.
Proof.
  intros e c s s' pk p H N U C. apply call_exec in H as (Hp & Hok & H & _). cbn [rl_exec] in H.
  apply rl_execute_ok in H as (f & sk & k & rk & sys & rest & st & pn & q & K & VS & U' & A & R).
  rewrite K in N. cbn [nth_error] in N. injection N as ->.
  assert (q = p) by congruence. subst q.
  destruct R as [[_ ->]|(_ & Q & _)].
  - split; [|reflexivity]. intros j. unfold put_dat. destruct (key_dec j pk) as [->|NJ].
    + rewrite accs_put_same. destruct (accs s pk); reflexivity.
    + apply accs_put_other. exact NJ.
  - apply unpack_ok in U as (r & _ & OK & _); [|typeclasses eauto]. rewrite (wrap_confirms _ OK) in Q. lia.
Qed.

(** 12 relays need 9 confirmations; two of three confirmations are not enough. *)
Example C12_example :
  rbind (stp ds6 (de_final de_r12)) (fun s =>
    rbind (unpack c_rl_proposal RL_PROPOSAL_LEN (@p_init _ _) (dat (accs s de_prop))) (fun p => Ok (p_required p)))
    = Ok 9 /\
  rbind (stp ds9 de_exec) (fun s =>
    rbind (unpack c_rl_proposal RL_PROPOSAL_LEN (@p_init _ _) (dat (accs s de_prop))) (fun p =>
      Ok (p_required p, confirms (p_signers p), wl_data (p_meta p), blen (dat (accs s de_r5)))))
    = Ok (3, 2, PNew, 0).
Proof. vm_compute. split; reflexivity. Qed.

(** * C13 A relay round's relay set never changes (finding: it does) *)

(** The property in full: in no history a relay round changes. *)
Definition C13_full : Prop := forall e s0 s s' k rr, genesis e rl_id s0 -> rl_hist e s0 s ->
  rl_round s k rr -> addr e (str "relay_round" ++ le 4 (rr_number rr)) k ->
  rl_hist e s s' -> rl_round s' k rr.

(** Nine new relays, written over relays 4 to 12 of round 12. *)
Definition de_attack : list meta * rl_ix :=
  ([ww de_r12], RlWriteProposal 23 (flat_map kb (map knum [71; 72; 73; 74; 75; 76; 77; 78; 79]))).
Definition ds4x := unres (stp ds4 de_attack).

Lemma ds4_hist : rl_hist de ds0 ds4.
Proof. exact ds4_past. Qed.
Lemma ds0_genesis : genesis de rl_id ds0.
Proof. apply demo_genesis. vm_compute. reflexivity. Qed.

(** FALSE of the code: an instruction without any signature replaces the relays of a round.  The
    upload handler (round-loader/src/processor.rs:450-476) only refuses accounts that decode as a
    finalized proposal; a relay-round account does not, so its bytes from 88 on can be overwritten.
    With 12 relays the attacker owns 9, the quorum. *)
Theorem C13_refuted :
  exists e s0 s s' k rr rr' ms i,
    genesis e rl_id s0 /\ rl_hist e s0 s /\
    (forall m, In m ms -> m_sg m = false) /\ rl_call e (ctx_of rl_id ms) i s s' /\
    addr e (str "relay_round" ++ le 4 (rr_number rr)) k /\
    rl_round s k rr /\ rl_round s' k rr' /\
    rr_relays rr = de_relays12 /\
    rr_relays rr' = map knum [21; 22; 23; 71; 72; 73; 74; 75; 76; 77; 78; 79] /\
    two_thirds (blen (rr_relays rr')) = 9.
Proof.
  exists de, ds0, ds4, ds4x, de_r12.
  exists (RelayRound true (KRelayRound 255) 12 2990 de_relays12).
  exists (RelayRound true (KRelayRound 255) 12 2990 (map knum [21; 22; 23; 71; 72; 73; 74; 75; 76; 77; 78; 79])).
  exists (fst de_attack), (snd de_attack).
  split; [exact ds0_genesis|]. split; [exact ds4_hist|].
  split; [intros m [<-|[]]; reflexivity|].
  split.
  { split; [reflexivity|]. exists (enc c_rl_ix (snd de_attack)). split; [vm_compute; reflexivity|].
    apply do_rl_step. vm_compute. reflexivity. }
  split; [exists 255; vm_compute; reflexivity|].
  split; [split; vm_compute; reflexivity|]. split; [split; vm_compute; reflexivity|].
  split; [reflexivity|]. split; [reflexivity|]. vm_compute. reflexivity.
Qed.

Corollary C13_full_false : ~ C13_full.
Proof.
  intros H. destruct C13_refuted as (e & s0 & s & s' & k & rr & rr' & ms & i & G & H0 & _ & C & A & R & R' & E & E' & _).
  assert (X : rl_round s' k rr).
  { apply (H e s0 s s' k rr); auto. apply (h_prog _ _ _ _ s); [apply h_refl|]. apply call_exec in C. apply C. }
  destruct X as [_ X], R' as [_ R']. assert (rr = rr') by congruence. subst rr'. rewrite E in E'. discriminate E'.
Qed.

(** What does hold: in every history the number, the expiry, the number of relays and the first two
    relays of a round stay, and the account stays a relay round; and without an upload into that
    very account the whole record stays. *)
Theorem C13_partial : forall e s0 s s' k rr n, genesis e rl_id s0 -> rl_hist e s0 s ->
  rl_round s k rr -> rr_kind rr = KRelayRound n -> addr e (str "relay_round" ++ le 4 (rr_number rr)) k ->
  (rl_hist e s s' ->
   exists rr', rl_round s' k rr' /\ rr_number rr' = rr_number rr /\ rr_end rr' = rr_end rr /\
     length (rr_relays rr') = length (rr_relays rr) /\
     firstn 2 (rr_relays rr') = firstn 2 (rr_relays rr)) /\
  (hist e rl_id (rl_instr_no_upload e k) s s' -> rl_round s' k rr).
Proof.
  intros e s0 s s' k rr n G H0 R K [m P]. pose proof (rl_inv_hist _ _ _ H0 (rl_genesis_inv _ _ G)) as I.
  apply find_pda_is in P. split; intros H.
  - destruct (round_hist _ _ _ I H _ _ _ R K P) as (rr' & R' & (_ & _ & A & B & C & D)). exists rr'. auto 6.
  - eapply round_hist_no_upload; eassumption.
Qed.

Example C13_example :
  rbind (stp ds4 de_create) (fun s =>
    unpack c_relay_round RELAY_ROUND_LEN rr_init (dat (accs s de_r12)))
    = Ok (RelayRound true (KRelayRound 255) 12 2990 de_relays12) /\
  rbind (stp ds4 de_attack) (fun s =>
    rbind (unpack c_relay_round RELAY_ROUND_LEN rr_init (dat (accs s de_r12))) (fun rr =>
      Ok (rr_number rr, rr_end rr, firstn 2 (rr_relays rr))))
    = Ok (12, 2990, [knum 21; knum 22]).
Proof. vm_compute. split; reflexivity. Qed.

(** * C14 Uploads are confined to the upload window of unfinalized proposals *)

Theorem C14_upload : forall e c o b s s', rl_call e c (RlWriteProposal o b) s s' ->
  exists k,
    hd_error (c_keys c) = Some k /\
    (* only this account's data changes *)
    (forall j, j <> k -> accs s' j = accs s j) /\ logs s' = logs s /\
    lam (accs s' k) = lam (accs s k) /\ own (accs s' k) = own (accs s k) /\
    (* inside the window *)
    0 <= o /\ 88 + o + blen b <= 3304 /\ 88 + o + blen b <= blen (dat (accs s k)) /\
    blen (dat (accs s' k)) = blen (dat (accs s k)) /\
    (forall n, nth_error (dat (accs s' k)) n =
       if (88 + o <=? Z.of_nat n) && (Z.of_nat n <? 88 + o + blen b)
       then nth_error b (n - Z.to_nat (88 + o)) else nth_error (dat (accs s k)) n) /\
    (* never a finalized proposal *)
    (forall p, unpack c_rl_proposal RL_PROPOSAL_LEN (@p_init _ _) (dat (accs s k)) <> Ok p) /\
    (* only accounts of the round loader can change *)
    (dat (accs s' k) <> dat (accs s k) -> own (accs s k) = rl_id).
Proof.
  intros e c o b s s' H. apply call_exec in H as (Hp & Hok & H & _). cbn [rl_exec] in H.
  apply rl_write_proposal_ok in H as (k & rest & d' & K & U & W & -> & PR).
  apply okb_ix_write in Hok. exists k. split; [rewrite K; reflexivity|].
  split; [intros j N; apply accs_put_other; exact N|]. split; [reflexivity|].
  split; [apply lam_put_dat|]. split; [apply own_put_dat|]. split; [exact Hok|].
  unfold write_proposal_data in W. destruct (LOAD_DATA_END <? _) eqn:E1; [discriminate|].
  destruct (blen (dat (accs s k)) <? _) eqn:E2; [discriminate|].
  assert (E : d' = firstn (Z.to_nat (LOAD_DATA_BEGIN + o)) (dat (accs s k)) ++ b ++ skipn (Z.to_nat (LOAD_DATA_BEGIN + o + blen b)) (dat (accs s k))) by congruence.
  clear W. rewrite dat_put_dat. unfold LOAD_DATA_BEGIN, LOAD_DATA_END in *.
  split; [lia|]. split; [lia|]. unfold blen in *.
  set (d := dat (accs s k)) in *.
  assert (L1 : length (firstn (Z.to_nat (88 + o)) d) = Z.to_nat (88 + o)) by (rewrite firstn_length; lia).
  split; [rewrite E, !app_length, L1, skipn_length; lia|]. split; [|split].
  - intros n. rewrite E. destruct ((88 + o <=? Z.of_nat n) && (Z.of_nat n <? 88 + o + Z.of_nat (length b))) eqn:C.
    + apply andb_true_iff in C as [C1 C2]. rewrite nth_error_app2 by lia. rewrite L1.
      apply nth_error_app1. lia.
    + destruct (Nat.ltb n (Z.to_nat (88 + o))) eqn:C1.
      * apply Nat.ltb_lt in C1. rewrite nth_error_app1 by lia.
        rewrite <- (firstn_skipn (Z.to_nat (88 + o)) d) at 2. rewrite nth_error_app1 by lia. reflexivity.
      * apply Nat.ltb_ge in C1. rewrite nth_error_app2, L1, nth_error_app2 by lia.
        rewrite <- (firstn_skipn (Z.to_nat (88 + o + Z.of_nat (length b))) d) at 2.
        rewrite nth_error_app2 by (rewrite firstn_length; lia).
        f_equal. rewrite firstn_length. lia.
  - intros p P. apply unpack_unchecked_init in P as [P I0]. apply U in P. congruence.
  - intros N. destruct PR as [PR|[PR _]]; congruence.
Qed.

(** The upload does not look at signatures. *)
Theorem C14_unsigned : forall e pid keys sg sg' wr o b d s, try_from_slice c_rl_ix d = Some (RlWriteProposal o b) ->
  run (Ctx pid keys sg wr) (rl_process e (Ctx pid keys sg wr) d) s =
  run (Ctx pid keys sg' wr) (rl_process e (Ctx pid keys sg' wr) d) s.
Proof. intros e pid keys sg sg' wr o b d s H. unfold rl_process. rewrite H. reflexivity. Qed.

Example C14_example :
  rbind (stp ds5 ([ww de_prop], RlWriteProposal 2 [xaa; xbb])) (fun s => Ok (firstn 6 (skipn 88 (dat (accs s de_prop)))))
    = Ok [x00; x00; xaa; xbb; x00; x00] /\
  stp ds5 ([ww de_prop], RlWriteProposal 3215 [xaa; xbb]) = Err AccountDataTooSmall /\
  stp ds7 ([ww de_prop], RlWriteProposal 0 [xaa; xbb]) = Err AccountAlreadyInitialized.
Proof. vm_compute. repeat split; reflexivity. Qed.

(** * C15 A finalized proposal's content is frozen and committed to by its address *)

Theorem C15_frozen : forall e s0 s s' k p, genesis e rl_id s0 -> rl_hist e s0 s -> rl_fin s k p ->
  rl_hist e s s' ->
  exists p', rl_fin s' k p' /\ p_event p' = p_event p /\ p_author p' = p_author p /\
    p_round p' = p_round p /\ p_pda p' = p_pda p /\ p_kind p' = p_kind p /\
    p_required p' = p_required p /\ length (p_signers p') = length (p_signers p).
Proof.
  intros e s0 s s' k p G H0 F H. pose proof (rl_inv_hist _ _ _ H0 (rl_genesis_inv _ _ G)) as I.
  destruct (fin_hist _ _ _ I H _ _ F) as (p' & F' & (A1 & A2 & A3 & A4 & A5 & A6 & A7 & _)).
  exists p'. auto 10.
Qed.

(** The address of a finalized proposal is derived from the hash of the event it stores. *)
Theorem C15_committed : forall e s0 s k p, genesis e rl_id s0 -> rl_hist e s0 s -> rl_fin s k p ->
  exists r, addr e (str "proposal" ++ le 4 r ++ le 4 (pd_ts (p_pda p)) ++ le 8 (pd_lt (p_pda p)) ++
                kb (pd_conf (p_pda p)) ++ kb (e_hash e (enc c_rl_event (wl_data (p_event p))))) k.
Proof.
  intros e s0 s k p G H F.
  destruct (fin_good_hist e s0 s (rl_genesis_inv _ _ G)) with (k := k) (p := p) as [(n & pn & r & _ & P) _]; auto.
  - intros k0 p0 [O _]. destruct (G k0) as (_ & N & _). contradiction.
  - exists r, n. exact P.
Qed.

Example C15_example :
  demo_genesisb de_tab rl_id de_accs = true /\
  rbind (unpack c_rl_proposal RL_PROPOSAL_LEN (@p_init _ _) (dat (accs ds7 de_prop))) (fun p => Ok (p_event p, p_author p, p_required p))
    = Ok (WithLen 140 de_ev, knum 2, 3) /\
  rbind (unpack c_rl_proposal RL_PROPOSAL_LEN (@p_init _ _) (dat (accs ds11 de_prop))) (fun p => Ok (p_event p, p_author p, p_required p))
    = Ok (WithLen 140 de_ev, knum 2, 3).
Proof. vm_compute. repeat split; reflexivity. Qed.

(** * C16 Votes are recorded once, by the signing relay, and paid once *)

Theorem C16_vote : forall e c v s s', rl_call e c (RlVote v) s s' ->
  exists voter k rk rest p rr n,
    c_keys c = voter :: k :: rk :: rest /\ c_sg c voter = true /\ v <> VNone /\
    unpack c_rl_proposal RL_PROPOSAL_LEN (@p_init _ _) (dat (accs s k)) = Ok p /\
    unpack c_relay_round RELAY_ROUND_LEN rr_init (dat (accs s rk)) = Ok rr /\
    addr e (str "relay_round" ++ le 4 (rr_number rr)) rk /\
    nth_error (rr_relays rr) n = Some voter /\ proposal_matches e k p /\
    (s' = s \/
     (nth_error (p_signers p) n = Some VNone /\
      exists p', rl_fin s' k p' /\
        (* exactly one position changes *)
        nth_error (p_signers p') n = Some v /\
        (forall m, m <> n -> nth_error (p_signers p') m = nth_error (p_signers p) m) /\
        length (p_signers p') = length (p_signers p) /\
        p_event p' = p_event p /\ p_meta p' = p_meta p /\ p_author p' = p_author p /\
        p_round p' = p_round p /\ p_required p' = p_required p /\ p_pda p' = p_pda p /\ p_kind p' = p_kind p /\
        (* 20000 lamports go from the proposal to the voter *)
        (forall j, lam (accs s' j) = lam (accs s j) + (if keqb j voter then 20000 else 0)
                                                    - (if keqb j k then 20000 else 0)) /\
        (* nothing else changes *)
        (forall j, j <> k -> own (accs s' j) = own (accs s j) /\ dat (accs s' j) = dat (accs s j)) /\
        logs s' = logs s)).
Proof.
  intros e c v s s' H. apply call_exec in H as (Hp & Hok & H & R). cbn [rl_exec] in H.
  apply rl_vote_ok in H as (voter & k & rk & rest & p & rr & n & old & K & S & V & U & A & VR & N & _ & NO & D).
  rewrite Hp in *. exists voter, k, rk, rest, p, rr, n. split; [exact K|]. split; [exact S|]. split; [exact V|].
  split; [exact U|]. split; [apply VR|]. split; [destruct VR as [_ (m & _ & P)]; exists m; exact P|].
  split; [exact N|]. split; [destruct A as (m & pn1 & _ & P); exists m; exact P|].
  destruct D as [[_ ->]|(-> & O & W & WR & SO & SE & L & DL)]; [left; reflexivity|right].
  split; [exact NO|]. exists (p_with_signers p (set_nth n v (p_signers p))).
  pose proof U as U0. apply unpack_ok in U0 as (r & _ & OK & LEN & I0); [|typeclasses eauto].
  split.
  { split; [destruct WR; congruence|]. apply unpack_init; [|exact I0]. eapply wrote_unpack; [typeclasses eauto|exact WR|exact LEN|].
    apply okb_with_signers. exact OK. }
  cbn [p_with_signers p_signers p_event p_meta p_author p_round p_required p_pda p_kind].
  split; [apply set_nth_same, nth_error_Some; congruence|]. split; [intros m M; apply set_nth_other; congruence|].
  split; [apply set_nth_length|]. repeat (split; [reflexivity|]).
  split; [intros j; rewrite DL; unfold at_key, RELAY_REPARATION; lia|].
  split; [intros j N2; apply (SO j N2)|]. apply SE.
Qed.

(** Recorded votes never change. *)
Theorem C16_votes_stay : forall e s0 s s' k p n v, genesis e rl_id s0 -> rl_hist e s0 s -> rl_fin s k p ->
  rl_hist e s s' -> nth_error (p_signers p) n = Some v -> v <> VNone ->
  exists p', rl_fin s' k p' /\ nth_error (p_signers p') n = Some v.
Proof.
  intros e s0 s s' k p n v G H0 F H N V. pose proof (rl_inv_hist _ _ _ H0 (rl_genesis_inv _ _ G)) as I.
  destruct (fin_hist _ _ _ I H _ _ F) as (p' & F' & (_ & _ & _ & _ & _ & _ & _ & A & _)). exists p'. auto.
Qed.

(** Every vote found in a reachable state was recorded by one vote instruction, carrying the
    signature of the relay at that position of the relay round presented. *)
Theorem C16_votes_origin : forall e s0 s k p n v, genesis e rl_id s0 -> rl_hist e s0 s -> rl_fin s k p ->
  nth_error (p_signers p) n = Some v -> v <> VNone ->
  exists s1 s2 c voter rk rr,
    rl_hist e s0 s1 /\ rl_call e c (RlVote v) s1 s2 /\ rl_hist e s2 s /\
    c_sg c voter = true /\ rl_round s1 rk rr /\ addr e (str "relay_round" ++ le 4 (rr_number rr)) rk /\
    nth_error (rr_relays rr) n = Some voter.
Proof.
  intros e s0 s k p n v G H F N V.
  destruct (votes_cast e s0 s (rl_genesis_inv _ _ G) H k p n v F N V) as [(p0 & [O _] & _)|C].
  { destruct (G k) as (_ & X & _). contradiction. }
  destruct C as (s1 & s2 & c & d & voter & rk & rr & q & H1 & H2 & Hp & R & D & S & VR & RR & NR & _).
  exists s1, s2, c, voter, rk, rr. split; [exact H1|]. split; [split; [exact Hp|exists d; auto]|].
  split; [exact H2|]. split; [exact S|]. split; [exact RR|].
  split; [destruct VR as [_ (m & _ & P)]; exists m; exact P|exact NR].
Qed.

Example C16_example :
  rbind (stp ds7 (de_vote de_r10 (knum 22))) (fun s =>
    rbind (unpack c_rl_proposal RL_PROPOSAL_LEN (@p_init _ _) (dat (accs s de_prop))) (fun p =>
      Ok (p_signers p, lam (accs s (knum 22)), lam (accs ds7 de_prop) - lam (accs s de_prop))))
    = Ok ([VNone; VConfirm; VNone], 20000, 20000) /\
  (* voting again changes nothing; strangers cannot vote; a relay that does not sign cannot *)
  rbind (stp ds8 (de_vote de_r10 (knum 21))) (fun s =>
      Ok (lam (accs s (knum 21)) - lam (accs ds8 (knum 21)), beqb (dat (accs s de_prop)) (dat (accs ds8 de_prop)))) = Ok (0, true) /\
  stp ds7 (de_vote de_r10 (knum 2)) = Err (Custom 4) /\
  stp ds7 ([ww (knum 21); ww de_prop; ro de_r10], RlVote VConfirm) = Err MissingRequiredSignature.
Proof. vm_compute. repeat split; reflexivity. Qed.

(** * C17 Only relays of the proposal's own round vote, each once (finding: not so) *)

(** The property in full: a recorded vote was signed by the relay at this position of the round the
    proposal was finalized for, and no key signed for two positions. *)
Definition signed_position (e : env) (s0 s : state) (k : key) (n : nat) (v : vote) (voter : key) : Prop :=
  exists s1 s2 c p1 p2, rl_hist e s0 s1 /\ rl_call e c (RlVote v) s1 s2 /\ rl_hist e s2 s /\
    (forall j, c_sg c j = true -> j = voter) /\
    rl_fin s1 k p1 /\ nth_error (p_signers p1) n = Some VNone /\
    rl_fin s2 k p2 /\ nth_error (p_signers p2) n = Some v.

Lemma ctx_sg_one ms k : (forall m, In m ms -> m_sg m = true -> m_key m = k) ->
  forall j, c_sg (ctx_of rl_id ms) j = true -> j = k.
Proof.
  intros H j. unfold ctx_of. cbn [c_sg]. intros E. apply existsb_exists in E as (m & I & E).
  apply andb_true_iff in E as [E1 E2]. apply keqb_eq in E1. rewrite <- E1. auto.
Qed.

Lemma ds10_hist s : In s [ds7; ds8; ds9; ds10] -> rl_hist de ds0 s.
Proof.
  intros H. unfold rl_hist. cbn [In] in H. destruct H as [<-|[<-|[<-|[<-|[]]]]]; [exact ds7_past|exact ds8_past|exact ds9_past|exact ds10_past].
Qed.
Lemma de_step s x : is_ok (stp s x) = true -> rl_hist de s (unres (stp s x)).
Proof. intros H. apply do_rl_hist; [apply h_refl|exact H]. Qed.

Lemma st78 : rl_hist de ds7 ds8.
Proof. exact (de_step ds7 (de_vote de_r10 (knum 21)) (de_run 7 _ eq_refl)). Qed.
Lemma st89 : rl_hist de ds8 ds9.
Proof. exact (de_step ds8 (de_vote de_r11 (knum 21)) (de_run 8 _ eq_refl)). Qed.
Lemma st9x : rl_hist de ds9 ds10.
Proof. exact (de_step ds9 (de_vote de_r11 (knum 31)) (de_run 9 _ eq_refl)). Qed.

(** The records of these states. *)
Definition de_vp (l : list vote) : rl_proposal :=
  Prop_ true (KProposal 255 None) (knum 2) 10 3 (Pda 7 8 (knum 9)) (WithLen 140 de_ev) (WithLen 1 PNew) l.
Lemma de_records : rl_fin ds7 de_prop (de_vp [VNone; VNone; VNone]) /\ rl_fin ds8 de_prop (de_vp [VConfirm; VNone; VNone]) /\
  rl_fin ds9 de_prop (de_vp [VConfirm; VConfirm; VNone]) /\ rl_fin ds10 de_prop (de_vp [VConfirm; VConfirm; VConfirm]) /\
  rl_round ds10 de_r10 (RelayRound true (KRelayRound 255) 10 2900 [knum 21; knum 22; knum 23]) /\
  rl_sets ds10 de_settings (RlSettings true (KSettings 255 254) 12 (knum 11) 3 1000) /\
  rl_sets ds11 de_settings (RlSettings true (KSettings 255 254) 5 (knum 11) 3 1000).
Proof. vm_compute. repeat split; reflexivity. Qed.

(** FALSE of the code: the vote handler (round-loader/src/processor.rs:575-660) accepts any relay-round
    account.  On the proposal for round 10 (relays 21, 22, 23) key 21 fills the first position with
    round 10 and the second with round 11 (relays 30, 21, 31), key 31, which is no relay of round 10,
    fills the third, and the proposal has its three confirmations. *)
Theorem C17_refuted :
  exists e s0 s k p rk rr,
    genesis e rl_id s0 /\ rl_hist e s0 s /\ rl_fin s k p /\ confirmations p = p_required p /\
    rl_round s rk rr /\ addr e (str "relay_round" ++ le 4 (rr_number rr)) rk /\ p_round p = rr_number rr /\
    rr_relays rr = [knum 21; knum 22; knum 23] /\
    signed_position e s0 s k 0 VConfirm (knum 21) /\
    signed_position e s0 s k 1 VConfirm (knum 21) /\
    signed_position e s0 s k 2 VConfirm (knum 31) /\ ~ In (knum 31) (rr_relays rr).
Proof.
  exists de, ds0, ds10, de_prop.
  exists (Prop_ true (KProposal 255 None) (knum 2) 10 3 (Pda 7 8 (knum 9)) (WithLen 140 de_ev) (WithLen 1 PNew) [VConfirm; VConfirm; VConfirm]).
  exists de_r10, (RelayRound true (KRelayRound 255) 10 2900 [knum 21; knum 22; knum 23]).
  split; [exact ds0_genesis|]. split; [apply ds10_hist; right; right; right; left; reflexivity|].
  destruct de_records as (R7 & R8 & R9 & R10 & RR & _).
  split; [exact R10|]. split; [vm_compute; reflexivity|].
  split; [exact RR|]. split; [exists 255; vm_compute; reflexivity|].
  split; [reflexivity|]. split; [reflexivity|].
  assert (SP : forall s r w n l l', In s [ds7; ds8; ds9; ds10] -> is_ok (stp s (de_vote r w)) = true ->
     rl_hist de (unres (stp s (de_vote r w))) ds10 ->
     rl_fin s de_prop (Prop_ true (KProposal 255 None) (knum 2) 10 3 (Pda 7 8 (knum 9)) (WithLen 140 de_ev) (WithLen 1 PNew) l) ->
     nth_error l n = Some VNone ->
     rl_fin (unres (stp s (de_vote r w))) de_prop (Prop_ true (KProposal 255 None) (knum 2) 10 3 (Pda 7 8 (knum 9)) (WithLen 140 de_ev) (WithLen 1 PNew) l') ->
     nth_error l' n = Some VConfirm ->
     signed_position de ds0 ds10 de_prop n VConfirm w).
  { intros s r w n l l' I O H F N F' N'. exists s, (unres (stp s (de_vote r w))), (ctx_of rl_id (fst (de_vote r w))).
    do 2 eexists. split; [apply ds10_hist; exact I|]. split.
    { split; [reflexivity|]. eexists. split; [|apply do_rl_step; exact O]. vm_compute. reflexivity. }
    split; [exact H|]. split.
    { apply ctx_sg_one. intros m [<-|[<-|[<-|[]]]]; cbn; [reflexivity|discriminate|discriminate]. }
    split; [exact F|]. split; [exact N|]. split; [exact F'|exact N']. }
  split; [|split; [|split]].
  - apply (SP ds7 de_r10 (knum 21) 0%nat [VNone; VNone; VNone] [VConfirm; VNone; VNone]);
      [left; reflexivity|exact (de_run 7 _ eq_refl)|exact (hist_trans _ _ _ _ _ _ st89 st9x)|exact R7|reflexivity|exact R8|reflexivity].
  - apply (SP ds8 de_r11 (knum 21) 1%nat [VConfirm; VNone; VNone] [VConfirm; VConfirm; VNone]);
      [right; left; reflexivity|exact (de_run 8 _ eq_refl)|exact st9x|exact R8|reflexivity|exact R9|reflexivity].
  - apply (SP ds9 de_r11 (knum 31) 2%nat [VConfirm; VConfirm; VNone] [VConfirm; VConfirm; VConfirm]);
      [right; right; left; reflexivity|exact (de_run 9 _ eq_refl)|exact (h_refl _ _ _ _)|exact R9|reflexivity|exact R10|reflexivity].
  - cbn [rr_relays In]. intros [H|[H|[H|[]]]]; apply (f_equal kb) in H; vm_compute in H; discriminate H.
Qed.

(** What does hold: if every vote presents the relay round the proposal was finalized for and nobody
    uploads into relay rounds, then each recorded vote was signed by the relay at that position of
    the proposal's own round, and no relay key has two positions.  Missing for the full property:
    both restrictions, neither of which the code enforces. *)
Definition rl_instr_disciplined (e : env) (s s' : state) : Prop :=
  exists c i, rl_call e c i s s' /\
    (forall v voter k rk rest p rr, i = RlVote v -> c_keys c = voter :: k :: rk :: rest ->
       rl_fin s k p -> rl_round s rk rr -> rr_number rr = p_round p) /\
    (forall o b k rr, i = RlWriteProposal o b -> hd_error (c_keys c) = Some k -> ~ rl_round s k rr).

Definition own_vote (e : env) (s0 s : state) (k : key) (p : rl_proposal) (n : nat) (v : vote) (w : key) : Prop :=
  exists rk rr,
    addr e (str "relay_round" ++ le 4 (p_round p)) rk /\ rl_round s rk rr /\ rr_number rr = p_round p /\
    nth_error (rr_relays rr) n = Some w /\
    exists s1 s2 c, rl_hist e s0 s1 /\ rl_call e c (RlVote v) s1 s2 /\ rl_hist e s2 s /\ c_sg c w = true.

Lemma disciplined_instr e s s' : rl_instr_disciplined e s s' -> rl_instr e s s'.
Proof. intros (c & i & C & _). apply call_exec in C. apply C. Qed.

Lemma disciplined_inv e s0 s : genesis e rl_id s0 -> hist e rl_id (rl_instr_disciplined e) s0 s ->
  forall k p n v, rl_fin s k p -> nth_error (p_signers p) n = Some v -> v <> VNone ->
  exists rk rr w m1 m2,
    find_pda e (str "relay_round" ++ le 4 (p_round p)) rl_id = Ok (rk, m1) /\
    rl_round s rk rr /\ rr_kind rr = KRelayRound m2 /\ rr_number rr = p_round p /\
    nth_error (rr_relays rr) n = Some w /\ (forall j, (j < n)%nat -> nth_error (rr_relays rr) j <> Some w) /\
    exists s1 s2 c, rl_hist e s0 s1 /\ rl_call e c (RlVote v) s1 s2 /\ rl_hist e s2 s /\ c_sg c w = true.
Proof.
  intros G H. pose proof (rl_genesis_inv _ _ G) as I.
  induction H as [s|s s1 s2 H IH P|s s1 s2 H IH P|s s1 s2 H IH P]; intros k p n v F N V.
  - destruct F as [O _]. destruct (G k) as (_ & X & _). contradiction.
  - assert (H' : rl_hist e s s1) by exact (hist_weaken _ _ _ _ _ _ (disciplined_instr e) H).
    pose proof (rl_inv_hist _ _ _ H' I) as I1. specialize (IH G I).
    pose proof (disciplined_instr _ _ _ P) as PI.
    destruct P as (c & i & C & D1 & D2). pose proof C as C0. apply call_exec in C as (Hp & Ok & R & _).
    destruct (vote_back _ _ _ _ _ _ _ _ _ Hp Ok I1 R F N V) as (q & Fq & [X|(-> & X & rr & rrk & voter & S1 & S2 & S3 & S4 & rest & K)]).
    + destruct (IH k q n v Fq X V) as (rk & rr & w & m1 & m2 & A1 & A2 & A3 & A4 & A5 & A6 & a & b & c0 & B1 & B2 & B3 & B4).
      destruct (fin_step_ok _ _ _ _ _ _ _ Hp R Fq) as (p2 & F2 & FS).
      rewrite (fin_inj _ _ _ _ F F2). assert (PR : p_round p2 = p_round q) by (destruct FS as [->|m u _ _ _ ->| ->]; reflexivity).
      destruct (round_step _ _ _ _ _ _ _ _ Hp Ok R A2 A3) as (rr' & R' & _ & E).
      assert (EQ : rr' = rr) by (apply E; intros o bb Ei Hd; exact (D2 o bb rk rr Ei Hd A2)). subst rr'.
      exists rk, rr, w, m1, m2. rewrite PR. split; [exact A1|]. split; [exact R'|]. split; [exact A3|]. split; [exact A4|].
      split; [exact A5|]. split; [exact A6|]. exists a, b, c0. split; [exact B1|]. split; [exact B2|].
      split; [apply (h_prog _ _ _ _ s1); [exact B3|exact PI]|exact B4].
    + pose proof (round_in_own _ _ _ _ I1 S2) as RR.
      pose proof (D1 _ _ _ _ _ _ _ eq_refl K Fq RR) as NUM.
      destruct S2 as [_ (m & KD & PD)].
      destruct (fin_step_ok _ _ _ _ _ _ _ Hp R Fq) as (p2 & F2 & FS).
      rewrite (fin_inj _ _ _ _ F F2). assert (PR : p_round p2 = p_round q) by (destruct FS as [->|m0 u _ _ _ ->| ->]; reflexivity).
      destruct (round_step _ _ _ _ _ _ _ _ Hp Ok R RR KD) as (rr' & R' & _ & E).
      assert (EQ : rr' = rr) by (apply E; intros o bb Ei; discriminate Ei). subst rr'.
      exists rrk, rr, voter, m, m. rewrite PR, <- NUM. split; [exact PD|]. split; [exact R'|]. split; [exact KD|].
      split; [reflexivity|]. split; [exact S3|]. split; [exact S4|]. exists s1, s2, c.
      split; [exact H'|]. split; [exact C0|]. split; [apply h_refl|exact S1].
  - assert (H' : rl_hist e s s1) by exact (hist_weaken _ _ _ _ _ _ (disciplined_instr e) H).
    specialize (IH G I). destruct F as [O U]. destruct (P k) as (_ & P2 & P3 & _).
    destruct (key_dec (own (accs s1 k)) rl_id) as [O1|O1].
    + destruct (P2 O1) as [[A B] _].
      destruct (IH k p n v) as (rk & rr & w & m1 & m2 & A1 & [A2 A2'] & A3 & A4 & A5 & A6 & a & b & c0 & B1 & B2 & B3 & B4); [split; congruence|exact N|exact V|].
      exists rk, rr, w, m1, m2. split; [exact A1|]. split.
      { destruct (P rk) as (_ & P2' & _). destruct (P2' A2) as [[X Y] _]. split; congruence. }
      split; [exact A3|]. split; [exact A4|]. split; [exact A5|]. split; [exact A6|]. exists a, b, c0.
      split; [exact B1|]. split; [exact B2|]. split; [|exact B4]. apply (h_foreign _ _ _ _ s1); assumption.
    + exfalso. specialize (P3 O1 O). apply all0_hd in P3. rewrite (fin_hd s2 k p) in P3; [discriminate|split; assumption].
  - assert (H' : rl_hist e s s1) by exact (hist_weaken _ _ _ _ _ _ (disciplined_instr e) H).
    pose proof (rl_inv_hist _ _ _ H' I) as I1.
    specialize (IH G I). destruct F as [O U]. destruct (P k) as [E|[_ E]]; [|rewrite E in O; discriminate].
    destruct (IH k p n v) as (rk & rr & w & m1 & m2 & A1 & [A2 A2'] & A3 & A4 & A5 & A6 & a & b & c0 & B1 & B2 & B3 & B4); [split; congruence|exact N|exact V|].
    exists rk, rr, w, m1, m2. split; [exact A1|]. split.
    { destruct (P rk) as [X|[L _]]; [split; congruence|]. destruct (I1 rk) as (_ & J & _).
      destruct (J (find_pda_is _ _ _ _ _ A1)) as [[X _]|[_ X]]; [rewrite A2 in X; discriminate|lia]. }
    split; [exact A3|]. split; [exact A4|]. split; [exact A5|]. split; [exact A6|]. exists a, b, c0.
    split; [exact B1|]. split; [exact B2|]. split; [|exact B4]. apply (h_purge _ _ _ _ s1); assumption.
Qed.

Theorem C17_partial : forall e s0 s k p, genesis e rl_id s0 -> hist e rl_id (rl_instr_disciplined e) s0 s ->
  rl_fin s k p ->
  (forall n v, nth_error (p_signers p) n = Some v -> v <> VNone -> exists w, own_vote e s0 s k p n v w) /\
  (forall n m v v' w, nth_error (p_signers p) n = Some v -> v <> VNone ->
     nth_error (p_signers p) m = Some v' -> v' <> VNone ->
     forall rk rr, addr e (str "relay_round" ++ le 4 (p_round p)) rk -> rl_round s rk rr ->
     nth_error (rr_relays rr) n = Some w -> nth_error (rr_relays rr) m = Some w -> n = m).
Proof.
  intros e s0 s k p G H F. pose proof (disciplined_inv _ _ _ G H k p) as D. split.
  - intros n v N V. destruct (D n v F N V) as (rk & rr & w & m1 & m2 & A1 & A2 & A3 & A4 & A5 & A6 & R).
    exists w, rk, rr. split; [exists m1; exact A1|]. auto.
  - intros n m v v' w N V N' V' rk rr [q A] R W1 W2.
    destruct (D n v F N V) as (rk1 & rr1 & w1 & m1 & m2 & A1 & A2 & A3 & A4 & A5 & A6 & _).
    destruct (D m v' F N' V') as (rk2 & rr2 & w2 & m3 & m4 & B1 & B2 & B3 & B4 & B5 & B6 & _).
    assert (rk1 = rk) by congruence. assert (rk2 = rk) by congruence. subst rk1 rk2.
    assert (rr1 = rr) by (destruct A2, R; congruence). assert (rr2 = rr) by (destruct B2, R; congruence). subst rr1 rr2.
    assert (w1 = w) by congruence. assert (w2 = w) by congruence. subst w1 w2.
    destruct (Nat.lt_trichotomy n m) as [X|[X|X]]; [exfalso; exact (B6 n X A5)|exact X|exfalso; exact (A6 m X B5)].
Qed.

(** The hypotheses are met by a history with two votes through the right round. *)
Definition ds9r := unres (stp ds8 (de_vote de_r10 (knum 22))).
Lemma disciplined_step s x :
  is_ok (stp s x) = true ->
  (try_from_slice c_rl_ix (enc c_rl_ix (snd x)) = Some (snd x)) ->
  match snd x with
  | RlVote _ => match fst x with
                | _ :: k :: rk :: _ =>
                    match unpack c_rl_proposal RL_PROPOSAL_LEN (@p_init _ _) (dat (accs s (m_key k))),
                          unpack c_relay_round RELAY_ROUND_LEN rr_init (dat (accs s (m_key rk))) with
                    | Ok p, Ok rr => rr_number rr =? p_round p
                    | _, _ => false end
                | _ => false end
  | RlWriteProposal _ _ => match fst x with
                           | k :: _ => negb (is_ok (unpack c_relay_round RELAY_ROUND_LEN rr_init (dat (accs s (m_key k)))))
                           | _ => false end
  | _ => true
  end = true -> rl_instr_disciplined de s (unres (stp s x)).
Proof.
  destruct x as [ms i]. cbn [fst snd]. intros O T Q.
  exists (ctx_of rl_id ms), i. split.
  { split; [reflexivity|]. exists (enc c_rl_ix i). split; [exact T|]. exact (ok_unres _ O). }
  cbn [ctx_of c_keys]. split.
  - intros v voter k rk rest p rr -> K [_ F] [_ R]. destruct ms as [|m1 [|m2 [|m3 ms]]]; try discriminate K.
    cbn [map] in K. injection K as _ <- <- _. rewrite F, R in Q. lia.
  - intros o b k rr -> K [_ R]. destruct ms as [|m1 ms]; [discriminate K|]. cbn [map hd_error] in K. injection K as <-.
    rewrite R in Q. discriminate.
Qed.

Example C17_example :
  genesis de rl_id ds0 /\ hist de rl_id (rl_instr_disciplined de) ds0 ds9r /\
  rl_fin ds9r de_prop (Prop_ true (KProposal 255 None) (knum 2) 10 3 (Pda 7 8 (knum 9)) (WithLen 140 de_ev)
    (WithLen 1 PNew) [VConfirm; VConfirm; VNone]).
Proof.
  split; [exact ds0_genesis|]. split; [|split; vm_compute; reflexivity].
  repeat (eapply h_prog; [|apply disciplined_step; vm_compute; reflexivity]). apply h_refl.
Qed.

(** * C18 A proposal is executed at most once by quorum *)

Lemma put_same_accs s k : forall j, accs (put_dat s k (dat (accs s k))) j = accs s j.
Proof.
  intros j. unfold put_dat. destruct (key_dec j k) as [->|NJ].
  - rewrite accs_put_same. destruct (accs s k); reflexivity.
  - apply accs_put_other. exact NJ.
Qed.

Theorem C18_executed_once : forall e s0 s1 s2 s3 s4 c c' k, genesis e rl_id s0 -> rl_hist e s0 s1 ->
  (* a quorum execution of proposal [k] that had an effect *)
  rl_call e c RlExecute s1 s2 -> nth_error (c_keys c) 2 = Some k -> (exists j, accs s2 j <> accs s1 j) ->
  (* anything happens *)
  rl_hist e s2 s3 ->
  (* another quorum execution of the same proposal *)
  rl_call e c' RlExecute s3 s4 -> nth_error (c_keys c') 2 = Some k ->
  (forall j, accs s4 j = accs s3 j) /\ logs s4 = logs s3.
Proof.
  intros e s0 s1 s2 s3 s4 c c' k G H0 C1 N1 [j0 CH] H C2 N2.
  pose proof (rl_inv_hist _ _ _ H0 (rl_genesis_inv _ _ G)) as I.
  apply call_exec in C1 as (Hp & _ & C1 & I12). apply call_exec in C2 as (Hp' & _ & C2 & _). cbn [rl_exec] in C1, C2.
  apply rl_execute_ok in C1 as (f & sk & k1 & rk & sys & rest & st & pn & p & K & VS & U & PA & [[_ ->]|(P1 & P2 & O & W & _ & _ & WR & _)]).
  { exfalso. apply CH. apply put_same_accs. }
  rewrite K in N1. cbn [nth_error] in N1. injection N1 as ->. rewrite Hp in *.
  assert (F2 : rl_fin s2 k (executed p)).
  { pose proof U as U0. apply unpack_ok in U0 as (r & _ & OK & LEN & I0); [|typeclasses eauto].
    split; [destruct WR; congruence|]. apply unpack_init; [|exact I0].
    eapply wrote_unpack; [typeclasses eauto|exact WR|exact LEN|]. apply okb_executed. exact OK. }
  assert (I2 : rl_inv e s2) by (eapply rl_inv_step; eassumption).
  destruct (fin_hist _ _ _ I2 H _ _ F2) as (p3 & F3 & (_ & _ & _ & _ & _ & _ & _ & _ & EX)).
  apply rl_execute_ok in C2 as (f' & sk' & k2 & rk' & sys' & rest' & st' & pn' & p' & K' & VS' & U' & PA' & R).
  rewrite K' in N2. cbn [nth_error] in N2. injection N2 as ->. destruct F3 as [_ F3].
  assert (p' = p3) by congruence. subst p'. specialize (EX eq_refl).
  destruct R as [[_ ->]|(P1' & _)]; [|congruence]. split; [apply put_same_accs|reflexivity].
Qed.

Example C18_example :
  demo_genesisb de_tab rl_id de_accs = true /\
  own (accs ds11 de_r5) = rl_id /\ own (accs ds10 de_r5) = sys_id /\
  rbind (stp ds11 de_exec) (fun s => Ok (lam (accs s (knum 2)), beqb (dat (accs s de_settings)) (dat (accs ds11 de_settings))))
    = Ok (lam (accs ds11 (knum 2)), true).
Proof. vm_compute. repeat split; reflexivity. Qed.

(** * C19 The current round number (finding: execution can lower it) *)

Definition C19_full : Prop := forall e s0 c i s s' k st st', genesis e rl_id s0 -> rl_hist e s0 s ->
  rl_call e c i s s' -> (forall a b m t, i <> RlUpdateSettings a b m t) ->
  rl_sets s k st -> rl_sets s' k st' -> rs_current st <= rs_current st'.

(** FALSE of the code: execution stores the event's round number without comparing it to the current
    one (round-loader/src/processor.rs:765-775); a proposal for round 5 executed in round 12 brings
    the bridge back to round 5. *)
Theorem C19_refuted : exists e s0 c s s' k st st',
  genesis e rl_id s0 /\ rl_hist e s0 s /\ rl_call e c RlExecute s s' /\
  rl_sets s k st /\ rl_sets s' k st' /\ rs_current st = 12 /\ rs_current st' = 5.
Proof.
  exists de, ds0, (ctx_of rl_id (fst de_exec)), ds10, ds11, de_settings,
    (RlSettings true (KSettings 255 254) 12 (knum 11) 3 1000), (RlSettings true (KSettings 255 254) 5 (knum 11) 3 1000).
  split; [exact ds0_genesis|]. split; [apply ds10_hist; cbn [In]; right; right; right; left; reflexivity|].
  split.
  { split; [reflexivity|]. exists (enc c_rl_ix (snd de_exec)). split; [vm_compute; reflexivity|].
    apply (do_rl_step de (fst de_exec) (snd de_exec) ds10). exact (de_run 10 _ eq_refl). }
  destruct de_records as (_ & _ & _ & _ & _ & S10 & S11). split; [exact S10|]. split; [exact S11|]. split; reflexivity.
Qed.

Corollary C19_full_false : ~ C19_full.
Proof.
  intros H. destruct C19_refuted as (e & s0 & c & s & s' & k & st & st' & G & H0 & C & R & R' & E & E').
  assert (X := H e s0 c RlExecute s s' k st st' G H0 C). rewrite E, E' in X.
  assert (12 <= 5) by (apply X; [discriminate|exact R|exact R']). lia.
Qed.

(** What does hold: only the authority's update and the execution of a proposal with a smaller round
    number lower the current round; the submitter's creation of rounds never does; and whenever the
    number changes without an update it becomes the number of a relay round created right then. *)
Theorem C19_partial : forall e s0 c i s s' k st, genesis e rl_id s0 -> rl_hist e s0 s ->
  rl_call e c i s s' -> (forall a b m t, i <> RlUpdateSettings a b m t) -> rl_sets s k st ->
  exists st', rl_sets s' k st' /\
    rs_submitter st' = rs_submitter st /\ rs_min_votes st' = rs_min_votes st /\ rs_ttl st' = rs_ttl st /\
    (rs_current st <= rs_current st' \/
     ((i = RlExecute \/ i = RlExecuteByAdmin) /\
      exists pk p, unpack c_rl_proposal RL_PROPOSAL_LEN (@p_init _ _) (dat (accs s pk)) = Ok p /\
        re_round (wl_data (p_event p)) = rs_current st' /\ rs_current st' < rs_current st)) /\
    (rs_current st' = rs_current st \/
     exists rk rr, addr e (str "relay_round" ++ le 4 (rs_current st')) rk /\ own (accs s rk) <> rl_id /\
       rl_round s' rk rr /\ rr_number rr = rs_current st').
Proof.
  intros e s0 c i s s' k st G H0 C NU R. apply call_exec in C as (Hp & Ok & C & _).
  destruct (sets_step_ok _ _ _ _ _ _ _ Hp Ok C R) as (st' & R' & [->|cur sub mv ttl auth E _ _ _|n l t rrk rn -> RC P O RR]).
  - exists st. split; [exact R'|]. repeat (split; [reflexivity|]). split; left; [lia|reflexivity].
  - exfalso. eapply NU. exact E.
  - exists (rs_with_current st n). split; [exact R'|]. cbn [rs_with_current rs_submitter rs_min_votes rs_ttl rs_current].
    repeat (split; [reflexivity|]).
    pose proof (round_cause_range _ _ _ _ _ _ _ _ _ Ok RC) as (RN & _).
    split.
    + destruct (Z_le_gt_dec (rs_current st) n) as [LE|GT]; [left; exact LE|right].
      destruct RC as [(_ & _ & X)|(pk & p & EV & U & _ & X)]; [exfalso; lia|].
      split; [destruct X as [(X & _)|(X & _)]; [left|right]; exact X|].
      exists pk, p. split; [exact U|]. rewrite <- EV. cbn [re_round]. split; [reflexivity|lia].
    + right. exists rrk. eexists. split; [exists rn; exact P|]. split; [rewrite O; discriminate|].
      split; [exact RR|reflexivity].
Qed.

Lemma new_round_sets e c f settings rrk st st1 pn n l t s s1 s' sk k rr : c_pid c = rl_id ->
  addr e (str "settings") sk -> rl_sets s sk st -> rl_settings_in e (c_pid c) s settings st1 pn ->
  rl_new_round e c f settings rrk st1 n l t s = Ok (tt, s1) ->
  0 <= n < u32max /\ blen l < u32max /\ 0 <= t < u32max ->
  (forall j, own (accs s' j) = own (accs s1 j) /\ (j = settings \/ j = rrk -> dat (accs s' j) = dat (accs s1 j))) ->
  own (accs s k) <> rl_id -> rl_round s' k rr -> rl_sets s' sk (rs_with_current st (rr_number rr)).
Proof.
  intros Hp [b A] RS V H RN E NO R. rewrite Hp in V.
  pose proof V as [U (m & _ & P)]. change sd_settings with (str "settings") in P. assert (settings = sk) by congruence. subst settings.
  pose proof RS as [O U0]. assert (st1 = st) by congruence. subst st1.
  apply rl_new_round_ok in H as (rn & R1 & R2 & R3 & R4 & R5 & R6 & R7 & R8 & _).
  assert (K : k = rrk).
  { destruct (key_dec k rrk) as [K|K]; [exact K|exfalso]. destruct (key_dec k sk) as [->|K2]; [congruence|].
    destruct (R8 k K2 K) as [X _]. destruct R as [R _]. rewrite (proj1 (E k)), X in R. congruence. }
  subst k. assert (NU : rr_number rr = n).
  { destruct R3 as (_ & _ & r & D & B1 & B2). destruct R as [_ R]. rewrite (proj2 (E rrk) (or_intror eq_refl)), D in R.
    rewrite unpack_enc in R; [injection R as <-; reflexivity|typeclasses eauto| |reflexivity|rewrite <- D; exact B2].
    destruct RN as (RN1 & RN2 & RN3). apply okb_new_round; [|exact RN1|exact RN2]. apply find_pda_some in R1 as [_ R1]. lia. }
  rewrite NU. split; [rewrite (proj1 (E sk)); congruence|].
  rewrite (proj2 (E sk) (or_introl eq_refl)), R4.
  pose proof U0 as U1. apply unpack_ok in U1 as (r0 & D0 & OK0 & B0 & I0); [|typeclasses eauto].
  apply unpack_init; [|exact I0]. rewrite <- R4. eapply wrote_unpack with (s := s); [typeclasses eauto| |exact B0|apply okb_sets_with; [exact OK0|apply RN]].
  split; [exact R5|]. split; [exact R4|exact R6].
Qed.

(** Whenever a relay round comes into being, its number becomes the current one, and nothing else of the settings
    changes. *)
Theorem C19_follows : forall e s0 c i s s' k rr, genesis e rl_id s0 -> rl_hist e s0 s -> rl_call e c i s s' ->
  own (accs s k) <> rl_id -> rl_round s' k rr ->
  exists sk st, addr e (str "settings") sk /\ rl_sets s sk st /\ rl_sets s' sk (rs_with_current st (rr_number rr)).
Proof.
  intros e s0 c i s s' k rr G H0 C NO R.
  destruct (C11_round_origin e s0 c i s s' k rr G H0 C NO R) as (sk & st & A & RS & _ & _ & W).
  exists sk, st. split; [exact A|]. split; [exact RS|].
  apply call_exec in C as (Hp & Hok & C & _).
  destruct W as [(_ & t & ->)|[(_ & -> & _)|(-> & _)]]; cbn [rl_exec] in C.
  - apply rl_create_relay_round_ok in C as (f & cr & settings & rrk & sys & rest & st1 & pn & _ & _ & V & _ & _ & H).
    eapply new_round_sets; [exact Hp|exact A|exact RS|exact V|exact H| |intros j; split; reflexivity|exact NO|exact R].
    apply (okb_ix_round _ _ _ Hok).
  - apply rl_execute_by_admin_ok in C as (f & cr & settings & pk & rrk & sys & rest & st1 & pn & p & _ & _ & V & _ & U & N1 & N2 & _ & _ & s1 & H & E).
    eapply new_round_sets; [exact Hp|exact A|exact RS|exact V|exact H| | |exact NO|exact R].
    + apply unpack_ok in U as (r & _ & OK & _); [|typeclasses eauto]. apply okb_event_parts in OK. exact OK.
    + intros j. split; [rewrite E, own_put_dat; reflexivity|]. intros J. rewrite E, dat_put_dat_other; [reflexivity|]. destruct J; congruence.
  - apply rl_execute_ok in C as (f & settings & pk & rrk & sys & rest & st1 & pn & p & _ & V & U & _ & [[_ E]|(_ & _ & _ & _ & N1 & N2 & _ & s1 & H & E)]).
    { exfalso. destruct R as [R _]. rewrite E, own_put_dat in R. contradiction. }
    eapply new_round_sets; [exact Hp|exact A|exact RS|exact V|exact H| | |exact NO|exact R].
    + apply unpack_ok in U as (r & _ & OK & _); [|typeclasses eauto]. apply okb_event_parts in OK. exact OK.
    + intros j. split; [rewrite E, own_put_dat; reflexivity|]. intros J. rewrite E, dat_put_dat_other; [reflexivity|]. destruct J; congruence.
Qed.

Example C19_example :
  rbind (stp ds3 (de_round de_r12 12 de_relays12 1990)) (fun s =>
    rbind (unpack c_rl_settings RL_SETTINGS_LEN rs_init (dat (accs s de_settings))) (fun st => Ok (rs_current st))) = Ok 12 /\
  stp ds4 (de_round de_r5 5 de_relays12 1990) = Err (Custom 3).
Proof. vm_compute. split; reflexivity. Qed.

(** * C20 Expiry of new rounds (finding: the sum wraps) *)

(** [rr] was created by [i] with requested end [t]. *)
Definition requested_end (s : state) (i : rl_ix) (rr : relay_round) (t : Z) : Prop :=
  i = RlCreateRelayRound (rr_number rr) (rr_relays rr) t \/
  exists pk p, unpack c_rl_proposal RL_PROPOSAL_LEN (@p_init _ _) (dat (accs s pk)) = Ok p /\
    wl_data (p_event p) = RlEvent (rr_number rr) (rr_relays rr) t.

Definition C20_full : Prop := forall e s0 c i s s' k rr sk st t, genesis e rl_id s0 -> rl_hist e s0 s ->
  rl_call e c i s s' -> own (accs s k) <> rl_id -> rl_round s' k rr ->
  addr e (str "settings") sk -> rl_sets s sk st -> requested_end s i rr t -> rr_end rr = t + rs_ttl st.

(** FALSE of the code: the addition of two u32 (round-loader/src/processor.rs:346, 756, 859) wraps in a
    release build; a round requested to last until the end of time expires in 1970. *)
Theorem C20_refuted : exists e s0 c i s s' k rr sk st t,
  genesis e rl_id s0 /\ rl_hist e s0 s /\ rl_call e c i s s' /\ own (accs s k) <> rl_id /\ rl_round s' k rr /\
  addr e (str "settings") sk /\ rl_sets s sk st /\ requested_end s i rr t /\
  t = 4294967295 /\ rs_ttl st = 1000 /\ rr_end rr = 999.
Proof.
  exists de, ds0, (ctx_of rl_id (fst (de_round de_r13 13 [knum 21] 4294967295))), (RlCreateRelayRound 13 [knum 21] 4294967295),
    ds4, (unres (stp ds4 (de_round de_r13 13 [knum 21] 4294967295))), de_r13, (RelayRound true (KRelayRound 255) 13 999 [knum 21]),
    de_settings, (RlSettings true (KSettings 255 254) 12 (knum 11) 3 1000), 4294967295.
  split; [exact ds0_genesis|]. split; [exact ds4_hist|]. split.
  { split; [reflexivity|]. exists (enc c_rl_ix (RlCreateRelayRound 13 [knum 21] 4294967295)). split; [vm_compute; reflexivity|].
    apply (do_rl_step de (fst (de_round de_r13 13 [knum 21] 4294967295)) (RlCreateRelayRound 13 [knum 21] 4294967295) ds4).
    vm_compute. reflexivity. }
  split; [intros H; apply (f_equal kb) in H; revert H; vm_compute; discriminate|].
  split; [split; vm_compute; reflexivity|]. split; [exists 255; vm_compute; reflexivity|].
  split; [split; vm_compute; reflexivity|]. split; [left; reflexivity|]. repeat split; reflexivity.
Qed.

Corollary C20_full_false : ~ C20_full.
Proof.
  intros H. destruct C20_refuted as (e & s0 & c & i & s & s' & k & rr & sk & st & t & G & H0 & C & O & R & A & S & Q & E1 & E2 & E3).
  specialize (H e s0 c i s s' k rr sk st t G H0 C O R A S Q). lia.
Qed.

(** What does hold: the stored expiry is the sum modulo 2^32, hence the sum itself if that fits. *)
Theorem C20_partial : forall e s0 c i s s' k rr, genesis e rl_id s0 -> rl_hist e s0 s ->
  rl_call e c i s s' -> own (accs s k) <> rl_id -> rl_round s' k rr ->
  exists sk st t, addr e (str "settings") sk /\ rl_sets s sk st /\ requested_end s i rr t /\
    0 <= t < 2 ^ 32 /\ rr_end rr = (t + rs_ttl st) mod 2 ^ 32 /\
    (t + rs_ttl st < 2 ^ 32 -> rr_end rr = t + rs_ttl st).
Proof.
  intros e s0 c i s s' k rr G H0 H NO R. pose proof (rl_inv_hist _ _ _ H0 (rl_genesis_inv _ _ G)) as I.
  apply call_exec in H as (Hp & Hok & H & _). pose proof (round_len _ _ _ R) as L'.
  destruct (rl_exec_effect e c i s s' H k) as
    [E|g sub mv ttl auth sn pn E1 E2 E3 E4 E5 E6|cur sub mv ttl auth st pn E1 E2 E3 E4 E5 E6
    |st pn rrk rn m l t E1 E2 E3 E4 E5 E6|sk st pn rn m l t E1 E2 E3 E4 E5|r0 ts lt conf h pn creator E1 E2 E3 E4 E5
    |o b d' E1 E2 E3 E4 E5|p0 st sk pn rr0 rrk E1 E2 E3 E4 E5 E6 E7 E8 E9|v p0 m E|sk st pn m l t p0 E1 E2 E3 E4 E5 E6 E7];
    rewrite ?Hp in *; try congruence.
  - exfalso. destruct E as [E _], R as [R _]. congruence.
  - apply fresh_len in E5. rewrite L' in E5. discriminate.
  - pose proof (fresh_round _ _ _ _ _ _ _ _ _ _ _ _ Hok E2 E3 eq_refl E4) as [_ R2].
    destruct R as [_ R]. assert (X : rr = RelayRound true (KRelayRound rn) m (wrap32 (t + rs_ttl st)) l) by congruence.
    subst rr. unfold requested_end. cbn [rr_number rr_relays rr_end]. exists sk, st, t.
    split; [destruct E1 as [_ (n & _ & P)]; exists n; exact P|].
    pose proof (settings_in_own _ _ _ _ _ I E1) as SO.
    split; [exact SO|]. pose proof (round_cause_range _ _ _ _ _ _ _ _ _ Hok E2) as (_ & _ & RT).
    split.
    + destruct E2 as [(A1 & A2 & _)|(pk & p & EV & U & _)]; [left; exact A1|right; exists pk, p; auto].
    + split; [exact RT|]. split; [reflexivity|]. intros LT. apply wrap32_small.
      destruct SO as [_ U]. apply unpack_ok in U as (r & _ & OK & _); [|typeclasses eauto].
      apply okb_sets_parts in OK as (_ & _ & _ & T). change (2 ^ 32) with u32max in LT. lia.
  - apply fresh_len in E4. rewrite L' in E4. discriminate.
  - destruct E as (_ & _ & E3 & _). congruence.
Qed.

Example C20_example :
  rbind (stp ds4 (de_round de_r13 13 [knum 21] 4294966000)) (fun s =>
    rbind (unpack c_relay_round RELAY_ROUND_LEN rr_init (dat (accs s de_r13))) (fun rr => Ok (rr_end rr))) = Ok 4294967000.
Proof. vm_compute. reflexivity. Qed.

(** * C21 A finalized proposal stays usable (finding: finalization can make it unusable) *)

Definition C21_full : Prop := forall e s0 s k p, genesis e rl_id s0 -> rl_hist e s0 s -> rl_fin s k p ->
  proposal_matches e k p.

(** FALSE of the code: finalization accepts any relay round and stores its number in the proposal
    (round-loader/src/processor.rs:531-556), but the address was derived from the number given at
    creation.  Anybody can so finalize a proposal with a foreign round; from then on no vote and no
    execution of it succeeds in any history. *)
Definition ds7b := unres (stp ds6 (de_final de_r11)).
Theorem C21_refuted : exists e s0 s k p,
  genesis e rl_id s0 /\ rl_hist e s0 s /\ rl_fin s k p /\ ~ proposal_matches e k p /\
  forall s1, rl_hist e s s1 ->
    (forall c v s2, nth_error (c_keys c) 1 = Some k -> ~ rl_call e c (RlVote v) s1 s2) /\
    (forall c s2, nth_error (c_keys c) 2 = Some k -> ~ rl_call e c RlExecute s1 s2) /\
    (forall c s2, nth_error (c_keys c) 1 = Some k -> ~ rl_call e c RlFinalize s1 s2).
Proof.
  set (p := Prop_ true (KProposal 255 None) (knum 2) 11 3 (Pda 7 8 (knum 9)) (WithLen 140 de_ev) (WithLen 1 PNew) [VNone; VNone; VNone] : rl_proposal).
  assert (F : rl_fin ds7b de_prop p) by (split; vm_compute; reflexivity).
  assert (H7 : rl_hist de ds0 ds7b).
  { apply (stp_hist ds0 ds6 (de_final de_r11) ds6_past). vm_compute. reflexivity. }
  assert (NP : forall q n, p_round q = 11 -> p_pda q = Pda 7 8 (knum 9) -> p_event q = WithLen 140 de_ev ->
    find_pda de (sd_proposal (p_round q) (pd_ts (p_pda q)) (pd_lt (p_pda q)) (pd_conf (p_pda q))
      (e_hash de (enc c_rl_event (wl_data (p_event (q : rl_proposal)))))) rl_id <> Ok (de_prop, n)).
  { intros q n E1 E2 E3. rewrite E1, E2, E3. intros X. apply find_pda_some in X as [X _].
    assert (Y : find_pda de (sd_proposal 11 7 8 (knum 9) (knum 500)) rl_id = Ok (knum 121, 255)) by (vm_compute; reflexivity).
    revert X. change (e_hash de _) with (knum 500). cbn [pd_ts pd_lt pd_conf].
    cbn [de demo_env e_pda]. unfold de_tab. cbn [pda_lookup].
    repeat match goal with |- context [beqb ?a ?b && ?c] => destruct (beqb a b && c) eqn:?B; [
      first [intros X; apply (f_equal (option_map kb)) in X; revert X; vm_compute; discriminate
            | apply andb_true_iff in B as [B _]; apply beqb_eq in B; apply (f_equal (firstn 12)) in B; revert B; vm_compute; discriminate]|] end.
    discriminate. }
  exists de, ds0, ds7b, de_prop, p.
  split; [exact ds0_genesis|]. split; [exact H7|]. split; [exact F|].
  split; [intros [n X]; exact (NP p n eq_refl eq_refl eq_refl X)|].
  intros s1 H1. pose proof (rl_inv_hist _ _ _ H7 (rl_genesis_inv _ _ ds0_genesis)) as I.
  destruct (fin_hist _ _ _ I H1 _ _ F) as (p1 & [O1 U1] & (_ & _ & A3 & _ & A5 & A6 & _)).
  split; [|split].
  - intros c v s2 N C. apply call_exec in C as (Hp & _ & C & _). cbn [rl_exec] in C.
    apply rl_vote_ok in C as (voter & k & rk & rest & q & rr & n & old & K & _ & _ & U & (m & pn & _ & PA) & _).
    rewrite K in N. cbn [nth_error] in N. injection N as ->. assert (q = p1) by congruence. subst q.
    rewrite Hp in PA. exact (NP p1 m A3 A5 A6 PA).
  - intros c s2 N C. apply call_exec in C as (Hp & _ & C & _). cbn [rl_exec] in C.
    apply rl_execute_ok in C as (f & sk & k & rk & sys & rest & st & pn & q & K & _ & U & (m & pn' & _ & PA) & _).
    rewrite K in N. cbn [nth_error] in N. injection N as ->. assert (q = p1) by congruence. subst q.
    rewrite Hp in PA. exact (NP p1 m A3 A5 A6 PA).
  - intros c s2 N C. apply call_exec in C as (Hp & _ & C & _). cbn [rl_exec] in C.
    apply rl_finalize_ok in C as (f & k & sk & rrk & sys & rest & st & pn & q & rr & K & _ & U & I0 & _).
    rewrite K in N. cbn [nth_error] in N. injection N as ->.
    apply unpack_unchecked_init in U1 as [U1 I1]. congruence.
Qed.

Corollary C21_full_false : ~ C21_full.
Proof. intros H. destruct C21_refuted as (e & s0 & s & k & p & G & H0 & F & N & _). exact (N (H e s0 s k p G H0 F)). Qed.

(** What does hold: a proposal finalized with the round it was created for stays usable in every later
    state: a relay of any presented round whose vote position is still empty can vote. *)

(** The account list of a vote: the relay signs, relay and proposal are writable. *)
Definition vote_ctx (voter k rk : key) : ctx :=
  ctx_of rl_id [Meta voter true true; Meta k false true; Meta rk false false].

Lemma position_first w l n : nth_error l n = Some w -> (forall j, (j < n)%nat -> nth_error l j <> Some w) ->
  position w l = Some n.
Proof.
  revert n. induction l as [|x l IH]; intros [|n] H F; try discriminate; cbn [position nth_error] in *.
  - injection H as ->. rewrite keqb_refl. reflexivity.
  - rewrite keqb_ne.
    + rewrite (IH n H); [reflexivity|]. intros j J. apply (F (S j)). lia.
    + intros ->. apply (F 0%nat); [lia|reflexivity].
Qed.

Lemma validate_pda_fw e pid sd n k : find_pda e sd pid = Ok (k, n) -> validate_pda e pid sd n k = Ok k.
Proof.
  intros H. unfold validate_pda. rewrite H. cbn [rbind]. rewrite keqb_refl, Z.eqb_refl. reflexivity.
Qed.

Lemma bind_fw {A B} (m : M A) (f : A -> M B) s a s1 : m s = Ok (a, s1) -> bind m f s = f a s1.
Proof. intros H. unfold bind. rewrite H. reflexivity. Qed.
Lemma lift_fw {A} (r : res A) s a : r = Ok a -> lift r s = Ok (a, s).
Proof. intros ->. reflexivity. Qed.
Lemma unpack_at_fw {A} (c : codec A) LEN ini k s x : unpack c LEN ini (dat (accs s k)) = Ok x ->
  unpack_at c LEN ini k s = Ok (x, s).
Proof. intros H. unfold unpack_at. rewrite (bind_fw _ _ s (dat (accs s k)) s) by reflexivity. apply lift_fw. exact H. Qed.

Local Transparent pack_into_slice.
Lemma pack_into_fw {A} (c : codec A) x d : blen (enc c x) <= blen d ->
  pack_into_slice c x d = Ok (enc c x ++ skipn (length (enc c x)) d).
Proof. intros H. unfold pack_into_slice. apply Z.leb_le in H. rewrite H. reflexivity. Qed.

Lemma vote_progress e s voter k rk rr m p n v : rl_inv e s ->
  rl_fin s k p -> proposal_addr e rl_id k p ->
  rl_round s rk rr -> rr_kind rr = KRelayRound m -> find_pda e (sd_relay_round (rr_number rr)) rl_id = Ok (rk, m) ->
  nth_error (rr_relays rr) n = Some voter -> (forall j, (j < n)%nat -> nth_error (rr_relays rr) j <> Some voter) ->
  nth_error (p_signers p) n = Some VNone -> v <> VNone -> voter <> k ->
  lam (accs s voter) + RELAY_REPARATION < u64max ->
  exists s', rl_call e (vote_ctx voter k rk) (RlVote v) s s'.
Proof.
  intros I F PA RR KD PR N1 N2 NS V NE LT. pose proof F as [O U]. destruct RR as [OR UR].
  assert (LK : 1 + RELAY_REPARATION * empties (p_signers p) <= lam (accs s k)).
  { destruct (I k) as (_ & _ & J). destruct (J O) as [X|(q & Fq & _ & X)].
    - apply (fin_len _ _ _ F).
    - exfalso. rewrite (fin_hd _ _ _ F) in X. discriminate.
    - rewrite (fin_inj _ _ _ _ F Fq). exact X. }
  assert (EM : 1 <= empties (p_signers p)).
  { pose proof (empties_set n VConfirm _ NS). unfold empties, blen in *. assert (VConfirm <> VNone) by discriminate. lia. }
  assert (RP : RELAY_REPARATION <= lam (accs s k)) by (unfold RELAY_REPARATION in *; lia).
  set (c := vote_ctx voter k rk). set (p' := p_with_signers p (set_nth n v (p_signers p))).
  set (d' := enc c_rl_proposal p' ++ skipn (length (enc c_rl_proposal p')) (dat (accs s k))).
  assert (SZ : blen (enc c_rl_proposal p') <= blen (dat (accs s k))).
  { pose proof U as U0. apply unpack_ok in U0 as (r & -> & _); [|typeclasses eauto]. rewrite blen_app.
    pose proof (blen_nonneg r). pose proof (size_prop (c_withlen c_rl_event) (c_withlen c_pstatus) p) as Z1.
    pose proof (size_prop (c_withlen c_rl_event) (c_withlen c_pstatus) p') as Z2.
    unfold p' at 2 3 4 5 in Z2. cbn [p_with_signers p_kind p_event p_meta p_signers] in Z2.
    assert (Z3 : blen (set_nth n v (p_signers p)) = blen (p_signers p)) by (unfold blen; rewrite set_nth_length; reflexivity).
    unfold c_rl_proposal. unfold rl_proposal in *. lia. }
  set (s1 := put_dat s k d'). set (s2 := put_lam s1 k (lam (accs s1 k) - RELAY_REPARATION)).
  set (s3 := put_lam s2 voter (lam (accs s2 voter) + RELAY_REPARATION)).
  exists s3. split; [reflexivity|]. exists (enc c_rl_ix (RlVote v)). split.
  { apply try_from_slice_rt; [typeclasses eauto|]. destruct v; reflexivity. }
  assert (SGV : c_sg c voter = true).
  { unfold c, vote_ctx. cbn [ctx_of c_sg existsb m_key m_sg]. rewrite keqb_refl. reflexivity. }
  assert (WK : c_wr c k = true).
  { unfold c, vote_ctx. cbn [ctx_of c_wr existsb m_key m_wr]. rewrite keqb_refl. cbn [andb]. apply orb_true_r. }
  assert (WV : c_wr c voter = true).
  { unfold c, vote_ctx. cbn [ctx_of c_wr existsb m_key m_wr]. rewrite keqb_refl. reflexivity. }
  assert (L1 : lam (accs s1 k) = lam (accs s k)) by apply lam_put_dat.
  assert (L2 : lam (accs s2 voter) = lam (accs s voter)).
  { unfold s2. rewrite lam_put_lam_other by exact NE. apply lam_put_dat. }
  assert (EX : rl_process e c (enc c_rl_ix (RlVote v)) s = Ok (tt, s3)).
  { unfold rl_process. rewrite try_from_slice_rt; [|typeclasses eauto|destruct v; reflexivity].
    rewrite (bind_fw _ _ s (RlVote v) s) by reflexivity. cbn [rl_exec]. unfold rl_vote.
    change (c_keys c) with [voter; k; rk]. cbv beta iota.
    rewrite (bind_fw _ _ s tt s) by (rewrite SGV; reflexivity).
    rewrite (bind_fw _ _ s tt s) by (destruct v; [contradiction|reflexivity|reflexivity]).
    rewrite (bind_fw _ _ s p s) by (apply unpack_at_fw; exact U).
    rewrite (bind_fw _ _ s k s).
    2: { unfold rl_valid_proposal. destruct PA as (pn & po & PK & PF).
         rewrite (bind_fw _ _ s (pn, po) s) by (rewrite PK; reflexivity).
         apply lift_fw. apply validate_pda_fw. exact PF. }
    rewrite (bind_fw _ _ s rr s).
    2: { unfold rl_valid_round. rewrite (bind_fw _ _ s rr s) by (apply unpack_at_fw; exact UR).
         rewrite (bind_fw _ _ s m s) by (rewrite KD; reflexivity).
         rewrite (bind_fw _ _ s rk s) by (apply lift_fw, validate_pda_fw; exact PR). reflexivity. }
    rewrite (bind_fw _ _ s n s) by (rewrite (position_first _ _ _ N1 N2); reflexivity).
    rewrite (bind_fw _ _ s VNone s) by (rewrite NS; reflexivity).
    change (vote_eqb VNone VNone) with true. cbv iota.
    rewrite (bind_fw _ _ s (dat (accs s k)) s) by reflexivity.
    rewrite (bind_fw _ _ s d' s) by (apply lift_fw, pack_into_fw; exact SZ).
    rewrite (bind_fw _ _ s tt s1).
    2: { unfold set_data. change (c_pid c) with rl_id. rewrite O, keqb_refl, WK. cbn [andb]. rewrite orb_true_r. reflexivity. }
    unfold move_lam. rewrite (bind_fw _ _ s1 (accs s1 k) s1) by reflexivity.
    rewrite (bind_fw _ _ s1 tt s1).
    2: { rewrite L1. apply Z.leb_le in RP. rewrite RP. reflexivity. }
    rewrite (bind_fw _ _ s1 tt s2).
    2: { unfold set_lam. change (c_pid c) with rl_id. rewrite WK.
         assert (O1 : own (accs s1 k) = rl_id) by (unfold s1; rewrite own_put_dat; exact O).
         assert (P1 : (0 <=? lam (accs s1 k) - RELAY_REPARATION) = true) by (rewrite L1; lia).
         rewrite O1, keqb_refl, orb_true_r. cbn [andb]. rewrite orb_true_r, P1. reflexivity. }
    rewrite (bind_fw _ _ s2 (accs s2 voter) s2) by reflexivity.
    rewrite (bind_fw _ _ s2 tt s2).
    2: { rewrite L2. apply Z.ltb_lt in LT. rewrite LT. reflexivity. }
    unfold set_lam. rewrite WV.
    assert (GT : (lam (accs s2 voter) <? lam (accs s2 voter) + RELAY_REPARATION) = true) by (apply Z.ltb_lt; unfold RELAY_REPARATION; lia).
    assert (P2 : (0 <=? lam (accs s2 voter) + RELAY_REPARATION) = true)
      by (rewrite L2; destruct (I voter) as [PV _]; unfold RELAY_REPARATION; lia).
    rewrite GT, P2. cbn [andb orb]. rewrite orb_true_r. reflexivity. }
  unfold run. rewrite EX.
  rewrite (lam_sum_pay s s3 voter k RELAY_REPARATION (c_keys c)).
  - rewrite Z.eqb_refl. reflexivity.
  - intros j. unfold s3. destruct (key_dec j voter) as [->|J1].
    + rewrite lam_put_lam, L2, at_same, at_other by exact NE. lia.
    + rewrite lam_put_lam_other by exact J1. rewrite (at_other voter) by exact J1. unfold s2. destruct (key_dec j k) as [->|J2].
      * rewrite lam_put_lam, L1, at_same. lia.
      * rewrite lam_put_lam_other by exact J2. unfold s1. rewrite lam_put_dat, at_other by exact J2. lia.
  - left. reflexivity.
  - right. left. reflexivity.
Qed.

Theorem C21_partial : forall e s0 s c s1 s2 k rk p0 rr0, genesis e rl_id s0 -> rl_hist e s0 s ->
  (* finalized with the relay round the proposal was created for *)
  rl_call e c RlFinalize s s1 -> nth_error (c_keys c) 1 = Some k -> nth_error (c_keys c) 3 = Some rk ->
  unpack_unchecked c_rl_proposal RL_PROPOSAL_LEN (dat (accs s k)) = Ok p0 ->
  rl_round s rk rr0 -> rr_number rr0 = p_round p0 ->
  rl_hist e s1 s2 ->
  exists p, rl_fin s2 k p /\ proposal_matches e k p /\ p_round p = rr_number rr0 /\
    forall voter rk2 rr n m v,
      rl_round s2 rk2 rr -> rr_kind rr = KRelayRound m ->
      find_pda e (str "relay_round" ++ le 4 (rr_number rr)) rl_id = Ok (rk2, m) ->
      nth_error (rr_relays rr) n = Some voter -> (forall j, (j < n)%nat -> nth_error (rr_relays rr) j <> Some voter) ->
      nth_error (p_signers p) n = Some VNone -> v <> VNone -> voter <> k ->
      lam (accs s2 voter) + 20000 < 2 ^ 64 ->
      exists s3, rl_call e (vote_ctx voter k rk2) (RlVote v) s2 s3.
Proof.
  intros e s0 s c s1 s2 k rk p0 rr0 G H0 C N1 N3 U0 R0 E0 H.
  pose proof (rl_inv_hist _ _ _ H0 (rl_genesis_inv _ _ G)) as I.
  apply call_exec in C as (Hp & _ & C & I01). assert (I1 : rl_inv e s1) by (eapply rl_inv_step; eassumption).
  cbn [rl_exec] in C.
  apply rl_finalize_ok in C as (f & k' & sk & rrk & sys & rest & st & pn & p & rr & K & VS & U & I0 & A & VR & O & W & WR & B & _).
  rewrite K in N1, N3. cbn [nth_error] in N1, N3. injection N1 as ->. injection N3 as ->. rewrite Hp in *.
  assert (p = p0) by congruence. subst p0. assert (rr = rr0) by (destruct R0, VR; congruence). subst rr0.
  pose proof U as U1. apply unpack_unchecked_ok in U1 as (r & _ & OK & LEN); [|typeclasses eauto].
  set (p1 := Prop_ true (p_kind p) (p_author p) (rr_number rr)
         (Z.max (two_thirds (blen (rr_relays rr))) (rs_min_votes st))
         (p_pda p) (p_event p) (WithLen 1 PNew) (repeat VNone (length (rr_relays rr))) : rl_proposal) in *.
  assert (F1 : rl_fin s1 k p1).
  { split; [destruct WR; congruence|]. apply unpack_init; [eapply wrote_unpack; [typeclasses eauto|exact WR|exact LEN|]|reflexivity].
    apply okb_final; [exact OK| |].
    - destruct VR as [VR _]. apply unpack_ok in VR as (r1 & _ & X & _); [exact X|typeclasses eauto].
    - destruct VS as [VS _]. apply unpack_ok in VS as (r1 & _ & X & _); [exact X|typeclasses eauto]. }
  destruct (fin_hist _ _ _ I1 H _ _ F1) as (p2 & F2 & (A1 & A2 & A3 & A4 & A5 & A6 & A7 & A8 & A9)).
  assert (PA : proposal_addr e rl_id k p2).
  { destruct A as (n & po & PK & PF). exists n, po. rewrite A1, A3, A5, A6. unfold p1. cbn [p_kind p_round p_pda p_event].
    split; [exact PK|]. rewrite E0. exact PF. }
  exists p2. split; [exact F2|]. split; [destruct PA as (n & po & _ & PF); exists n; exact PF|].
  split; [rewrite A3; reflexivity|].
  intros voter rk2 rr2 n m v R2 K2 P2 N1 N2 NS V NE LT.
  exact (vote_progress e s2 voter k rk2 rr2 m p2 n v (rl_inv_hist _ _ _ H I1) F2 PA R2 K2 P2 N1 N2 NS V NE LT).
Qed.

Example C21_example :
  rbind (stp ds6 (de_final de_r10)) (fun s => rbind (stp s (de_vote de_r10 (knum 22))) (fun s' =>
    rbind (unpack c_rl_proposal RL_PROPOSAL_LEN (@p_init _ _) (dat (accs s' de_prop))) (fun p => Ok (p_round p, p_signers p))))
    = Ok (10, [VNone; VConfirm; VNone]).
Proof. vm_compute. reflexivity. Qed.

(** * C22 Oversized relay sets are refused *)

(** No relay-round account ever holds more than 100 relays. *)
Theorem C22_stored : forall s k rr, rl_round s k rr -> (length (rr_relays rr) <= 100)%nat.
Proof.
  intros s k rr [_ U]. apply unpack_ok in U as (r & D & OK & B & _); [|typeclasses eauto].
  rewrite D, blen_app, size_relay_round in B. unfold RELAY_ROUND_LEN in B.
  pose proof (blen_nonneg r). pose proof (kind_len_range (rr_kind rr)) as KL. unfold blen in *. lia.
Qed.

Lemma new_round_small e c f sk rrk st n l t s a s' : rl_new_round e c f sk rrk st n l t s = Ok (a, s') -> (length l <= 100)%nat.
Proof.
  intros H. apply rl_new_round_ok in H as (rn & _ & _ & (_ & _ & r & D & _ & B) & _).
  rewrite D, blen_app, size_relay_round in B. cbn [rr_kind rr_relays kind_len] in B. unfold RELAY_ROUND_LEN in B.
  pose proof (blen_nonneg r). unfold blen in *. lia.
Qed.

(** Creation with more relays fails, and so does every execution of such a proposal that would have an
    effect. *)
Theorem C22_create : forall e c n l t s s', (100 < length l)%nat -> ~ rl_call e c (RlCreateRelayRound n l t) s s'.
Proof.
  intros e c n l t s s' L C. apply call_exec in C as (_ & _ & C & _). cbn [rl_exec] in C.
  apply rl_create_relay_round_ok in C as (f & cr & sk & rrk & sys & rest & st & pn & _ & _ & _ & _ & _ & C).
  apply new_round_small in C. lia.
Qed.

Theorem C22_execute : forall e c s s' k p, rl_call e c RlExecute s s' -> nth_error (c_keys c) 2 = Some k ->
  unpack c_rl_proposal RL_PROPOSAL_LEN (@p_init _ _) (dat (accs s k)) = Ok p ->
  (100 < length (re_relays (wl_data (p_event p))))%nat -> (forall j, accs s' j = accs s j) /\ logs s' = logs s.
Proof.
  intros e c s s' k p C N U L. apply call_exec in C as (Hp & _ & C & _). cbn [rl_exec] in C.
  apply rl_execute_ok in C as (f & sk & k' & rk & sys & rest & st & pn & q & K & VS & U' & _ & R).
  rewrite K in N. cbn [nth_error] in N. injection N as ->. assert (q = p) by congruence. subst q.
  destruct R as [[_ ->]|(_ & _ & _ & _ & _ & _ & _ & s1 & R & _)].
  - split; [apply put_same_accs|reflexivity].
  - apply new_round_small in R. lia.
Qed.

Theorem C22_execute_by_admin : forall e c s s' k p, rl_call e c RlExecuteByAdmin s s' ->
  nth_error (c_keys c) 3 = Some k ->
  unpack c_rl_proposal RL_PROPOSAL_LEN (@p_init _ _) (dat (accs s k)) = Ok p ->
  (length (re_relays (wl_data (p_event p))) <= 100)%nat.
Proof.
  intros e c s s' k p C N U. apply call_exec in C as (Hp & _ & C & _). cbn [rl_exec] in C.
  apply rl_execute_by_admin_ok in C as (f & cr & sk & k' & rk & sys & rest & st & pn & q & K & _ & VS & _ & U' & _ & _ & _ & _ & s1 & R & _).
  rewrite K in N. cbn [nth_error] in N. injection N as ->. assert (q = p) by congruence. subst q.
  apply new_round_small in R. exact R.
Qed.

Example C22_example :
  rbind (stp ds4 (de_round de_r13 13 (repeat (knum 21) 100) 1000)) (fun s =>
    rbind (unpack c_relay_round RELAY_ROUND_LEN rr_init (dat (accs s de_r13))) (fun rr => Ok (length (rr_relays rr))))
    = Ok 100%nat /\
  is_ok (stp ds4 (de_round de_r13 13 (repeat (knum 21) 101) 1000)) = false.
Proof. vm_compute. split; reflexivity. Qed.

Print Assumptions C10_initialize.
Print Assumptions C10_initialize_once.
Print Assumptions C10_update.
Print Assumptions C10_settings_step.
Print Assumptions C10_frozen_without_authority.
Print Assumptions C11_round_origin.
Print Assumptions C12_finalize.
Print Assumptions C12_always.
Print Assumptions C12_no_quorum.
Print Assumptions C13_refuted.
Print Assumptions C13_full_false.
Print Assumptions C13_partial.
Print Assumptions C14_upload.
Print Assumptions C14_unsigned.
Print Assumptions C15_frozen.
Print Assumptions C15_committed.
Print Assumptions C16_vote.
Print Assumptions C16_votes_stay.
Print Assumptions C16_votes_origin.
Print Assumptions C17_refuted.
Print Assumptions C17_partial.
Print Assumptions C18_executed_once.
Print Assumptions C19_refuted.
Print Assumptions C19_full_false.
Print Assumptions C19_partial.
Print Assumptions C19_follows.
Print Assumptions C20_refuted.
Print Assumptions C20_full_false.
Print Assumptions C20_partial.
Print Assumptions C21_refuted.
Print Assumptions C21_full_false.
Print Assumptions C21_partial.
Print Assumptions C22_stored.
Print Assumptions C22_create.
Print Assumptions C22_execute.
Print Assumptions C22_execute_by_admin.
