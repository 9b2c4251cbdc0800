(** Where the finalized proposals and relay rounds of a state come from. *)

From Coq Require Import ZifyBool ZifyNat ZifyN.
From Verif Require Export RlWorld.
Ltac Zify.zify_post_hook ::= Z.div_mod_to_equations.

(** What finalization stored at [k]. *)
Definition finalized_by (e : env) (s s' : state) (k : key) (p' : rl_proposal) : Prop :=
  exists p st sk pn rr rrk,
    own (accs s k) = rl_id /\
    unpack_unchecked c_rl_proposal RL_PROPOSAL_LEN (dat (accs s k)) = Ok p /\ p_init p = false /\
    proposal_addr e rl_id k p /\ rl_settings_in e rl_id s sk st pn /\ round_in e rl_id s rrk rr /\
    p' = Prop_ true (p_kind p) (p_author p) (rr_number rr)
         (Z.max (two_thirds (blen (rr_relays rr))) (rs_min_votes st))
         (p_pda p) (p_event p) (WithLen 1 PNew) (repeat VNone (length (rr_relays rr))) /\
    lam (accs s' k) = lam (accs s k) + RELAY_REPARATION * blen (rr_relays rr).

Lemma fin_hd s k p : rl_fin s k p -> hd x00 (dat (accs s k)) = x01.
Proof.
  intros [_ U]. apply unpack_ok in U as (r & D & _ & _ & I); [|typeclasses eauto].
  destruct (enc_rl_prop_init p) as [t E]. rewrite D, E, I. reflexivity.
Qed.

Lemma fin_inj s k p p' : rl_fin s k p -> rl_fin s k p' -> p = p'.
Proof. intros [_ A] [_ B]. congruence. Qed.

Lemma fin_back e c i s s' k p' : c_pid c = rl_id -> okb c_rl_ix i = true -> rl_inv e s ->
  rl_exec e c i s = Ok (tt, s') -> rl_fin s' k p' ->
  (exists p, rl_fin s k p /\ fin_step i p p') \/ (i = RlFinalize /\ finalized_by e s s' k p').
Proof.
  intros Hp Hok I H F'.
  assert (L' := fin_len _ _ _ F').
  assert (KNOWN : forall p, rl_fin s k p -> (exists p, rl_fin s k p /\ fin_step i p p') \/ (i = RlFinalize /\ finalized_by e s s' k p')).
  { intros p F. left. destruct (fin_step_ok _ _ _ _ _ _ _ Hp H F) as (q & F2 & S).
    exists p. rewrite (fin_inj _ _ _ _ F' F2). auto. }
  destruct (rl_exec_effect e c i s s' H k) as
    [E|g sub mv ttl auth sn pn E1 E2 E3 E4 E5 E6|cur sub mv ttl auth st pn E1 E2 E3 E4 E5 E6
    |st pn rrk rn m l t E1 E2 E3 E4 E5 E6|sk st pn rn m l t E1 E2 E3 E4 E5|r0 ts lt conf h pn creator E1 E2 E3 E4 E5
    |o b d' E1 E2 E3 E4 E5|p0 st sk pn rr0 rrk E1 E2 E3 E4 E5 E6 E7 E8 E9|v p0 m E|sk st pn m l t p0 E1 E2 E3 E4 E5 E6 E7].
  - apply (KNOWN p'). destruct E as [A B], F' as [O U]. split; congruence.
  - apply fresh_len in E5. rewrite E5 in L'. discriminate.
  - apply sin_len in E4. apply wrote_blen in E6. rewrite E6, E4 in L'. discriminate.
  - apply sin_len in E1. apply wrote_blen in E3. rewrite E3, E1 in L'. discriminate.
  - apply fresh_len in E4. rewrite E4 in L'. discriminate.
  - exfalso. apply fin_hd in F'. destruct E4 as (_ & _ & r & D & _). rewrite D in F'.
    match type of F' with hd _ (enc _ ?q ++ _) = _ => destruct (enc_rl_prop_init q) as [t X]; rewrite X in F' end.
    discriminate.
  - subst i. pose proof (okb_ix_write _ _ Hok) as Ho. pose proof (write_data_len _ _ _ _ Ho E4) as [W1 W2].
    destruct (I k) as (_ & _ & J). rewrite Hp in E2.
    assert (L : blen (dat (accs s k)) = RL_PROPOSAL_LEN).
    { rewrite E5, dat_put_dat in L'. unfold blen in *. congruence. }
    destruct (J E2 L) as [J1|(p & J1 & _)]; [exfalso|apply (KNOWN p J1)].
    apply fin_hd in F'. rewrite E5, dat_put_dat in F'.
    rewrite (hd_firstn _ _ _ W2), J1 in F'. discriminate.
  - right. split; [exact E1|]. rewrite Hp in *. destruct F' as [O' U'].
    pose proof E3 as U1. apply unpack_unchecked_ok in U1 as (r & D & OK & B); [|typeclasses eauto].
    assert (R0 := E7). assert (S0 := E6).
    destruct E7 as [E7 _]. apply unpack_ok in E7 as (rr1 & _ & OKr & _ & _); [|typeclasses eauto].
    destruct E6 as [E6 _]. apply unpack_ok in E6 as (rr2 & _ & OKs & _ & _); [|typeclasses eauto].
    eapply wrote_unpack in E8; [|typeclasses eauto|exact B|apply okb_final; assumption].
    apply unpack_unchecked_init in U' as [U' _].
    exists p0, st, sk, pn, rr0, rrk. split; [exact E2|]. split; [exact E3|]. split; [exact E4|]. split; [exact E5|].
    split; [exact S0|]. split; [exact R0|]. split; [congruence|].
    rewrite E9. f_equal. apply round_in_le100 in R0. pose proof (blen_nonneg (rr_relays rr0)).
    unfold wrap64, u64max, RELAY_REPARATION in *. rewrite Z.mod_small; lia.
  - destruct E as (_ & _ & E3 & E4 & _). apply (KNOWN p0). split; [congruence|exact E4].
  - apply (KNOWN p0). split; [congruence|exact E2].
Qed.

(** ** Derived accounts that hold a record belong to the round loader *)

Lemma round_in_own e s k rr : rl_inv e s -> round_in e rl_id s k rr -> rl_round s k rr.
Proof.
  intros I [U (n & _ & P)]. split; [|exact U]. destruct (I k) as (_ & J & _).
  destruct (J (find_pda_is _ _ _ _ _ P)) as [[_ D]|[O _]]; [|exact O].
  apply unpack_ok in U as (r & _ & _ & B & _); [|typeclasses eauto]. rewrite D in B. discriminate.
Qed.
Lemma settings_in_own e s k st pn : rl_inv e s -> rl_settings_in e rl_id s k st pn -> rl_sets s k st.
Proof.
  intros I [U (n & _ & P)]. split; [|exact U]. destruct (I k) as (_ & J & _).
  destruct (J (find_pda_is _ _ _ _ _ P)) as [[_ D]|[O _]]; [|exact O].
  apply unpack_ok in U as (r & _ & _ & B & _); [|typeclasses eauto]. rewrite D in B. discriminate.
Qed.
Lemma proposal_own e s k p : rl_inv e s ->
  unpack c_rl_proposal RL_PROPOSAL_LEN (@p_init _ _) (dat (accs s k)) = Ok p ->
  proposal_addr e rl_id k p -> rl_fin s k p.
Proof.
  intros I U P. split; [|exact U]. destruct (I k) as (_ & J & _).
  destruct (J (proposal_addr_is _ _ _ _ P)) as [[_ D]|[O _]]; [|exact O].
  apply unpack_ok in U as (r & _ & _ & B & _); [|typeclasses eauto]. rewrite D in B. discriminate.
Qed.

(** ** Every finalized proposal of a history *)

(** The address of a finalized proposal is derived from the ids and the hash of its stored event, for
    some round number; its vote requirement exceeds two thirds of its vote positions. *)
Definition fin_good (e : env) (k : key) (p : rl_proposal) : Prop :=
  (exists n pn r, p_kind p = KProposal n pn /\
     find_pda e (sd_proposal r (pd_ts (p_pda p)) (pd_lt (p_pda p)) (pd_conf (p_pda p))
       (e_hash e (enc c_rl_event (wl_data (p_event p))))) rl_id = Ok (k, n)) /\
  2 * blen (p_signers p) < 3 * p_required p.

Lemma fin_good_step e k i p p' : fin_good e k p -> fin_step i p p' -> fin_good e k p'.
Proof.
  intros [A B] [->|n v _ _ N ->| ->]; [split; assumption| |split; assumption].
  split; [exact A|]. cbn [p_with_signers p_signers p_required]. unfold blen in *. rewrite set_nth_length. exact B.
Qed.

Lemma two_thirds_gt n : 0 <= n <= 100 -> 2 * n < 3 * two_thirds n.
Proof. intros H. unfold two_thirds, wrap32, u32max. rewrite Z.mod_small by lia. lia. Qed.

Lemma fin_good_hist e s s' : rl_inv e s -> (forall k p, rl_fin s k p -> fin_good e k p) ->
  hist e rl_id (rl_instr e) s s' -> forall k p, rl_fin s' k p -> fin_good e k p.
Proof.
  intros I G H. induction H as [s|s s1 s2 H IH P|s s1 s2 H IH P|s s1 s2 H IH P]; [exact G| | |];
  specialize (IH I G); pose proof (rl_inv_hist _ _ _ H I) as I1; intros k p F.
  - destruct P as (c & d & Hp & P). apply rl_process_ok in P as (i & _ & Ok & P).
    destruct (fin_back _ _ _ _ _ _ _ Hp Ok I1 P F) as [(q & Fq & S)|[_ (q & st & sk & pn & rr & rrk & E2 & E3 & E4 & E5 & E6 & E7 & -> & _)]].
    + eapply fin_good_step; [apply IH; exact Fq|exact S].
    + split.
      * destruct E5 as (n & pn0 & K & A). exists n, pn0, (p_round q). cbn [p_kind p_pda p_event]. auto.
      * cbn [p_signers p_required]. unfold blen. rewrite repeat_length. fold (blen (rr_relays rr)).
        apply round_in_le100 in E7. pose proof (blen_nonneg (rr_relays rr)).
        pose proof (two_thirds_gt (blen (rr_relays rr))). lia.
  - apply IH. destruct F as [O U]. destruct (P k) as (_ & P2 & P3 & _).
    destruct (key_dec (own (accs s1 k)) rl_id) as [O1|O1].
    + destruct (P2 O1) as [[A B] _]. split; congruence.
    + exfalso. specialize (P3 O1 O). apply all0_hd in P3. rewrite (fin_hd s2 k p) in P3; [discriminate|split; assumption].
  - apply IH. destruct F as [O U]. destruct (P k) as [E|[_ E]]; [split; congruence|]. rewrite E in O. discriminate.
Qed.

(** ** The settings in one instruction *)

Lemma write_prefix {A} (cd : codec A) (L : Lawful cd) LEN ini d d' x :
  unpack cd LEN ini d = Ok x -> blen (enc cd x) <= 88 -> length d' = length d ->
  firstn 88 d' = firstn 88 d -> unpack cd LEN ini d' = Ok x.
Proof.
  intros U B Le F. apply unpack_ok in U as (r & D & OK & BL & I0); [|exact L].
  assert (E : d' = enc cd x ++ skipn (length (enc cd x)) d').
  { rewrite <- (firstn_skipn (length (enc cd x)) d') at 1. f_equal.
    apply (f_equal (firstn (length (enc cd x)))) in F. rewrite !firstn_firstn in F. unfold blen in B.
    replace (Nat.min (length (enc cd x)) 88) with (length (enc cd x)) in F by lia.
    rewrite F, D. apply firstn_app_exact. reflexivity. }
  rewrite E. apply unpack_enc; auto. rewrite <- E. unfold blen in *. lia.
Qed.

(** [st'] is [st] after instruction [i]. *)
Variant sets_step (e : env) (c : ctx) (i : rl_ix) (s s' : state) (k : key) (st st' : rl_settings) : Prop :=
| SS_same : st' = st -> sets_step e c i s s' k st st'
| SS_update cur sub mv ttl auth : i = RlUpdateSettings cur sub mv ttl -> c_sg c auth = true ->
    upgrade_auth e rl_id s auth ->
    st' = RlSettings (rs_init st) (rs_kind st) (opt_or cur (rs_current st))
      (opt_or sub (rs_submitter st)) (opt_or mv (rs_min_votes st)) (opt_or ttl (rs_ttl st)) ->
    sets_step e c i s s' k st st'
| SS_current n l t rrk rn : st' = rs_with_current st n -> round_cause e c i s s' st n l t ->
    find_pda e (sd_relay_round n) rl_id = Ok (rrk, rn) ->
    own (accs s rrk) = sys_id ->
    rl_round s' rrk (RelayRound true (KRelayRound rn) n (wrap32 (t + rs_ttl st)) l) ->
    sets_step e c i s s' k st st'.

Lemma okb_kind_rr rn : 1 <= rn <= 255 -> okb c_kind (KRelayRound rn) = true.
Proof. intros H. cbn [okb c_kind c_u8 c_uint]. apply andb_true_iff. split; [apply Z.leb_le|apply Z.ltb_lt]; lia. Qed.

Lemma okb_new_round rn n t l : 1 <= rn <= 255 -> 0 <= n < u32max -> blen l < u32max ->
  okb c_relay_round (RelayRound true (KRelayRound rn) n (wrap32 t) l) = true.
Proof.
  intros H1 H2 H3. unfold c_relay_round. cbn [c_iso okb c_pair fst snd c_vec rr_init rr_kind rr_number rr_end rr_relays].
  rewrite !andb_true_iff. split; [reflexivity|]. split; [exact (okb_kind_rr rn H1)|].
  split; [apply okb_u32; exact H2|]. split; [apply okb_u32; unfold wrap32, u32max in *; lia|].
  split; [apply Z.ltb_lt; exact H3|]. apply forallb_forall. reflexivity.
Qed.

(** Range of the content of a decoded event. *)
Lemma okb_event_parts p : okb c_rl_proposal p = true ->
  0 <= re_round (wl_data (p_event p)) < u32max /\ blen (re_relays (wl_data (p_event p))) < u32max /\
  0 <= re_end (wl_data (p_event p)) < u32max.
Proof.
  intros H. unfold c_rl_proposal, rl_proposal in *.
  rewrite (okb_prop (c_withlen c_rl_event) (c_withlen c_pstatus)) in H. rewrite okb_withlen in H.
  rewrite !andb_true_iff in H. destruct H as (_ & _ & _ & _ & [_ H] & _).
  unfold c_rl_event in H. cbn [c_iso okb c_pair fst snd c_vec] in H.
  rewrite !andb_true_iff in H. destruct H as (A & [B _] & C). apply okb_u32 in A, C. apply Z.ltb_lt in B. auto.
Qed.

Lemma okb_ix_round n l t : okb c_rl_ix (RlCreateRelayRound n l t) = true ->
  0 <= n < u32max /\ blen l < u32max /\ 0 <= t < u32max.
Proof.
  cbn [okb c_rl_ix]. unfold c_rl_3. cbn [okb c_pair fst snd c_vec]. rewrite !andb_true_iff.
  intros (A & [B _] & C). apply okb_u32 in A, C. apply Z.ltb_lt in B. auto.
Qed.

Lemma round_cause_range e c i s s' st n l t : okb c_rl_ix i = true -> round_cause e c i s s' st n l t ->
  0 <= n < u32max /\ blen l < u32max /\ 0 <= t < u32max.
Proof.
  intros H [[-> _]|(pk & p & E & U & _)]; [apply okb_ix_round; exact H|].
  apply unpack_ok in U as (r & _ & OK & _); [|typeclasses eauto]. apply okb_event_parts in OK.
  rewrite <- E in OK. exact OK.
Qed.

Lemma fresh_round e c i s s' st n l t rn rrk pid : okb c_rl_ix i = true ->
  round_cause e c i s s' st n l t -> find_pda e (sd_relay_round n) pid = Ok (rrk, rn) -> pid = rl_id ->
  fresh_record c_relay_round RELAY_ROUND_LEN
    (RelayRound true (KRelayRound rn) n (wrap32 (t + rs_ttl st)) l) pid s s' rrk ->
  rl_round s' rrk (RelayRound true (KRelayRound rn) n (wrap32 (t + rs_ttl st)) l).
Proof.
  intros Hok RC P -> (C & O & r & D & B1 & B2). apply round_cause_range in RC as (R1 & R2 & R3); [|exact Hok].
  split; [exact O|]. rewrite D. apply unpack_enc; [typeclasses eauto| |reflexivity|rewrite <- D; exact B2].
  apply okb_new_round; [|exact R1|exact R2]. apply find_pda_some in P as [_ P]. lia.
Qed.

Lemma okb_sets_with st n : okb c_rl_settings st = true -> 0 <= n < u32max ->
  okb c_rl_settings (rs_with_current st n) = true.
Proof.
  unfold c_rl_settings, rs_with_current. cbn [c_iso okb c_pair fst snd rs_init rs_kind rs_current rs_submitter rs_min_votes rs_ttl].
  rewrite !andb_true_iff. intros (A & B & _ & D) H. split; [exact A|]. split; [exact B|]. split; [|exact D].
  apply okb_u32. exact H.
Qed.

Lemma okb_ix_update a b m t st : okb c_rl_ix (RlUpdateSettings a b m t) = true -> okb c_rl_settings st = true ->
  okb c_rl_settings (RlSettings (rs_init st) (rs_kind st) (opt_or a (rs_current st))
      (opt_or b (rs_submitter st)) (opt_or m (rs_min_votes st)) (opt_or t (rs_ttl st))) = true.
Proof.
  unfold c_rl_settings. cbn [okb c_rl_ix]. unfold c_rl_2.
  cbn [c_iso okb c_pair c_option fst snd rs_init rs_kind rs_current rs_submitter rs_min_votes rs_ttl].
  rewrite !andb_true_iff. intros (A1 & A2 & A3 & A4) (A & B & C & D & E & F).
  split; [exact A|]. split; [exact B|].
  destruct a, b, m, t; cbn [opt_or]; auto.
Qed.

Lemma sets_step_ok e c i s s' k st : c_pid c = rl_id -> okb c_rl_ix i = true ->
  rl_exec e c i s = Ok (tt, s') -> rl_sets s k st ->
  exists st', rl_sets s' k st' /\ sets_step e c i s s' k st st'.
Proof.
  intros Hp Hok H R. pose proof (sets_len _ _ _ R) as L. pose proof R as [O U].
  pose proof U as U0. apply unpack_ok in U0 as (r0 & D0 & OK0 & B0 & I0); [|typeclasses eauto].
  destruct (rl_exec_effect e c i s s' H k) as
    [E|g sub mv ttl auth sn pn E1 E2 E3 E4 E5 E6|cur sub mv ttl auth st1 pn E1 E2 E3 E4 E5 E6
    |st1 pn rrk rn m l t E1 E2 E3 E4 E5 E6|sk st1 pn rn m l t E1 E2 E3 E4 E5|r1 ts lt conf h pn creator E1 E2 E3 E4 E5
    |o b d' E1 E2 E3 E4 E5|p0 st1 sk pn rr0 rrk E1 E2 E3 E4 E5 E6 E7 E8 E9|v p0 m E|sk st1 pn m l t p0 E1 E2 E3 E4 E5 E6 E7].
  - exists st. destruct E as [A B]. split; [split; congruence|apply SS_same; reflexivity].
  - apply fresh_own in E5. rewrite O in E5. discriminate.
  - destruct E4 as [E4 _]. assert (st1 = st) by congruence. subst st1 i.
    eexists. split; [|eapply SS_update; [reflexivity|exact E2|rewrite <- Hp; exact E3|reflexivity]].
    split; [destruct E6; congruence|]. apply unpack_init; [|exact I0].
    eapply wrote_unpack; [typeclasses eauto|exact E6|exact L|]. apply okb_ix_update; assumption.
  - destruct E1 as [E1 _]. assert (st1 = st) by congruence. subst st1. rewrite Hp in E5, E6.
    pose proof (round_cause_range _ _ _ _ _ _ _ _ _ Hok E4) as (R1 & _).
    eexists. split; [|eapply SS_current; [reflexivity|exact E4|exact E5|eapply fresh_own; exact E6|eapply fresh_round; eauto]].
    split; [destruct E3; congruence|]. apply unpack_init; [|exact I0].
    eapply wrote_unpack; [typeclasses eauto|exact E3|exact L|]. apply okb_sets_with; assumption.
  - apply fresh_own in E4. rewrite O in E4. discriminate.
  - apply fresh_own in E4. rewrite O in E4. discriminate.
  - subst i. pose proof (okb_ix_write _ _ Hok) as Ho. pose proof (write_data_len _ _ _ _ Ho E4) as [W1 W2].
    exists st. split; [|apply SS_same; reflexivity]. split; [rewrite E5, own_put_dat; exact O|].
    rewrite E5, dat_put_dat. eapply write_prefix; [typeclasses eauto|exact U| |exact W1|exact W2].
    rewrite size_rl_settings. pose proof (kind_len_range (rs_kind st)). lia.
  - apply unpack_unchecked_ok in E3 as (r & _ & _ & B); [|typeclasses eauto]. rewrite L in B. discriminate.
  - destruct E as (_ & _ & _ & E4 & _). apply unpack_ok in E4 as (r & _ & _ & B & _); [|typeclasses eauto].
    rewrite L in B. discriminate.
  - apply unpack_ok in E2 as (r & _ & _ & B & _); [|typeclasses eauto]. rewrite L in B. discriminate.
Qed.

(** ** Where recorded votes come from *)

(** Vote [v] at position [n] of proposal [k] was cast between [s0] and [s]: some vote instruction
    with the signature of relay number [n] of the relay round presented to it recorded it. *)
Definition cast_by (e : env) (s0 s : state) (k : key) (n : nat) (v : vote) : Prop :=
  exists s1 s2 c d voter rrk rr p,
    hist e rl_id (rl_instr e) s0 s1 /\ hist e rl_id (rl_instr e) s2 s /\
    c_pid c = rl_id /\ run c (rl_process e c d) s1 = Ok s2 /\
    try_from_slice c_rl_ix d = Some (RlVote v) /\
    c_sg c voter = true /\ round_in e rl_id s1 rrk rr /\ rl_round s1 rrk rr /\
    nth_error (rr_relays rr) n = Some voter /\
    rl_fin s1 k p /\ nth_error (p_signers p) n = Some VNone.

Lemma nth_repeat_VNone m n v : nth_error (repeat VNone m) n = Some v -> v = VNone.
Proof. revert n. induction m as [|m IH]; intros [|n]; cbn [repeat nth_error]; try discriminate; [congruence|apply IH]. Qed.

Lemma set_nth_inv {A} n m (x y : A) l : nth_error (set_nth m x l) n = Some y ->
  (n = m /\ y = x) \/ nth_error l n = Some y.
Proof.
  revert n m. induction l as [|z l IH]; intros n m; [destruct m, n; discriminate|].
  destruct m as [|m], n as [|n]; cbn [set_nth nth_error]; auto.
  - intros H. left. split; congruence.
  - intros H. apply IH in H as [[-> ->]|H]; auto.
Qed.

Lemma vote_back e c i s s' k p' n v : c_pid c = rl_id -> okb c_rl_ix i = true -> rl_inv e s ->
  rl_exec e c i s = Ok (tt, s') -> rl_fin s' k p' -> nth_error (p_signers p') n = Some v -> v <> VNone ->
  exists p, rl_fin s k p /\ (nth_error (p_signers p) n = Some v \/
    (i = RlVote v /\ nth_error (p_signers p) n = Some VNone /\
     exists rr rrk voter, c_sg c voter = true /\ round_in e rl_id s rrk rr /\
       nth_error (rr_relays rr) n = Some voter /\
       (forall j, (j < n)%nat -> nth_error (rr_relays rr) j <> Some voter) /\
       exists rest, c_keys c = voter :: k :: rrk :: rest)).
Proof.
  intros Hp Hok I H F N V.
  destruct (fin_back _ _ _ _ _ _ _ Hp Hok I H F) as [(q & Fq & S)|[_ (q & st & sk & pn & rr & rrk & _ & _ & _ & _ & _ & _ & -> & _)]].
  2:{ cbn [p_signers] in N. apply nth_repeat_VNone in N. contradiction. }
  exists q. split; [exact Fq|]. destruct S as [->|m w Ei W NN Ep| ->]; [left; exact N| |left; exact N].
  assert (N0 := N). rewrite Ep in N. cbn [p_with_signers p_signers] in N.
  apply set_nth_inv in N as [[Em Ev]|N]; [|left; exact N]. subst m w. right. split; [exact Ei|]. split; [exact NN|].
  assert (L' := fin_len _ _ _ F).
  destruct (rl_exec_effect e c i s s' H k) as
    [E|g sub mv ttl auth sn pn E1 E2 E3 E4 E5 E6|cur sub mv ttl auth st pn E1 E2 E3 E4 E5 E6
    |st pn rrk rn m l t E1 E2 E3 E4 E5 E6|sk st pn rn m l t E1 E2 E3 E4 E5|r0 ts lt conf h pn creator E1 E2 E3 E4 E5
    |o b d' E1 E2 E3 E4 E5|p0 st sk pn rr0 rrk E1 E2 E3 E4 E5 E6 E7 E8 E9|v0 p0 m E|sk st pn m l t p0 E1 E2 E3 E4 E5 E6 E7];
    try congruence.
  - exfalso. destruct E as [_ E]. destruct F as [_ F], Fq as [_ Fq]. rewrite E in F. congruence.
  - apply sin_len in E1. apply wrote_blen in E3. rewrite E3, E1 in L'. discriminate.
  - apply fresh_len in E4. rewrite E4 in L'. discriminate.
  - destruct E as (E1 & E2 & E3 & E4 & E5 & E6 & E7 & _ & rr & rrk & voter & X1 & X2 & X3). rewrite Hp in *.
    assert (Q : p0 = q) by (destruct Fq as [_ Fq]; congruence). subst p0.
    pose proof E4 as U1. apply unpack_ok in U1 as (r & _ & OK & LEN & I0); [|typeclasses eauto].
    eapply wrote_unpack in E7; [|typeclasses eauto|exact LEN|apply okb_with_signers; exact OK].
    destruct F as [_ F]. apply unpack_unchecked_init in F as [F _].
    assert (P' : p' = p_with_signers q (set_nth m v0 (p_signers q))) by congruence.
    rewrite P' in N0. cbn [p_with_signers p_signers] in N0. apply set_nth_inv in N0 as [[-> _]|N0]; [|congruence].
    exists rr, rrk, voter. auto.
  - exfalso. destruct E4 as [[X _]|(pk & q0 & _ & _ & _ & [[X _]|[X _]])]; congruence.
Qed.

Lemma votes_cast e s0 s : rl_inv e s0 -> hist e rl_id (rl_instr e) s0 s ->
  forall k p n v, rl_fin s k p -> nth_error (p_signers p) n = Some v -> v <> VNone ->
  (exists p0, rl_fin s0 k p0 /\ nth_error (p_signers p0) n = Some v) \/ cast_by e s0 s k n v.
Proof.
  intros I H. induction H as [s|s s1 s2 H IH P|s s1 s2 H IH P|s s1 s2 H IH P]; intros k p n v F N V;
  [left; eauto| | |]; specialize (IH I); pose proof (rl_inv_hist _ _ _ H I) as I1;
  assert (EXT : forall p0, rl_fin s1 k p0 -> nth_error (p_signers p0) n = Some v ->
    (forall a, hist e rl_id (rl_instr e) a s1 -> hist e rl_id (rl_instr e) a s2) ->
    (exists p0, rl_fin s k p0 /\ nth_error (p_signers p0) n = Some v) \/ cast_by e s s2 k n v)
  by (intros p0 F0 N0 M; destruct (IH k p0 n v F0 N0 V) as [X|(a & b & c & d & w & rrk & rr & q & A1 & A2 & A3)]; [left; exact X|right];
      exists a, b, c, d, w, rrk, rr, q; split; [exact A1|]; split; [apply M; exact A2|exact A3]).
  - pose proof P as P0. destruct P as (c & d & Hp & P). pose proof P as RUN. apply rl_process_ok in P as (i & D & Ok & P).
    destruct (vote_back _ _ _ _ _ _ _ _ _ Hp Ok I1 P F N V) as (q & Fq & [X|(-> & X & rr & rrk & voter & S1 & S2 & S3 & _)]).
    + apply (EXT q Fq X). intros a Ha. apply (h_prog _ _ _ _ s1); assumption.
    + right. exists s1, s2, c, d, voter, rrk, rr, q. split; [exact H|]. split; [apply h_refl|].
      split; [exact Hp|]. split; [exact RUN|]. split; [exact D|]. split; [exact S1|]. split; [exact S2|].
      split; [apply (round_in_own _ _ _ _ I1 S2)|]. auto.
  - destruct F as [O U]. destruct (P k) as (_ & P2 & P3 & _).
    destruct (key_dec (own (accs s1 k)) rl_id) as [O1|O1].
    + destruct (P2 O1) as [[A B] _]. apply (EXT p); [split; congruence|exact N|].
      intros a Ha. apply (h_foreign _ _ _ _ s1); assumption.
    + exfalso. specialize (P3 O1 O). apply all0_hd in P3. rewrite (fin_hd s2 k p) in P3; [discriminate|split; assumption].
  - destruct F as [O U]. destruct (P k) as [E|[_ E]]; [|rewrite E in O; discriminate].
    apply (EXT p); [split; congruence|exact N|]. intros a Ha. apply (h_purge _ _ _ _ s1); assumption.
Qed.
