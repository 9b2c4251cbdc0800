(** Invariants of the round loader over histories. *)

From Coq Require Import ZifyBool ZifyNat ZifyN.
From Verif Require Export RlEffects World.
Ltac Zify.zify_post_hook ::= Z.div_mod_to_equations.

(** One successful instruction of the round loader, any accounts and any data. *)
Definition rl_instr (e : env) (s s' : state) : Prop :=
  exists c d, c_pid c = rl_id /\ run c (rl_process e c d) s = Ok s'.

Lemma rl_process_ok e c d s s' : run c (rl_process e c d) s = Ok s' ->
  exists i, try_from_slice c_rl_ix d = Some i /\ okb c_rl_ix i = true /\ rl_exec e c i s = Ok (tt, s').
Proof.
  intros H. apply run_ok in H as [H _]. unfold rl_process in H. mstep H.
  apply ok_or_ok in H0. exists v. split; [exact H0|]. split; [|exact H].
  eapply try_from_slice_can; [typeclasses eauto|exact H0].
Qed.

(** Number of votes not yet cast. *)
Definition empties (l : list vote) : Z := blen (filter (vote_eqb VNone) l).

(** [k] holds the finalized proposal [p] / relay round [rr] / settings [st] of the round loader. *)
Definition rl_fin (s : state) (k : key) (p : rl_proposal) : Prop :=
  own (accs s k) = rl_id /\
  unpack c_rl_proposal RL_PROPOSAL_LEN (@p_init _ _) (dat (accs s k)) = Ok p.
Definition rl_round (s : state) (k : key) (rr : relay_round) : Prop :=
  own (accs s k) = rl_id /\ unpack c_relay_round RELAY_ROUND_LEN rr_init (dat (accs s k)) = Ok rr.
Definition rl_sets (s : state) (k : key) (st : rl_settings) : Prop :=
  own (accs s k) = rl_id /\ unpack c_rl_settings RL_SETTINGS_LEN rs_init (dat (accs s k)) = Ok st.

Lemma fin_len s k p : rl_fin s k p -> blen (dat (accs s k)) = RL_PROPOSAL_LEN.
Proof. intros [_ H]. apply unpack_ok in H as (r & _ & _ & B & _); [exact B|typeclasses eauto]. Qed.
Lemma round_len s k p : rl_round s k p -> blen (dat (accs s k)) = RELAY_ROUND_LEN.
Proof. intros [_ H]. apply unpack_ok in H as (r & _ & _ & B & _); [exact B|typeclasses eauto]. Qed.
Lemma sets_len s k p : rl_sets s k p -> blen (dat (accs s k)) = RL_SETTINGS_LEN.
Proof. intros [_ H]. apply unpack_ok in H as (r & _ & _ & B & _); [exact B|typeclasses eauto]. Qed.
Lemma sin_len e pid s k st pn : rl_settings_in e pid s k st pn -> blen (dat (accs s k)) = RL_SETTINGS_LEN.
Proof. intros [H _]. apply unpack_ok in H as (r & _ & _ & B & _); [exact B|typeclasses eauto]. Qed.
Lemma fresh_len {A} (cd : codec A) LEN x o s s' k :
  fresh_record cd LEN x o s s' k -> blen (dat (accs s' k)) = LEN.
Proof. intros (_ & _ & r & _ & _ & B). exact B. Qed.
Lemma fresh_own {A} (cd : codec A) LEN x o s s' k :
  fresh_record cd LEN x o s s' k -> own (accs s k) = sys_id.
Proof. intros ((H & _) & _). exact H. Qed.

(** ** A finalized proposal in one instruction *)

(** [p'] is [p] with one more vote, or with its status set to executed. *)
Variant fin_step (i : rl_ix) (p p' : rl_proposal) : Prop :=
| FS_same : p' = p -> fin_step i p p'
| FS_vote n v : i = RlVote v -> v <> VNone -> nth_error (p_signers p) n = Some VNone ->
    p' = p_with_signers p (set_nth n v (p_signers p)) -> fin_step i p p'
| FS_exec : p' = executed p -> fin_step i p p'.

Lemma same_fin s s' k p : same_od s s' k -> rl_fin s k p -> rl_fin s' k p.
Proof. intros [A B] [O U]. split; congruence. Qed.

Lemma fin_step_ok e c i s s' k p : c_pid c = rl_id -> rl_exec e c i s = Ok (tt, s') ->
  rl_fin s k p -> exists p', rl_fin s' k p' /\ fin_step i p p'.
Proof.
  intros Hp H F. pose proof (fin_len _ _ _ F) as L. pose proof F as [O U].
  pose proof U as U0. apply unpack_unchecked_init in U0 as [UU I0].
  pose proof U as U1. apply unpack_ok in U1 as (r & D & OK & _ & _); [|typeclasses eauto].
  destruct (rl_exec_effect e c i s s' H k) as
    [E|g sub mv ttl auth sn pn E1 E2 E3 E4 E5 E6|cur sub mv ttl auth st pn E1 E2 E3 E4 E5 E6
    |st pn rrk rn n l t E1 E2 E3 E4 E5 E6|sk st pn rn n l t E1 E2 E3 E4 E5|r0 ts lt conf h pn creator E1 E2 E3 E4 E5
    |o b d' E1 E2 E3 E4 E5|p0 st sk pn rr rrk E1 E2 E3 E4 E5 E6 E7 E8 E9|v p0 n E|sk st pn n l t p0 E1 E2 E3 E4 E5 E6 E7].
  - exists p. split; [eapply same_fin; eassumption|apply FS_same; reflexivity].
  - apply fresh_own in E5. rewrite O in E5. discriminate.
  - apply sin_len in E4. rewrite L in E4. discriminate.
  - apply sin_len in E1. rewrite L in E1. discriminate.
  - apply fresh_own in E4. rewrite O in E4. discriminate.
  - apply fresh_own in E4. rewrite O in E4. discriminate.
  - apply E3 in UU. congruence.
  - rewrite UU in E3. congruence.
  - destruct E as (E1 & E2 & E3 & E4 & E5 & E6 & E7 & _). rewrite U in E4.
    assert (p0 = p) by congruence. subst p0.
    eexists. split; [|eapply FS_vote; [exact E1|exact E2|exact E6|reflexivity]].
    split; [destruct E7; congruence|]. apply unpack_init; [|exact I0].
    eapply wrote_unpack; [typeclasses eauto|exact E7|exact L|]. apply okb_with_signers. exact OK.
  - rewrite U in E2. assert (p0 = p) by congruence. subst p0.
    exists (executed p). split; [|apply FS_exec; reflexivity].
    split; [destruct E6; congruence|]. apply unpack_init; [|exact I0].
    eapply wrote_unpack; [typeclasses eauto|exact E6|exact L|]. apply okb_executed. exact OK.
Qed.

(** ** The invariant *)

Definition rl_inv (e : env) (s : state) : Prop := forall k,
  0 <= lam (accs s k) /\
  (is_pda e rl_id k -> (own (accs s k) = sys_id /\ dat (accs s k) = []) \/ (own (accs s k) = rl_id /\ 1 <= lam (accs s k))) /\
  (own (accs s k) = rl_id -> blen (dat (accs s k)) = RL_PROPOSAL_LEN ->
     hd x00 (dat (accs s k)) = x00 \/
     exists p, rl_fin s k p /\ is_pda e rl_id k /\
       1 + RELAY_REPARATION * empties (p_signers p) <= lam (accs s k)).

Lemma find_pda_is e sd pid k n : find_pda e sd pid = Ok (k, n) -> is_pda e pid k.
Proof. intros H. apply find_pda_some in H as [H _]. eexists. exact H. Qed.
Lemma proposal_addr_is e pid k p : proposal_addr e pid k p -> is_pda e pid k.
Proof. intros (n & pn & _ & H). eapply find_pda_is. exact H. Qed.

Lemma rl_genesis_inv e s : genesis e rl_id s -> rl_inv e s.
Proof.
  intros G k. destruct (G k) as (G1 & G2 & G3). split; [exact G1|]. split; [auto|]. intros H. contradiction.
Qed.

Lemma all0_hd b : all0 b = true -> hd x00 b = x00.
Proof.
  destruct b as [|x b]; [reflexivity|]. cbn [all0 forallb hd]. intros H. apply andb_true_iff in H as [H _].
  unfold all0 in *. destruct (Byte.eqb x00 x) eqn:E; [|discriminate].
  symmetry. apply Byte.byte_dec_bl. exact E.
Qed.

Lemma rl_inv_foreign e s s' : rl_inv e s -> foreign e rl_id s s' -> rl_inv e s'.
Proof.
  intros I F k. destruct (I k) as (I1 & I2 & I3). destruct (F k) as (F1 & F2 & F3 & F4).
  split; [auto|]. split.
  - intros P. destruct (I2 P) as [[O D]|[O L]].
    + destruct (F4 P O) as [X Y]. left. split; congruence.
    + destruct (F2 O) as [[X _] Y]. right. split; [congruence|lia].
  - intros O B. destruct (key_dec (own (accs s k)) rl_id) as [O'|O'].
    + destruct (F2 O') as [[X Y] Z]. rewrite Y in *. destruct (I3 O' B) as [H|(p & Fp & P & L)]; [left; exact H|right].
      exists p. split; [eapply same_fin; [split; eassumption|exact Fp]|]. split; [exact P|lia].
    + left. apply all0_hd. auto.
Qed.

Lemma rl_inv_purge e s s' : rl_inv e s -> purge s s' -> rl_inv e s'.
Proof.
  intros I P k. destruct (I k) as (I1 & I2 & I3). destruct (P k) as [E|[L E]].
  - unfold rl_fin. rewrite E. auto.
  - unfold rl_fin. rewrite E. cbn [acct0 lam own dat]. split; [lia|]. split; [auto|]. discriminate.
Qed.

Lemma write_data_len d o b d' : 0 <= o -> write_proposal_data d o b = Ok d' ->
  length d' = length d /\ firstn 88 d' = firstn 88 d.
Proof.
  unfold write_proposal_data. intros Ho. destruct (_ <? _) eqn:E1; [discriminate|].
  destruct (blen d <? _) eqn:E2; [discriminate|]. intros H.
  assert (E : d' = firstn (Z.to_nat (LOAD_DATA_BEGIN + o)) d ++ b ++ skipn (Z.to_nat (LOAD_DATA_BEGIN + o + blen b)) d) by congruence.
  clear H. subst d'. unfold LOAD_DATA_BEGIN, blen in *. split.
  - rewrite !app_length, firstn_length, skipn_length. lia.
  - rewrite firstn_app, firstn_firstn, firstn_length.
    replace (Nat.min 88 (Z.to_nat (88 + o))) with 88%nat by lia.
    replace (88 - _)%nat with 0%nat by lia. cbn [firstn]. apply app_nil_r.
Qed.

Lemma hd_firstn (d d' : bytes) n : firstn (S n) d' = firstn (S n) d -> hd x00 d' = hd x00 d.
Proof. destruct d, d'; cbn [firstn hd]; congruence. Qed.

Lemma hd_init p r : hd x00 (enc c_rl_proposal p ++ r) = if p_init p then x01 else x00.
Proof. destruct (enc_rl_prop_init p) as [t ->]. reflexivity. Qed.

Lemma empties_set n v l : nth_error l n = Some VNone -> v <> VNone ->
  empties (set_nth n v l) = empties l - 1.
Proof.
  unfold empties, blen. revert n. induction l as [|x l IH]; intros [|n]; cbn [nth_error set_nth filter]; try discriminate.
  - intros H N. injection H as ->. destruct v; [congruence| |]; cbn [vote_eqb length]; lia.
  - intros H N. specialize (IH n H N). destruct (vote_eqb VNone x); cbn [length]; lia.
Qed.
Lemma empties_repeat n : empties (repeat VNone n) = Z.of_nat n.
Proof. unfold empties, blen. induction n; [reflexivity|]. cbn [repeat filter vote_eqb length]. lia. Qed.

Lemma okb_u32 x : okb c_u32 x = true <-> 0 <= x < u32max.
Proof. cbn [okb c_u32 c_uint]. change (256 ^ Z.of_nat 4) with u32max. lia. Qed.

Lemma okb_ix_write o b : okb c_rl_ix (RlWriteProposal o b) = true -> 0 <= o.
Proof.
  change (okb c_rl_5 (o, b) = true -> 0 <= o). unfold c_rl_5. cbn [c_pair okb fst snd].
  intros H. apply andb_true_iff in H as [H _]. apply okb_u32 in H. lia.
Qed.

(** Finalization yields a well-formed record. *)
Lemma two_thirds_range n : 0 <= two_thirds n < u32max.
Proof. unfold two_thirds, wrap32, u32max. lia. Qed.

Lemma okb_round_parts rr : okb c_relay_round rr = true ->
  okb c_kind (rr_kind rr) = true /\ 0 <= rr_number rr < u32max /\ 0 <= rr_end rr < u32max /\
  blen (rr_relays rr) < u32max.
Proof.
  unfold c_relay_round. cbn [c_iso okb c_pair fst snd c_vec]. rewrite !andb_true_iff.
  change ((0 <=? rr_number rr) && (rr_number rr <? 256 ^ Z.of_nat 4)) with (okb c_u32 (rr_number rr)).
  intros (_ & H1 & H2 & H3 & H4 & _). apply okb_u32 in H2, H3. apply Z.ltb_lt in H4. auto.
Qed.
Lemma okb_sets_parts st : okb c_rl_settings st = true ->
  okb c_kind (rs_kind st) = true /\ 0 <= rs_current st < u32max /\ 0 <= rs_min_votes st < u32max /\
  0 <= rs_ttl st < u32max.
Proof.
  unfold c_rl_settings. cbn [c_iso okb c_pair fst snd]. rewrite !andb_true_iff.
  intros (_ & H1 & H2 & _ & H3 & H4). apply okb_u32 in H2, H3, H4. auto.
Qed.

Lemma okb_final p rr st : okb c_rl_proposal p = true -> okb c_relay_round rr = true ->
  okb c_rl_settings st = true ->
  okb c_rl_proposal (Prop_ true (p_kind p) (p_author p) (rr_number rr)
         (Z.max (two_thirds (blen (rr_relays rr))) (rs_min_votes st))
         (p_pda p) (p_event p) (WithLen 1 PNew)
         (repeat VNone (length (rr_relays rr)))) = true.
Proof.
  intros H1 H2 H3. apply okb_round_parts in H2 as (_ & R1 & R2 & R3).
  apply okb_sets_parts in H3 as (_ & S1 & S2 & S3).
  unfold c_rl_proposal in *. rewrite (okb_prop (c_withlen c_rl_event) (c_withlen c_pstatus)) in H1.
  rewrite (okb_prop (c_withlen c_rl_event) (c_withlen c_pstatus)).
  cbn [p_init p_kind p_author p_round p_required p_pda p_event p_meta p_signers].
  rewrite !andb_true_iff in *. rewrite !okb_u32 in *. rewrite okb_votes.
  pose proof (two_thirds_range (blen (rr_relays rr))).
  unfold blen in *. rewrite repeat_length. rewrite Z.ltb_lt.
  repeat match goal with |- _ /\ _ => split end; try tauto; try lia; try reflexivity.
Qed.

Lemma round_in_le100 e pid s k rr : round_in e pid s k rr -> blen (rr_relays rr) <= 100.
Proof.
  intros [H (n & K & _)]. apply unpack_ok in H as (r & D & _ & B & _); [|typeclasses eauto].
  rewrite D, blen_app, size_relay_round, K in B. unfold kind_len, RELAY_ROUND_LEN in B.
  pose proof (blen_nonneg r). lia.
Qed.

Lemma rl_inv_exec e c i s s' : c_pid c = rl_id -> okb c_rl_ix i = true ->
  rl_inv e s -> rl_exec e c i s = Ok (tt, s') -> rl_inv e s'.
Proof.
  intros Hp Hok I H k. destruct (I k) as (I1 & I2 & I3).
  assert (NS : c_pid c <> sys_id) by (rewrite Hp; discriminate).
  destruct (rl_exec_lam e c i s s' NS H k) as [L1 L2]. rewrite Hp in L2.
  pose proof (rl_exec_effect e c i s s' H k) as EF.
  split; [auto|].
  (* a recorded vote keeps the reserve *)
  assert (VT : forall v p n, rl_voted e c i s s' k v p n ->
     rl_fin s' k (p_with_signers p (set_nth n v (p_signers p))) /\ is_pda e rl_id k /\
     1 + RELAY_REPARATION * empties (set_nth n v (p_signers p)) <= lam (accs s' k)).
  { intros v p n (E1 & E2 & E3 & E4 & E5 & E6 & E7 & E8 & _). rewrite Hp in *.
    pose proof E4 as U1. apply unpack_ok in U1 as (r & D & OK & LEN & I0); [|typeclasses eauto].
    split; [|split; [eapply proposal_addr_is; exact E5|]].
    - split; [destruct E7; congruence|]. apply unpack_init; [|exact I0].
      eapply wrote_unpack; [typeclasses eauto|exact E7|exact LEN|]. apply okb_with_signers. exact OK.
    - destruct (I3 E3 LEN) as [X|(p' & [_ F] & _ & L)].
      + rewrite D, hd_init, I0 in X. discriminate.
      + rewrite E4 in F. assert (p' = p) by congruence. subst p'.
        rewrite empties_set by assumption. unfold RELAY_REPARATION in *. lia. }
  split.
  - (* ownership of derived addresses *)
    intros P.
    assert (KEEP : own (accs s k) = rl_id -> own (accs s' k) = rl_id ->
              (own (accs s' k) = sys_id /\ dat (accs s' k) = []) \/ (own (accs s' k) = rl_id /\ 1 <= lam (accs s' k))).
    { intros O O'. right. split; [exact O'|]. destruct (L2 O) as [L|(v & p & n & V)].
      - destruct (I2 P) as [[X _]|[_ X]]; [rewrite O in X; discriminate|lia].
      - destruct (VT v p n V) as (_ & _ & L). unfold empties, RELAY_REPARATION in L.
        pose proof (blen_nonneg (filter (vote_eqb VNone) (set_nth n v (p_signers p)))). lia. }
    destruct EF as
    [E|g sub mv ttl auth sn pn E1 E2 E3 E4 E5 E6|cur sub mv ttl auth st pn E1 E2 E3 E4 E5 E6
    |st pn rrk rn n l t E1 E2 E3 E4 E5 E6|sk st pn rn n l t E1 E2 E3 E4 E5|r0 ts lt conf h pn creator E1 E2 E3 E4 E5
    |o b d' E1 E2 E3 E4 E5|p0 st sk pn rr rrk E1 E2 E3 E4 E5 E6 E7 E8 E9|v p0 n E|sk st pn n l t p0 E1 E2 E3 E4 E5 E6 E7];
    rewrite ?Hp in *.
    + destruct E as [E E0]. destruct (I2 P) as [[O D]|[O _]]; [left; split; congruence|]. apply KEEP; congruence.
    + right. split; [apply E5|auto].
    + destruct E6 as [E6 _]. apply KEEP; congruence.
    + destruct E3 as [E3 _]. apply KEEP; congruence.
    + right. split; [apply E4|auto].
    + right. split; [apply E4|auto].
    + apply KEEP; [exact E2|]. rewrite E5. rewrite own_put_dat. exact E2.
    + destruct E8 as [E8 _]. apply KEEP; congruence.
    + destruct E as (_ & _ & E3 & _ & _ & _ & [E7 _] & _). rewrite Hp in *. apply KEEP; congruence.
    + destruct E6 as [E6 _]. apply KEEP; congruence.
  - (* accounts of the size of a proposal *)
    intros O LEN. destruct EF as
    [E|g sub mv ttl auth sn pn E1 E2 E3 E4 E5 E6|cur sub mv ttl auth st pn E1 E2 E3 E4 E5 E6
    |st pn rrk rn n l t E1 E2 E3 E4 E5 E6|sk st pn rn n l t E1 E2 E3 E4 E5|r0 ts lt conf h pn creator E1 E2 E3 E4 E5
    |o b d' E1 E2 E3 E4 E5|p0 st sk pn rr rrk E1 E2 E3 E4 E5 E6 E7 E8 E9|v p0 n E|sk st pn n l t p0 E1 E2 E3 E4 E5 E6 E7];
    rewrite ?Hp in *.
    + destruct E as [EO ED]. rewrite EO in O. rewrite ED in *. destruct (I3 O LEN) as [X|(p & F & P & L)]; [left; exact X|right].
      destruct (L2 O) as [L'|(v & p0 & n & V)].
      * exists p. split; [eapply same_fin; [split; eassumption|exact F]|]. split; [exact P|lia].
      * exists (p_with_signers p0 (set_nth n v (p_signers p0))). exact (VT _ _ _ V).
    + apply fresh_len in E5. rewrite LEN in E5. discriminate.
    + apply wrote_blen in E6. apply sin_len in E4. rewrite LEN, E4 in E6. discriminate.
    + apply wrote_blen in E3. apply sin_len in E1. rewrite LEN, E1 in E3. discriminate.
    + apply fresh_len in E4. rewrite LEN in E4. discriminate.
    + left. destruct E4 as (_ & _ & r & D & _). rewrite D, hd_init. reflexivity.
    + rewrite E1 in Hok. apply okb_ix_write in Hok. apply write_data_len in E4 as [W1 W2]; [|exact Hok].
      assert (D : dat (accs s' k) = d') by (rewrite E5; apply dat_put_dat).
      assert (LEN0 : blen (dat (accs s k)) = RL_PROPOSAL_LEN) by (rewrite D in LEN; unfold blen in *; congruence).
      left. rewrite D. rewrite (hd_firstn _ _ _ W2).
      destruct (I3 E2 LEN0) as [X|(p & [_ F] & _)]; [exact X|].
      apply unpack_unchecked_init in F as [F I0]. apply E3 in F. congruence.
    + right.
      pose proof E3 as U1. apply unpack_unchecked_ok in U1 as (r & D & OK & LEN0); [|typeclasses eauto].
      pose proof E7 as R0. pose proof E6 as S0.
      destruct E7 as [E7 _]. apply unpack_ok in E7 as (rr1 & _ & OKr & _ & _); [|typeclasses eauto].
      destruct E6 as [E6 _]. apply unpack_ok in E6 as (rr2 & _ & OKs & _ & _); [|typeclasses eauto].
      eexists. split; [|split; [eapply proposal_addr_is; exact E5|]].
      * split; [exact O|]. apply unpack_init; [|shelve].
        eapply wrote_unpack; [typeclasses eauto|exact E8|exact LEN0|]. apply okb_final; assumption.
        Unshelve. reflexivity.
      * cbn [p_signers]. rewrite empties_repeat, E9. apply round_in_le100 in R0.
        assert (1 <= lam (accs s k)).
        { destruct (I2 (proposal_addr_is _ _ _ _ E5)) as [[X _]|[_ X]]; [rewrite E2 in X; discriminate|exact X]. }
        fold (blen (rr_relays rr)). pose proof (blen_nonneg (rr_relays rr)).
        unfold wrap64, u64max, RELAY_REPARATION in *. rewrite Z.mod_small by lia. lia.
    + right. exists (p_with_signers p0 (set_nth n v (p_signers p0))). exact (VT _ _ _ E).
    + right. pose proof E2 as U1. apply unpack_ok in U1 as (r & D & OK & LEN0 & I0); [|typeclasses eauto].
      destruct (I3 E1 LEN0) as [X|(p' & [_ F] & P & L)].
      { rewrite D, hd_init, I0 in X. discriminate. }
      rewrite E2 in F. assert (p' = p0) by congruence. subst p'.
      exists (executed p0). split; [|split; [exact P|]].
      * split; [exact O|]. apply unpack_init; [|exact I0].
        eapply wrote_unpack; [typeclasses eauto|exact E6|exact LEN0|]. apply okb_executed. exact OK.
      * destruct (L2 E1) as [L'|(v & p1 & n1 & V)].
        -- unfold executed, p_with_meta. cbn [p_signers]. lia.
        -- destruct V as (X1 & _ & _ & X4 & _). exfalso. destruct E4 as [[X _]|(pk & q & _ & _ & _ & [[X _]|[X _]])]; congruence.
Qed.

Lemma rl_inv_step e s s' : rl_inv e s -> rl_instr e s s' -> rl_inv e s'.
Proof.
  intros I (c & d & Hp & H). apply rl_process_ok in H as (i & _ & Ok & H). eapply rl_inv_exec; eassumption.
Qed.
Lemma rl_inv_hist e s s' : hist e rl_id (rl_instr e) s s' -> rl_inv e s -> rl_inv e s'.
Proof.
  apply hist_inv; intros; [eapply rl_inv_step|eapply rl_inv_foreign|eapply rl_inv_purge]; eassumption.
Qed.

(** ** Finalized proposals over histories *)

(** [p'] extends [p]: same content, recorded votes kept, executed stays executed. *)
Definition fin_later (p p' : rl_proposal) : Prop :=
  p_kind p' = p_kind p /\ p_author p' = p_author p /\ p_round p' = p_round p /\
  p_required p' = p_required p /\ p_pda p' = p_pda p /\ p_event p' = p_event p /\
  length (p_signers p') = length (p_signers p) /\
  (forall n v, nth_error (p_signers p) n = Some v -> v <> VNone -> nth_error (p_signers p') n = Some v) /\
  (wl_data (p_meta p) = PExecuted -> wl_data (p_meta p') = PExecuted).

Lemma fin_later_refl p : fin_later p p.
Proof. unfold fin_later. repeat match goal with |- _ /\ _ => split end; auto. Qed.
Lemma fin_later_trans a b c : fin_later a b -> fin_later b c -> fin_later a c.
Proof.
  intros (A1 & A2 & A3 & A4 & A5 & A6 & A7 & A8 & A9) (B1 & B2 & B3 & B4 & B5 & B6 & B7 & B8 & B9).
  unfold fin_later. repeat match goal with |- _ /\ _ => split end; try congruence; eauto.
Qed.
Lemma fin_step_later i p p' : fin_step i p p' -> fin_later p p'.
Proof.
  intros [->|n v _ N E ->| ->]; [apply fin_later_refl| |].
  - unfold fin_later, p_with_signers. cbn [p_init p_kind p_author p_round p_required p_pda p_event p_meta p_signers].
    repeat match goal with |- _ /\ _ => split end; auto; [apply set_nth_length|].
    intros m w H W. destruct (Nat.eq_dec n m) as [->|D]; [congruence|]. rewrite set_nth_other by exact D. exact H.
  - unfold fin_later, executed, p_with_meta. cbn [p_init p_kind p_author p_round p_required p_pda p_event p_meta p_signers wl_data].
    repeat match goal with |- _ /\ _ => split end; auto.
Qed.

Lemma fin_hist e s s' : rl_inv e s -> hist e rl_id (rl_instr e) s s' ->
  forall k p, rl_fin s k p -> exists p', rl_fin s' k p' /\ fin_later p p'.
Proof.
  intros I H. assert (J : rl_inv e s /\ hist e rl_id (rl_instr e) s s') by auto. clear H.
  destruct J as [_ H]. induction H as [s|s s1 s2 H IH P|s s1 s2 H IH P|s s1 s2 H IH P]; intros k p F.
  - exists p. split; [exact F|apply fin_later_refl].
  - destruct (IH I k p F) as (p1 & F1 & L1). destruct P as (c & d & Hp & P).
    apply rl_process_ok in P as (i & _ & Ok & P). destruct (fin_step_ok _ _ _ _ _ _ _ Hp P F1) as (p2 & F2 & S2).
    exists p2. split; [exact F2|]. eapply fin_later_trans; [exact L1|eapply fin_step_later; exact S2].
  - destruct (IH I k p F) as (p1 & F1 & L1). exists p1. split; [|exact L1].
    destruct (P k) as (_ & P2 & _). eapply same_fin; [apply P2; apply F1|exact F1].
  - destruct (IH I k p F) as (p1 & F1 & L1). exists p1. split; [|exact L1].
    pose proof (rl_inv_hist _ _ _ H I k) as (_ & _ & J). pose proof (fin_len _ _ _ F1) as LEN.
    destruct F1 as [O U]. destruct (J O LEN) as [X|(p' & [_ F'] & _ & L)].
    + apply unpack_ok in U as (r & D & _ & _ & I0); [|typeclasses eauto]. rewrite D, hd_init, I0 in X. discriminate.
    + destruct (P k) as [E|[L0 _]].
      * split; congruence.
      * unfold empties, RELAY_REPARATION in L. pose proof (blen_nonneg (filter (vote_eqb VNone) (p_signers p'))). lia.
Qed.

(** ** Derived accounts stay with the round loader *)

Lemma rl_own_hist e s s' k : rl_inv e s -> hist e rl_id (rl_instr e) s s' -> is_pda e rl_id k ->
  own (accs s k) = rl_id -> own (accs s' k) = rl_id.
Proof.
  intros I H P O. induction H as [s|s s1 s2 H IH Q|s s1 s2 H IH Q|s s1 s2 H IH Q]; [exact O| | |];
  specialize (IH I O).
  - destruct Q as (c & d & Hp & Q). apply rl_process_ok in Q as (i & _ & OK & Q).
    destruct (rl_exec_effect _ _ _ _ _ Q k) as
    [E|g sub mv ttl auth sn pn E1 E2 E3 E4 E5 E6|cur sub mv ttl auth st pn E1 E2 E3 E4 E5 E6
    |st pn rrk rn n l t E1 E2 E3 E4 E5 E6|sk st pn rn n l t E1 E2 E3 E4 E5|r0 ts lt conf h pn creator E1 E2 E3 E4 E5
    |o b d' E1 E2 E3 E4 E5|p0 st sk pn rr rrk E1 E2 E3 E4 E5 E6 E7 E8 E9|v p0 n E|sk st pn n l t p0 E1 E2 E3 E4 E5 E6 E7].
    + destruct E; congruence.
    + destruct E5 as (_ & E5 & _). congruence.
    + destruct E6; congruence.
    + destruct E3; congruence.
    + destruct E4 as (_ & E4 & _). congruence.
    + destruct E4 as (_ & E4 & _). congruence.
    + rewrite E5, own_put_dat. exact IH.
    + destruct E8; congruence.
    + destruct E as (_ & _ & _ & _ & _ & _ & [E _] & _). congruence.
    + destruct E6; congruence.
  - destruct (Q k) as (_ & Q2 & _). destruct (Q2 IH) as [[X _] _]. congruence.
  - destruct (Q k) as [E|[L _]]; [congruence|].
    destruct (rl_inv_hist _ _ _ H I k) as (_ & J & _). destruct (J P) as [[X _]|[_ X]]; [rewrite IH in X; discriminate|lia].
Qed.

(** ** Relay rounds *)

Lemma split_keys n : forall b, length b = (32 * n)%nat -> exists l, length l = n /\ flat_map kb l = b.
Proof.
  induction n as [|n IH]; intros b H.
  - exists []. destruct b; [auto|]. cbn [length] in H. lia.
  - assert (H1 : length (firstn 32 b) = 32%nat) by (rewrite firstn_length; lia).
    destruct (IH (skipn 32 b)) as (l & L & F); [rewrite skipn_length; lia|].
    assert (E : Nat.eqb (length (firstn 32 b)) 32 = true) by (rewrite H1; reflexivity).
    exists (Key (firstn 32 b) E :: l). split; [cbn [length]; congruence|]. cbn [flat_map kb]. rewrite F. apply firstn_skipn.
Qed.

Lemma flat_kb_length l : length (flat_map kb l) = (32 * length l)%nat.
Proof. induction l as [|x l IH]; [reflexivity|]. cbn [flat_map length]. rewrite app_length, IH, kb_length. lia. Qed.

Lemma firstn_app_exact {A} (a b : list A) n : length a = n -> firstn n (a ++ b) = a.
Proof. intros <-. rewrite firstn_app, firstn_all, Nat.sub_diag. cbn [firstn]. apply app_nil_r. Qed.

Lemma flat_first2 l l' : length l = length l' ->
  firstn 64 (flat_map kb l) = firstn 64 (flat_map kb l') -> firstn 2 l = firstn 2 l'.
Proof.
  assert (K : forall x y r r', kb x ++ r = kb y ++ r' -> x = y /\ r = r').
  { intros x y r r' H. apply (f_equal (firstn 32)) in H as H1.
    rewrite !firstn_app_exact in H1 by apply kb_length. rewrite H1 in H. apply app_inv_head in H.
    split; [apply key_ext; exact H1|exact H]. }
  destruct l as [|a [|b l]], l' as [|a' [|b' l']]; cbn [length]; intros L H; try discriminate; [reflexivity| |].
  - cbn [flat_map] in H. rewrite !app_nil_r in H. rewrite !firstn_all2 in H by (rewrite kb_length; lia).
    apply key_ext in H. subst. reflexivity.
  - cbn [flat_map] in H. rewrite !app_assoc in H.
    rewrite !firstn_app_exact in H by (rewrite app_length, !kb_length; reflexivity).
    apply K in H as [-> H]. apply key_ext in H. subst. reflexivity.
Qed.

(** Same round apart from relays behind the second one. *)
Definition round_like (rr rr' : relay_round) : Prop :=
  rr_init rr' = rr_init rr /\ rr_kind rr' = rr_kind rr /\ rr_number rr' = rr_number rr /\
  rr_end rr' = rr_end rr /\ length (rr_relays rr') = length (rr_relays rr) /\
  firstn 2 (rr_relays rr') = firstn 2 (rr_relays rr).

Lemma round_like_refl rr : round_like rr rr.
Proof. unfold round_like. auto 10. Qed.
Lemma round_like_trans a b c : round_like a b -> round_like b c -> round_like a c.
Proof. unfold round_like. intros (?&?&?&?&?&?) (?&?&?&?&?&?). repeat match goal with |- _ /\ _ => split end; congruence. Qed.

Lemma enc_round_split rr n : rr_kind rr = KRelayRound n ->
  exists h, enc c_relay_round rr = h ++ flat_map kb (rr_relays rr) /\ length h = 15%nat /\
    forall l, length l = length (rr_relays rr) ->
      enc c_relay_round (RelayRound (rr_init rr) (rr_kind rr) (rr_number rr) (rr_end rr) l) = h ++ flat_map kb l.
Proof.
  intros K.
  exists (enc c_bool (rr_init rr) ++ enc c_kind (rr_kind rr) ++ le 4 (rr_number rr) ++ le 4 (rr_end rr) ++ le 4 (blen (rr_relays rr))).
  assert (X : forall l, length l = length (rr_relays rr) ->
     enc c_relay_round (RelayRound (rr_init rr) (rr_kind rr) (rr_number rr) (rr_end rr) l) =
     (enc c_bool (rr_init rr) ++ enc c_kind (rr_kind rr) ++ le 4 (rr_number rr) ++ le 4 (rr_end rr) ++ le 4 (blen (rr_relays rr))) ++ flat_map kb l).
  { intros l L. unfold c_relay_round. cbn [c_iso enc c_pair fst snd c_vec rr_init rr_kind rr_number rr_end rr_relays c_u32 c_uint].
    unfold blen. rewrite L, <- !app_assoc. reflexivity. }
  split; [|split; [|exact X]].
  - rewrite <- X by reflexivity. destruct rr; reflexivity.
  - rewrite K. cbn [enc c_kind]. rewrite !app_length, !le_length. reflexivity.
Qed.

Lemma okb_round_relays rr l : okb c_relay_round rr = true -> length l = length (rr_relays rr) ->
  okb c_relay_round (RelayRound (rr_init rr) (rr_kind rr) (rr_number rr) (rr_end rr) l) = true.
Proof.
  unfold c_relay_round. cbn [c_iso okb c_pair fst snd c_vec rr_init rr_kind rr_number rr_end rr_relays].
  rewrite !andb_true_iff. unfold blen. intros (A & B & C & D & E & F) L. rewrite L.
  repeat match goal with |- _ /\ _ => split end; auto. apply forallb_forall. reflexivity.
Qed.

Lemma write_round d d' rr n :
  unpack c_relay_round RELAY_ROUND_LEN rr_init d = Ok rr -> rr_kind rr = KRelayRound n ->
  length d' = length d -> firstn 88 d' = firstn 88 d ->
  exists rr', unpack c_relay_round RELAY_ROUND_LEN rr_init d' = Ok rr' /\ round_like rr rr'.
Proof.
  intros U K L F. apply unpack_ok in U as (r & D & OK & B & I0); [|typeclasses eauto].
  destruct (enc_round_split rr n K) as (h & E & H & X). set (m := length (rr_relays rr)) in *.
  assert (LD : length d = 3215%nat) by (unfold blen, RELAY_ROUND_LEN in B; lia).
  rewrite E, <- app_assoc in D. rewrite <- L in LD.
  assert (D' : d' = h ++ skipn 15 d').
  { rewrite <- (firstn_skipn 15 d') at 1. f_equal.
    apply (f_equal (firstn 15)) in F. rewrite !firstn_firstn in F. cbn [Nat.min] in F. rewrite F, D.
    apply firstn_app_exact. exact H. }
  assert (LR : (15 + 32 * m <= 3215)%nat).
  { rewrite L in LD. rewrite D, !app_length, flat_kb_length, H in LD. fold m in LD. lia. }
  destruct (split_keys m (firstn (32 * m) (skipn 15 d'))) as (l & L1 & L2).
  { rewrite firstn_length, skipn_length. lia. }
  exists (RelayRound (rr_init rr) (rr_kind rr) (rr_number rr) (rr_end rr) l). split.
  - rewrite D'. rewrite <- (firstn_skipn (32 * m) (skipn 15 d')), <- L2, app_assoc, <- (X l L1).
    apply unpack_enc; [typeclasses eauto|apply okb_round_relays; assumption|exact I0|].
    rewrite X, <- app_assoc, L2, firstn_skipn, <- D' by exact L1. unfold blen, RELAY_ROUND_LEN. lia.
  - unfold round_like. cbn [rr_init rr_kind rr_number rr_end rr_relays].
    repeat match goal with |- _ /\ _ => split end; auto.
    apply flat_first2; [exact L1|]. rewrite L2.
    assert (S : firstn 73 (skipn 15 d') = firstn 73 (flat_map kb (rr_relays rr) ++ r)).
    { rewrite D', D in F. rewrite !firstn_app, H in F. rewrite !firstn_all2 in F by lia.
      apply app_inv_head in F. rewrite firstn_app. exact F. }
    apply (f_equal (firstn (Nat.min 64 (32 * m)))) in S. rewrite !firstn_firstn in S.
    replace (Nat.min (Nat.min 64 (32 * m)) 73) with (Nat.min 64 (32 * m)) in S by lia.
    rewrite firstn_firstn, S, <- firstn_firstn.
    rewrite (firstn_app_exact (flat_map kb (rr_relays rr)) r) by (rewrite flat_kb_length; reflexivity). reflexivity.
Qed.

Lemma round_step e c i s s' k rr n : c_pid c = rl_id -> okb c_rl_ix i = true ->
  rl_exec e c i s = Ok (tt, s') -> rl_round s k rr -> rr_kind rr = KRelayRound n ->
  exists rr', rl_round s' k rr' /\ round_like rr rr' /\
    ((forall o b, i = RlWriteProposal o b -> hd_error (c_keys c) <> Some k) -> rr' = rr).
Proof.
  intros Hp Hok H R K. pose proof (round_len _ _ _ R) as L. pose proof R as [O U].
  assert (SAME : same_od s s' k -> exists rr', rl_round s' k rr' /\ round_like rr rr' /\
    ((forall o b, i = RlWriteProposal o b -> hd_error (c_keys c) <> Some k) -> rr' = rr)).
  { intros [A B]. exists rr. split; [split; congruence|]. split; [apply round_like_refl|auto]. }
  destruct (rl_exec_effect e c i s s' H k) as
    [E|g sub mv ttl auth sn pn E1 E2 E3 E4 E5 E6|cur sub mv ttl auth st pn E1 E2 E3 E4 E5 E6
    |st pn rrk rn m l t E1 E2 E3 E4 E5 E6|sk st pn rn m l t E1 E2 E3 E4 E5|r0 ts lt conf h pn creator E1 E2 E3 E4 E5
    |o b d' E1 E2 E3 E4 E5|p0 st sk pn rr0 rrk E1 E2 E3 E4 E5 E6 E7 E8 E9|v p0 m E|sk st pn m l t p0 E1 E2 E3 E4 E5 E6 E7].
  - auto.
  - apply fresh_own in E5. rewrite O in E5. discriminate.
  - apply sin_len in E4. rewrite L in E4. discriminate.
  - apply sin_len in E1. rewrite L in E1. discriminate.
  - apply fresh_own in E4. rewrite O in E4. discriminate.
  - apply fresh_own in E4. rewrite O in E4. discriminate.
  - subst i. pose proof (okb_ix_write _ _ Hok) as Ho. pose proof (write_data_len _ _ _ _ Ho E4) as [W1 W2].
    destruct (write_round _ _ _ _ U K W1 W2) as (rr' & U' & RL).
    exists rr'. split; [split; [rewrite E5, own_put_dat; exact O|rewrite E5, dat_put_dat; exact U']|].
    split; [exact RL|]. intros NW. cbn [rl_exec] in H.
    apply rl_write_proposal_ok in H as (pk & rest & d2 & KK & _ & _ & ES & _).
    assert (pk <> k). { intros ->. apply (NW o b eq_refl). rewrite KK. reflexivity. }
    assert (dat (accs s' k) = dat (accs s k)) by (rewrite ES; apply dat_put_dat_other; congruence).
    rewrite E5, dat_put_dat in H0. congruence.
  - apply unpack_unchecked_ok in E3 as (r & _ & _ & B); [|typeclasses eauto]. rewrite L in B. discriminate.
  - destruct E as (_ & _ & _ & E4 & _). apply unpack_ok in E4 as (r & _ & _ & B & _); [|typeclasses eauto].
    rewrite L in B. discriminate.
  - apply unpack_ok in E2 as (r & _ & _ & B & _); [|typeclasses eauto]. rewrite L in B. discriminate.
Qed.

(** Like [rl_instr], but not an upload into account [k]. *)
Definition rl_instr_no_upload (e : env) (k : key) (s s' : state) : Prop :=
  exists c d, c_pid c = rl_id /\ run c (rl_process e c d) s = Ok s' /\
    forall o b, try_from_slice c_rl_ix d = Some (RlWriteProposal o b) -> hd_error (c_keys c) <> Some k.

Lemma round_hist e s s' : rl_inv e s -> hist e rl_id (rl_instr e) s s' ->
  forall k rr n, rl_round s k rr -> rr_kind rr = KRelayRound n -> is_pda e rl_id k ->
  exists rr', rl_round s' k rr' /\ round_like rr rr'.
Proof.
  intros I H k rr n R K PD. induction H as [s|s s1 s2 H IH P|s s1 s2 H IH P|s s1 s2 H IH P].
  - exists rr. split; [exact R|apply round_like_refl].
  - destruct (IH I R) as (r1 & R1 & L1). destruct P as (c & d & Hp & P).
    apply rl_process_ok in P as (i & _ & Ok & P).
    destruct (round_step _ _ _ _ _ _ _ n Hp Ok P R1) as (r2 & R2 & L2 & _).
    { destruct L1 as (_ & -> & _). exact K. }
    exists r2. split; [exact R2|]. eapply round_like_trans; eassumption.
  - destruct (IH I R) as (r1 & [O1 U1] & L1). exists r1. split; [|exact L1].
    destruct (P k) as (_ & P2 & _). destruct (P2 O1) as [[A B] _]. split; congruence.
  - destruct (IH I R) as (r1 & [O1 U1] & L1). exists r1. split; [|exact L1].
    destruct (P k) as [E|[L0 _]]; [split; congruence|].
    destruct (rl_inv_hist _ _ _ H I k) as (_ & J & _). destruct (J PD) as [[X _]|[_ X]]; [rewrite O1 in X; discriminate|lia].
Qed.

Lemma no_upload_instr e k s s' : rl_instr_no_upload e k s s' -> rl_instr e s s'.
Proof. intros (c & d & A & B & _). exists c, d. auto. Qed.

Lemma round_hist_no_upload e s s' k : rl_inv e s -> hist e rl_id (rl_instr_no_upload e k) s s' ->
  forall rr n, rl_round s k rr -> rr_kind rr = KRelayRound n -> is_pda e rl_id k -> rl_round s' k rr.
Proof.
  intros I H rr n R K PD. induction H as [s|s s1 s2 H IH P|s s1 s2 H IH P|s s1 s2 H IH P]; [exact R| | |].
  - specialize (IH I R). destruct P as (c & d & Hp & P & NW).
    apply rl_process_ok in P as (i & D & Ok & P).
    destruct (round_step _ _ _ _ _ _ _ n Hp Ok P IH K) as (r2 & R2 & L2 & E).
    rewrite E in R2; [exact R2|]. intros o b ->. eapply NW. exact D.
  - destruct (IH I R) as [O1 U1]. destruct (P k) as (_ & P2 & _). destruct (P2 O1) as [[A B] _]. split; congruence.
  - destruct (IH I R) as [O1 U1]. destruct (P k) as [E|[L0 _]]; [split; congruence|].
    apply (hist_weaken _ _ _ _ _ _ (no_upload_instr e k)) in H.
    destruct (rl_inv_hist _ _ _ H I k) as (_ & J & _). destruct (J PD) as [[X _]|[_ X]]; [rewrite O1 in X; discriminate|lia].
Qed.
