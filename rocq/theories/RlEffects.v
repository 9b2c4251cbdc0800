(** One successful instruction of the round loader seen from one account: the complete list of
    what can happen to its owner and data. *)

From Coq Require Import ZifyBool ZifyNat ZifyN.
From Verif Require Export RlLaws.
Ltac Zify.zify_post_hook ::= Z.div_mod_to_equations.

(** What authorised a new relay round with number [n], relays [l] and end [t]. *)
Definition round_cause (e : env) (c : ctx) (i : rl_ix) (s s' : state) (st : rl_settings)
  (n : Z) (l : list key) (t : Z) : Prop :=
  (i = RlCreateRelayRound n l t /\ c_sg c (rs_submitter st) = true /\
     (rs_current st = 0 \/ rs_current st <= n)) \/
  (exists pk p, RlEvent n l t = wl_data (p_event p) /\
     unpack c_rl_proposal RL_PROPOSAL_LEN (@p_init _ _) (dat (accs s pk)) = Ok p /\
     wrote c_rl_proposal s s' pk (executed p) /\
     ((i = RlExecute /\ own (accs s pk) = c_pid c /\ proposal_addr e (c_pid c) pk p /\
       wl_data (p_meta p) = PNew /\ p_required p <= wrap32 (confirms (p_signers p))) \/
      (i = RlExecuteByAdmin /\ c_sg c (rs_submitter st) = true /\
       (wl_data (p_meta p) = PExecuted \/ own (accs s pk) = c_pid c)))).

(** A vote of the signing relay is recorded at position [n] of proposal [k]. *)
Definition rl_voted (e : env) (c : ctx) (i : rl_ix) (s s' : state) (k : key) (v : vote)
  (p : rl_proposal) (n : nat) : Prop :=
  i = RlVote v /\ v <> VNone /\ own (accs s k) = c_pid c /\
  unpack c_rl_proposal RL_PROPOSAL_LEN (@p_init _ _) (dat (accs s k)) = Ok p /\
  proposal_addr e (c_pid c) k p /\
  nth_error (p_signers p) n = Some VNone /\
  wrote c_rl_proposal s s' k (p_with_signers p (set_nth n v (p_signers p))) /\
  lam (accs s k) - RELAY_REPARATION <= lam (accs s' k) /\
  exists rr rrk voter, c_sg c voter = true /\ round_in e (c_pid c) s rrk rr /\
    nth_error (rr_relays rr) n = Some voter /\
    (forall j, (j < n)%nat -> nth_error (rr_relays rr) j <> Some voter) /\
    exists rest, c_keys c = voter :: k :: rrk :: rest.

Variant rl_effect (e : env) (c : ctx) (i : rl_ix) (s s' : state) (k : key) : Prop :=
| RE_same : same_od s s' k -> rl_effect e c i s s' k
| RE_init g sub mv ttl auth sn pn :
    i = RlInitialize g sub mv ttl -> c_sg c auth = true -> upgrade_auth e (c_pid c) s auth ->
    find_pda e sd_settings (c_pid c) = Ok (k, sn) ->
    fresh_record c_rl_settings RL_SETTINGS_LEN (RlSettings true (KSettings sn pn) g sub mv ttl)
      (c_pid c) s s' k -> (0 <= lam (accs s k) -> 1 <= lam (accs s' k)) -> rl_effect e c i s s' k
| RE_update cur sub mv ttl auth st pn :
    i = RlUpdateSettings cur sub mv ttl -> c_sg c auth = true -> upgrade_auth e (c_pid c) s auth ->
    rl_settings_in e (c_pid c) s k st pn -> own (accs s k) = c_pid c ->
    wrote c_rl_settings s s' k
      (RlSettings (rs_init st) (rs_kind st) (opt_or cur (rs_current st))
         (opt_or sub (rs_submitter st)) (opt_or mv (rs_min_votes st)) (opt_or ttl (rs_ttl st))) ->
    rl_effect e c i s s' k
| RE_current st pn rrk rn n l t :
    rl_settings_in e (c_pid c) s k st pn -> own (accs s k) = c_pid c ->
    wrote c_rl_settings s s' k (rs_with_current st n) ->
    round_cause e c i s s' st n l t ->
    find_pda e (sd_relay_round n) (c_pid c) = Ok (rrk, rn) ->
    fresh_record c_relay_round RELAY_ROUND_LEN
      (RelayRound true (KRelayRound rn) n (wrap32 (t + rs_ttl st)) l) (c_pid c) s s' rrk ->
    rl_effect e c i s s' k
| RE_round sk st pn rn n l t :
    rl_settings_in e (c_pid c) s sk st pn ->
    round_cause e c i s s' st n l t ->
    find_pda e (sd_relay_round n) (c_pid c) = Ok (k, rn) ->
    fresh_record c_relay_round RELAY_ROUND_LEN
      (RelayRound true (KRelayRound rn) n (wrap32 (t + rs_ttl st)) l) (c_pid c) s s' k ->
    (0 <= lam (accs s k) -> 1 <= lam (accs s' k)) ->
    rl_effect e c i s s' k
| RE_proposal r ts lt conf h pn creator :
    i = RlCreateProposal r ts lt conf h -> c_sg c creator = true ->
    find_pda e (sd_proposal r ts lt conf h) (c_pid c) = Ok (k, pn) ->
    fresh_record c_rl_proposal RL_PROPOSAL_LEN
      (Prop_ false (KProposal pn None) creator r 0 (Pda ts lt conf)
         (WithLen 0 (RlEvent 0 [] 0)) (WithLen 1 PNew) []) (c_pid c) s s' k ->
    (0 <= lam (accs s k) -> 1 <= lam (accs s' k)) ->
    rl_effect e c i s s' k
| RE_write o b d' :
    i = RlWriteProposal o b -> own (accs s k) = c_pid c ->
    (forall p, unpack_unchecked c_rl_proposal RL_PROPOSAL_LEN (dat (accs s k)) = Ok p ->
               p_init p = false) ->
    write_proposal_data (dat (accs s k)) o b = Ok d' -> s' = put_dat s k d' ->
    rl_effect e c i s s' k
| RE_final p st sk pn rr rrk :
    i = RlFinalize -> own (accs s k) = c_pid c ->
    unpack_unchecked c_rl_proposal RL_PROPOSAL_LEN (dat (accs s k)) = Ok p -> p_init p = false ->
    proposal_addr e (c_pid c) k p ->
    rl_settings_in e (c_pid c) s sk st pn -> round_in e (c_pid c) s rrk rr ->
    wrote c_rl_proposal s s' k (Prop_ true (p_kind p) (p_author p) (rr_number rr)
         (Z.max (two_thirds (blen (rr_relays rr))) (rs_min_votes st))
         (p_pda p) (p_event p) (WithLen 1 PNew)
         (repeat VNone (length (rr_relays rr)))) ->
    lam (accs s' k) = lam (accs s k) + wrap64 (RELAY_REPARATION * blen (rr_relays rr)) ->
    rl_effect e c i s s' k
| RE_vote v p n : rl_voted e c i s s' k v p n -> rl_effect e c i s s' k
| RE_exec sk st pn n l t p :
    own (accs s k) = c_pid c ->
    unpack c_rl_proposal RL_PROPOSAL_LEN (@p_init _ _) (dat (accs s k)) = Ok p ->
    rl_settings_in e (c_pid c) s sk st pn ->
    round_cause e c i s s' st n l t -> RlEvent n l t = wl_data (p_event p) ->
    wrote c_rl_proposal s s' k (executed p) ->
    (i = RlExecute -> wl_data (p_meta p) = PNew /\ p_required p <= wrap32 (confirms (p_signers p))) ->
    rl_effect e c i s s' k.

Lemma wrote_put {A} (cd : codec A) s k x s' :
  s' = put_dat s k (enc cd x ++ skipn (length (enc cd x)) (dat (accs s k))) ->
  blen (enc cd x) <= blen (dat (accs s k)) -> wrote cd s s' k x.
Proof. intros -> B. split; [apply own_put_dat|]. split; [apply dat_put_dat|exact B]. Qed.

Lemma sod_effect e c i s s' k : sod s s' -> rl_effect e c i s s' k.
Proof. intros H. apply RE_same, H. Qed.

Lemma pays_fresh s s' k funder z :
  dlam s s' (fun j => at_key k z j - at_key funder z j) -> pays s funder z -> 1 <= z ->
  own (accs s k) = sys_id /\ dat (accs s k) = [] /\ lam (accs s k) <= 0 ->
  0 <= lam (accs s k) -> 1 <= lam (accs s' k).
Proof.
  intros D [P _] Z (_ & _ & L) L0. rewrite D, at_same, at_other; [lia|]. intros ->. lia.
Qed.

(** Effects of the creation of a relay round. *)
Lemma new_round_effects e c i s s1 s' funder settings rrk st pn n l t :
  rl_settings_in e (c_pid c) s settings st pn ->
  round_cause e c i s s' st n l t ->
  rl_new_round e c funder settings rrk st n l t s = Ok (tt, s1) ->
  (forall k, lam (accs s' k) = lam (accs s1 k)) ->
  forall k, same_od s1 s' k -> same_od s1 s' rrk -> rl_effect e c i s s' k.
Proof.
  intros VS RC H EL j E1 Er. apply rl_new_round_ok in H as (rn & R1 & R2 & R3 & R4 & R5 & R6b & R6 & R7 & R8 & R9 & R10).
  assert (F : fresh_record c_relay_round RELAY_ROUND_LEN
      (RelayRound true (KRelayRound rn) n (wrap32 (t + rs_ttl st)) l) (c_pid c) s s' rrk).
  { destruct R3 as (F1 & F2 & r & F3 & F4 & F5). destruct Er as [X1 X2]. split; [exact F1|].
    rewrite X1, X2. split; [exact F2|]. exists r. auto. }
  destruct (key_dec j rrk) as [->|N1].
  - eapply RE_round; [exact VS|exact RC|exact R1|exact F|].
    intros L. rewrite EL. eapply pays_fresh; [exact R9|exact R10|lia|apply F|exact L].
  - destruct (key_dec j settings) as [->|N2].
    + destruct R6 as [R6|[R6 _]].
      * apply RE_same. eapply same_od_trans; [|exact E1]. split; [exact R5|congruence].
      * eapply RE_current; [exact VS|exact R6| |exact RC|exact R1|exact F].
        destruct E1 as [X1 X2]. split; [congruence|]. split; [congruence|exact R6b].
    + apply RE_same. eapply same_od_trans; [apply R7|]; assumption.
Qed.

Lemma rl_exec_effect e c i s s' : rl_exec e c i s = Ok (tt, s') -> forall k, rl_effect e c i s s' k.
Proof.
  intros H j. destruct i; cbn [rl_exec] in H.
  - (* vote *)
    apply rl_vote_ok in H as (voter & proposal & rrk & rest & p & rr & n & old & K & S1 & V & U & PA & R & N1 & N2 & N3 & H).
    destruct H as [[_ ->]|(-> & O & W & WR & FR & ENV & L1 & DL)]; [apply sod_effect, sod_refl|].
    destruct (key_dec j proposal) as [->|Hj]; [|apply RE_same, FR; exact Hj].
    eapply RE_vote. split; [reflexivity|]. split; [exact V|]. split; [exact O|]. split; [exact U|].
    split; [exact PA|]. split; [exact N3|]. split; [exact WR|]. split; [|exists rr, rrk, voter; eauto 6].
    rewrite DL, at_same. unfold at_key, RELAY_REPARATION. destruct (keqb proposal voter); lia.
  - (* initialize *)
    apply rl_initialize_ok in H as (funder & ini & settings & pdt & sysm & rest & sn & pn & K & S1 & PD & UA & FS & FR & O & ENV & DL & PY).
    destruct (key_dec j settings) as [->|Hj]; [|apply RE_same, O; exact Hj].
    eapply RE_init; [reflexivity|exact S1| |exact FS|exact FR|].
    + exists pdt, pn. split; [exact PD|exact UA].
    + intros L. eapply pays_fresh; [exact DL|exact PY|lia|apply FR|exact L].
  - (* update *)
    apply rl_update_settings_ok in H as (author & settings & pdt & rest & st & pn & K & S1 & VS & O & PD & UA & E & B).
    destruct (key_dec j settings) as [->|Hj].
    + eapply RE_update; [reflexivity|exact S1| |exact VS|exact O|apply wrote_put; [exact E|exact B]].
      exists pdt, pn. split; [exact PD|exact UA].
    + apply RE_same. cbv zeta in E. rewrite E. apply same_od_put_dat_other. exact Hj.
  - (* create relay round *)
    apply rl_create_relay_round_ok in H as (funder & creator & settings & rrk & sysm & rest & st & pn & K & S1 & VS & SB & CU & H).
    eapply new_round_effects; [exact VS| |exact H|reflexivity|apply same_od_refl|apply same_od_refl].
    left. rewrite SB. auto.
  - (* create proposal *)
    apply rl_create_proposal_ok in H as (funder & creator & proposal & sysm & rest & pn & K & S1 & FP & H).
    destruct H as [[_ ->]|(L0 & FR & O & ENV & DL & PY)]; [apply sod_effect, sod_refl|].
    destruct (key_dec j proposal) as [->|Hj]; [|apply RE_same, O; exact Hj].
    eapply RE_proposal; [reflexivity|exact S1|exact FP|exact FR|].
    intros L. eapply pays_fresh; [exact DL|exact PY|lia|apply FR|exact L].
  - (* write *)
    apply rl_write_proposal_ok in H as (proposal & rest & d' & K & U & W & E & O).
    destruct (key_dec j proposal) as [->|Hj].
    + destruct O as [O|[O _]].
      * apply sod_effect. rewrite E, <- O. apply sod_put_dat_same.
      * eapply RE_write; [reflexivity|exact O|exact U|exact W|exact E].
    + apply RE_same. rewrite E. apply same_od_put_dat_other. exact Hj.
  - (* finalize *)
    apply rl_finalize_ok in H as (funder & proposal & settings & rrk & sysm & rest & st & pn & p & rr & K & VS & U & I0 & PA & R & O & W & H).
    cbv zeta in H. destruct H as (WR & B & FR & ENV & DL & DN & _).
    destruct (key_dec j proposal) as [->|Hj]; [|apply RE_same, FR; exact Hj].
    eapply RE_final; [reflexivity|exact O|exact U|exact I0|exact PA|exact VS|exact R|exact WR|].
    assert (N : proposal <> funder).
    { intros ->. apply unpack_unchecked_ok in U as (r & _ & _ & B0); [|typeclasses eauto]. rewrite DN in B0. discriminate. }
    rewrite DL, at_same, at_other by exact N. lia.
  - (* execute *)
    apply rl_execute_ok in H as (funder & settings & proposal & rrk & sysm & rest & st & pn & p & K & VS & U & PA & H).
    destruct H as [[_ ->]|(P1 & P2 & O & W & N1 & N2 & WR & s1 & H & E)].
    { apply sod_effect, sod_put_dat_same. }
    assert (RC : round_cause e c RlExecute s s' st (re_round (wl_data (p_event p)))
         (re_relays (wl_data (p_event p))) (re_end (wl_data (p_event p)))).
    { right. exists proposal, p. split; [destruct (wl_data (p_event p)); reflexivity|].
      split; [exact U|]. split; [exact WR|]. left. auto. }
    destruct (key_dec j proposal) as [->|Hj].
    + eapply RE_exec; [exact O|exact U|exact VS|exact RC| |exact WR|auto].
      destruct (wl_data (p_event p)); reflexivity.
    + eapply new_round_effects; [exact VS|exact RC|exact H| | |]; rewrite E;
        [intros; apply lam_put_dat|apply same_od_put_dat_other; congruence ..].
  - (* execute by admin *)
    apply rl_execute_by_admin_ok in H as (funder & creator & settings & proposal & rrk & sysm & rest & st & pn & p & K & S1 & VS & SB & U & N1 & N2 & WR & O & s1 & H & E).
    assert (RC : round_cause e c RlExecuteByAdmin s s' st (re_round (wl_data (p_event p)))
         (re_relays (wl_data (p_event p))) (re_end (wl_data (p_event p)))).
    { right. exists proposal, p. split; [destruct (wl_data (p_event p)); reflexivity|].
      split; [exact U|]. split; [exact WR|]. right. rewrite SB. split; [reflexivity|]. split; [exact S1|].
      destruct O as [O|[O _]]; auto. }
    destruct (key_dec j proposal) as [->|Hj].
    + destruct O as [O|[O _]].
      * apply RE_same. destruct WR as (W1 & W2 & _). split; [exact W1|]. rewrite W2.
        apply unpack_unchecked_init in U as [U _].
        replace (executed p) with p; [eapply pack_same; [typeclasses eauto|exact U]|].
        unfold executed, p_with_meta. destruct p as [a0 a1 a2 a3 a4 a5 a6 [ml md] a8]. cbn in *. subst md. reflexivity.
      * eapply RE_exec; [exact O|exact U|exact VS|exact RC| |exact WR|discriminate].
        destruct (wl_data (p_event p)); reflexivity.
    + eapply new_round_effects; [exact VS|exact RC|exact H| | |]; rewrite E;
        [intros; apply lam_put_dat|apply same_od_put_dat_other; congruence ..].
Qed.

(** ** Lamports *)

(** Accounts of the round loader lose lamports only by votes; no balance becomes negative. *)
Definition rl_lam_spec (e : env) (c : ctx) (i : rl_ix) (s s' : state) : Prop :=
  forall k,
  (0 <= lam (accs s k) -> 0 <= lam (accs s' k)) /\
  (own (accs s k) = c_pid c -> lam (accs s k) <= lam (accs s' k) \/
     exists v p n, rl_voted e c i s s' k v p n).

Lemma pays_lam e c i s s' k funder z :
  dlam s s' (fun j => at_key k z j - at_key funder z j) -> pays s funder z -> 0 <= z ->
  c_pid c <> sys_id -> rl_lam_spec e c i s s'.
Proof.
  intros D [P O] Z N j. rewrite D. unfold at_key.
  destruct (keqb j funder) eqn:E; [apply keqb_eq in E as ->|].
  - split; [destruct (keqb funder k); lia|intros X; congruence].
  - destruct (keqb j k); split; try lia; intros _; left; lia.
Qed.

Lemma rl_exec_lam e c i s s' : c_pid c <> sys_id ->
  rl_exec e c i s = Ok (tt, s') -> rl_lam_spec e c i s s'.
Proof.
  intros NS H. pose proof (rl_exec_effect e c i s s' H) as EF. destruct i; cbn [rl_exec] in H.
  - apply rl_vote_ok in H as (voter & proposal & rrk & rest & p & rr & n & old & K & S1 & V & U & PA & R & N1 & N2 & N3 & H).
    destruct H as [[_ ->]|(-> & O & W & WR & FR & ENV & L1 & DL)].
    { intros j. split; [auto|left; lia]. }
    intros j. rewrite DL. destruct (key_dec j proposal) as [->|Hj].
    + rewrite at_same. split.
      * unfold at_key, RELAY_REPARATION in *. destruct (keqb proposal voter); lia.
      * intros _. right. exists v, p, n.
        split; [reflexivity|]. split; [exact V|]. split; [exact O|]. split; [exact U|].
        split; [exact PA|]. split; [exact N3|]. split; [exact WR|]. split; [|exists rr, rrk, voter; eauto 6].
        rewrite DL, at_same. unfold at_key, RELAY_REPARATION. destruct (keqb proposal voter); lia.
    + rewrite (at_other proposal) by exact Hj. unfold at_key, RELAY_REPARATION. destruct (keqb j voter); split; try lia; intros _; left; lia.
  - apply rl_initialize_ok in H as (funder & ini & settings & pdt & sysm & rest & sn & pn & K & S1 & PD & UA & FS & FR & O & ENV & DL & PY).
    eapply pays_lam; [exact DL|exact PY|lia|exact NS].
  - apply rl_update_settings_ok in H as (author & settings & pdt & rest & st & pn & K & S1 & VS & O & PD & UA & E & B).
    cbv zeta in E. rewrite E. intros j. rewrite lam_put_dat. split; [auto|left; lia].
  - apply rl_create_relay_round_ok in H as (funder & creator & settings & rrk & sysm & rest & st & pn & K & S1 & VS & SB & CU & H).
    apply rl_new_round_ok in H as (rn & R1 & R2 & R3 & R4 & R5 & R6b & R6 & R7 & R8 & R9 & R10).
    eapply pays_lam; [exact R9|exact R10|lia|exact NS].
  - apply rl_create_proposal_ok in H as (funder & creator & proposal & sysm & rest & pn & K & S1 & FP & H).
    destruct H as [[_ ->]|(L0 & FR & O & ENV & DL & PY)]; [intros j; split; [auto|left; lia]|].
    eapply pays_lam; [exact DL|exact PY|lia|exact NS].
  - apply rl_write_proposal_ok in H as (proposal & rest & d' & K & U & W & E & O).
    rewrite E. intros j. rewrite lam_put_dat. split; [auto|left; lia].
  - apply rl_finalize_ok in H as (funder & proposal & settings & rrk & sysm & rest & st & pn & p & rr & K & VS & U & I0 & PA & R & O & W & H).
    cbv zeta in H. destruct H as (WR & B & FR & ENV & DL & DN & D3 & D4).
    assert (Z0 : 0 <= wrap64 (RELAY_REPARATION * blen (rr_relays rr))) by (unfold wrap64, u64max; lia).
    set (z := wrap64 (RELAY_REPARATION * blen (rr_relays rr))) in *. clearbody z.
    intros j. rewrite DL. destruct (key_dec j funder) as [->|Hj].
    + rewrite at_same. unfold at_key. destruct (keqb funder proposal) eqn:EE; [split; [lia|left; lia]|].
      split; [lia|]. intros X. left. destruct (Z.eq_dec z 0); [lia|]. rewrite D4 in X by lia. congruence.
    + rewrite (at_other funder) by exact Hj. unfold at_key. destruct (keqb j proposal); split; try lia; intros _; left; lia.
  - apply rl_execute_ok in H as (funder & settings & proposal & rrk & sysm & rest & st & pn & p & K & VS & U & PA & H).
    destruct H as [[_ ->]|(P1 & P2 & O & W & N1 & N2 & WR & s1 & H & E)].
    { intros j. rewrite lam_put_dat. split; [auto|left; lia]. }
    apply rl_new_round_ok in H as (rn & R1 & R2 & R3 & R4 & R5 & R6b & R6 & R7 & R8 & R9 & R10).
    eapply pays_lam; [|exact R10|lia|exact NS]. intros j. rewrite E, lam_put_dat. apply R9.
  - apply rl_execute_by_admin_ok in H as (funder & creator & settings & proposal & rrk & sysm & rest & st & pn & p & K & S1 & VS & SB & U & N1 & N2 & WR & O & s1 & H & E).
    apply rl_new_round_ok in H as (rn & R1 & R2 & R3 & R4 & R5 & R6b & R6 & R7 & R8 & R9 & R10).
    eapply pays_lam; [|exact R10|lia|exact NS]. intros j. rewrite E, lam_put_dat. apply R9.
Qed.
