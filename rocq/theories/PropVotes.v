(** Property C71: every relay of the round can vote on an open request, and the relays can complete a quorum. *)

From Coq Require Import Strings.String ZifyBool ZifyNat ZifyN.
From Verif Require Import TpDemoLaws PropTpReq Progress.
Open Scope Z_scope.
Open Scope list_scope.
Ltac Zify.zify_post_hook ::= Z.div_mod_to_equations.

(** * Vocabulary *)

(** Positions without a vote, and rejections. *)
Definition open_positions (l : list vote) : Z := Z.of_nat (List.length (filter (fun v => match v with VNone => true | _ => false end) l)).
Definition rejections (l : list vote) : Z := Z.of_nat (List.length (filter (fun v => match v with VReject => true | _ => false end) l)).
(** The record of round [n], with the bump of its address. *)
Definition round_stands (e : env) (s : state) (n : Z) (k : key) (rr : relay_round) : Prop := exists b,
  find_pda e (str "relay_round" ++ le 4 n) rl_id = Ok (k, b) /\ rr_kind rr = KRelayRound b /\
  unpack c_relay_round RELAY_ROUND_LEN rr_init (dat (accs s k)) = Ok rr.
(** The accounts of a vote, as in the Rust bindings (token-proxy/src/bindings.rs:419-441). *)
Definition vote_accounts (relay k rrk : key) : ctx := ctx_of tp_id [Meta relay true true; Meta k false true; Meta rrk false false].
(** [relay] is at position [j] and not before. *)
Definition seat (l : list key) (relay : key) (j : nat) : Prop :=
  nth_error l j = Some relay /\ forall i, (i < j)%nat -> nth_error l i <> Some relay.
(** The vote [v] at position [j] of the request [g] at [k], paid to [relay]. *)
Definition voted (e : env) (s s' : state) (k : key) (g : gprop) (m : wmeta) (relay : key) (j : nat) (v : vote) : Prop :=
  (exists g', request_at e s' k g' m /\ g' = p_with_signers g (p_signers g') /\
     nth_error (p_signers g') j = Some v /\ List.length (p_signers g') = List.length (p_signers g) /\
     forall i, i <> j -> nth_error (p_signers g') i = nth_error (p_signers g) i) /\
  (forall x, x <> k -> own (accs s' x) = own (accs s x) /\ dat (accs s' x) = dat (accs s x)) /\
  (forall x, lam (accs s' x) = lam (accs s x) + (if keqb x relay then 20000 else 0) - (if keqb x k then 20000 else 0)) /\
  logs s' = logs s /\ now s' = now s.

(** * Lemmas *)

Lemma seat_position w l j : seat l w j -> position w l = Some j.
Proof.
  intros [H F]. revert j H F. induction l as [|x l IH]; intros j H F; [destruct j; discriminate|]. cbn [position].
  destruct j as [|j].
  - cbn [nth_error] in H. injection H as ->. rewrite keqb_refl. reflexivity.
  - destruct (keqb x w) eqn:E; [apply keqb_eq in E; subst; exfalso; apply (F 0%nat); [lia|reflexivity]|].
    rewrite (IH j); [reflexivity|exact H|]. intros i L. apply (F (S i)). lia.
Qed.

Lemma vote_exec e ext s k g m relay rrk rr j v : request_at e s k g m -> nonneg s -> clock_ok s -> round_stands e s (p_round g) rrk rr ->
  seat (rr_relays rr) relay j -> nth_error (p_signers g) j = Some VNone -> v <> VNone -> relay <> k ->
  20000 <= lam (accs s k) -> lam (accs s relay) + 20000 < 2 ^ 64 ->
  exists s', tp_call e ext (vote_accounts relay k rrk) (TpVote v) s s' /\ request_at e s' k (g_vote g j v) m /\ nonneg s' /\ clock_ok s' /\ voted e s s' k g m relay j v.
Proof.
  intros R N CK (b & F & KD & UR) ST NS V NE RP LT. pose proof R as (O & U & MM & OM & wn & pn & PK & PF).
  set (c := vote_accounts relay k rrk). set (g' := g_vote g j v).
  set (d' := enc c_gprop g' ++ skipn (List.length (enc c_gprop g')) (dat (accs s k))).
  pose proof U as U0. apply unpack_ok in U0 as (r & D & OKG & LEN & _); [|typeclasses eauto].
  assert (SZ : blen (enc c_gprop g') <= blen (dat (accs s k))).
  { rewrite D, blen_app. pose proof (blen_nonneg r). unfold c_gprop.
    pose proof (size_prop c_bytes c_bytes g) as Z1. pose proof (size_prop c_bytes c_bytes g') as Z2.
    unfold g' at 2 3 4 5 in Z2. cbn [g_vote p_with_signers p_kind p_event p_meta p_signers] in Z2.
    assert (Z3 : blen (set_nth j v (p_signers g)) = blen (p_signers g)) by (unfold blen; rewrite set_nth_length; reflexivity).
    unfold gprop in *. lia. }
  set (s1 := put_dat s k d'). set (s2 := put_lam s1 k (lam (accs s1 k) - RELAY_REPARATION)).
  set (s3 := put_lam s2 relay (lam (accs s2 relay) + RELAY_REPARATION)).
  assert (L1 : lam (accs s1 k) = lam (accs s k)) by apply lam_put_dat.
  assert (L2 : lam (accs s2 relay) = lam (accs s relay)).
  { unfold s2. rewrite lam_put_lam_other by exact NE. apply lam_put_dat. }
  assert (SG : c_sg c relay = true) by (unfold c, vote_accounts; cbn [ctx_of c_sg existsb m_key m_sg]; rewrite keqb_refl; reflexivity).
  assert (WR : c_wr c relay = true) by (unfold c, vote_accounts; cbn [ctx_of c_wr existsb m_key m_wr]; rewrite keqb_refl; reflexivity).
  assert (WK : c_wr c k = true) by (unfold c, vote_accounts; cbn [ctx_of c_wr existsb m_key m_wr]; rewrite keqb_refl; cbn [andb]; apply orb_true_r).
  assert (PKD : pack_into_slice c_gprop g' (dat (accs s k)) = Ok d').
  { with_strategy transparent [pack_into_slice] unfold pack_into_slice. apply Z.leb_le in SZ. rewrite SZ. reflexivity. }
  assert (EX : tp_exec e ext c (TpVote v) s = Ok (tt, s3)).
  { cbn [tp_exec]. unfold tp_vote. change (c_keys c) with [relay; k; rrk]. cbv beta iota.
    eapply bind_go; [apply guard_go; exact SG|]. eapply bind_go; [apply guard_go; destruct v; [contradiction|reflexivity|reflexivity]|].
    eapply bind_go; [reflexivity|]. eapply bind_go; [apply lift_go; eapply unpack_slice_of; exact U|]. cbv beta.
    eapply bind_go.
    { unfold tp_valid_prop. eapply bind_go; [apply lift_go; rewrite PK; reflexivity|]. cbv beta iota. apply lift_go, pda_go. exact PF. }
    eapply bind_go; [apply unpack_at_go; exact UR|]. cbv beta. eapply bind_go; [apply lift_go; rewrite KD; reflexivity|]. cbv beta.
    eapply bind_go; [apply lift_go, pda_go; exact F|]. eapply bind_go; [apply lift_go; rewrite (seat_position _ _ _ ST); reflexivity|]. cbv beta.
    eapply bind_go; [apply lift_go; rewrite NS; reflexivity|]. cbv beta. change (vote_eqb VNone VNone) with true. cbv iota.
    eapply bind_go; [apply lift_go; exact PKD|]. cbv beta. apply (bind_go _ _ s tt s1).
    { unfold set_data. change (c_pid c) with tp_id. rewrite O, keqb_refl, WK. cbn [andb]. rewrite orb_true_r. reflexivity. }
    unfold move_lam. apply (bind_go _ _ s1 (accs s1 k) s1); [reflexivity|].
    apply (bind_go _ _ s1 tt s1); [apply guard_go; rewrite L1; apply Z.leb_le; exact RP|].
    apply (bind_go _ _ s1 tt s2).
    { unfold set_lam. change (c_pid c) with tp_id. rewrite WK.
      assert (O1 : own (accs s1 k) = tp_id) by (unfold s1; rewrite own_put_dat; exact O).
      assert (P1 : (0 <=? lam (accs s1 k) - RELAY_REPARATION) = true) by (rewrite L1; unfold RELAY_REPARATION; lia).
      rewrite O1, keqb_refl, orb_true_r. cbn [andb]. rewrite orb_true_r, P1. reflexivity. }
    apply (bind_go _ _ s2 (accs s2 relay) s2); [reflexivity|].
    apply (bind_go _ _ s2 tt s2); [apply guard_go; rewrite L2; apply Z.ltb_lt; exact LT|].
    unfold set_lam. rewrite WR.
    assert (GT : (lam (accs s2 relay) <? lam (accs s2 relay) + RELAY_REPARATION) = true) by (apply Z.ltb_lt; unfold RELAY_REPARATION; lia).
    assert (P2 : (0 <=? lam (accs s2 relay) + RELAY_REPARATION) = true) by (rewrite L2; pose proof (N relay); unfold RELAY_REPARATION; lia).
    rewrite GT, P2. cbn [andb orb]. rewrite orb_true_r. reflexivity. }
  assert (LL : forall x, lam (accs s3 x) = lam (accs s x) + at_key relay RELAY_REPARATION x - at_key k RELAY_REPARATION x).
  { intros x. unfold s3. destruct (key_dec x relay) as [->|J1].
    + rewrite lam_put_lam, L2, at_same, at_other by exact NE. lia.
    + rewrite lam_put_lam_other by exact J1. rewrite (at_other relay) by exact J1. unfold s2. destruct (key_dec x k) as [->|J2].
      * rewrite lam_put_lam, L1, at_same. lia.
      * rewrite lam_put_lam_other by exact J2. unfold s1. rewrite lam_put_dat, at_other by exact J2. lia. }
  assert (OD : forall x, own (accs s3 x) = own (accs s x) /\ (x <> k -> dat (accs s3 x) = dat (accs s x))).
  { intros x. unfold s3, s2, s1. rewrite !own_put_lam, own_put_dat, !dat_put_lam. split; [reflexivity|].
    intros J. unfold put_dat, put, accs, upd. rewrite keqb_ne by exact J. reflexivity. }
  assert (DK : dat (accs s3 k) = d') by (unfold s3, s2, s1; rewrite !dat_put_lam; apply dat_put_dat).
  assert (RQ : request_at e s3 k g' m) by (eapply pack_vote; [exact R|exact PKD|exact DK|apply OD]).
  exists s3. split; [|split; [exact RQ|split; [|split; [exact CK|]]]].
  - apply call_go; [reflexivity|exact CK|destruct v; reflexivity|]. unfold run. rewrite EX.
    rewrite (lam_sum_pay s s3 relay k RELAY_REPARATION (c_keys c)); [rewrite Z.eqb_refl; reflexivity|intros x; rewrite LL; lia|left; reflexivity|right; left; reflexivity].
  - intros x. rewrite LL. unfold at_key, RELAY_REPARATION. pose proof (N x). destruct (key_dec x relay) as [J1|J1], (key_dec x k) as [J2|J2]; try (rewrite J1 in * ); try (rewrite J2 in * ); try congruence; rewrite ?keqb_refl, ?keqb_ne by congruence; lia.
  - split; [|split; [intros x J; split; [apply OD|apply OD; exact J]|split; [|split; reflexivity]]].
    + exists g'. split; [exact RQ|]. split; [destruct g; reflexivity|]. split; [|split; [apply set_nth_length|]].
      * unfold g', g_vote. cbn [p_with_signers p_signers]. apply set_nth_same, nth_error_Some; congruence.
      * intros i I. unfold g', g_vote. cbn [p_with_signers p_signers]. apply set_nth_other. congruence.
    + intros x. rewrite LL. unfold at_key, RELAY_REPARATION. destruct (key_dec x relay) as [J1|J1], (key_dec x k) as [J2|J2]; try (rewrite J1 in * ); try (rewrite J2 in * ); try congruence; 
        rewrite ?keqb_refl, ?keqb_ne by congruence; reflexivity.
Qed.

Lemma open_is g : missing g = open_positions (p_signers g).
Proof. reflexivity. Qed.
Lemma count_votes l : confirmations l + rejections l + open_positions l = Z.of_nat (List.length l).
Proof.
  unfold confirmations, rejections, open_positions. induction l as [|v l IH]; [reflexivity|]. destruct v; cbn [filter List.length]; lia.
Qed.
Lemma open_at l : 0 < open_positions l -> exists j, nth_error l j = Some VNone.
Proof.
  unfold open_positions. induction l as [|v l IH]; cbn [filter List.length]; intros H; [lia|]. destruct v; [exists 0%nat; reflexivity| |];
    (destruct IH as [j J]; [exact H|exists (S j); exact J]).
Qed.
Lemma confirmed_at l : forall j, nth_error l j = Some VNone ->
  confirmations (set_nth j VConfirm l) = confirmations l + 1 /\ rejections (set_nth j VConfirm l) = rejections l.
Proof.
  unfold confirmations, rejections. induction l as [|v l IH]; intros j H; [destruct j; discriminate|]. destruct j as [|j]; cbn [nth_error] in H; cbn [set_nth].
  - injection H as ->. cbn [filter List.length]. split; [lia|reflexivity].
  - destruct (IH j H) as [A B]. destruct v; cbn [filter List.length]; lia.
Qed.

(** * C71 Every relay of the round can vote, and the relays can complete a quorum *)

(** A new request carries 20000 lamports for each relay's vote. *)
Theorem C71_made : forall e ext c i s s' k g m, tp_call e ext c i s s' -> tp_ext e 0 ext -> payload_checked e c i s ->
  no_request s k -> request_at e s' k g m -> 20000 * open_positions (p_signers g) < lam (accs s' k).
Proof.
  intros e ext c i s s' k g m C X PC NR R.
  destruct (request_born _ _ _ _ _ _ _ C X PC NR) as [NR'|(g' & m' & rls & rr & B)].
  - exfalso. destruct (request_kind _ _ _ _ _ R) as (n & pn & K). apply (NR' (proj1 R) n pn K).
  - destruct (request_fun _ _ _ _ _ _ _ R (bo_req _ _ _ _ _ _ _ _ _ _ B)) as [-> ->].
    pose proof (bo_funded _ _ _ _ _ _ _ _ _ _ B) as F. unfold funded, RELAY_REPARATION in F. rewrite open_is in F. lia.
Qed.

(** In every later state, until the request is closed, every relay of its round whose position is open can
    vote: the vote is recorded, the relay gets 20000 lamports, and nothing else changes. *)
Theorem C71_vote : forall e k s s1 g m, no_collision e k -> req_hist e (not_closing k) s s1 -> nonneg s -> clock_ok s1 ->
  request_at e s k g m -> 20000 * open_positions (p_signers g) < lam (accs s k) ->
  exists g1 m1, request_at e s1 k g1 m1 /\ p_round g1 = p_round g /\ p_event g1 = p_event g /\
    forall ext relay rrk rr j v, round_stands e s1 (p_round g) rrk rr -> seat (rr_relays rr) relay j ->
      nth_error (p_signers g1) j = Some VNone -> v <> VNone -> relay <> k -> lam (accs s1 relay) + 20000 < 2 ^ 64 ->
      exists s2, tp_call e ext (vote_accounts relay k rrk) (TpVote v) s1 s2 /\ voted e s1 s2 k g1 m1 relay j v.
Proof.
  intros e k s s1 g m NC H N CK R F.
  assert (F0 : funded s k g) by (unfold funded, RELAY_REPARATION; rewrite open_is; lia).
  destruct (req_evolves _ _ _ _ NC H _ _ R N F0) as (g1 & m1 & R1 & E1 & F1 & N1). exists g1, m1.
  split; [exact R1|]. split; [apply E1|]. split; [apply E1|].
  intros ext relay rrk rr j v RS ST NS V NE LT.
  assert (PR : p_round g1 = p_round g) by apply E1. rewrite <- PR in RS.
  destruct (vote_exec e ext s1 k g1 m1 relay rrk rr j v R1 N1 CK RS ST NS V NE) as (s2 & C & _ & _ & _ & Q); [|exact LT|exists s2; auto].
  unfold funded, RELAY_REPARATION in F1. rewrite open_is in F1.
  assert (1 <= open_positions (p_signers g1)).
  { pose proof (missing_vote (p_signers g1) j v NS V) as MV. rewrite <- open_is. unfold missing, blen in *. lia. }
  lia.
Qed.

(** Votes for the request [k], each by a relay of the round. *)
Inductive relays_vote (e : env) (k rrk : key) (rr : relay_round) : state -> state -> Prop :=
| rv_none s : relays_vote e k rrk rr s s
| rv_vote relay ext s s1 s2 : In relay (rr_relays rr) -> tp_call e ext (vote_accounts relay k rrk) (TpVote VConfirm) s s1 ->
    relays_vote e k rrk rr s1 s2 -> relays_vote e k rrk rr s s2.

Lemma no_dup_seat (l : list key) j x : NoDup l -> nth_error l j = Some x -> seat l x j.
Proof.
  intros D H. split; [exact H|]. intros i L E. assert (i = j); [|lia]. eapply (proj1 (NoDup_nth_error l) D); [|congruence].
  apply nth_error_Some. congruence.
Qed.

Lemma complete e k rrk rr (ext : extern) n : forall s g m, Z.to_nat (p_required g - confirmations (p_signers g)) = n ->
  request_at e s k g m -> nonneg s -> clock_ok s -> 20000 * open_positions (p_signers g) < lam (accs s k) ->
  round_stands e s (p_round g) rrk rr -> NoDup (rr_relays rr) -> List.length (p_signers g) = List.length (rr_relays rr) ->
  (forall x, In x (rr_relays rr) -> x <> k /\ lam (accs s x) + 20000 * open_positions (p_signers g) < 2 ^ 64) ->
  p_required g + rejections (p_signers g) <= Z.of_nat (List.length (p_signers g)) ->
  exists s' g', relays_vote e k rrk rr s s' /\ request_at e s' k g' m /\ p_event g' = p_event g /\ p_required g' = p_required g /\
    p_required g <= confirmations (p_signers g').
Proof.
  induction n as [|n IH]; intros s g m E R N CK F RS D LE RL Q.
  - exists s, g. split; [apply rv_none|]. split; [exact R|]. split; [reflexivity|]. split; [reflexivity|lia].
  - pose proof (count_votes (p_signers g)) as CV. destruct (open_at (p_signers g)) as [j J]; [lia|].
    assert (OP : 1 <= open_positions (p_signers g)) by lia.
    destruct (nth_error (rr_relays rr) j) as [relay|] eqn:NR.
    2:{ exfalso. apply nth_error_None in NR. assert (j < List.length (p_signers g))%nat by (apply nth_error_Some; congruence). lia. }
    assert (IN : In relay (rr_relays rr)) by (eapply nth_error_In; exact NR). destruct (RL relay IN) as [NK LT].
    destruct (vote_exec e ext s k g m relay rrk rr j VConfirm R N CK RS (no_dup_seat _ _ _ D NR) J) as (s1 & C & R1 & N1 & CK1 & V);
      [discriminate|exact NK|lia|lia|].
    destruct (confirmed_at _ _ J) as [C1 C2]. pose proof (count_votes (set_nth j VConfirm (p_signers g))) as CV1. rewrite set_nth_length in CV1.
    destruct V as (_ & SD & SL & _).
    destruct RS as (b & RF & RK & RU).
    assert (RN : rrk <> k).
    { intros ->. apply unpack_ok in RU as (r1 & _ & _ & LN & _); [|typeclasses eauto]. destruct R as (_ & U & _).
      apply unpack_ok in U as (r2 & _ & _ & LN2 & _); [|typeclasses eauto]. rewrite LN in LN2. discriminate LN2. }
    destruct (IH s1 (g_vote g j VConfirm) m) as (s' & g' & V' & R' & E' & Q' & CF); cbn [g_vote p_with_signers p_signers p_round p_required p_event] in *.
    + rewrite C1. lia.
    + exact R1.
    + exact N1.
    + exact CK1.
    + rewrite SL, keqb_refl, keqb_ne by congruence. lia.
    + exists b. split; [exact RF|]. split; [exact RK|]. destruct (SD rrk RN) as [_ ->]. exact RU.
    + exact D.
    + rewrite set_nth_length. exact LE.
    + intros x X. destruct (RL x X) as [XK XL]. split; [exact XK|]. rewrite SL, (keqb_ne x k) by exact XK. destruct (keqb x relay); lia.
    + rewrite C2, set_nth_length. lia.
    + exists s', g'. split; [eapply rv_vote; [exact IN|exact C|exact V']|]. auto.
Qed.

(** As long as the rejections leave room for it, the relays that have not voted can complete the quorum, each by
    one vote. *)
Theorem C71_quorum : forall e k s s1 g m, no_collision e k -> req_hist e (not_closing k) s s1 -> nonneg s -> clock_ok s1 ->
  request_at e s k g m -> 20000 * open_positions (p_signers g) < lam (accs s k) ->
  exists g1 m1, request_at e s1 k g1 m1 /\ p_required g1 = p_required g /\ List.length (p_signers g1) = List.length (p_signers g) /\
    forall rrk rr, round_stands e s1 (p_round g) rrk rr -> NoDup (rr_relays rr) -> List.length (p_signers g) = List.length (rr_relays rr) ->
      (forall x, In x (rr_relays rr) -> x <> k /\ lam (accs s1 x) + 20000 * Z.of_nat (List.length (p_signers g)) < 2 ^ 64) ->
      p_required g + rejections (p_signers g1) <= Z.of_nat (List.length (p_signers g)) ->
      exists s2 g2, relays_vote e k rrk rr s1 s2 /\ request_at e s2 k g2 m1 /\ p_event g2 = p_event g /\
        p_required g2 = p_required g /\ p_required g <= confirmations (p_signers g2).
Proof.
  intros e k s s1 g m NC H N CK R F.
  assert (F0 : funded s k g) by (unfold funded, RELAY_REPARATION; rewrite open_is; lia).
  destruct (req_evolves _ _ _ _ NC H _ _ R N F0) as (g1 & m1 & R1 & E1 & F1 & N1). exists g1, m1.
  assert (PR : p_round g1 = p_round g) by apply E1. assert (PQ : p_required g1 = p_required g) by apply E1.
  assert (PE : p_event g1 = p_event g) by apply E1. assert (PL : List.length (p_signers g1) = List.length (p_signers g)) by apply E1.
  split; [exact R1|]. split; [exact PQ|]. split; [exact PL|]. intros rrk rr RS D LE RL Q.
  destruct (complete e k rrk rr (fun _ _ => fail CpiDenied) _ s1 g1 m1 eq_refl R1 N1 CK) as (s2 & g2 & V & R2 & E2 & Q2 & CF).
  - unfold funded, RELAY_REPARATION in F1. rewrite open_is in F1. lia.
  - rewrite PR. exact RS.
  - exact D.
  - congruence.
  - intros x X. destruct (RL x X) as [XK XL]. split; [exact XK|]. pose proof (count_votes (p_signers g1)). unfold confirmations, rejections in *. lia.
  - rewrite PQ, PL. exact Q.
  - exists s2, g2. rewrite <- PQ, <- PE. auto.
Qed.

(** A request of the demo bridge after the first of three votes: two positions are open, three confirmations
    required. *)
Definition vround : relay_round := RelayRound true (KRelayRound 255) 10 1800000000 [trelay1; trelay2; trelay3].
Definition vs1 : state := unres (tstp ts3 (tvote trelay1 tw1 tround)).
Example C71_ex :
  let x := treqS trecv tw1 tround 7 tev1 [] in let g := the_req ts3 tw1 in let g1 := the_req vs1 tw1 in
  tp_call te no_ext (ctx_of tp_id (fst x)) (snd x) ts2 ts3 /\ no_request ts2 tw1 /\
  no_collision te tw1 /\ req_hist te (not_closing tw1) ts3 vs1 /\ nonneg ts3 /\ clock_ok vs1 /\ request_at te ts3 tw1 g (the_meta ts3 tw1) /\
  20000 * open_positions (p_signers g) < lam (accs ts3 tw1) /\ p_signers g1 = [VConfirm; VNone; VNone] /\ p_required g = 3 /\
  round_stands te vs1 (p_round g) tround vround /\ seat (rr_relays vround) trelay2 1 /\ NoDup (rr_relays vround) /\
  (forall y, In y (rr_relays vround) -> y <> tw1 /\ lam (accs vs1 y) + 20000 * 3 < 2 ^ 64) /\ p_required g + rejections (p_signers g1) <= 3.
Proof.
  cbv zeta. split; [unfold ts3; demo_call|]. split; [intros O; vm_compute in O; discriminate O|]. split; [exact tw1_sole|].
  split; [unfold vs1; demo_more; apply h_refl|]. split.
  { refine (proj1 (requests_sound te tw1 ts0 ts3 tw1_sole _ _ _)); [|apply demo_nonneg; vm_compute; reflexivity|left; intros O; vm_compute in O; discriminate O].
    unfold ts3; demo_more; unfold ts2; demo_more; unfold ts1; demo_more; apply h_refl. }
  split; [vm_compute; repeat split; discriminate|]. split; [demo_req|]. split; [vm_compute; reflexivity|]. split; [vm_compute; reflexivity|].
  split; [vm_compute; reflexivity|]. split; [exists 255; repeat split; vm_compute; reflexivity|].
  split; [split; [reflexivity|intros i L; destruct i as [|i]; [vm_compute; discriminate|exfalso; lia]]|].
  split; [repeat (apply NoDup_cons; [intros I; cbn [In] in I; repeat destruct I as [I|I]; try discriminate I; exact I|]); apply NoDup_nil|].
  split; [|vm_compute; discriminate].
  intros y I. cbn [vround rr_relays In] in I. repeat destruct I as [<-|I]; [split; [discriminate|vm_compute; reflexivity]..|contradiction].
Qed.

Print Assumptions C71_made. Print Assumptions C71_vote. Print Assumptions C71_quorum.
