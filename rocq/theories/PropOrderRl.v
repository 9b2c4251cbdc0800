(** Property C92: the order of the votes on a proposal does not matter, if all voters show the same round. *)

From Coq Require Import Strings.String Permutation ZifyBool ZifyNat ZifyN.
From Verif Require Import DemoLaws PropRoundLoader PropRounds SysGo PropLive PropVotes.
From Verif Require PropOrder.
Open Scope Z_scope.
Open Scope list_scope.
Ltac Zify.zify_post_hook ::= Z.div_mod_to_equations.

(** * Vocabulary *)

Notation same_ledger := PropOrder.same_ledger.
Notation ballot := PropOrder.ballot.
Notation b_ctx := PropOrder.b_ctx.
Notation b_relay := PropOrder.b_relay.
Notation b_round := PropOrder.b_round.
Notation b_vote := PropOrder.b_vote.
(** The relay and the round account are other accounts than the proposal. *)
Definition fair (k : key) (b : ballot) : Prop :=
  (exists rest, c_keys (b_ctx b) = b_relay b :: k :: b_round b :: rest) /\ b_relay b <> k /\ b_round b <> k.
(** The votes of the list are cast on the proposal, one after the other, each successfully. *)
Fixpoint cast (e : env) (l : list ballot) (s s' : state) : Prop :=
  match l with
  | [] => s' = s
  | b :: l => exists s1, rl_call e (b_ctx b) (RlVote (b_vote b)) s s1 /\ cast e l s1 s'
  end.

(** * Lemmas *)

Definition q_vote (q : rl_proposal) (i : nat) (v : vote) : rl_proposal := p_with_signers q (set_nth i v (p_signers q)).
(** The record [q] in the account [k]. *)
Definition holds (s : state) (k : key) (q : rl_proposal) (r : bytes) : Prop :=
  dat (accs s k) = enc c_rl_proposal q ++ r /\ okb c_rl_proposal q = true /\ blen (dat (accs s k)) = RL_PROPOSAL_LEN /\ p_init q = true.
(** The checks of a vote on [q]. *)
Definition shown (e : env) (s : state) (c : ctx) (v : vote) (relay k rrk : key) (q : rl_proposal) (i : nat) (old : vote) : Prop :=
  c_sg c relay = true /\ v <> VNone /\ proposal_addr e rl_id k q /\
  (exists rr, round_in e rl_id s rrk rr /\ position relay (rr_relays rr) = Some i) /\
  nth_error (p_signers q) i = Some old.
Definition pays (c : ctx) (s : state) (relay k : key) : Prop :=
  own (accs s k) = rl_id /\ c_wr c k = true /\ c_wr c relay = true /\ 20000 <= lam (accs s k) /\
  0 <= lam (accs s relay) + 20000 < 2 ^ 64.
Definition after (s s' : state) (k : key) (q : rl_proposal) (r : bytes) (i : nat) (v : vote) (relay : key) : Prop :=
  dat (accs s' k) = enc c_rl_proposal (q_vote q i v) ++ r /\ (forall x, own (accs s' x) = own (accs s x)) /\
  (forall x, x <> k -> dat (accs s' x) = dat (accs s x)) /\
  (forall x, lam (accs s' x) = lam (accs s x) + at_key relay 20000 x - at_key k 20000 x) /\ logs s' = logs s /\ now s' = now s.

Lemma vote_size q i v : blen (enc c_rl_proposal (q_vote q i v)) = blen (enc c_rl_proposal q).
Proof. rewrite !size_rl_prop. unfold q_vote. cbn [p_with_signers p_kind p_event p_signers]. unfold blen at 2 4. rewrite set_nth_length. reflexivity. Qed.
Lemma vote_tail q i v r : skipn (List.length (enc c_rl_proposal (q_vote q i v))) (enc c_rl_proposal q ++ r) = r.
Proof. apply PropOrder.skipn_len. pose proof (vote_size q i v) as Z. unfold blen in Z. lia. Qed.
Lemma vote_packed q i v r : pack_into_slice c_rl_proposal (q_vote q i v) (enc c_rl_proposal q ++ r) = Ok (enc c_rl_proposal (q_vote q i v) ++ r).
Proof.
  pose proof (vote_size q i v) as Z. with_strategy transparent [pack_into_slice] unfold pack_into_slice.
  assert (L : (blen (enc c_rl_proposal (q_vote q i v)) <=? blen (enc c_rl_proposal q ++ r)) = true) by (rewrite blen_app; pose proof (blen_nonneg r); lia).
  rewrite L, vote_tail. reflexivity.
Qed.
Lemma q_vote_ok q i v : okb c_rl_proposal q = true -> okb c_rl_proposal (q_vote q i v) = true.
Proof. intros O. unfold q_vote, c_rl_proposal. apply okb_with_signers. exact O. Qed.
Lemma q_vote_comm q i j v w : i <> j -> q_vote (q_vote q i v) j w = q_vote (q_vote q j w) i v.
Proof. intros N. unfold q_vote. cbn [p_with_signers p_signers]. rewrite (PropOrder.set_nth_comm w v) by congruence. reflexivity. Qed.
Lemma holds_after s s' k q r i v relay : holds s k q r -> after s s' k q r i v relay -> holds s' k (q_vote q i v) r.
Proof.
  intros (D & O & L & I) (A & _). split; [exact A|]. split; [apply q_vote_ok; exact O|]. split; [|exact I].
  rewrite A, blen_app, vote_size, <- blen_app, <- D. exact L.
Qed.
Lemma holds_reads s k q r : holds s k q r -> unpack c_rl_proposal RL_PROPOSAL_LEN (@p_init _ _) (dat (accs s k)) = Ok q.
Proof. intros (D & O & L & I). rewrite D in *. apply unpack_enc; [typeclasses eauto|exact O|exact I|exact L]. Qed.
Lemma holds_one s k q r q' r' : holds s k q r -> holds s k q' r' -> q = q' /\ r = r'.
Proof. intros (D & O & _) (D' & O' & _). eapply (enc_prefix c_rl_proposal); [typeclasses eauto|exact O|exact O'|congruence]. Qed.

Lemma vote_bound e c v s a s' relay k rrk rest : c_keys c = relay :: k :: rrk :: rest -> relay <> k -> rl_vote e c v s = Ok (a, s') ->
  exists q rr i old, unpack c_rl_proposal RL_PROPOSAL_LEN (@p_init _ _) (dat (accs s k)) = Ok q /\ unpack c_relay_round RELAY_ROUND_LEN rr_init (dat (accs s rrk)) = Ok rr /\
    position relay (rr_relays rr) = Some i /\ nth_error (p_signers q) i = Some old /\ (old = VNone -> c_wr c relay = true /\ 0 <= lam (accs s relay) + 20000 < 2 ^ 64).
Proof.
  intros KS NE H. unfold rl_vote in H. rewrite KS in H. repeat rstep H.
  repeat match goal with X : ok_or _ _ = Ok _ |- _ => apply ok_or_ok in X end.
  match goal with X : position _ _ = Some ?x |- _ => rename x into i; rename X into PO end.
  match goal with X : nth_error _ i = Some ?x |- _ => rename x into old; rename X into NT end.
  exists p, rr, i, old. split; [exact HU|]. split; [exact (proj1 VR)|]. split; [exact PO|]. split; [exact NT|]. intros ->.
  change (vote_eqb VNone VNone) with true in H. cbv iota in H.
  apply bind_ok in H as (d0 & s0 & B0 & H).
  assert (s0 = s) by (unfold data, get in B0; cbv in B0; congruence). subst s0.
  apply bind_ok in H as (d' & s1 & B1 & H). apply lift_ok in B1 as [B1 ->].
  apply bind_ok in H as (u2 & s2 & B2 & H). apply set_data_ok in B2 as [-> W].
  unfold move_lam in H. minv H.
  repeat match goal with X : set_lam c k _ _ = _ |- _ => apply set_lam_ok in X as [-> _] end.
  pose proof H as HW. apply set_lam_ok in HW as [_ HW].
  unfold set_lam in H. destruct (_ && _) eqn:Q in H; [|discriminate H]. apply andb_true_iff in Q as [Q _].
  rewrite lam_put_lam_other, lam_put_dat in * by exact NE. unfold RELAY_REPARATION, u64max in *. split; [|lia].
  destruct HW as [HW|[HW _]]; [lia|exact HW].
Qed.

Lemma vote_inv e c v s s' relay k rrk rest : c_keys c = relay :: k :: rrk :: rest -> relay <> k -> rl_call e c (RlVote v) s s' ->
  c_pid c = rl_id /\ exists q r i old, holds s k q r /\
    shown e s c v relay k rrk q i old /\ ((old <> VNone /\ s' = s) \/ (old = VNone /\ pays c s relay k /\ after s s' k q r i v relay)).
Proof.
  intros KS NE C. apply call_exec in C as (P & _ & H & _). split; [exact P|]. cbn [rl_exec] in H.
  destruct (vote_bound _ _ _ _ _ _ _ _ _ _ KS NE H) as (q0 & rr0 & i0 & old0 & U0 & R0 & P0 & N0 & B0).
  apply rl_vote_ok in H as (relay' & k' & rrk' & rest' & q & rr & i & old & KS' & SG & NV & U & PA & R & N1 & N2 & NT & V).
  rewrite KS in KS'. injection KS' as <- <- <- <-. pose proof (seat_position _ _ _ (conj N1 N2)) as PO.
  assert (q0 = q) by congruence. subst q0. assert (rr0 = rr) by (destruct R as [R _]; congruence). subst rr0. assert (i0 = i) by congruence. subst i0.
  assert (old0 = old) by congruence. subst old0. rewrite P in *.
  apply unpack_ok in U as (r & D & O & L & I); [|typeclasses eauto].
  exists q, r, i, old. split; [split; [exact D|auto]|].
  split; [split; [exact SG|]; split; [exact NV|]; split; [exact PA|]; split; [exists rr; auto|exact NT]|].
  destruct V as [V|(V & OK & WK & (W1 & W2 & _) & SO & [LG NW] & LE & DL)]; [left; exact V|right].
  destruct (B0 V) as [WR BB].
  split; [exact V|]. split; [split; [exact OK|]; split; [exact WK|]; split; [exact WR|]; split; [exact LE|exact BB]|].
  rewrite D in W2. change (p_with_signers q (set_nth i v (p_signers q))) with (q_vote q i v) in W2. rewrite vote_tail in W2.
  split; [exact W2|]. split; [intros x; destruct (key_dec x k) as [->|J]; [exact W1|apply (SO x J)]|]. split; [intros x J; apply (SO x J)|].
  split; [intros x; rewrite (DL x); unfold RELAY_REPARATION; lia|]. split; assumption.
Qed.

Lemma vote_enter e c v s relay k rrk rest q r i old s' : c_keys c = relay :: k :: rrk :: rest -> c_pid c = rl_id ->
  holds s k q r -> shown e s c v relay k rrk q i old ->
  (if vote_eqb old VNone then
      d <- data k ;;
      d' <- lift (pack_into_slice c_rl_proposal (p_with_signers q (set_nth i v (p_signers q))) d) ;;
      set_data c k d' ;;;
      move_lam c k relay RELAY_REPARATION
    else ret tt) s = Ok (tt, s') -> rl_vote e c v s = Ok (tt, s').
Proof.
  intros KS P D (SG & NV & (n1 & pn & KD & PF) & (rr & (UR & n & KR & F) & PO) & NT) H. unfold rl_vote. rewrite KS. cbv beta iota.
  eapply bind_go; [apply guard_go; exact SG|]. eapply bind_go; [apply guard_go; destruct v; [contradiction|reflexivity|reflexivity]|].
  eapply bind_go; [unfold rl_proposal_at; apply unpack_at_go; eapply holds_reads; exact D|]. cbv beta.
  eapply bind_go.
  { unfold rl_valid_proposal. eapply bind_go; [apply lift_go; rewrite KD; reflexivity|]. cbv beta iota. rewrite P. apply lift_go, pda_go. exact PF. }
  eapply bind_go.
  { unfold rl_valid_round, relay_round_at. eapply bind_go; [apply unpack_at_go; exact UR|]. cbv beta. eapply bind_go; [apply lift_go; rewrite KR; reflexivity|]. cbv beta.
    rewrite P. eapply bind_go; [apply lift_go, pda_go; exact F|]. reflexivity. }
  cbv beta. eapply bind_go; [apply lift_go; rewrite PO; reflexivity|]. cbv beta.
  eapply bind_go; [apply lift_go; rewrite NT; reflexivity|]. cbv beta. exact H.
Qed.

Lemma vote_go e c v s relay k rrk rest q r i old : c_keys c = relay :: k :: rrk :: rest -> c_pid c = rl_id -> relay <> k ->
  holds s k q r -> shown e s c v relay k rrk q i old ->
  (old <> VNone -> rl_call e c (RlVote v) s s) /\
  (old = VNone -> pays c s relay k -> exists s', rl_call e c (RlVote v) s s' /\ after s s' k q r i v relay).
Proof.
  intros KS P NE D SH. split.
  - intros V. apply rl_call_go; [exact P|destruct v; reflexivity|]. unfold run. cbn [rl_exec].
    rewrite (vote_enter e c v s relay k rrk rest q r i old s KS P D SH); [rewrite Z.eqb_refl; reflexivity|].
    destruct old; [contradiction|reflexivity|reflexivity].
  - intros -> (OK & WK & WR & RP & LT). set (d' := enc c_rl_proposal (q_vote q i v) ++ r).
    set (s1 := put_dat s k d'). set (s2 := put_lam s1 k (lam (accs s1 k) - RELAY_REPARATION)).
    set (s3 := put_lam s2 relay (lam (accs s2 relay) + RELAY_REPARATION)).
    assert (L1 : lam (accs s1 k) = lam (accs s k)) by apply lam_put_dat.
    assert (L2 : lam (accs s2 relay) = lam (accs s relay)).
    { unfold s2. rewrite lam_put_lam_other by exact NE. apply lam_put_dat. }
    assert (O1 : own (accs s1 k) = rl_id) by (unfold s1; rewrite own_put_dat; exact OK).
    assert (EX : rl_vote e c v s = Ok (tt, s3)).
    { apply (vote_enter e c v s relay k rrk rest q r i VNone s3 KS P D SH). change (vote_eqb VNone VNone) with true. cbv iota.
      eapply bind_go; [reflexivity|]. cbv beta.
      eapply bind_go; [apply lift_go; destruct D as [D _]; rewrite D; exact (vote_packed q i v r)|]. cbv beta. apply (bind_go _ _ s tt s1).
      { unfold set_data. rewrite P, OK, keqb_refl, WK. cbn [andb]. rewrite orb_true_r. reflexivity. }
      unfold move_lam. apply (bind_go _ _ s1 (accs s1 k) s1); [reflexivity|].
      apply (bind_go _ _ s1 tt s1); [apply guard_go; rewrite L1; apply Z.leb_le; exact RP|].
      apply (bind_go _ _ s1 tt s2); [apply set_lam_go; [rewrite L1; unfold RELAY_REPARATION; lia|exact WK|right; rewrite P; exact O1]|].
      apply (bind_go _ _ s2 (accs s2 relay) s2); [reflexivity|].
      apply (bind_go _ _ s2 tt s2); [apply guard_go; rewrite L2; apply Z.ltb_lt; exact (proj2 LT)|].
      apply set_lam_go; [rewrite L2; unfold RELAY_REPARATION; lia|exact WR|left; unfold RELAY_REPARATION; lia]. }
    assert (LL : forall x, lam (accs s3 x) = lam (accs s x) + at_key relay 20000 x - at_key k 20000 x).
    { intros x. unfold s3. destruct (key_dec x relay) as [->|J1].
      + rewrite lam_put_lam, L2, at_same, at_other by exact NE. unfold RELAY_REPARATION. lia.
      + rewrite lam_put_lam_other by exact J1. rewrite (at_other relay) by exact J1. unfold s2. destruct (key_dec x k) as [->|J2].
        * rewrite lam_put_lam, L1, at_same. unfold RELAY_REPARATION. lia.
        * rewrite lam_put_lam_other by exact J2. unfold s1. rewrite lam_put_dat, at_other by exact J2. lia. }
    exists s3. split.
    + apply rl_call_go; [exact P|destruct v; reflexivity|]. apply (run_pay c _ s s3 relay k 20000); [exact EX|intros x; rewrite LL; lia|rewrite KS; left; reflexivity|rewrite KS; right; left; reflexivity].
    + split; [unfold s3, s2, s1; rewrite !dat_put_lam; apply dat_put_dat|]. split; [intros x; unfold s3, s2, s1; rewrite !own_put_lam, own_put_dat; reflexivity|].
      split; [|split; [exact LL|split; reflexivity]].
      intros x J. unfold s3, s2, s1. rewrite !dat_put_lam. unfold put_dat, put, accs, upd. rewrite keqb_ne by exact J. reflexivity.
Qed.

(** The same vote on the same ledger. *)
Lemma vote_same e k b s t s' : fair k b -> same_ledger s t -> rl_call e (b_ctx b) (RlVote (b_vote b)) s s' ->
  exists t', rl_call e (b_ctx b) (RlVote (b_vote b)) t t' /\ same_ledger s' t'.
Proof.
  intros ((rest & KS) & NE & NR) (SA & SL & SN) C.
  destruct (vote_inv _ _ _ _ _ _ _ _ _ KS NE C) as (P & q & r & i & old & D & SH & V).
  assert (SHt : shown e t (b_ctx b) (b_vote b) (b_relay b) k (b_round b) q i old) by (unfold shown, round_in in *; rewrite <- SA; exact SH).
  assert (Dt : holds t k q r) by (unfold holds in *; rewrite <- SA; exact D).
  destruct (vote_go e _ _ t _ _ _ _ q r i old KS P NE Dt SHt) as [G0 G1].
  destruct V as [[V ->]|(V & PY & AF)].
  - exists t. split; [exact (G0 V)|]. split; [exact SA|]. split; assumption.
  - destruct (G1 V) as (t' & CT & AT); [unfold pays in *; rewrite <- !SA; exact PY|]. exists t'. split; [exact CT|].
    destruct AF as (A1 & A2 & A3 & A4 & A5 & A6), AT as (T1 & T2 & T3 & T4 & T5 & T6). split; [|split; congruence].
    intros x. apply PropOrder.acct_eq; [rewrite A4, T4, SA; reflexivity|rewrite A2, T2, SA; reflexivity|].
    destruct (key_dec x k) as [->|J]; [congruence|]. rewrite A3, T3, SA by exact J. reflexivity.
Qed.

Lemma shown_there e s s' c v relay k rrk q i old j w : shown e s c v relay k rrk q i old -> dat (accs s' rrk) = dat (accs s rrk) -> i <> j ->
  shown e s' c v relay k rrk (q_vote q j w) i old.
Proof.
  intros (SG & NV & RA & RR & NT) D N. split; [exact SG|]. split; [exact NV|]. split; [exact RA|]. split; [unfold round_in in *; rewrite D; exact RR|].
  unfold q_vote. cbn [p_with_signers p_signers]. rewrite set_nth_other by congruence. exact NT.
Qed.
Lemma shown_back e s s' c v relay k rrk q i old j w : shown e s' c v relay k rrk (q_vote q j w) i old -> dat (accs s' rrk) = dat (accs s rrk) -> i <> j ->
  shown e s c v relay k rrk q i old.
Proof.
  intros (SG & NV & RA & RR & NT) D N. split; [exact SG|]. split; [exact NV|]. split; [exact RA|]. split; [unfold round_in in *; rewrite <- D; exact RR|].
  unfold q_vote in NT. cbn [p_with_signers p_signers] in NT. rewrite set_nth_other in NT by congruence. exact NT.
Qed.
Lemma seats_differ e s s' c c' v v' a b k rk q q' i j old old' : shown e s c v a k rk q i old -> shown e s' c' v' b k rk q' j old' ->
  dat (accs s' rk) = dat (accs s rk) -> a <> b -> i <> j.
Proof.
  intros (_ & _ & _ & (rr & [U _] & PO) & _) (_ & _ & _ & (rr' & [U' _] & PO') & _) SD N ->.
  rewrite SD, U in U'. injection U' as <-.
  apply position_ok in PO as [PO _]. apply position_ok in PO' as [PO' _]. congruence.
Qed.

Lemma vote_swap e k a b s s1 s2 : fair k a -> fair k b -> b_round a = b_round b -> b_relay a <> b_relay b ->
  rl_call e (b_ctx a) (RlVote (b_vote a)) s s1 -> rl_call e (b_ctx b) (RlVote (b_vote b)) s1 s2 ->
  exists t1 t2, rl_call e (b_ctx b) (RlVote (b_vote b)) s t1 /\ rl_call e (b_ctx a) (RlVote (b_vote a)) t1 t2 /\ same_ledger s2 t2.
Proof.
  intros ((resta & KA) & NA & RA) ((restb & KB) & NB & RB) EQ N CA CB. rewrite <- EQ in KB, RB.
  destruct (vote_inv _ _ _ _ _ _ _ _ _ KA NA CA) as (PA & q & r & i & oa & D & SA & VA).
  destruct (vote_inv _ _ _ _ _ _ _ _ _ KB NB CB) as (PB & q1 & r1 & j & ob & D1 & SB & VB).
  destruct VA as [[VA ->]|(VA & PY & AF)].
  - destruct (holds_one _ _ _ _ _ _ D D1) as [<- <-].
    assert (IJ : i <> j) by (eapply seats_differ; [exact SA|exact SB|reflexivity|exact N]).
    exists s2, s2. split; [exact CB|]. split; [|apply PropOrder.same_refl].
    destruct VB as [[VB ->]|(VB & _ & BF)]; [exact CA|]. pose proof (holds_after _ _ _ _ _ _ _ _ D BF) as D2. destruct BF as (_ & _ & B3 & _).
    refine (proj1 (vote_go e _ _ s2 _ k _ _ (q_vote q j (b_vote b)) r i oa KA PA NA D2 _) VA).
    apply (shown_there e s); [exact SA|exact (B3 _ RA)|exact IJ].
  - pose proof (holds_after _ _ _ _ _ _ _ _ D AF) as D1'. destruct (holds_one _ _ _ _ _ _ D1' D1) as [<- <-]. destruct AF as (A1 & A2 & A3 & A4 & A5 & A6).
    assert (IJ : i <> j) by (eapply seats_differ; [exact SA|exact SB|exact (A3 _ RA)|exact N]).
    assert (SB0 : shown e s (b_ctx b) (b_vote b) (b_relay b) k (b_round a) q j ob) by (eapply (shown_back e s s1); [exact SB|exact (A3 _ RB)|congruence]).
    destruct (vote_go e _ _ s _ k _ _ q r j ob KB PB NB D SB0) as [G0 G1].
    destruct VB as [[VB ->]|(VB & (PB1 & PB2 & PB3 & PB4 & PB5) & B1 & B2 & B3 & B4 & B5 & B6)].
    + exists s, s1. split; [exact (G0 VB)|]. split; [exact CA|apply PropOrder.same_refl].
    + destruct PY as (PA1 & PA2 & PA3 & PA4 & PA5).
      pose proof (A4 k) as LK. rewrite at_same, (at_other (b_relay a)) in LK by congruence.
      pose proof (A4 (b_relay b)) as LB. rewrite !at_other in LB by congruence.
      destruct (G1 VB) as (t1 & CT1 & TF).
      { split; [exact PA1|]. split; [exact PB2|]. split; [exact PB3|]. split; [lia|]. rewrite LB in PB5. lia. }
      pose proof (holds_after _ _ _ _ _ _ _ _ D TF) as DT. destruct TF as (T1 & T2 & T3 & T4 & T5 & T6).
      assert (ST : shown e t1 (b_ctx a) (b_vote a) (b_relay a) k (b_round a) (q_vote q j (b_vote b)) i oa) by (apply (shown_there e s); [exact SA|exact (T3 _ RA)|exact IJ]).
      destruct (proj2 (vote_go e _ _ t1 _ k _ _ _ r i oa KA PA NA DT ST) VA) as (t2 & CT2 & U1 & U2 & U3 & U4 & U5 & U6).
      { pose proof (T4 k) as LT. rewrite at_same, (at_other (b_relay b)) in LT by congruence.
        pose proof (T4 (b_relay a)) as LA. rewrite !at_other in LA by congruence.
        split; [rewrite T2; exact PA1|]. split; [exact PA2|]. split; [exact PA3|]. split; [lia|]. rewrite LA. lia. }
      exists t1, t2. split; [exact CT1|]. split; [exact CT2|]. split; [|split; congruence].
      intros x. apply PropOrder.acct_eq; [rewrite B4, A4, U4, T4; lia|rewrite B2, A2, U2, T2; reflexivity|].
      destruct (key_dec x k) as [->|J]; [rewrite B1, U1, q_vote_comm by exact IJ; reflexivity|]. rewrite B3, A3, U3, T3 by exact J. reflexivity.
Qed.

Lemma cast_same e k l : forall s t s', Forall (fair k) l -> same_ledger s t -> cast e l s s' -> exists t', cast e l t t' /\ same_ledger s' t'.
Proof.
  induction l as [|b l IH]; intros s t s' F S C; cbn [cast] in *; [subst; eauto|]. inversion F as [|? ? F1 F2]; subst.
  destruct C as (s1 & C1 & C2). destruct (vote_same e k b s t s1 F1 S C1) as (t1 & T1 & S1).
  destruct (IH s1 t1 s' F2 S1 C2) as (t' & T2 & S2). eauto.
Qed.

(** * C92 *)

(** Votes of different relays on one proposal, all with the same round account [rk]: any order leads to the same ledger.
    Partial: without [b_round b = rk] it is false, see [C92_refuted]. *)
Theorem C92_partial : forall e k rk l l' s s', Permutation l l' -> Forall (fair k) l -> (forall b, In b l -> b_round b = rk) -> NoDup (map b_relay l) -> cast e l s s' ->
  exists s'', cast e l' s s'' /\ same_ledger s' s''.
Proof.
  intros e k rk l l' s s' P. revert s s'. induction P as [|b l l' P IH|b a l|l1 l2 l3 P1 IH1 P2 IH2]; intros s s' F R ND C.
  - exists s'. split; [exact C|apply PropOrder.same_refl].
  - inversion F as [|? ? F1 F2]; subst. inversion ND as [|? ? N1 N2]; subst. destruct C as (s1 & C1 & C2).
    destruct (IH s1 s' F2 (fun b I => R b (or_intror I)) N2 C2) as (s'' & C3 & S). exists s''. split; [exists s1; auto|exact S].
  - inversion F as [|? ? F1 F2]; subst. inversion F2 as [|? ? F3 F4]; subst. inversion ND as [|? ? N1 N2]; subst.
    destruct C as (s1 & C1 & s2 & C2 & C3).
    destruct (vote_swap e k a b s s1 s2 F1 F3) as (t1 & t2 & T1 & T2 & S); [rewrite !R; [reflexivity|right; left; reflexivity|left; reflexivity]|intros E; apply N1; left; congruence|exact C1|exact C2|].
    destruct (cast_same e k l s2 t2 s' F4 S C3) as (t' & T3 & S'). exists t'. split; [exists t1; split; [exact T1|exists t2; auto]|exact S'].
  - destruct (IH1 s s' F R ND C) as (s1 & C1 & S1).
    destruct (IH2 s s1) as (s2 & C2 & S2); [eapply Permutation_Forall; eassumption|intros b I; apply R; eapply Permutation_in; [symmetry; exact P1|exact I]|eapply Permutation_NoDup; [apply Permutation_map; exact P1|exact ND]|exact C1|].
    exists s2. split; [exact C2|eapply PropOrder.same_trans; eassumption].
Qed.

(** The relays 21, 22 and 23 of round 10 vote on the proposal of the demo in state [ds7]: for, against, for. *)
Definition slip (r rk : key) (v : vote) : ballot := PropOrder.Ballot (ctx_of rl_id [sw r; ww de_prop; ro rk]) r rk v.
Definition slipped (r rk : key) (v : vote) : list meta * rl_ix := ([sw r; ww de_prop; ro rk], RlVote v).
Definition slips : list ballot := [slip (knum 21) de_r10 VConfirm; slip (knum 22) de_r10 VReject; slip (knum 23) de_r10 VConfirm].
Definition os1 := unres (stp ds7 (slipped (knum 21) de_r10 VConfirm)).
Definition os2 := unres (stp os1 (slipped (knum 22) de_r10 VReject)).
Definition os3 := unres (stp os2 (slipped (knum 23) de_r10 VConfirm)).
Lemma slip_fair r rk v : r <> de_prop -> rk <> de_prop -> fair de_prop (slip r rk v).
Proof. intros N M. split; [eexists; reflexivity|split; [exact N|exact M]]. Qed.
Lemma slip_call s r rk v : v <> VNone -> is_ok (stp s (slipped r rk v)) = true -> rl_call de (b_ctx (slip r rk v)) (RlVote (b_vote (slip r rk v))) s (unres (stp s (slipped r rk v))).
Proof.
  intros V H. split; [reflexivity|]. exists (enc c_rl_ix (RlVote v)). split; [apply try_from_slice_rt; [typeclasses eauto|destruct v; reflexivity]|].
  unfold stp, slipped, do_rl in *. cbn [fst snd] in *. cbn [slip PropOrder.b_ctx]. destruct (run _ _ s); [reflexivity|discriminate H].
Qed.
Example C92_ex : Permutation slips (rev slips) /\ Forall (fair de_prop) slips /\ (forall b, In b slips -> b_round b = de_r10) /\ NoDup (map b_relay slips) /\ cast de slips ds7 os3 /\
  rl_fin ds7 de_prop (de_vp [VNone; VNone; VNone]) /\ rl_fin os3 de_prop (de_vp [VConfirm; VReject; VConfirm]).
Proof.
  split; [apply Permutation_rev|]. split; [repeat (apply Forall_cons; [apply slip_fair; discriminate|]); apply Forall_nil|].
  split; [intros b [<-|[<-|[<-|[]]]]; reflexivity|].
  split; [repeat (apply NoDup_cons; [intros I; cbn [map In b_relay slip] in I; repeat destruct I as [I|I]; try discriminate I; exact I|]); apply NoDup_nil|].
  split.
  { exists os1. split; [apply slip_call; [discriminate|vm_compute; reflexivity]|].
    exists os2. split; [apply slip_call; [discriminate|vm_compute; reflexivity]|].
    exists os3. split; [apply slip_call; [discriminate|vm_compute; reflexivity]|reflexivity]. }
  split; vm_compute; repeat split; reflexivity.
Qed.

(** FALSE of the code without the condition on the round account: voters may show any round (C17_refuted).  Relay 21 with
    round 10 and key 30 with round 11 both vote at the first position; whoever comes first decides. *)
Lemma call_once e c i s s1 s2 : rl_call e c i s s1 -> rl_call e c i s s2 -> s1 = s2.
Proof. intros A B. apply call_exec in A as (_ & _ & A & _). apply call_exec in B as (_ & _ & B & _). congruence. Qed.
Definition rivals : list ballot := [slip (knum 21) de_r10 VConfirm; slip (knum 30) de_r11 VReject].
Definition ox2 := unres (stp os1 (slipped (knum 30) de_r11 VReject)).
Definition oy1 := unres (stp ds7 (slipped (knum 30) de_r11 VReject)).
Definition oy2 := unres (stp oy1 (slipped (knum 21) de_r10 VConfirm)).
Theorem C92_refuted : exists e s0 s s' k l l', genesis e rl_id s0 /\ rl_hist e s0 s /\ Permutation l l' /\ Forall (fair k) l /\ NoDup (map b_relay l) /\
  cast e l s s' /\ (exists t, cast e l' s t) /\ forall s'', cast e l' s s'' -> ~ same_ledger s' s''.
Proof.
  exists de, ds0, ds7, ox2, de_prop, rivals, (rev rivals). split; [exact ds0_genesis|]. split; [apply ds10_hist; left; reflexivity|].
  split; [apply Permutation_rev|]. split; [repeat (apply Forall_cons; [apply slip_fair; discriminate|]); apply Forall_nil|].
  split; [repeat (apply NoDup_cons; [intros I; cbn [map In b_relay slip rivals] in I; repeat destruct I as [I|I]; try discriminate I; exact I|]); apply NoDup_nil|].
  assert (Y1 : rl_call de (b_ctx (slip (knum 30) de_r11 VReject)) (RlVote VReject) ds7 oy1) by (apply slip_call; [discriminate|vm_compute; reflexivity]).
  assert (Y2 : rl_call de (b_ctx (slip (knum 21) de_r10 VConfirm)) (RlVote VConfirm) oy1 oy2) by (apply slip_call; [discriminate|vm_compute; reflexivity]).
  split.
  { exists os1. split; [apply slip_call; [discriminate|vm_compute; reflexivity]|].
    exists ox2. split; [apply slip_call; [discriminate|vm_compute; reflexivity]|reflexivity]. }
  split; [exists oy2, oy1; split; [exact Y1|exists oy2; split; [exact Y2|reflexivity]]|].
  intros s'' (t1 & C1 & t2 & C2 & E). cbn [cast] in E. subst s''.
  rewrite (call_once _ _ _ _ _ _ C1 Y1) in C2. rewrite (call_once _ _ _ _ _ _ C2 Y2). intros (A & _). specialize (A de_prop). revert A.
  assert (B : beqb (dat (accs ox2 de_prop)) (dat (accs oy2 de_prop)) = false) by (vm_compute; reflexivity).
  intros A. rewrite A in B. rewrite beqb_refl in B. discriminate B.
Qed.

Print Assumptions C92_partial.
Print Assumptions C92_refuted.
