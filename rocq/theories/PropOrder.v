(** Property C91: the order in which the relays vote on a request does not matter. *)

From Coq Require Import Strings.String Permutation ZifyBool ZifyNat ZifyN.
From Verif Require Import TpDemoLaws TpMisc PropTpReq Progress PropVotes.
Open Scope Z_scope.
Open Scope list_scope.
Ltac Zify.zify_post_hook ::= Z.div_mod_to_equations.

(** * Vocabulary *)

(** Two ledgers with the same accounts, the same log and the same time. *)
Definition same_ledger (s t : state) : Prop := (forall x, accs s x = accs t x) /\ logs s = logs t /\ now s = now t.
(** One vote: the accounts of the call, the relay that votes, the round account shown, the vote. *)
Record ballot := Ballot { b_ctx : ctx; b_relay : key; b_round : key; b_vote : vote }.
(** The relay and the round account are other accounts than the request. *)
Definition fair (k : key) (b : ballot) : Prop :=
  (exists rest, c_keys (b_ctx b) = b_relay b :: k :: b_round b :: rest) /\ b_relay b <> k /\ b_round b <> k.
(** The votes of the list are cast on the request at [k], one after the other, each successfully. *)
Fixpoint cast (e : env) (ext : extern) (k : key) (l : list ballot) (s s' : state) : Prop :=
  match l with
  | [] => s' = s
  | b :: l => exists s1, tp_call e ext (b_ctx b) (TpVote (b_vote b)) s s1 /\ cast e ext k l s1 s'
  end.

(** * Lemmas *)

Lemma same_refl s : same_ledger s s. Proof. repeat split; auto. Qed.
Lemma same_sym s t : same_ledger s t -> same_ledger t s. Proof. intros (A & B & C). repeat split; auto. Qed.
Lemma same_trans s t u : same_ledger s t -> same_ledger t u -> same_ledger s u.
Proof. intros (A & B & C) (A' & B' & C'). split; [intros x; rewrite A; apply A'|split; congruence]. Qed.

(** The checks of a vote on the request [g]. *)
Definition shown (e : env) (s : state) (c : ctx) (v : vote) (relay k rrk : key) (g : gprop) (i : nat) (old : vote) : Prop :=
  c_sg c relay = true /\ v <> VNone /\ request_addr e tp_id k g (e_hash e (p_event g)) /\
  (exists rr n, unpack c_relay_round RELAY_ROUND_LEN rr_init (dat (accs s rrk)) = Ok rr /\ rr_kind rr = KRelayRound n /\
     find_pda e (sd_relay_round (p_round g)) rl_id = Ok (rrk, n) /\ position relay (rr_relays rr) = Some i) /\
  nth_error (p_signers g) i = Some old.
Definition pays (c : ctx) (s : state) (relay k : key) : Prop :=
  own (accs s k) = tp_id /\ c_wr c k = true /\ c_wr c relay = true /\ 20000 <= lam (accs s k) /\
  0 <= lam (accs s relay) + 20000 < 2 ^ 64.
Definition after (s s' : state) (k : key) (g : gprop) (r : bytes) (i : nat) (v : vote) (relay : key) : Prop :=
  dat (accs s' k) = enc c_gprop (g_vote g i v) ++ r /\ (forall x, own (accs s' x) = own (accs s x)) /\
  (forall x, x <> k -> dat (accs s' x) = dat (accs s x)) /\
  (forall x, lam (accs s' x) = lam (accs s x) + at_key relay 20000 x - at_key k 20000 x) /\ logs s' = logs s /\ now s' = now s.

Lemma vote_size g i v : blen (enc c_gprop (g_vote g i v)) = blen (enc c_gprop g).
Proof.
  unfold c_gprop. pose proof (size_prop c_bytes c_bytes g) as Z1. pose proof (size_prop c_bytes c_bytes (g_vote g i v)) as Z2.
  unfold g_vote at 2 3 4 5 in Z2. cbn [p_with_signers p_kind p_event p_meta p_signers] in Z2.
  assert (Z3 : blen (set_nth i v (p_signers g)) = blen (p_signers g)) by (unfold blen; rewrite set_nth_length; reflexivity).
  unfold gprop in *. lia.
Qed.
Lemma skipn_len {A} (x r : list A) n : List.length x = n -> skipn n (x ++ r) = r.
Proof. intros <-. rewrite skipn_app, skipn_all, Nat.sub_diag. reflexivity. Qed.
Lemma vote_packed g i v r : pack_into_slice c_gprop (g_vote g i v) (enc c_gprop g ++ r) = Ok (enc c_gprop (g_vote g i v) ++ r).
Proof.
  pose proof (vote_size g i v) as Z. with_strategy transparent [pack_into_slice] unfold pack_into_slice.
  assert (L : (blen (enc c_gprop (g_vote g i v)) <=? blen (enc c_gprop g ++ r)) = true) by (rewrite blen_app; pose proof (blen_nonneg r); lia).
  rewrite L. rewrite skipn_len; [reflexivity|]. unfold blen in Z. lia.
Qed.
Lemma set_nth_comm {A} (x y : A) l : forall i j, i <> j -> set_nth i x (set_nth j y l) = set_nth j y (set_nth i x l).
Proof. induction l as [|z l IH]; intros [|i] [|j] N; cbn [set_nth]; try reflexivity; [congruence|]. rewrite IH by congruence. reflexivity. Qed.
Lemma g_vote_comm g i j v w : i <> j -> g_vote (g_vote g i v) j w = g_vote (g_vote g j w) i v.
Proof. intros N. unfold g_vote. cbn [p_with_signers p_signers]. rewrite (set_nth_comm w v) by congruence. reflexivity. Qed.

Lemma vote_bound e c v s a s' relay k rrk rest : c_keys c = relay :: k :: rrk :: rest -> relay <> k -> tp_vote e c v s = Ok (a, s') ->
  exists g rr i old, unpack_from_slice c_gprop (dat (accs s k)) = Ok g /\ unpack c_relay_round RELAY_ROUND_LEN rr_init (dat (accs s rrk)) = Ok rr /\
    position relay (rr_relays rr) = Some i /\ nth_error (p_signers g) i = Some old /\ (old = VNone -> 0 <= lam (accs s relay) + 20000 < 2 ^ 64).
Proof.
  intros KS NE H. unfold tp_vote, relay_round_at in H. rewrite KS in H. do 10 tstep H.
  repeat match goal with X : ok_or _ _ = Ok _ |- _ => apply ok_or_ok in X end.
  match goal with X : position _ _ = Some ?x |- _ => rename x into i; rename X into PO end.
  match goal with X : nth_error _ i = Some ?x |- _ => rename x into old; rename X into NT end.
  match goal with X : unpack_from_slice c_gprop _ = Ok ?x |- _ => rename x into g; rename X into UG end.
  do 2 eexists. exists i, old. split; [exact UG|]. split; [eassumption|]. split; [exact PO|]. split; [exact NT|]. intros ->.
  change (vote_eqb VNone VNone) with true in H. cbv iota in H.
  apply bind_ok in H as (d' & s1 & B1 & H). apply lift_ok in B1 as [B1 ->].
  apply bind_ok in H as (u2 & s2 & B2 & H). apply set_data_ok in B2 as [-> W].
  unfold move_lam in H. minv H.
  repeat match goal with X : set_lam c k _ _ = _ |- _ => apply set_lam_ok in X as [-> _] end.
  unfold set_lam in H. destruct (_ && _) eqn:Q in H; [|discriminate H]. apply andb_true_iff in Q as [Q _].
  rewrite lam_put_lam_other, lam_put_dat in * by exact NE. unfold RELAY_REPARATION, u64max in *. lia.
Qed.

Lemma vote_inv e ext c v s s' relay k rrk rest : c_keys c = relay :: k :: rrk :: rest -> relay <> k -> tp_call e ext c (TpVote v) s s' ->
  c_pid c = tp_id /\ clock_ok s /\ exists g r i old, dat (accs s k) = enc c_gprop g ++ r /\ okb c_gprop g = true /\
    shown e s c v relay k rrk g i old /\ ((old <> VNone /\ s' = s) \/ (old = VNone /\ pays c s relay k /\ after s s' k g r i v relay)).
Proof.
  intros KS NE C. apply tp_call_exec in C as (P & _ & CK & H). split; [exact P|]. split; [exact CK|]. cbn [tp_exec] in H.
  destruct (vote_bound _ _ _ _ _ _ _ _ _ _ KS NE H) as (g0 & rr0 & i0 & old0 & U0 & R0 & P0 & N0 & B0).
  apply tp_vote_ok in H as (relay' & k' & rrk' & rest' & KS' & g & rr & i & old & SG & NV & U & RA & UR & (n & KR & F) & PO & NT & V).
  rewrite KS in KS'. injection KS' as <- <- <- <-.
  assert (g0 = g) by congruence. subst g0. assert (rr0 = rr) by congruence. subst rr0. assert (i0 = i) by congruence. subst i0.
  assert (old0 = old) by congruence. subst old0. rewrite P in *.
  apply unpack_from_slice_ok in U as (r & D & O); [|typeclasses eauto].
  exists g, r, i, old. split; [exact D|]. split; [exact O|].
  split; [split; [exact SG|]; split; [exact NV|]; split; [exact RA|]; split; [exists rr, n; auto|exact NT]|].
  destruct V as [V|(V & d' & PK & DD & OO & _ & SO & [LG NW] & LE & DL & OK & WK & WR)]; [left; exact V|right].
  split; [exact V|]. split; [split; [exact OK|]; split; [exact WK|]; split; [exact WR|]; split; [exact LE|exact (B0 V)]|].
  rewrite D in PK. change (p_with_signers g (set_nth i v (p_signers g))) with (g_vote g i v) in PK. rewrite vote_packed in PK.
  split; [congruence|]. split; [intros x; destruct (key_dec x k) as [->|J]; [exact OO|apply (SO x J)]|]. split; [intros x J; apply (SO x J)|].
  split; [intros x; rewrite (DL x); unfold RELAY_REPARATION; lia|]. split; assumption.
Qed.

Lemma vote_enter e c v s relay k rrk rest g r i old s' : c_keys c = relay :: k :: rrk :: rest -> c_pid c = tp_id ->
  dat (accs s k) = enc c_gprop g ++ r -> okb c_gprop g = true -> shown e s c v relay k rrk g i old ->
  (if vote_eqb old VNone then
      d' <- lift (pack_into_slice c_gprop (p_with_signers g (set_nth i v (p_signers g))) (dat (accs s k))) ;;
      set_data c k d' ;;;
      move_lam c k relay RELAY_REPARATION
    else ret tt) s = Ok (tt, s') -> tp_vote e c v s = Ok (tt, s').
Proof.
  intros KS P D O (SG & NV & (n1 & pn & KD & PF) & (rr & n & UR & KR & F & PO) & NT) H. unfold tp_vote. rewrite KS. cbv beta iota.
  eapply bind_go; [apply guard_go; exact SG|]. eapply bind_go; [apply guard_go; destruct v; [contradiction|reflexivity|reflexivity]|].
  eapply bind_go; [reflexivity|]. eapply bind_go; [apply lift_go; rewrite D; apply unpack_from_slice_enc; [typeclasses eauto|exact O]|]. cbv beta.
  eapply bind_go.
  { unfold tp_valid_prop. eapply bind_go; [apply lift_go; rewrite KD; reflexivity|]. cbv beta iota. rewrite P. apply lift_go, pda_go. exact PF. }
  eapply bind_go; [apply unpack_at_go; exact UR|]. cbv beta. eapply bind_go; [apply lift_go; rewrite KR; reflexivity|]. cbv beta.
  eapply bind_go; [apply lift_go, pda_go; exact F|]. eapply bind_go; [apply lift_go; rewrite PO; reflexivity|]. cbv beta.
  eapply bind_go; [apply lift_go; rewrite NT; reflexivity|]. cbv beta. exact H.
Qed.

Lemma vote_go e ext c v s relay k rrk rest g r i old : c_keys c = relay :: k :: rrk :: rest -> c_pid c = tp_id -> clock_ok s -> relay <> k ->
  dat (accs s k) = enc c_gprop g ++ r -> okb c_gprop g = true -> shown e s c v relay k rrk g i old ->
  (old <> VNone -> tp_call e ext c (TpVote v) s s) /\
  (old = VNone -> pays c s relay k -> exists s', tp_call e ext c (TpVote v) s s' /\ after s s' k g r i v relay).
Proof.
  intros KS P CK NE D O SH. split.
  - intros V. apply call_go; [exact P|exact CK|destruct v; reflexivity|]. unfold run. cbn [tp_exec].
    rewrite (vote_enter e c v s relay k rrk rest g r i old s KS P D O SH); [rewrite Z.eqb_refl; reflexivity|].
    destruct old; [contradiction|reflexivity|reflexivity].
  - intros -> (OK & WK & WR & RP & LT). set (d' := enc c_gprop (g_vote g i v) ++ r).
    set (s1 := put_dat s k d'). set (s2 := put_lam s1 k (lam (accs s1 k) - RELAY_REPARATION)).
    set (s3 := put_lam s2 relay (lam (accs s2 relay) + RELAY_REPARATION)).
    assert (L1 : lam (accs s1 k) = lam (accs s k)) by apply lam_put_dat.
    assert (L2 : lam (accs s2 relay) = lam (accs s relay)).
    { unfold s2. rewrite lam_put_lam_other by exact NE. apply lam_put_dat. }
    assert (EX : tp_vote e c v s = Ok (tt, s3)).
    { apply (vote_enter e c v s relay k rrk rest g r i VNone s3 KS P D O SH). change (vote_eqb VNone VNone) with true. cbv iota.
      eapply bind_go; [apply lift_go; rewrite D; exact (vote_packed g i v r)|]. cbv beta. apply (bind_go _ _ s tt s1).
      { unfold set_data. rewrite P, OK, keqb_refl, WK. cbn [andb]. rewrite orb_true_r. reflexivity. }
      unfold move_lam. apply (bind_go _ _ s1 (accs s1 k) s1); [reflexivity|].
      apply (bind_go _ _ s1 tt s1); [apply guard_go; rewrite L1; apply Z.leb_le; exact RP|].
      apply (bind_go _ _ s1 tt s2).
      { unfold set_lam. rewrite P, WK.
        assert (O1 : own (accs s1 k) = tp_id) by (unfold s1; rewrite own_put_dat; exact OK).
        assert (P1 : (0 <=? lam (accs s1 k) - RELAY_REPARATION) = true) by (rewrite L1; unfold RELAY_REPARATION; lia).
        rewrite O1, keqb_refl, orb_true_r. cbn [andb]. rewrite orb_true_r, P1. reflexivity. }
      apply (bind_go _ _ s2 (accs s2 relay) s2); [reflexivity|].
      apply (bind_go _ _ s2 tt s2); [apply guard_go; rewrite L2; apply Z.ltb_lt; exact (proj2 LT)|].
      unfold set_lam. rewrite WR.
      assert (GT : (lam (accs s2 relay) <? lam (accs s2 relay) + RELAY_REPARATION) = true) by (apply Z.ltb_lt; unfold RELAY_REPARATION; lia).
      assert (P2 : (0 <=? lam (accs s2 relay) + RELAY_REPARATION) = true) by (rewrite L2; unfold RELAY_REPARATION; lia).
      rewrite GT, P2. cbn [andb orb]. rewrite orb_true_r. reflexivity. }
    assert (LL : forall x, lam (accs s3 x) = lam (accs s x) + at_key relay 20000 x - at_key k 20000 x).
    { intros x. unfold s3. destruct (key_dec x relay) as [->|J1].
      + rewrite lam_put_lam, L2, at_same, at_other by exact NE. unfold RELAY_REPARATION. lia.
      + rewrite lam_put_lam_other by exact J1. rewrite (at_other relay) by exact J1. unfold s2. destruct (key_dec x k) as [->|J2].
        * rewrite lam_put_lam, L1, at_same. unfold RELAY_REPARATION. lia.
        * rewrite lam_put_lam_other by exact J2. unfold s1. rewrite lam_put_dat, at_other by exact J2. lia. }
    exists s3. split.
    + apply call_go; [exact P|exact CK|destruct v; reflexivity|]. unfold run. cbn [tp_exec]. rewrite EX.
      rewrite (lam_sum_pay s s3 relay k 20000 (c_keys c)); [rewrite Z.eqb_refl; reflexivity|intros x; rewrite LL; lia|rewrite KS; left; reflexivity|rewrite KS; right; left; reflexivity].
    + split; [unfold s3, s2, s1; rewrite !dat_put_lam; apply dat_put_dat|]. split; [intros x; unfold s3, s2, s1; rewrite !own_put_lam, own_put_dat; reflexivity|].
      split; [|split; [exact LL|split; reflexivity]].
      intros x J. unfold s3, s2, s1. rewrite !dat_put_lam. unfold put_dat, put, accs, upd. rewrite keqb_ne by exact J. reflexivity.
Qed.

Lemma acct_eq (a b : acct) : lam a = lam b -> own a = own b -> dat a = dat b -> a = b.
Proof. destruct a as [x y z], b as [x1 y1 z1]. cbn [lam own dat]. intros -> -> ->. reflexivity. Qed.
(** The same vote on the same ledger. *)
Lemma vote_same e ext k b s t s' : fair k b -> same_ledger s t -> tp_call e ext (b_ctx b) (TpVote (b_vote b)) s s' ->
  exists t', tp_call e ext (b_ctx b) (TpVote (b_vote b)) t t' /\ same_ledger s' t'.
Proof.
  intros ((rest & KS) & NE & NR) (SA & SL & SN) C.
  destruct (vote_inv _ _ _ _ _ _ _ _ _ _ KS NE C) as (P & CK & g & r & i & old & D & O & SH & V).
  assert (CKt : clock_ok t) by (unfold clock_ok in *; rewrite <- SN; exact CK).
  assert (SHt : shown e t (b_ctx b) (b_vote b) (b_relay b) k (b_round b) g i old) by (unfold shown in *; rewrite <- SA; exact SH).
  rewrite SA in D. destruct (vote_go e ext _ _ t _ _ _ _ g r i old KS P CKt NE D O SHt) as [G0 G1].
  destruct V as [[V ->]|(V & PY & AF)].
  - exists t. split; [exact (G0 V)|]. split; [exact SA|]. split; assumption.
  - destruct (G1 V) as (t' & CT & AT); [unfold pays in *; rewrite <- !SA; exact PY|]. exists t'. split; [exact CT|].
    destruct AF as (A1 & A2 & A3 & A4 & A5 & A6), AT as (T1 & T2 & T3 & T4 & T5 & T6). split; [|split; congruence].
    intros x. apply acct_eq; [rewrite A4, T4, SA; reflexivity|rewrite A2, T2, SA; reflexivity|].
    destruct (key_dec x k) as [->|J]; [congruence|]. rewrite A3, T3, SA by exact J. reflexivity.
Qed.

Lemma shown_there e s s' c v relay k rrk g i old j w : shown e s c v relay k rrk g i old -> dat (accs s' rrk) = dat (accs s rrk) -> i <> j ->
  shown e s' c v relay k rrk (g_vote g j w) i old.
Proof.
  intros (SG & NV & RA & RR & NT) D N. split; [exact SG|]. split; [exact NV|]. split; [exact RA|]. split; [rewrite D; exact RR|].
  unfold g_vote. cbn [p_with_signers p_signers]. rewrite set_nth_other by congruence. exact NT.
Qed.
Lemma shown_back e s s' c v relay k rrk g i old j w : shown e s' c v relay k rrk (g_vote g j w) i old -> dat (accs s' rrk) = dat (accs s rrk) -> i <> j ->
  shown e s c v relay k rrk g i old.
Proof.
  intros (SG & NV & RA & RR & NT) D N. split; [exact SG|]. split; [exact NV|]. split; [exact RA|]. split; [rewrite <- D; exact RR|].
  unfold g_vote in NT. cbn [p_with_signers p_signers] in NT. rewrite set_nth_other in NT by congruence. exact NT.
Qed.
Lemma seats_differ e s s' c c' v v' a b k ra rb g g' i j old old' : shown e s c v a k ra g i old -> shown e s' c' v' b k rb g' j old' ->
  p_round g' = p_round g -> (forall x, x <> k -> dat (accs s' x) = dat (accs s x)) -> ra <> k -> a <> b -> i <> j.
Proof.
  intros (_ & _ & _ & (rr & n & U & _ & F & PO) & _) (_ & _ & _ & (rr' & n' & U' & _ & F' & PO') & _) PR SD NK N ->.
  rewrite PR, F in F'. injection F' as <- <-. rewrite SD, U in U' by exact NK. injection U' as <-.
  apply position_ok in PO as [PO _]. apply position_ok in PO' as [PO' _]. congruence.
Qed.
Lemma decoded_one g g' r r' : enc c_gprop g ++ r = enc c_gprop g' ++ r' -> okb c_gprop g = true -> okb c_gprop g' = true -> g = g' /\ r = r'.
Proof. intros E O O'. eapply enc_prefix; [typeclasses eauto|exact O|exact O'|exact E]. Qed.

Lemma vote_swap e ext k a b s s1 s2 : fair k a -> fair k b -> b_relay a <> b_relay b ->
  tp_call e ext (b_ctx a) (TpVote (b_vote a)) s s1 -> tp_call e ext (b_ctx b) (TpVote (b_vote b)) s1 s2 ->
  exists t1 t2, tp_call e ext (b_ctx b) (TpVote (b_vote b)) s t1 /\ tp_call e ext (b_ctx a) (TpVote (b_vote a)) t1 t2 /\ same_ledger s2 t2.
Proof.
  intros ((resta & KA) & NA & RA) ((restb & KB) & NB & RB) N CA CB.
  destruct (vote_inv _ _ _ _ _ _ _ _ _ _ KA NA CA) as (PA & CK & g & r & i & oa & D & O & SA & VA).
  destruct (vote_inv _ _ _ _ _ _ _ _ _ _ KB NB CB) as (PB & CK1 & g1 & r1 & j & ob & D1 & O1 & SB & VB).
  destruct VA as [[VA ->]|(VA & PY & A1 & A2 & A3 & A4 & A5 & A6)].
  - destruct (decoded_one g g1 r r1) as [<- <-]; [congruence|assumption|assumption|].
    assert (IJ : i <> j) by (eapply seats_differ; [exact SA|exact SB|reflexivity|reflexivity|exact RA|exact N]).
    exists s2, s2. split; [exact CB|]. split; [|apply same_refl].
    destruct VB as [[VB ->]|(VB & _ & B1 & B2 & B3 & B4 & B5 & B6)]; [exact CA|].
    assert (CK2 : clock_ok s2) by (unfold clock_ok in *; rewrite B6; exact CK).
    refine (proj1 (vote_go e ext _ _ s2 _ k _ _ (g_vote g j (b_vote b)) r i oa KA PA CK2 NA B1 _ _) VA); [apply okb_with_signers; exact O|].
    apply (shown_there e s); [exact SA|exact (B3 _ RA)|exact IJ].
  - destruct (decoded_one (g_vote g i (b_vote a)) g1 r r1) as [<- <-]; [congruence|apply okb_with_signers; exact O|assumption|].
    assert (IJ : i <> j) by (eapply seats_differ; [exact SA|exact SB|reflexivity|exact A3|exact RA|exact N]).
    assert (SB0 : shown e s (b_ctx b) (b_vote b) (b_relay b) k (b_round b) g j ob) by (eapply (shown_back e s s1); [exact SB|exact (A3 _ RB)|congruence]).
    destruct (vote_go e ext _ _ s _ k _ _ g r j ob KB PB CK NB D O SB0) as [G0 G1].
    destruct VB as [[VB ->]|(VB & (PB1 & PB2 & PB3 & PB4 & PB5) & B1 & B2 & B3 & B4 & B5 & B6)].
    + exists s, s1. split; [exact (G0 VB)|]. split; [exact CA|apply same_refl].
    + destruct PY as (PA1 & PA2 & PA3 & PA4 & PA5).
      pose proof (A4 k) as LK. rewrite at_same, (at_other (b_relay a)) in LK by congruence.
      pose proof (A4 (b_relay b)) as LB. rewrite !at_other in LB by congruence.
      destruct (G1 VB) as (t1 & CT1 & T1 & T2 & T3 & T4 & T5 & T6).
      { split; [exact PA1|]. split; [exact PB2|]. split; [exact PB3|]. split; [lia|]. rewrite LB in PB5. lia. }
      assert (CKt : clock_ok t1) by (unfold clock_ok in *; rewrite T6; exact CK).
      assert (OT : okb c_gprop (g_vote g j (b_vote b)) = true) by (apply okb_with_signers; exact O).
      assert (ST : shown e t1 (b_ctx a) (b_vote a) (b_relay a) k (b_round a) (g_vote g j (b_vote b)) i oa) by (apply (shown_there e s); [exact SA|exact (T3 _ RA)|exact IJ]).
      destruct (proj2 (vote_go e ext _ _ t1 _ k _ _ _ r i oa KA PA CKt NA T1 OT ST) VA) as (t2 & CT2 & U1 & U2 & U3 & U4 & U5 & U6).
      { pose proof (T4 k) as LT. rewrite at_same, (at_other (b_relay b)) in LT by congruence.
        pose proof (T4 (b_relay a)) as LA. rewrite !at_other in LA by congruence.
        split; [rewrite T2; exact PA1|]. split; [exact PA2|]. split; [exact PA3|]. split; [lia|]. rewrite LA. lia. }
      exists t1, t2. split; [exact CT1|]. split; [exact CT2|]. split; [|split; congruence].
      intros x. apply acct_eq; [rewrite B4, A4, U4, T4; lia|rewrite B2, A2, U2, T2; reflexivity|].
      destruct (key_dec x k) as [->|J]; [rewrite B1, U1, g_vote_comm by exact IJ; reflexivity|]. rewrite B3, A3, U3, T3 by exact J. reflexivity.
Qed.

Lemma cast_same e ext k l : forall s t s', Forall (fair k) l -> same_ledger s t -> cast e ext k l s s' -> exists t', cast e ext k l t t' /\ same_ledger s' t'.
Proof.
  induction l as [|b l IH]; intros s t s' F S C; cbn [cast] in *; [subst; eauto|]. inversion F as [|? ? F1 F2]; subst.
  destruct C as (s1 & C1 & C2). destruct (vote_same e ext k b s t s1 F1 S C1) as (t1 & T1 & S1).
  destruct (IH s1 t1 s' F2 S1 C2) as (t' & T2 & S2). eauto.
Qed.

(** * C91 *)

(** Votes of different relays on one request, cast in one order: cast in any other order, they all succeed and leave the
    same ledger - the same record, the same lamports of every relay, the same log. *)
Theorem C91 : forall e ext k l l' s s', Permutation l l' -> Forall (fair k) l -> NoDup (map b_relay l) -> cast e ext k l s s' ->
  exists s'', cast e ext k l' s s'' /\ same_ledger s' s''.
Proof.
  intros e ext k l l' s s' P. revert s s'. induction P as [|b l l' P IH|b a l|l1 l2 l3 P1 IH1 P2 IH2]; intros s s' F ND C.
  - exists s'. split; [exact C|apply same_refl].
  - inversion F as [|? ? F1 F2]; subst. inversion ND as [|? ? N1 N2]; subst. destruct C as (s1 & C1 & C2).
    destruct (IH s1 s' F2 N2 C2) as (s'' & C3 & S). exists s''. split; [exists s1; auto|exact S].
  - inversion F as [|? ? F1 F2]; subst. inversion F2 as [|? ? F3 F4]; subst. inversion ND as [|? ? N1 N2]; subst.
    destruct C as (s1 & C1 & s2 & C2 & C3).
    destruct (vote_swap e ext k a b s s1 s2 F1 F3) as (t1 & t2 & T1 & T2 & S); [intros E; apply N1; left; congruence|exact C1|exact C2|].
    destruct (cast_same e ext k l s2 t2 s' F4 S C3) as (t' & T3 & S'). exists t'. split; [exists t1; split; [exact T1|exists t2; auto]|exact S'].
  - destruct (IH1 s s' F ND C) as (s1 & C1 & S1).
    destruct (IH2 s s1) as (s2 & C2 & S2); [eapply Permutation_Forall; eassumption|eapply Permutation_NoDup; [apply Permutation_map; exact P1|exact ND]|exact C1|].
    exists s2. split; [exact C2|eapply same_trans; eassumption].
Qed.

(** The relays 1, 2 and 3 vote on the request [tw1] in state [ts3]: for, against, for. *)
Definition slip (r : key) (v : vote) : ballot := Ballot (ctx_of tp_id [sw r; ww tw1; ro tround]) r tround v.
Definition slips : list ballot := [slip trelay1 VConfirm; slip trelay2 VReject; slip trelay3 VConfirm].
Definition slipped (r : key) (v : vote) : list meta * tp_ix := ([sw r; ww tw1; ro tround], TpVote v).
Definition os1 := unres (tstp ts3 (slipped trelay1 VConfirm)).
Definition os2 := unres (tstp os1 (slipped trelay2 VReject)).
Definition os3 := unres (tstp os2 (slipped trelay3 VConfirm)).
Example C91_ex : Permutation slips (rev slips) /\ Forall (fair tw1) slips /\ NoDup (map b_relay slips) /\ cast te no_ext tw1 slips ts3 os3 /\
  p_signers (the_req ts3 tw1) = [VNone; VNone; VNone] /\ p_signers (the_req os3 tw1) = [VConfirm; VReject; VConfirm].
Proof.
  split; [apply Permutation_rev|]. split.
  { assert (F : forall r v, r <> tw1 -> fair tw1 (slip r v)) by (intros r v N; split; [eexists; reflexivity|split; [exact N|discriminate]]).
    repeat (apply Forall_cons; [apply F; discriminate|]). apply Forall_nil. }
  split; [repeat (apply NoDup_cons; [intros I; cbn [map In b_relay slip] in I; repeat destruct I as [I|I]; try discriminate I; exact I|]); apply NoDup_nil|].
  split.
  { exists os1. split; [exact (tstp_call ts3 (slipped trelay1 VConfirm) eq_refl ltac:(demo_now) ltac:(vm_compute; reflexivity))|].
    exists os2. split; [exact (tstp_call os1 (slipped trelay2 VReject) eq_refl ltac:(demo_now) ltac:(vm_compute; reflexivity))|].
    exists os3. split; [exact (tstp_call os2 (slipped trelay3 VConfirm) eq_refl ltac:(demo_now) ltac:(vm_compute; reflexivity))|reflexivity]. }
  split; vm_compute; reflexivity.
Qed.
(** For two votes of one relay the order does matter: only the first one counts. *)
Example C91_one_relay :
  p_signers (the_req (unres (tstps ts3 [slipped trelay1 VConfirm; slipped trelay1 VReject])) tw1) = [VConfirm; VNone; VNone] /\
  p_signers (the_req (unres (tstps ts3 [slipped trelay1 VReject; slipped trelay1 VConfirm])) tw1) = [VReject; VNone; VNone].
Proof. split; vm_compute; reflexivity. Qed.

Print Assumptions C91.
