(** Property C84: the relays can hand over to the next round: anyone files and uploads the event and finalizes the proposal, any quorum
    of the round's relays confirms it in any order, anyone executes it, and the new round is the current one. *)

From Coq Require Import Strings.String ZifyBool ZifyNat ZifyN.
From Verif Require TpDemoLaws PropFrames.
From Verif Require Import DemoLaws PropRoundLoader SysGo Frames PropLive PropVotes PropRounds.
Open Scope Z_scope.
Open Scope list_scope.
Ltac Zify.zify_post_hook ::= Z.div_mod_to_equations.

(** * Vocabulary *)

(** The relays of the list confirm the proposal [p], one after the other. *)
Inductive relays_confirm (e : env) (p rrk : key) : list key -> state -> state -> Prop :=
| rc_none s : relays_confirm e p rrk [] s s
| rc_vote x l s s1 s2 : rl_call e (ballot x p rrk) (RlVote VConfirm) s s1 -> relays_confirm e p rrk l s1 s2 -> relays_confirm e p rrk (x :: l) s s2.

(** * Lemmas *)

Definition count_confirm (l : list vote) : Z := Z.of_nat (count_occ vote_dec l VConfirm).
Lemma count_set l : forall j, nth_error l j = Some VNone -> count_confirm (set_nth j VConfirm l) = count_confirm l + 1.
Proof.
  unfold count_confirm. induction l as [|v l IH]; intros j H; [destruct j; discriminate|]. destruct j as [|j]; cbn [nth_error] in H; cbn [set_nth].
  - injection H as ->. cbn [count_occ]. destruct (vote_dec VConfirm VConfirm); [|contradiction]. destruct (vote_dec VNone VConfirm); [discriminate|]. lia.
  - specialize (IH j H). cbn [count_occ]. destruct (vote_dec v VConfirm); lia.
Qed.
Lemma votes_differ (l l' : list vote) j v : nth_error l' j = Some v -> List.length l' = List.length l -> (forall i, i <> j -> nth_error l' i = nth_error l i) -> l' = set_nth j v l.
Proof.
  revert l' j. induction l as [|x l IH]; intros l' j H L F; destruct l' as [|y l']; try discriminate L.
  - destruct j; discriminate H.
  - destruct j as [|j]; cbn [set_nth nth_error] in *.
    + injection H as ->. f_equal. assert (E : forall i, nth_error l' i = nth_error l i) by (intros i; apply (F (S i)); lia).
      clear - E. revert l' E. induction l as [|a l IH]; intros l' E; destruct l' as [|b l']; [reflexivity| | |]; try (specialize (E 0%nat); discriminate E).
      pose proof (E 0%nat) as E0. cbn in E0. injection E0 as ->. f_equal. apply IH. intros i. apply (E (S i)).
    + pose proof (F 0%nat ltac:(lia)) as F0. cbn in F0. injection F0 as ->. f_equal. apply IH; [exact H|injection L as L; exact L|]. intros i I. apply (F (S i)). lia.
Qed.

Lemma relays_confirm_go e p rrk rr : forall voters s q,
  proposal_account e s p q -> nonneg s -> round_account e s rrk rr -> NoDup (rr_relays rr) -> NoDup voters ->
  (forall x, In x voters -> x <> p /\ lam (accs s x) + 20000 < 2 ^ 64 /\ exists j, nth_error (rr_relays rr) j = Some x /\ nth_error (p_signers q) j = Some VNone) ->
  20000 * Z.of_nat (List.length voters) <= lam (accs s p) ->
  exists s' l, relays_confirm e p rrk voters s s' /\ proposal_account e s' p (p_with_signers q l) /\
    count_confirm l = count_confirm (p_signers q) + Z.of_nat (List.length voters) /\
    (forall x, x <> p -> own (accs s' x) = own (accs s x) /\ dat (accs s' x) = dat (accs s x)) /\
    (forall x, In x voters -> lam (accs s' x) = lam (accs s x) + 20000) /\
    (forall x, ~ In x voters -> x <> p -> lam (accs s' x) = lam (accs s x)).
Proof.
  induction voters as [|v voters IH]; intros s q R N RS D DV P L.
  { exists s, (p_signers q). cbn [List.length]. split; [apply rc_none|]. split; [replace (p_with_signers q (p_signers q)) with q by (destruct q; reflexivity); exact R|].
    repeat split; auto; try lia. intros x []. }
  cbn [List.length] in L. inversion DV as [|? ? NI DV']; subst.
  destruct (P v (or_introl eq_refl)) as (VK & VL & j & JR & JS).
  destruct (vote_cast e s p q rrk rr v j VConfirm R RS (no_dup_seat _ _ _ D JR) JS) as (s1 & q1 & C & R1 & E1 & X1 & X2 & X3 & SL & SD & _); [discriminate|exact VK|unfold RELAY_REPARATION; lia|apply N|exact VL|].
  pose proof (votes_differ _ _ _ _ X1 X2 X3) as EQ. pose proof (count_set _ _ JS) as C1. rewrite <- EQ in C1.
  assert (N1 : nonneg s1).
  { intros x. rewrite SL. pose proof (N x). destruct (keqb x v) eqn:B1, (keqb x p) eqn:B2; try lia. apply keqb_eq in B2. subst x. lia. }
  assert (RN : rrk <> p).
  { intros ->. destruct RS as (_ & RU & _). apply unpack_ok in RU as (r1 & _ & _ & LN & _); [|typeclasses eauto]. destruct R as (_ & U & _).
    apply unpack_ok in U as (r2 & _ & _ & LN2 & _); [|typeclasses eauto]. rewrite LN in LN2. discriminate LN2. }
  destruct (IH s1 q1) as (s' & l & A & R' & CF & OD & LV & LO); try assumption.
  - destruct RS as (RO & RU & RX). destruct (SD rrk RN) as [Y1 Y2]. unfold round_account. rewrite Y1, Y2. auto.
  - intros x X. destruct (P x (or_intror X)) as (XK & XL & i & IR & IS). split; [exact XK|]. split.
    + rewrite SL, (keqb_ne x p) by exact XK. rewrite keqb_ne by (intros ->; contradiction). lia.
    + exists i. split; [exact IR|]. rewrite X3; [exact IS|]. intros ->. rewrite JR in IR. injection IR as ->. contradiction.
  - rewrite SL, keqb_refl, keqb_ne by congruence. lia.
  - exists s', l. split; [eapply rc_vote; [exact C|exact A]|]. split; [assert (E2 : p_with_signers q1 l = p_with_signers q l) by (rewrite E1; reflexivity); rewrite <- E2; exact R'|]. split; [cbn [List.length]; clear - CF C1; lia|]. clear CF C1 EQ E1 X1 X2 X3.
    split; [intros x X; destruct (OD x X) as [-> ->]; apply SD; exact X|]. split.
    + intros x [<-|X].
      * rewrite LO by assumption. rewrite SL, keqb_refl, keqb_ne by exact VK. clear; lia.
      * destruct (P x (or_intror X)) as (XK & _). rewrite LV by exact X. rewrite SL, (keqb_ne x p) by exact XK. rewrite keqb_ne by (intros ->; contradiction). clear; lia.
    + intros x X XK. assert (x <> v) by (intros ->; apply X; left; reflexivity). assert (~ In x voters) by (intros Y; apply X; right; exact Y).
      rewrite LO by assumption. rewrite SL, !keqb_ne by assumption. clear; lia.
Qed.

(** * C84 The relays can hand over *)

(** [rr] is any round that stands at the proposal's number; [ev] any event for another round with up to 100 relays; nobody has touched the
    addresses of the proposal and of the new round; [funder] pays. *)
Theorem C84_handover : forall e s k st funder creator p b ts lt conf ev pieces rrk rr nrk nb voters,
  nonneg s -> loader_settings e s k st -> round_account e s rrk rr ->
  find_pda e (str "proposal" ++ le 4 (rr_number rr) ++ le 4 ts ++ le 8 lt ++ kb conf ++ kb (e_hash e (enc c_rl_event ev))) rl_id = Ok (p, b) ->
  find_pda e (str "relay_round" ++ le 4 (re_round ev)) rl_id = Ok (nrk, nb) -> vacant s p -> vacant s nrk -> p <> nrk ->
  has_lamports s funder (proposal_price e + 20000 * blen (rr_relays rr) + round_price e) -> lam (accs s funder) < 2 ^ 64 ->
  0 <= ts < 2 ^ 32 -> 0 <= lt < 2 ^ 64 -> okb c_rl_event ev = true -> 1 <= blen (re_relays ev) <= 100 ->
  concat pieces = le 4 (12 + 32 * blen (re_relays ev)) ++ enc c_rl_event ev ->
  NoDup (rr_relays rr) -> NoDup voters -> incl voters (rr_relays rr) -> 2 * blen (rr_relays rr) < 3 * blen voters -> rs_min_votes st <= blen voters ->
  (forall x, In x voters -> x <> p /\ x <> nrk /\ lam (accs s x) + 20000 < 2 ^ 64) ->
  exists s1 s2 s3 s4 s5 q,
    rl_call e (file_accounts funder creator p) (RlCreateProposal (rr_number rr) ts lt conf (e_hash e (enc c_rl_event ev))) s s1 /\ uploads e p 0 pieces s1 s2 /\
    rl_call e (final_accounts funder p k rrk) RlFinalize s2 s3 /\ relays_confirm e p rrk voters s3 s4 /\ rl_call e (execute_accounts funder k p nrk) RlExecute s4 s5 /\
    round_account e s5 nrk (RelayRound true (KRelayRound nb) (re_round ev) ((re_end ev + rs_ttl st) mod 2 ^ 32) (re_relays ev)) /\
    loader_settings e s5 k (RlSettings (rs_init st) (rs_kind st) (re_round ev) (rs_submitter st) (rs_min_votes st) (rs_ttl st)) /\
    proposal_account e s5 p q /\ wl_data (p_meta q) = PExecuted /\ wl_data (p_event q) = ev /\
    (forall x, In x voters -> lam (accs s4 x) = lam (accs s3 x) + 20000) /\
    (forall j, j <> p -> j <> nrk -> j <> k -> own (accs s5 j) = own (accs s j) /\ dat (accs s5 j) = dat (accs s j)).
Proof.
  intros e s k st funder creator p b ts lt conf ev pieces rrk rr nrk nb voters N LS RA FP FN VP VN NPN HL LF T1 T2 OE RL CP D DV IN Q1 Q2 QL.
  pose proof HL as (HL1 & HL2 & HL3). pose proof VP as (VP1 & VP2 & VP3). pose proof VN as (VN1 & VN2 & VN3).
  assert (PP : 1 <= proposal_price e) by (unfold proposal_price; lia). assert (RP : 1 <= round_price e) by (unfold round_price; lia). pose proof (blen_nonneg (rr_relays rr)) as R0.
  pose proof RA as (RO & RU & rb & RK & RF). pose proof RU as RU0. apply unpack_ok in RU0 as (rr0 & RD & ROK & RLEN & _); [|typeclasses eauto].
  assert (RN : 0 <= rr_number rr < 2 ^ 32) by (apply okb_round_parts in ROK as (_ & X & _); exact X).
  destruct (C73_file_partial e s funder creator p b (rr_number rr) ts lt conf ev pieces FP VP) as (s1 & s2 & C1 & U1 & DA & LP & AF & FR & _); try assumption.
  { split; [lia|auto]. }
  assert (NF : forall j, dat (accs s j) <> [] -> j <> funder /\ j <> p) by (intros j J; split; intros ->; contradiction).
  assert (KD : dat (accs s k) <> []). { destruct LS as (_ & U & _). intros Z. rewrite Z in U. apply unpack_ok in U as (? & _ & _ & B & _); [discriminate B|typeclasses eauto]. }
  assert (RRD : dat (accs s rrk) <> []) by (intros Z; rewrite Z in RLEN; discriminate RLEN).
  destruct (NF k KD) as [NF1 NF2]. destruct (NF rrk RRD) as [NF3 NF4].
  assert (NKN : nrk <> k) by (intros ->; contradiction). assert (NRN : nrk <> rrk) by (intros ->; contradiction).
  assert (NFN : nrk <> funder) by (intros ->; lia). assert (NFP : funder <> p) by (intros ->; lia).
  assert (LS2 : loader_settings e s2 k st) by (unfold loader_settings; rewrite (FR k NF1 NF2); exact LS).
  assert (RA2 : round_account e s2 rrk rr) by (unfold round_account; rewrite (FR rrk NF3 NF4); exact RA).
  destruct (C73_finalize e s2 k st funder p _ rrk rr LS2 DA RA2) as (s3 & C3 & PA3 & LP3 & AF3 & FR3 & _).
  { reflexivity. } { cbn [p_event wl_data]. lia. } { unfold has_lamports. rewrite AF. split; cbn [lam own dat]; [lia|auto]. } { lia. } { rewrite LP. lia. }
  cbn [p_kind p_author p_round p_pda p_event] in PA3.
  assert (N3 : nonneg s3).
  { intros x. destruct (key_dec x p) as [->|X1]; [rewrite LP3; lia|]. destruct (key_dec x funder) as [->|X2]; [rewrite AF3, AF; cbn [lam]; lia|].
    rewrite FR3, FR by assumption. apply N. }
  pose proof (NoDup_incl_length DV IN) as LL.
  assert (LF2 : lam (accs s2 funder) <= lam (accs s funder)) by (rewrite AF; cbn [lam]; lia).
  destruct (relays_confirm_go e p rrk rr voters s3 _ PA3 N3) as (s4 & l & A & PA4 & CF & OD & LV & LO); try assumption.
  { unfold round_account. rewrite (FR3 rrk NF3 NF4). exact RA2. }
  { intros x X. destruct (QL x X) as (XK & _ & XL). split; [exact XK|]. split.
    - destruct (key_dec x funder) as [->|X2]; [rewrite AF3; cbn [lam]; lia|]. rewrite FR3, FR by assumption. exact XL.
    - apply IN, In_nth_error in X as [j J]. exists j. split; [exact J|]. cbn [p_signers]. apply nth_error_repeat. apply nth_error_Some. congruence. }
  { rewrite LP3, LP. unfold blen in *. lia. }
  set (q4 := p_with_signers _ l) in PA4.
  assert (Z0 : forall n, count_confirm (repeat VNone n) = 0).
  { intros n. unfold count_confirm. induction n as [|n IH]; [reflexivity|]. cbn [repeat count_occ]. destruct (vote_dec VNone VConfirm); [discriminate|exact IH]. }
  cbn [p_signers] in CF. rewrite Z0 in CF.
  assert (NV : ~ In nrk voters) by (intros X; destruct (QL _ X) as (_ & X1 & _); contradiction).
  assert (OK4 : forall j, j <> p -> own (accs s4 j) = own (accs s j) /\ dat (accs s4 j) = dat (accs s j)).
  { intros j J. destruct (OD j J) as [-> ->]. destruct (key_dec j funder) as [->|J2]; [rewrite AF3, HL2, HL3; auto|]. rewrite FR3, FR by assumption. auto. }
  destruct (C73_execute_partial e s4 k st funder p q4 nrk nb) as (s5 & C5 & INST & _ & PA5); try assumption.
  - destruct LS as (X1 & X2 & X3). destruct (OK4 k NF2) as [Y1 Y2]. unfold loader_settings. rewrite Y1, Y2. auto.
  - reflexivity.
  - unfold PropRoundLoader.confirmations. cbn [q4 p_with_signers p_signers p_required]. fold (count_confirm l). rewrite CF. fold (blen voters). lia.
  - cbn [q4 p_with_signers p_event wl_data]. lia.
  - unfold vacant. destruct (OK4 nrk) as [-> ->]; [congruence|]. rewrite LO, FR3, FR by congruence. auto.
  - unfold has_lamports. destruct (OK4 funder NFP) as [-> ->]. split; [|auto].
    destruct (in_dec key_dec funder voters) as [X|X]; [rewrite (LV _ X)|rewrite (LO _ X NFP)]; rewrite AF3, AF; cbn [lam]; lia.
  - exists s1, s2, s3, s4, s5, (p_with_meta q4 (WithLen (wl_len (p_meta q4)) PExecuted)). cbn [q4 p_with_signers p_event wl_data] in INST.
    destruct INST as (_ & (b' & RA5) & LS5 & _ & _ & AF5 & FR5 & _).
    assert (b' = nb). { destruct RA5 as (_ & _ & n & RK5 & RF5). cbn [rr_kind rr_number] in *. injection RK5 as ->. rewrite FN in RF5. injection RF5 as ->. reflexivity. }
    subst b'. do 5 (split; [assumption|]). split; [exact RA5|]. split; [exact LS5|]. split; [exact PA5|]. split; [reflexivity|]. split; [reflexivity|]. split; [exact LV|].
    intros j J1 J2 J3. destruct (OK4 j J1) as [<- <-]. destruct (key_dec j funder) as [->|J4].
    + destruct (OK4 funder J1) as [-> ->]. rewrite AF5, HL2, HL3. auto.
    + rewrite FR5; [auto|assumption..|]. cbn [In]. intros [X|[]]. congruence.
Qed.

(** ** A case: the relays of round 10 hand over to round 5. *)

Definition h2_keys : list key := [de_settings; de_r10; de_prop; de_r5; knum 2; knum 21; knum 22; knum 23].
Definition h2 := Eval vm_compute in map (accs ds2) h2_keys.
Lemma h2_is : map (accs ds2) h2_keys = h2. Proof. vm_compute. reflexivity. Qed.
Lemma h2_at n k : nth_error h2_keys n = Some k -> Some (accs ds2 k) = nth_error h2 n.
Proof. intros H. rewrite <- h2_is. symmetry. apply (map_nth_error (accs ds2)). exact H. Qed.
Ltac h2_in n k := let H := fresh in pose proof (h2_at n k eq_refl) as H; apply (f_equal (fun o => match o with Some a => a | None => accs ds2 k end)) in H;
  cbv beta iota delta [nth_error h2] in H; rewrite ?H; clear H.

Lemma ds2_nonneg : nonneg ds2.
Proof.
  assert (E : is_ok (stp ds0 de_init) && is_ok (stp ds1 (de_round de_r10 10 [knum 21; knum 22; knum 23] 1900)) = true) by (vm_compute; reflexivity).
  apply andb_true_iff in E as [E1 E2]. apply PropFrames.stp_nonneg; [|exact E2]. apply PropFrames.stp_nonneg; [|exact E1].
  apply TpDemoLaws.demo_nonneg. vm_compute. reflexivity.
Qed.

Example C84_handover_ex : nonneg ds2 /\ loader_settings de ds2 de_settings (y_st 10) /\ round_account de ds2 de_r10 y_r10r /\
  find_pda de (str "proposal" ++ le 4 10 ++ le 4 7 ++ le 8 8 ++ kb (knum 9) ++ kb (e_hash de (enc c_rl_event de_ev))) rl_id = Ok (de_prop, 255) /\
  find_pda de (str "relay_round" ++ le 4 (re_round de_ev)) rl_id = Ok (de_r5, 255) /\ vacant ds2 de_prop /\ vacant ds2 de_r5 /\ de_prop <> de_r5 /\
  has_lamports ds2 (knum 2) (proposal_price de + 20000 * blen (rr_relays y_r10r) + round_price de) /\ lam (accs ds2 (knum 2)) < 2 ^ 64 /\
  okb c_rl_event de_ev = true /\ 1 <= blen (re_relays de_ev) <= 100 /\
  concat [firstn 50 de_upload; skipn 50 de_upload] = le 4 (12 + 32 * blen (re_relays de_ev)) ++ enc c_rl_event de_ev /\
  NoDup (rr_relays y_r10r) /\ (let voters := [knum 23; knum 21; knum 22] in
    NoDup voters /\ incl voters (rr_relays y_r10r) /\ 2 * blen (rr_relays y_r10r) < 3 * blen voters /\ rs_min_votes (y_st 10) <= blen voters /\
    forall x, In x voters -> x <> de_prop /\ x <> de_r5 /\ lam (accs ds2 x) + 20000 < 2 ^ 64).
Proof.
  split; [exact ds2_nonneg|].
  unfold loader_settings, round_account, vacant, has_lamports.
  h2_in 0%nat de_settings. h2_in 1%nat de_r10. h2_in 2%nat de_prop. h2_in 3%nat de_r5. h2_in 4%nat (knum 2).
  split; [y_sets|]. split; [split; [y_vm|]; split; [y_vm|]; exists 255; split; y_vm|].
  split; [y_vm|]. split; [y_vm|]. split; [split; [y_vm|]; split; y_vm|]. split; [split; [y_vm|]; split; y_vm|]. split; [y_vm|].
  split; [split; [y_vm|]; split; y_vm|]. split; [y_vm|]. split; [y_vm|]. split; [y_vm|]. split; [y_vm|].
  assert (D : NoDup [knum 21; knum 22; knum 23] /\ NoDup [knum 23; knum 21; knum 22])
    by (split; repeat (apply NoDup_cons; [intros H; repeat (destruct H as [H|H]; [vm_compute in H; discriminate H|]); exact H|]); apply NoDup_nil).
  destruct D as [D1 D2]. split; [exact D1|]. cbv zeta. split; [exact D2|].
  split; [intros x [<-|[<-|[<-|[]]]]; unfold y_r10r; cbn [rr_relays In]; tauto|]. split; [y_vm|]. split; [y_vm|].
  intros x [<-|[<-|[<-|[]]]]; (split; [y_vm|]; split; [y_vm|]).
  - h2_in 7%nat (knum 23). y_vm.
  - h2_in 5%nat (knum 21). y_vm.
  - h2_in 6%nat (knum 22). y_vm.
Qed.

Print Assumptions C84_handover.
