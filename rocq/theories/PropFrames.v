(** Property C61: instructions touch only their own accounts. *)

From Coq Require Import Strings.String ZifyBool ZifyNat ZifyN.
From Verif Require Import TpDemoLaws Touch PropRoundLoader PropTpPay PropTpMisc.
Open Scope Z_scope.
Open Scope list_scope.

(** * Vocabulary *)

(** [k] is the program [pid]'s account before and after, with the same data, and is not debited. *)
Definition untouched (pid : key) (s s' : state) (k : key) : Prop :=
  own (accs s' k) = pid /\ dat (accs s' k) = dat (accs s k) /\ lam (accs s k) <= lam (accs s' k).

(** The accounts of the token proxy that instruction [i] called with [c] is made to write: settings, token
    settings, withdrawal, deposit and - for its lamports - the multi-vault, by their places in the account list. *)
Definition tp_writes (i : tp_ix) (c : ctx) (k : key) : Prop := at_places (tp_place i) c k.
Definition rl_writes (i : rl_ix) (c : ctx) (k : key) : Prop := at_places (rl_place i) c k.

(** [ext] behaves like the runtime (see [tp_ext]) with at most [n] levels of token-proxy calls, and all these
    are made to write accounts of [P] only. *)
Fixpoint calls_within (e : env) (n : nat) (P : key -> Prop) (ext : extern) : Prop := forall c d s a s', ext c d s = Ok (a, s') ->
  (c_pid c <> tp_id /\ foreign_with e (c_sg c) s s') \/
  match n with
  | O => False
  | S m => c_pid c = tp_id /\ exists ext' i, calls_within e m P ext' /\ try_from_slice c_tp_ix d = Some i /\
      (forall k, tp_writes i c k -> P k) /\ run c (tp_process e ext' c d) s = Ok s'
  end.

(** * The token proxy *)

Lemma within_touch e P : forall n ext, calls_within e n P ext -> ext_touch P ext.
Proof.
  induction n as [|n IH]; intros ext X c d s a s' H; cbn [calls_within] in X; apply X in H as [[_ F]|H];
    try (apply foreign_touch in F; intros N; destruct (F N) as [N' K]; split; [exact N'|]; intros k; destruct (K k) as [A B];
         split; [intros O; destruct (A O) as [[]|Q]; right; exact Q|intros O O'; destruct (B O O') as [[]|Q]; right; exact Q]).
  - contradiction.
  - destruct H as (Hp & ext' & i & X' & D & W & R). apply tp_process_ok in R as (j & Dj & O & R).
    rewrite D in Dj. assert (j = i) by congruence. subst j. destruct (is_payload i) eqn:IP.
    + eapply touch_tp_payload; [exact Hp|exact IP|apply IH; exact X'|exact W|exact R].
    + eapply tch_weaken; [exact W|]. eapply touch_tp_exec; [exact Hp|exact O|exact IP|exact R].
Qed.

(** An instruction of the token proxy, token-proxy calls made by its payload included: accounts passed as
    read-only are as before; an account of the token proxy that neither the instruction nor a nested call is
    made to write is untouched; and an account that becomes the token proxy's is one of these, or - as any
    program can give an empty account away - has zero data. *)
Theorem C61_token_proxy : forall e n P ext c i s s', tp_call e ext c i s s' -> calls_within e n P ext -> ext_ro ext -> nonneg s ->
  (forall k, c_wr c k = false -> accs s' k = accs s k) /\
  (forall k, own (accs s k) = tp_id -> ~ tp_writes i c k -> (is_payload i = true -> ~ P k) -> untouched tp_id s s' k) /\
  (forall k, own (accs s k) <> tp_id -> own (accs s' k) = tp_id -> tp_writes i c k \/
     is_payload i = true /\ (P k \/ all0 (dat (accs s' k)) = true)).
Proof.
  intros e n P ext c i s s' C X RO N. split.
  { destruct C as (_ & _ & d & _ & R). apply run_ok in R as [R _]. 
    eapply (ro_tp_process (c_wr c)) in R; [exact R|exact RO|intros k K; exact K]. }
  apply tp_call_exec in C as (Hp & O & _ & H). destruct (is_payload i) eqn:IP.
  - assert (T : tchR tp_id true (fun k => tp_writes i c k \/ P k) s s').
    { eapply touch_tp_payload; [exact Hp|exact IP| |intros k W; left; exact W|exact H].
      intros c1 d s1 a s2 E. pose proof (within_touch _ _ _ _ X _ _ _ _ _ E) as T. intros N1. destruct (T N1) as [N2 K].
      split; [exact N2|]. intros k. destruct (K k) as [A B]. split; [intros Q; destruct (A Q); auto|intros Q Q'; destruct (B Q Q'); auto]. }
    destruct (T N) as [_ K]. split; intros k; destruct (K k) as [A B].
    + intros Ow NW NP. destruct (A Ow) as [[W|W]|Q]; [contradiction|destruct (NP eq_refl W)|exact Q].
    + intros Ow Ow'. destruct (B Ow Ow') as [[W|W]|[_ Q]]; auto.
  - pose proof (touch_tp_exec _ _ _ _ Hp O IP _ _ _ H) as T. destruct (T N) as [_ K]. split; intros k; destruct (K k) as [A B].
    + intros Ow NW _. destruct (A Ow) as [W|Q]; [contradiction|exact Q].
    + intros Ow Ow'. destruct (B Ow Ow') as [W|[Q _]]; [auto|discriminate].
Qed.

(** * The round loader *)

Theorem C61_round_loader : forall e c i s s', rl_call e c i s s' -> nonneg s ->
  (forall k, c_wr c k = false -> accs s' k = accs s k) /\
  (forall k, own (accs s k) = rl_id -> ~ rl_writes i c k -> untouched rl_id s s' k) /\
  (forall k, own (accs s k) <> rl_id -> own (accs s' k) = rl_id -> rl_writes i c k).
Proof.
  intros e c i s s' C N. split.
  { destruct C as (_ & d & _ & R). apply run_ok in R as [R _].
    eapply (ro_rl_process (c_wr c)) in R; [exact R|intros k K; exact K]. }
  apply call_exec in C as (Hp & _ & H & _). pose proof (touch_rl_exec _ _ _ Hp _ _ _ H) as T. destruct (T N) as [_ K].
  split; intros k; destruct (K k) as [A B].
  - intros Ow NW. destruct (A Ow) as [W|Q]; [contradiction|exact Q].
  - intros Ow Ow'. destruct (B Ow Ow') as [W|[Q _]]; [exact W|discriminate].
Qed.

(** * Examples *)

(** A payload that votes for the request at [tw13] by calling the token proxy. *)
Definition vote_ext : extern := fun c d =>
  if keqb (c_pid c) tp_id && beqb d (enc c_tp_ix (TpVote VConfirm)) && match nth_error (c_keys c) 1 with Some k => keqb k tw13 | None => false end
  then self_ext c d else fail CpiDenied.
Lemma vote_within : calls_within te 1 (fun k => k = tw13) vote_ext.
Proof.
  intros c d s a s' H. right. unfold vote_ext in H. destruct (_ && _) eqn:G; [|discriminate H].
  apply andb_true_iff in G as [G G3]. apply andb_true_iff in G as [P D]. apply keqb_eq in P. apply beqb_eq in D. subst d.
  split; [exact P|]. exists no_ext, (TpVote VConfirm). split; [intros c1 d s1 b s2 X; destruct (no_ext_never _ _ _ _ X)|].
  split; [vm_compute; reflexivity|]. split.
  - intros k (n & Hn & K). cbn [tp_place] in Hn. subst n. rewrite K in G3. apply keqb_eq. exact G3.
  - unfold self_ext in H. rewrite P, keqb_refl in H. destruct (run c _ s) as [x|] eqn:R; [|discriminate H]. cbn [rbind] in H. injection H as _ ->. reflexivity.
Qed.
Lemma vote_ro : ext_ro vote_ext.
Proof.
  intros c d s a s' H. unfold vote_ext in H. destruct (_ && _); [|discriminate H].
  unfold self_ext in H. destruct (keqb _ _); [|discriminate H]. destruct (run c _ s) as [x|] eqn:R; [|discriminate H]. cbn [rbind] in H. injection H as _ ->.
  apply run_ok in R as [R _]. eapply (ro_tp_process (c_wr c)) in R; [exact R|intros c1 d1 s1 b s2 X; destruct (no_ext_never _ _ _ _ X)|intros k K; exact K].
Qed.
Definition ts48 := unres (do_tp te vote_ext (fst trunself) (snd trunself) ts46).
Lemma nonneg46 : nonneg ts46.
Proof. refine (proj1 (requests_sound te tw13 ts0 ts46 tw13_sole reached46 _ _)); [apply demo_nonneg; vm_compute; reflexivity|]. left. intros O; vm_compute in O; discriminate O. Qed.

(** The payload of [tw13] votes for [tw13]; the token settings are untouched, the request is not. *)
Example C61_ex :
  let c := ctx_of tp_id (fst trunself) in
  tp_call te vote_ext c TpExecutePayloadSol ts46 ts48 /\ calls_within te 1 (fun k => k = tw13) vote_ext /\ ext_ro vote_ext /\ nonneg ts46 /\
  own (accs ts46 ttsS) = tp_id /\ ~ tp_writes TpExecutePayloadSol c ttsS /\ ttsS <> tw13 /\
  tp_writes TpExecutePayloadSol c tw13 /\ tws ts46 tw13 = Some WWaitExecute /\ tws ts48 tw13 = Some WProcessed.
Proof.
  cbv zeta. split; [unfold ts48; apply do_tp_call; [reflexivity|vm_compute; repeat split; discriminate|vm_compute; reflexivity]|].
  split; [exact vote_within|]. split; [exact vote_ro|]. split; [exact nonneg46|]. split; [vm_compute; reflexivity|].
  split; [intros (n & Hn & K); cbn [tp_place] in Hn; subst n; discriminate K|]. split; [discriminate|].
  split; [exists 0%nat; split; reflexivity|]. split; vm_compute; reflexivity.
Qed.
Lemma stp_nonneg s x : nonneg s -> is_ok (stp s x) = true -> nonneg (unres (stp s x)).
Proof.
  intros N O. apply ok_unres in O. destruct x as [ms i]. unfold stp, do_rl in O. apply run_ok in O as [O _].
  unfold rl_process in O. apply bind_ok in O as (j & s1 & B & O). apply lift_ok in B as [_ ->].
  apply (touch_rl_exec de (ctx_of rl_id ms) j eq_refl) in O. apply O. exact N.
Qed.
(** A new relay round in the round loader: settings and relay round are written, the earlier relay round is not. *)
Example C61_rl_ex :
  let x := de_round de_r11 11 [knum 30; knum 21; knum 31] 1950 in let c := ctx_of rl_id (fst x) in
  rl_call de c (snd x) ds2 ds3 /\ nonneg ds2 /\
  own (accs ds2 de_r10) = rl_id /\ ~ rl_writes (snd x) c de_r10 /\
  rl_writes (snd x) c de_r11 /\ own (accs ds2 de_r11) <> rl_id /\ own (accs ds3 de_r11) = rl_id.
Proof.
  cbv zeta. split.
  { split; [reflexivity|]. eexists. split; [|apply (do_rl_step de); vm_compute; reflexivity]. vm_compute. reflexivity. }
  split. { apply stp_nonneg; [apply stp_nonneg; [apply demo_nonneg|]|]; vm_compute; reflexivity. }
  split; [vm_compute; reflexivity|]. split; [intros (n & [Hn|Hn] & K); subst n; discriminate K|].
  split; [exists 3%nat; split; [right; reflexivity|reflexivity]|]. split; [vm_compute; discriminate|vm_compute; reflexivity].
Qed.

Print Assumptions C61_token_proxy.
Print Assumptions C61_round_loader.
