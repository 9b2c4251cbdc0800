(** Instructions of the token proxy whose payloads call the token proxy again, to any depth, seen as a
    list of calls.  No code of /repo is modelled here: this is the runtime's view of
    token-proxy/src/processor.rs:2153-2241, which runs arbitrary instructions chosen by a payload. *)

From Coq Require Import ZifyBool ZifyNat ZifyN.
From Verif Require Export TpReq.
Open Scope Z_scope.
Open Scope list_scope.

(** One completed call of the token proxy that executes no payload: its accounts and signers, its
    instruction, the state it found and the state it left. *)
Record call := Call { cl_ctx : ctx; cl_ix : tp_ix; cl_pre : state; cl_post : state }.

Section Nested.
  Context (e : env)
    (A : key -> Prop)                          (* who may sign *)
    (X : ctx -> state -> state -> Prop).       (* what calls of other programs may do *)

  (** What [ext] calls is another program, which obeys [X], or the token proxy itself with at most
      [n - 1] further levels. *)
  Fixpoint nest (n : nat) (ext : extern) : Prop := forall c d s a s', ext c d s = Ok (a, s') ->
    (c_pid c <> tp_id /\ X c s s') \/
    match n with
    | O => False
    | S m => c_pid c = tp_id /\ exists ext', nest m ext' /\ run c (tp_process e ext' c d) s = Ok s'
    end.

  (** One instruction of the token proxy with at most [n] nested levels of itself. *)
  Definition deep (n : nat) (s s' : state) : Prop := exists c ext d,
    c_pid c = tp_id /\ clock_ok s /\ signs A c /\ nest n ext /\ run c (tp_process e ext c d) s = Ok s'.

  (** From [s] to [s'] by calls of other programs and the listed calls of the token proxy.  A payload
      execution runs its nested calls and then writes the record it had read before them, marked as
      processed, back to the request account. *)
  Inductive steps : list call -> state -> state -> Prop :=
  | st_nil s : steps [] s s
  | st_other c s s' : c_pid c <> tp_id -> signs A c -> X c s s' -> steps [] s s'
  | st_call c ext i s s' : signs A c -> is_payload i = false -> tp_call e ext c i s s' -> steps [Call c i s s'] s s'
  | st_seq l1 l2 s s1 s2 : steps l1 s s1 -> steps l2 s1 s2 -> steps (l1 ++ l2) s s2
  | st_payload c i l s s1 s' : c_pid c = tp_id -> signs A c -> is_payload i = true ->
      steps l s s1 -> payload_packs i c s s1 s' -> steps l s s'.

  Lemma nested_steps ext : (forall c d s a s', ext c d s = Ok (a, s') -> clock_ok s -> signs A c ->
      now s' = now s /\ exists l, steps l s s') ->
    (forall k, is_proxy e k -> A k) -> forall c i s s', c_pid c = tp_id -> clock_ok s -> signs A c -> is_payload i = true ->
    tp_exec e ext c i s = Ok (tt, s') -> now s' = now s /\ exists l, steps l s s'.
  Proof.
    intros EX AP c i s s' Hp CK S I H. destruct (payload_two _ _ _ _ _ _ I H) as (s1 & N & Q).
    assert (N1 : now s1 = now s /\ exists l, steps l s s1).
    { destruct N as [->|(proxy & l & mint & r & b & PD & N)]; [split; [reflexivity|exists []; apply st_nil]|].
      clear Q H. induction N as [s|j l s s1 s2 x C N IHN]; [split; [reflexivity|exists []; apply st_nil]|].
      apply cpi_inv in C as [C CO].
      assert (SG : signs A (ctx_of (i_pid j) (i_metas j))) by (eapply nested_signs; eassumption).
      destruct (EX _ _ _ _ _ C CK SG) as (E1 & l1 & L1).
      destruct IHN as (E2 & l2 & L2); [unfold clock_ok in *; rewrite E1; exact CK|].
      split; [congruence|]. exists (l1 ++ l2). eapply st_seq; eassumption. }
    destruct N1 as (E1 & l & L). destruct Q as [->|Q]; [split; [exact E1|exists l; exact L]|]. split.
    - destruct Q as (k & [(_ & _ & w & m & pn & _ & _ & _ & Q)|(_ & _ & w & m & pn & _ & _ & _ & Q)]); destruct Q as [-> _]; exact E1.
    - exists l. eapply st_payload; eassumption.
  Qed.

  Lemma deep_call : (forall k, is_proxy e k -> A k) -> (forall c s s', X c s s' -> now s' = now s) ->
    forall n ext c d s s', nest n ext -> c_pid c = tp_id -> clock_ok s -> signs A c ->
    run c (tp_process e ext c d) s = Ok s' -> now s' = now s /\ exists l, steps l s s'.
  Proof.
    intros AP XN. induction n as [|n IH]; intros ext c d s s' NE Hp CK S R; pose proof R as R0;
      apply tp_process_ok in R as (i & D & Oi & H); destruct (is_payload i) eqn:I;
      try (split; [apply nn_tp_exec in H; [apply H|exact I]|exists [Call c i s s']; eapply st_call; [exact S|exact I|]; split; [exact Hp|]; split; [exact CK|]; exists d; split; [exact D|exact R0]]).
    - eapply nested_steps; [|exact AP|exact Hp|exact CK|exact S|exact I|exact H].
      intros c' d' a x b E _ S'. apply NE in E as [[P F]|[]]. split; [eapply XN; exact F|]. exists []. eapply st_other; eassumption.
    - eapply nested_steps; [|exact AP|exact Hp|exact CK|exact S|exact I|exact H].
      intros c' d' a x b E CK' S'. apply NE in E as [[P F]|(P & ext' & NE' & R')].
      + split; [eapply XN; exact F|]. exists []. eapply st_other; eassumption.
      + eapply IH; eassumption.
  Qed.

  (** Every instruction, however deeply its payloads call the token proxy, is such a list of calls. *)
  Theorem deep_steps : (forall k, is_proxy e k -> A k) -> (forall c s s', X c s s' -> now s' = now s) ->
    forall n s s', deep n s s' -> exists l, steps l s s'.
  Proof.
    intros AP XN n s s' (c & ext & d & Hp & CK & S & NE & R). eapply deep_call; eassumption.
  Qed.

  (** Every call in the list is an instruction of the token proxy by itself. *)
  Lemma steps_calls l s s' : steps l s s' -> forall c i a b, In (Call c i a b) l ->
    signs A c /\ is_payload i = false /\ exists ext, tp_call e ext c i a b.
  Proof.
    intros H. induction H as [s|c0 s s1 _ _ _|c0 ext i0 s s' S I C|l1 l2 s s1 s2 _ IH1 _ IH2|c0 i0 l s s1 s' _ _ _ _ IH _]; intros c i a b IN.
    - destruct IN.
    - destruct IN.
    - destruct IN as [E|[]]. injection E as <- <- <- <-. split; [exact S|]. split; [exact I|]. exists ext. exact C.
    - apply in_app_iff in IN as [IN|IN]; [eapply IH1|eapply IH2]; exact IN.
    - eapply IH. exact IN.
  Qed.
End Nested.

Lemma nest_weaken e (X Y : ctx -> state -> state -> Prop) : (forall c s s', X c s s' -> Y c s s') ->
  forall n ext, nest e X n ext -> nest e Y n ext.
Proof.
  intros W. induction n as [|n IH]; intros ext N c d s a s' H; apply N in H as [[P F]|H]; auto.
  right. destruct H as (P & ext' & N' & R). split; [exact P|]. exists ext'. auto.
Qed.
