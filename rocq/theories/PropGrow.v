(** Property C96: more signatures and more writable accounts do no harm. *)

From Coq Require Import Strings.String.
From Verif Require Import TpDemoLaws Grow PropLocal.
Open Scope Z_scope.
Open Scope list_scope.

(** The same accounts in the same places; whoever signs in the first list signs in the second, what is writable in the
    first is writable in the second. *)
Definition more (ms ms' : list meta) : Prop :=
  Forall2 (fun m m' => m_key m = m_key m' /\ (m_sg m = true -> m_sg m' = true) /\ (m_wr m = true -> m_wr m' = true)) ms ms'.

Lemma more_keys ms ms' : more ms ms' -> map m_key ms = map m_key ms'.
Proof. induction 1 as [|m m' l l' (K & _) _ IH]; [reflexivity|]. cbn [map]. rewrite K, IH. reflexivity. Qed.
Lemma more_flag (f : meta -> bool) ms ms' k : Forall2 (fun m m' => m_key m = m_key m' /\ (f m = true -> f m' = true)) ms ms' ->
  existsb (fun m => keqb (m_key m) k && f m) ms = true -> existsb (fun m => keqb (m_key m) k && f m) ms' = true.
Proof.
  induction 1 as [|m m' l l' (K & F) _ IH]; [auto|]. cbn [existsb]. rewrite !orb_true_iff, !andb_true_iff. intros [[E X]|E]; [left|right; auto].
  rewrite <- K. auto.
Qed.
Lemma run_grow c c' m m' s s' : c_keys c = c_keys c' -> grow m m' -> run c m s = Ok s' -> run c' m' s = Ok s'.
Proof.
  intros K G H. unfold run in *. rewrite <- K. destruct (m s) as [[a x]|] eqn:E; [|discriminate H]. rewrite (G _ _ E). exact H.
Qed.

(** An instruction that succeeds also succeeds, with the same ledger afterwards, if more of its accounts sign or are
    writable.  Nothing is refused, and nothing is done differently, because of a privilege too many. *)
Theorem C96 : forall e ext p ms ms' d s s', more ms ms' -> exec e ext (Job p ms d) s = Ok s' -> exec e ext (Job p ms' d) s = Ok s'.
Proof.
  intros e ext p ms ms' d s s' M H. pose proof (more_keys _ _ M) as K.
  assert (S : forall k, existsb (fun m => keqb (m_key m) k && m_sg m) ms = true -> existsb (fun m => keqb (m_key m) k && m_sg m) ms' = true).
  { intros k. apply more_flag. clear - M. induction M as [|m m' l l' (A & B & _) _ IH]; constructor; auto. }
  assert (W : forall k, existsb (fun m => keqb (m_key m) k && m_wr m) ms = true -> existsb (fun m => keqb (m_key m) k && m_wr m) ms' = true).
  { intros k. apply more_flag. clear - M. induction M as [|m m' l l' (A & _ & B) _ IH]; constructor; auto. }
  unfold exec in *. destruct p; cbn [j_prog j_metas j_data] in *; cbv zeta in *; revert H; unfold ctx_of; rewrite <- K; apply run_grow; try reflexivity.
  - apply grow_rl_process; assumption.
  - apply grow_tp_process; assumption.
  - apply grow_np_process; assumption.
Qed.
(** So a refusal with more privileges is a refusal with fewer. *)
Corollary C96_refused : forall e ext p ms ms' d s x, more ms ms' -> exec e ext (Job p ms' d) s = Err x -> exists y, exec e ext (Job p ms d) s = Err y.
Proof.
  intros e ext p ms ms' d s x M H. destruct (exec e ext (Job p ms d) s) as [s'|y] eqn:E; [|eauto].
  rewrite (C96 _ _ _ _ _ _ _ _ M E) in H. discriminate H.
Qed.

(** The vote of a relay with every account signing and writable; and with the relay not signing. *)
Definition lavish (ms : list meta) : list meta := map (fun m => Meta (m_key m) true true) ms.
Example C96_ex : more (j_metas vote_job) (lavish (j_metas vote_job)) /\ j_metas vote_job <> lavish (j_metas vote_job) /\
  is_ok (exec te no_ext vote_job ts3) = true /\ is_ok (exec te no_ext (Job Proxy (lavish (j_metas vote_job)) (j_data vote_job)) ts3) = true /\
  exec te no_ext (Job Proxy [ww trelay1; ww tw1; ro tround] (j_data vote_job)) ts3 = Err MissingRequiredSignature.
Proof.
  split; [repeat constructor|]. split; [discriminate|]. split; [vm_compute; reflexivity|]. split; vm_compute; reflexivity.
Qed.

Print Assumptions C96.
Print Assumptions C96_refused.
