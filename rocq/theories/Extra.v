(** Accounts handed over beyond those an instruction reads: a relation between the runs of one instruction with a list of
    accounts and with a longer one, proved along the structure of the code.  No code of /repo is modelled here. *)

From Verif Require Export Grow.
Open Scope Z_scope.
Open Scope list_scope.

(** The second context has every account and every privilege of the first. *)
Definition up (c c' : ctx) : Prop :=
  c_pid c' = c_pid c /\ (forall k, In k (c_keys c) -> In k (c_keys c')) /\
  (forall k, c_sg c k = true -> c_sg c' k = true) /\ (forall k, c_wr c k = true -> c_wr c' k = true).

Lemma grow_err {A} x (m : M A) : grow (fail x) m.
Proof. intros s r H. discriminate H. Qed.
Lemma grow_not_enough {A} (m : M A) : grow NotEnough m.
Proof. intros s r H. discriminate H. Qed.

Section Up.
  Context (c c' : ctx) (U : up c c').
  Lemma up_sg k : c_sg c k = true -> c_sg c' k = true. Proof. apply U. Qed.
  Lemma up_data k d : grow (set_data c k d) (set_data c' k d).
  Proof. destruct U as (P & _ & S & W). destruct c as [p ks sg wr], c' as [p' ks' sg' wr']. cbn in *. subst p'. apply (grow_data p ks sg sg' wr wr' W). Qed.
  Lemma up_lam k z : grow (set_lam c k z) (set_lam c' k z).
  Proof. destruct U as (P & _ & S & W). destruct c as [p ks sg wr], c' as [p' ks' sg' wr']. cbn in *. subst p'. apply (grow_lam p ks sg sg' wr wr' W). Qed.
  Lemma up_own k o : grow (set_own c k o) (set_own c' k o).
  Proof. destruct U as (P & _ & S & W). destruct c as [p ks sg wr], c' as [p' ks' sg' wr']. cbn in *. subst p'. apply (grow_own p ks sg sg' wr wr' W). Qed.
  Lemma up_cpi infos infos' q ms pdas f : (forall k, In k infos -> In k infos') -> grow (cpi c infos q ms pdas f) (cpi c' infos' q ms pdas f).
  Proof.
    intros I. destruct U as (P & K & S & W). unfold cpi. apply grow_bind; [apply grow_guard|intros _].
    { rewrite !inb_In. apply K. }
    apply grow_bind; [|intros _; rewrite ?P; apply grow_refl]. apply grow_guard.
    rewrite !forallb_forall. intros M m J. specialize (M m J). unfold meta_ok in *. rewrite ?P.
    rewrite !andb_true_iff, !orb_true_iff, ?inb_In in *. destruct M as [[[M0 M1] M2] M3]. split; [split; [split; auto|]|].
    - destruct M2 as [[M2|M2]|M2]; auto.
    - destruct M3 as [M3|M3]; auto.
  Qed.
End Up.

Ltac in_solve := intros ?; cbn [In app]; rewrite ?in_app_iff; tauto.
Ltac up_step U B :=
  rewrite ?(proj1 U);
  match goal with
  | |- grow ?m ?m => apply grow_refl
  | |- grow NotEnough _ => apply grow_not_enough
  | |- grow (fail _) _ => apply grow_err
  | |- grow (guard _ _) (guard _ _) => apply grow_guard; first [exact (fun H => H)|apply (up_sg _ _ U)]
  | |- grow (set_data _ _ _) _ => apply (up_data _ _ U)
  | |- grow (set_lam _ _ _) _ => apply (up_lam _ _ U)
  | |- grow (set_own _ _ _) _ => apply (up_own _ _ U)
  | |- grow (cpi _ ?l _ _ _ _) (cpi _ ?l' _ _ _ _) => apply (up_cpi _ _ U); first [exact (fun _ H => H)|exact (proj1 (proj2 U))|in_solve]
  | |- grow (bind _ _) _ => apply grow_bind; [|intros ?]
  | |- grow (match c_keys _ with _ => _ end) (match c_keys _ with _ => _ end) => rewrite B; destruct (c_keys _) eqn:?; cbn [app]
  | |- grow (match ?x with _ => _ end) _ => tryif is_var x then (destruct x; cbn [app]) else destruct x eqn:?
  | |- grow (let _ := _ in _) _ => cbv zeta
  | |- grow ?m _ => let f := rel_head m in unfold f
  end.

Section Loader.
  Context (e : env) (ext : extern) (c c' : ctx) (xs : list key) (U : up c c') (B : c_keys c' = c_keys c ++ xs).
  Lemma up_rl_process d : grow (rl_process e c d) (rl_process e c' d).
  Proof. unfold rl_process. apply grow_bind; [apply grow_refl|intros i]. unfold rl_exec. destruct i; repeat up_step U B. Qed.
End Loader.

(** Filling withdrawals reads all accounts there are (token-proxy/src/processor.rs:4096), and the execution of an Ever
    withdrawal looks for a tenth account if the token is not registered (token-proxy/src/processor.rs:1544-1548). *)
Definition bounded (i : tp_ix) (n : nat) : Prop :=
  match i with TpFill _ _ _ _ _ _ => False | TpWithdrawEver => (9 < n)%nat | _ => True end.

Section Proxies.
  Context (e : env) (ext : extern) (c c' : ctx) (xs : list key) (U : up c c') (B : c_keys c' = c_keys c ++ xs).
  Lemma up_invoke_all sd l : grow (invoke_all e ext c sd l) (invoke_all e ext c' sd l).
  Proof using U.
    induction l as [|i l IH]; cbn [invoke_all]; [apply grow_refl|].
    apply grow_bind; [repeat up_step U B|intros q]. apply grow_bind; [repeat up_step U B|intros _; exact IH].
  Qed.
  Lemma up_tp_exec i : bounded i (length (c_keys c)) -> grow (tp_exec e ext c i) (tp_exec e ext c' i).
  Proof using U B.
    destruct i; cbn [bounded tp_exec]; intros N; try contradiction N; repeat match goal with
      | |- grow (invoke_all _ _ _ _ _) _ => apply up_invoke_all
      | |- grow (ret tt) _ => exfalso; cbn [length] in N; lia
      | _ => up_step U B end.
  Qed.
  Lemma up_np_process d : grow (np_process e ext c d) (np_process e ext c' d).
  Proof using U B. unfold np_process. apply grow_bind; [apply grow_refl|intros i]. destruct i; repeat up_step U B. Qed.
End Proxies.
