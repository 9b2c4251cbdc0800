(** Time enters through the clock account only: a relation between two runs at different times, proved along the
    structure of the code.  No code of /repo is modelled here. *)

From Verif Require Export Touch NativeProxy.
Open Scope Z_scope.
Open Scope list_scope.

(** The same ledger at another time. *)
Definition at_time (s : state) (n : Z) : state := St (accs s) (logs s) n.
Definition shift {A} (n : Z) (r : res (A * state)) : res (A * state) := match r with Ok (a, s) => Ok (a, at_time s n) | Err x => Err x end.
(** What the computation does is the same at all times. *)
Definition timeless {A} (m : M A) : Prop := forall s n, m (at_time s n) = shift n (m s).

Lemma tl_ret {A} (a : A) : timeless (ret a). Proof. intros s n. reflexivity. Qed.
Lemma tl_fail {A} x : timeless (@fail A x). Proof. intros s n. reflexivity. Qed.
Lemma tl_lift {A} (r : res A) : timeless (lift r). Proof. intros s n. unfold lift. destruct r; reflexivity. Qed.
Lemma tl_guard b x : timeless (guard b x). Proof. intros s n. unfold guard. destruct b; reflexivity. Qed.
Lemma tl_get k : timeless (get k). Proof. intros s n. reflexivity. Qed.
Lemma tl_emit b : timeless (emit b). Proof. intros s n. reflexivity. Qed.
Lemma tl_bind {A B} (m : M A) (f : A -> M B) : timeless m -> (forall a, timeless (f a)) -> timeless (bind m f).
Proof. intros Hm Hf s n. unfold bind. rewrite Hm. destruct (m s) as [[a s1]|x]; [apply Hf|reflexivity]. Qed.
Lemma tl_set_data c k d : timeless (set_data c k d).
Proof. intros s n. unfold set_data, at_time. cbn [accs]. destruct (_ || _); reflexivity. Qed.
Lemma tl_set_lam c k z : timeless (set_lam c k z).
Proof. intros s n. unfold set_lam, at_time. cbn [accs]. destruct (_ && _); reflexivity. Qed.
Lemma tl_set_own c k o : timeless (set_own c k o).
Proof. intros s n. unfold set_own, at_time. cbn [accs]. destruct (_ || _); reflexivity. Qed.
Lemma tl_cpi c infos q ms pdas f : timeless (f (ctx_of q ms)) -> timeless (cpi c infos q ms pdas f).
Proof. intros H. unfold cpi. repeat (apply tl_bind; [apply tl_guard|intros _]). exact H. Qed.
(** A call of an account list without the clock passes none on. *)
Lemma tl_cpi_no c infos q ms pdas f : ~ In clock_id (c_keys c) -> (forall c', ~ In clock_id (c_keys c') -> timeless (f c')) -> timeless (cpi c infos q ms pdas f).
Proof.
  intros NC H. unfold cpi. apply tl_bind; [apply tl_guard|intros _]. intros s n. unfold bind, guard.
  destruct (forallb (meta_ok c infos pdas) ms) eqn:M; [|reflexivity]. apply H. intros I. apply NC.
  cbn [c_keys ctx_of] in I. apply in_map_iff in I as (m & E & I). rewrite forallb_forall in M. specialize (M _ I). unfold meta_ok in M.
  rewrite !andb_true_iff in M. destruct M as [[[_ M] _] _]. unfold inb in M. apply existsb_exists in M as (j & J & K). apply keqb_eq in K. congruence.
Qed.
(** Time asked for from an account that is not the clock. *)
Lemma tl_clock k : k <> clock_id -> timeless (check_clock k).
Proof. intros N s n. unfold check_clock, bind, guard. rewrite (keqb_ne k clock_id N). reflexivity. Qed.

Ltac in_place := first [left; reflexivity|right; in_place].
(** The account list does not name the clock. *)
Definition hides (c : ctx) : Prop := ~ In clock_id (c_keys c).
Ltac tl_core :=
  match goal with
  | |- timeless (ret _) => apply tl_ret
  | |- timeless (fail _) => apply tl_fail
  | |- timeless (lift _) => apply tl_lift
  | |- timeless (guard _ _) => apply tl_guard
  | |- timeless (get _) => apply tl_get
  | |- timeless (emit _) => apply tl_emit
  | |- timeless (set_data _ _ _) => apply tl_set_data
  | |- timeless (set_lam _ _ _) => apply tl_set_lam
  | |- timeless (set_own _ _ _) => apply tl_set_own
  | |- timeless (check_clock ?k) => match goal with E : c_keys ?c = _, NC : hides ?c |- _ =>
      apply tl_clock; let X := fresh in intros X; apply NC; rewrite E, <- X; in_place end
  | |- timeless (bind _ _) => apply tl_bind; [|intros ?]
  | |- timeless (match ?x with _ => _ end) => tryif is_var x then destruct x else destruct x eqn:?
  | |- timeless (let _ := _ in _) => cbv zeta
  | |- timeless ?m => let f := rel_head m in unfold f
  end.
Ltac tl_step :=
  match goal with
  | |- timeless (check_clock _) => tl_core
  | |- timeless (cpi _ _ _ _ _ _) => apply tl_cpi
  | _ => tl_core
  end.

Lemma tl_rl_process e c d : timeless (rl_process e c d).
Proof. unfold rl_process. apply tl_bind; [apply tl_lift|intros i]. unfold rl_exec. destruct i; repeat tl_step. Qed.

Lemma tl_fill_loop e c a b m d f : forall l x y, timeless (fill_loop e c a b m d f x y l).
Proof.
  fix IH 1. intros [|w [|r l]] x y; cbn [fill_loop]; [apply tl_ret|apply tl_ret|].
  apply tl_bind; [repeat tl_step|intros [fee net]; apply IH].
Qed.
(** What payloads call knows the time from the clock account only, too. *)
Definition ext_clock (ext : extern) : Prop := forall c d, hides c -> timeless (ext c d).
Lemma tl_invoke_all e ext c sd l : ext_clock ext -> hides c -> timeless (invoke_all e ext c sd l).
Proof.
  intros X H. induction l as [|i l IH]; cbn [invoke_all]; [apply tl_ret|].
  apply tl_bind; [repeat tl_step|intros p]. apply tl_bind; [|intros _; exact IH]. apply tl_cpi_no; [exact H|]. intros c' H'. apply X. exact H'.
Qed.
Lemma tl_tp_exec e ext c i : ext_clock ext -> hides c -> timeless (tp_exec e ext c i).
Proof.
  intros X H. destruct i; cbn [tp_exec]; repeat match goal with
    | |- timeless (invoke_all _ _ _ _ _) => apply tl_invoke_all; assumption
    | |- timeless (fill_loop _ _ _ _ _ _ _ _ _ _) => apply tl_fill_loop
    | _ => tl_step end.
Qed.
Lemma tl_tp_process e ext c d : ext_clock ext -> hides c -> timeless (tp_process e ext c d).
Proof. intros X H. unfold tp_process. apply tl_bind; [apply tl_lift|intros i; apply tl_tp_exec; assumption]. Qed.

(** Instructions of the token proxy that read the clock. *)
Definition asks_time (i : tp_ix) : bool :=
  match i with
  | TpWithdrawEverRequest _ _ _ _ _ _ _ _ _ _ _ | TpWithdrawSolRequest _ _ _ _ _ _ _ | TpWithdrawEver | TpWithdrawSol | TpApproveEver | TpApproveSol => true
  | _ => false
  end.
Lemma tl_tp_other e ext c i : asks_time i = false -> is_payload i = false -> timeless (tp_exec e ext c i).
Proof.
  intros A P. destruct i; try discriminate A; try discriminate P; clear A P; cbn [tp_exec]; repeat match goal with
    | |- timeless (fill_loop _ _ _ _ _ _ _ _ _ _) => apply tl_fill_loop
    | _ => tl_step end.
Qed.

(** ** Whole instructions *)
Definition shift_run (n : Z) (r : res state) : res state := match r with Ok s => Ok (at_time s n) | Err x => Err x end.
Lemma lam_sum_time l s n : lam_sum l (at_time s n) = lam_sum l s.
Proof. reflexivity. Qed.
Lemma tl_run c m s n : timeless m -> run c m (at_time s n) = shift_run n (run c m s).
Proof.
  intros T. unfold run. rewrite (T s n). destruct (m s) as [[a s']|x]; cbn [shift]; [|reflexivity].
  rewrite !lam_sum_time. destruct (_ =? _); reflexivity.
Qed.
Lemma tl_nested m c : timeless (m c) -> timeless (as_nested m c).
Proof. intros T s n. unfold as_nested. rewrite (tl_run c (m c) s n T). destruct (run c (m c) s); reflexivity. Qed.
Lemma tl_np_process e ext c d : ext_clock ext -> hides c -> timeless (np_process e ext c d).
Proof.
  intros X H. unfold np_process. apply tl_bind; [apply tl_lift|intros i]. destruct i. unfold np_deposit.
  repeat lazymatch goal with
    | |- timeless (cpi _ _ _ _ _ (as_nested _)) => apply tl_cpi_no; [exact H|intros c' H'; apply tl_nested; apply tl_tp_process; assumption]
    | _ => tl_step end.
Qed.

(** ** Payouts and approvals depend on the day only *)
Definition daily {A} (m : M A) : Prop := forall s n n', epoch_of n = epoch_of n' -> m (at_time s n') = shift n' (m (at_time s n)).
Lemma timeless_daily {A} (m : M A) : timeless m -> daily m.
Proof. intros T s n n' _. rewrite !T. destruct (m s) as [[a s']|]; reflexivity. Qed.
Lemma daily_clock {A} k (f : Z -> M A) : (forall t, timeless (f t)) -> (forall t t', epoch_of t = epoch_of t' -> f t = f t') -> daily (t <- check_clock k ;; f t).
Proof.
  intros T E s n n' D. unfold check_clock, bind, guard. destruct (keqb k clock_id); [|reflexivity]. cbn [now at_time].
  rewrite (E n' n (eq_sym D)). apply (timeless_daily _ (T n) s n n' D).
Qed.
Lemma daily_bind {A B} (m : M A) (f : A -> M B) : timeless m -> (forall a, daily (f a)) -> daily (bind m f).
Proof.
  intros T F s n n' D. unfold bind. rewrite !T. destruct (m s) as [[a s']|]; [|reflexivity]. cbn [shift]. rewrite (F a s' n n' D). reflexivity.
Qed.
Definition by_day (i : tp_ix) : Prop := i = TpWithdrawEver \/ i = TpWithdrawSol \/ i = TpApproveEver \/ i = TpApproveSol.
Ltac by_days := apply daily_clock; [intros t; repeat tl_step|intros t t' E; cbv beta; unfold withdraw_ever_exec, release_daily; rewrite ?E; reflexivity].
Ltac day_keys := repeat lazymatch goal with |- daily (match ?x with _ => _ end) => destruct x | |- daily NotEnough => apply timeless_daily; repeat tl_step end.
Lemma daily_tp_exec e ext c i : by_day i -> daily (tp_exec e ext c i).
Proof.
  intros [->|[->|[->| ->]]]; cbn [tp_exec].
  - unfold tp_withdraw_ever. day_keys. apply daily_bind; [repeat tl_step|intros _]. by_days.
  - unfold tp_withdraw_sol. day_keys. by_days.
  - unfold tp_approve_ever. day_keys. by_days.
  - unfold tp_approve_sol. day_keys. by_days.
Qed.
Lemma daily_run c m s n n' : daily m -> epoch_of n = epoch_of n' -> run c m (at_time s n') = shift_run n' (run c m (at_time s n)).
Proof.
  intros D E. unfold run. rewrite (D s n n' E). destruct (m (at_time s n)) as [[a s']|x]; cbn [shift]; [|reflexivity].
  rewrite !lam_sum_time. destruct (_ =? _); reflexivity.
Qed.
