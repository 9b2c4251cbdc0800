(** More signatures and more writable accounts do no harm: a relation between the runs of one instruction with two
    lists of privileges, proved along the structure of the code.  No code of /repo is modelled here. *)

From Verif Require Export Touch NativeProxy.
Open Scope Z_scope.
Open Scope list_scope.

(** Whatever the first computation achieves, the second achieves. *)
Definition grow {A} (m m' : M A) : Prop := forall s r, m s = Ok r -> m' s = Ok r.
Lemma grow_refl {A} (m : M A) : grow m m. Proof. intros s r H. exact H. Qed.
Lemma grow_bind {A B} (m m' : M A) (f f' : A -> M B) : grow m m' -> (forall a, grow (f a) (f' a)) -> grow (bind m f) (bind m' f').
Proof. intros Hm Hf s r H. unfold bind in *. destruct (m s) as [[a s1]|] eqn:E; [|discriminate H]. rewrite (Hm _ _ E). apply Hf. exact H. Qed.
Lemma grow_guard b b' x : (b = true -> b' = true) -> grow (guard b x) (guard b' x).
Proof. intros I s r H. unfold guard in *. destruct b; [rewrite (I eq_refl); exact H|discriminate H]. Qed.

Section Grow.
  Context (p : key) (ks : list key) (sg sg' wr wr' : key -> bool) (S : forall k, sg k = true -> sg' k = true) (W : forall k, wr k = true -> wr' k = true).
  Notation c := (Ctx p ks sg wr). Notation c' := (Ctx p ks sg' wr').
  Ltac set_up := intros s r H; cbn [c_wr c_pid] in *; match type of H with (if ?b then _ else _) = _ => destruct b eqn:E; [|discriminate H] end.
  Lemma grow_data k d : grow (set_data c k d) (set_data c' k d).
  Proof.
    unfold set_data. set_up. apply orb_true_iff in E as [E|E]; [rewrite E; exact H|].
    apply andb_true_iff in E as [E1 E2]. rewrite E1, (W _ E2), orb_true_r. exact H.
  Qed.
  Lemma grow_lam k z : grow (set_lam c k z) (set_lam c' k z).
  Proof.
    unfold set_lam. set_up. apply andb_true_iff in E as [E0 E]. rewrite E0. cbn [andb]. apply orb_true_iff in E as [E|E]; [rewrite E; exact H|].
    apply andb_true_iff in E as [E1 E2]. rewrite E2, (W _ E1), orb_true_r. exact H.
  Qed.
  Lemma grow_own k o : grow (set_own c k o) (set_own c' k o).
  Proof.
    unfold set_own. set_up. apply orb_true_iff in E as [E|E]; [rewrite E; exact H|].
    apply andb_true_iff in E as [E E3]. apply andb_true_iff in E as [E1 E2]. rewrite E1, (W _ E2), E3, orb_true_r. exact H.
  Qed.
  Lemma grow_cpi infos q ms pdas f : grow (cpi c infos q ms pdas f) (cpi c' infos q ms pdas f).
  Proof.
    unfold cpi. apply grow_bind; [apply grow_refl|intros _]. apply grow_bind; [|intros _; apply grow_refl]. apply grow_guard.
    rewrite !forallb_forall. intros M m I. specialize (M m I). unfold meta_ok in *. cbn [c_keys c_sg c_wr] in *.
    rewrite !andb_true_iff, !orb_true_iff in *. destruct M as [[M1 M2] M3]. split; [split; [exact M1|]|].
    - destruct M2 as [[M2|M2]|M2]; auto.
    - destruct M3 as [M3|M3]; auto.
  Qed.
End Grow.

Ltac grow_step S W :=
  cbn [c_pid c_keys c_sg c_wr];
  match goal with
  | |- grow ?m ?m => apply grow_refl
  | |- grow (guard _ _) (guard _ _) => apply grow_guard; first [exact (fun H => H)|apply S]
  | |- grow (set_data _ _ _) _ => apply grow_data; exact W
  | |- grow (set_lam _ _ _) _ => apply grow_lam; exact W
  | |- grow (set_own _ _ _) _ => apply grow_own; exact W
  | |- grow (cpi _ _ _ _ _ _) _ => apply grow_cpi; [exact S|exact W]
  | |- grow (bind _ _) _ => apply grow_bind; [|intros ?]
  | |- grow (match ?x with _ => _ end) _ => tryif is_var x then destruct x else destruct x eqn:?
  | |- grow (let _ := _ in _) _ => cbv zeta
  | |- grow ?m _ => let f := rel_head m in unfold f
  end.

Section Programs.
  Context (e : env) (ext : extern) (p : key) (ks : list key) (sg sg' wr wr' : key -> bool) (S : forall k, sg k = true -> sg' k = true) (W : forall k, wr k = true -> wr' k = true).
  Notation c := (Ctx p ks sg wr). Notation c' := (Ctx p ks sg' wr').
  Lemma grow_rl_process d : grow (rl_process e c d) (rl_process e c' d).
  Proof. unfold rl_process. apply grow_bind; [apply grow_refl|intros i]. unfold rl_exec. destruct i; repeat grow_step S W. Qed.
  Lemma grow_fill_loop a b m d f : forall l x y, grow (fill_loop e c a b m d f x y l) (fill_loop e c' a b m d f x y l).
  Proof.
    fix IH 1. intros [|w [|r l]] x y; cbn [fill_loop]; [apply grow_refl|apply grow_refl|].
    apply grow_bind; [repeat grow_step S W|intros [fee net]; apply IH].
  Qed.
  Lemma grow_invoke_all sd l : grow (invoke_all e ext c sd l) (invoke_all e ext c' sd l).
  Proof.
    induction l as [|i l IH]; cbn [invoke_all]; [apply grow_refl|].
    apply grow_bind; [repeat grow_step S W|intros q]. apply grow_bind; [repeat grow_step S W|intros _; exact IH].
  Qed.
End Programs.
Section Proxy.
  Context (e : env) (ext : extern) (p : key) (ks : list key) (sg sg' wr wr' : key -> bool) (S : forall k, sg k = true -> sg' k = true) (W : forall k, wr k = true -> wr' k = true).
  Notation c := (Ctx p ks sg wr). Notation c' := (Ctx p ks sg' wr').
  Lemma grow_tp_exec i : grow (tp_exec e ext c i) (tp_exec e ext c' i).
  Proof.
    destruct i; cbn [tp_exec]; repeat match goal with
      | |- grow (invoke_all _ _ _ _ _) _ => apply grow_invoke_all; [exact S|exact W]
      | |- grow (fill_loop _ _ _ _ _ _ _ _ _ _) _ => apply grow_fill_loop; [exact S|exact W]
      | _ => grow_step S W end.
  Qed.
  Lemma grow_tp_process d : grow (tp_process e ext c d) (tp_process e ext c' d).
  Proof. unfold tp_process. apply grow_bind; [apply grow_refl|intros i; apply grow_tp_exec]. Qed.
  Lemma grow_np_process d : grow (np_process e ext c d) (np_process e ext c' d).
  Proof. unfold np_process. apply grow_bind; [apply grow_refl|intros i]. destruct i; repeat grow_step S W. Qed.
End Proxy.
