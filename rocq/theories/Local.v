(** What an instruction does depends on its own accounts only: a relation between two runs, proved along the
    structure of the code.  No code of /repo is modelled here. *)

From Coq Require Import ZifyBool ZifyNat ZifyN.
From Verif Require Export Touch NativeProxy.
Open Scope Z_scope.
Open Scope list_scope.

(** The two states show the same accounts at [K], at the same time. *)
Definition agree (K : key -> Prop) (s t : state) : Prop := (forall k, K k -> accs s k = accs t k) /\ now s = now t.

Definition alike {A} (K : key -> Prop) (s t : state) (x y : res (A * state)) : Prop :=
  match x, y with
  | Ok (a, s'), Ok (b, t') => a = b /\ agree K s' t' /\ now s' = now s /\ exists l, logs s' = logs s ++ l /\ logs t' = logs t ++ l
  | Err e, Err e' => e = e'
  | _, _ => False
  end.
Definition loc {A} (K : key -> Prop) (m : M A) : Prop := forall s t, agree K s t -> alike K s t (m s) (m t).

(** The accounts of the call are among [K]. *)
Definition within (K : key -> Prop) (c : ctx) : Prop := forall k, In k (c_keys c) -> K k.

Section Loc.
  Context (K : key -> Prop).
  Lemma alike_same {A} (a : A) s t s' t' : agree K s' t' -> now s' = now s -> logs s' = logs s -> logs t' = logs t -> alike K s t (Ok (a, s')) (Ok (a, t')).
  Proof. intros G N L L'. split; [reflexivity|]. split; [exact G|]. split; [exact N|]. exists []. rewrite L, L', !app_nil_r. auto. Qed.
  Lemma loc_ret {A} (a : A) : loc K (ret a).
  Proof. intros s t G. apply alike_same; auto. Qed.
  Lemma loc_fail {A} x : loc K (@fail A x).
  Proof. intros s t G. reflexivity. Qed.
  Lemma loc_lift {A} (r : res A) : loc K (lift r).
  Proof. intros s t G. unfold lift. destruct r; [apply alike_same; auto|reflexivity]. Qed.
  Lemma loc_guard b x : loc K (guard b x).
  Proof. intros s t G. unfold guard. destruct b; [apply alike_same; auto|reflexivity]. Qed.
  Lemma loc_get k : K k -> loc K (get k).
  Proof. intros H s t G. unfold get. rewrite (proj1 G _ H). apply alike_same; auto. Qed.
  Lemma loc_now : loc K (fun s => Ok (now s, s)).
  Proof. intros s t G. rewrite (proj2 G). apply alike_same; auto. Qed.
  Lemma loc_emit b : loc K (emit b).
  Proof. intros s t G. split; [reflexivity|]. split; [exact G|]. split; [reflexivity|]. exists [b]. split; reflexivity. Qed.
  Lemma loc_bind {A B} (m : M A) (f : A -> M B) : loc K m -> (forall a, loc K (f a)) -> loc K (bind m f).
  Proof.
    intros Hm Hf s t G. specialize (Hm s t G). unfold bind, alike in *. destruct (m s) as [[a s1]|x], (m t) as [[b t1]|y]; try contradiction; [|exact Hm].
    destruct Hm as (<- & G1 & N1 & l & L1 & L2). specialize (Hf a s1 t1 G1). unfold alike in Hf.
    destruct (f a s1) as [[r s2]|x], (f a t1) as [[q t2]|y]; try contradiction; [|exact Hf].
    destruct Hf as (<- & G2 & N2 & l' & L3 & L4). split; [reflexivity|]. split; [exact G2|]. split; [congruence|].
    exists (l ++ l'). rewrite L3, L4, L1, L2, !app_assoc. auto.
  Qed.
  Lemma loc_bind_eq {A B} (m : M A) (f : A -> M B) : loc K m -> (forall a s s', m s = Ok (a, s') -> loc K (f a)) -> loc K (bind m f).
  Proof.
    intros Hm Hf s t G. specialize (Hm s t G). unfold bind, alike in *. specialize (fun a => Hf a s). destruct (m s) as [[a s1]|x], (m t) as [[b t1]|y]; try contradiction; [|exact Hm].
    destruct Hm as (<- & G1 & N1 & l & L1 & L2). specialize (Hf a s1 eq_refl s1 t1 G1). unfold alike in Hf.
    destruct (f a s1) as [[r s2]|x], (f a t1) as [[q t2]|y]; try contradiction; [|exact Hf].
    destruct Hf as (<- & G2 & N2 & l' & L3 & L4). split; [reflexivity|]. split; [exact G2|]. split; [congruence|].
    exists (l ++ l'). rewrite L3, L4, L1, L2, !app_assoc. auto.
  Qed.
  Lemma agree_put s t k a : agree K s t -> agree K (put s k a) (put t k a).
  Proof. intros [G N]. split; [|exact N]. intros j J. destruct (key_dec j k) as [->|D]; [rewrite !accs_put_same; reflexivity|rewrite !accs_put_other by exact D; auto]. Qed.
  Lemma loc_set_data c k d : K k -> loc K (set_data c k d).
  Proof.
    intros H s t G. unfold set_data, put_dat. rewrite (proj1 G _ H). destruct (_ || _); [|reflexivity].
    apply alike_same; [apply agree_put; exact G|reflexivity|reflexivity|reflexivity].
  Qed.
  Lemma loc_set_lam c k z : K k -> loc K (set_lam c k z).
  Proof.
    intros H s t G. unfold set_lam, put_lam. rewrite (proj1 G _ H). destruct (_ && _); [|reflexivity].
    apply alike_same; [apply agree_put; exact G|reflexivity|reflexivity|reflexivity].
  Qed.
  Lemma loc_set_own c k o : K k -> loc K (set_own c k o).
  Proof.
    intros H s t G. unfold set_own, put_own. rewrite (proj1 G _ H). destruct (_ || _); [|reflexivity].
    apply alike_same; [apply agree_put; exact G|reflexivity|reflexivity|reflexivity].
  Qed.
  Lemma loc_cpi c infos q ms pdas f : within K c ->
    (forall c', c_keys c' = map m_key ms -> within K c' -> loc K (f c')) -> loc K (cpi c infos q ms pdas f).
  Proof.
    intros F H. unfold cpi. apply loc_bind; [apply loc_guard|intros _]. intros s t G. unfold bind, guard.
    destruct (forallb (meta_ok c infos pdas) ms) eqn:M; [|reflexivity]. apply (H (ctx_of q ms)); [reflexivity| |exact G].
    intros k I. cbn [c_keys ctx_of] in I. apply in_map_iff in I as (m & <- & I).
    rewrite forallb_forall in M. specialize (M _ I). unfold meta_ok in M. rewrite !andb_true_iff in M. destruct M as [[[_ M] _] _].
    unfold inb in M. apply existsb_exists in M as (j & J & E). apply keqb_eq in E. subst j. apply F. exact J.
  Qed.
End Loc.

Ltac in_list := first [left; reflexivity|right; in_list].
Ltac loc_key := first [assumption|match goal with E : c_keys ?c = _, H : within ?K ?c |- ?K ?k =>
  apply H; rewrite E; cbn [map m_key]; in_list end].
Ltac loc_rest := match goal with E : c_keys ?c = _, H : within ?K ?c |- forall k, In k ?l -> ?K k =>
  let k := fresh in let I := fresh in intros k I; apply H; rewrite E; do 11 right; exact I end.
Ltac loc_step :=
  match goal with
  | |- loc _ (ret _) => apply loc_ret
  | |- loc _ (fail _) => apply loc_fail
  | |- loc _ (lift _) => apply loc_lift
  | |- loc _ (guard _ _) => apply loc_guard
  | |- loc _ (get _) => apply loc_get; loc_key
  | |- loc _ (fun s => Ok (now s, s)) => apply loc_now
  | |- loc _ (emit _) => apply loc_emit
  | |- loc _ (set_data _ _ _) => apply loc_set_data; loc_key
  | |- loc _ (set_lam _ _ _) => apply loc_set_lam; loc_key
  | |- loc _ (set_own _ _ _) => apply loc_set_own; loc_key
  | |- loc _ (cpi _ _ _ _ _ _) => apply loc_cpi; [assumption|intros ? ? ?]
  | |- loc _ (bind _ _) => apply loc_bind; [|intros ?]
  | |- loc _ (match ?x with _ => _ end) => tryif is_var x then destruct x else destruct x eqn:?
  | |- loc _ (let _ := _ in _) => cbv zeta
  | |- loc _ ?m => let f := rel_head m in unfold f
  end.


Lemma loc_rl_process e K c d : within K c -> loc K (rl_process e c d).
Proof. intros F. unfold rl_process. apply loc_bind; [apply loc_lift|intros i]. unfold rl_exec. destruct i; repeat loc_step. Qed.

(** What payloads call looks at its own accounts only, too. *)
Definition ext_local (ext : extern) : Prop := forall K c d, within K c -> loc K (ext c d).
Lemma loc_invoke_all K e ext c sd l : ext_local ext -> within K c -> loc K (invoke_all e ext c sd l).
Proof.
  intros X F. induction l as [|i l IH]; cbn [invoke_all]; repeat match goal with
    | |- loc _ (ext _ _) => apply X; assumption
    | |- loc _ (invoke_all _ _ _ _ _) => exact IH
    | _ => loc_step end.
Qed.
Lemma loc_fill_one K e c a b m d f w r : within K c -> K a -> K b -> K w -> K r -> loc K (fill_one e c a b m d f w r).
Proof. intros F Ka Kb Kw Kr. repeat loc_step. Qed.
Lemma loc_fill_loop K e c a b m d f : within K c -> K a -> K b -> forall l x y, (forall k, In k l -> K k) -> loc K (fill_loop e c a b m d f x y l).
Proof.
  intros F Ka Kb. fix IH 1. intros [|w [|r l]] x y L; cbn [fill_loop]; [apply loc_ret|apply loc_ret|].
  apply loc_bind; [apply loc_fill_one; try assumption; apply L; [left|right; left]; reflexivity|intros [fee net]; apply IH; intros k I; apply L; right; right; exact I].
Qed.
(** The loop leaves accounts of the list unread. *)
Lemma fill_loop_incl e c a b m d f : forall l x y s r s', fill_loop e c a b m d f x y l s = Ok (r, s') -> incl (snd r) l.
Proof.
  fix IH 1. intros [|w [|j l]] x y s r s' H; cbn [fill_loop] in H.
  - injection H as <- _. apply incl_refl.
  - injection H as <- _. apply incl_refl.
  - apply bind_ok in H as ([fee net] & s1 & _ & H). apply IH in H. intros k I. right. right. apply H. exact I.
Qed.
Lemma loc_tp_exec K e ext c i : ext_local ext -> within K c -> loc K (tp_exec e ext c i).
Proof.
  intros X F. destruct i; cbn [tp_exec]; repeat match goal with
    | |- loc _ (invoke_all _ _ _ _ _) => apply loc_invoke_all; assumption
    | |- loc _ (bind (fill_loop _ _ _ _ _ _ _ _ _ ?l) _) => apply loc_bind_eq; [apply loc_fill_loop; [assumption|loc_key|loc_key|loc_rest]|];
        let u := fresh "u" in let H := fresh in intros [[? ?] u] ? ? H; apply fill_loop_incl in H; cbn [snd] in H;
        assert (forall k, In k u -> K k) by (intros ? ?; match goal with E : c_keys c = _ |- _ => apply F; rewrite E; do 11 right; apply H; assumption end); clear H
    | |- loc _ (match ?u with _ => _ end) => is_var u; match goal with H : forall k, In k u -> K k |- _ => destruct u as [|u0 u]; [|pose proof (H u0 (or_introl eq_refl)); clear H] end
    | _ => loc_step end.
Qed.
Lemma loc_tp_process K e ext c d : ext_local ext -> within K c -> loc K (tp_process e ext c d).
Proof. intros X F. unfold tp_process. apply loc_bind; [apply loc_lift|intros i; apply loc_tp_exec; assumption]. Qed.

(** ** Whole instructions *)
Lemma lam_sum_agree K l s t : agree K s t -> (forall k, In k l -> K k) -> lam_sum l s = lam_sum l t.
Proof.
  intros [G _]. unfold lam_sum. induction l as [|k l IH]; intros H; cbn [dedup]; [reflexivity|].
  assert (E := IH (fun j J => H j (or_intror J))). destruct (inb k l); [exact E|]. cbn [fold_right]. rewrite E, (G k); [reflexivity|]. apply H. left. reflexivity.
Qed.
Definition alike_run (K : key -> Prop) (s t : state) (x y : res state) : Prop :=
  match x, y with
  | Ok s', Ok t' => agree K s' t' /\ now s' = now s /\ exists l, logs s' = logs s ++ l /\ logs t' = logs t ++ l
  | Err e, Err e' => e = e'
  | _, _ => False
  end.
Lemma loc_run K c m s t : loc K m -> within K c -> agree K s t -> alike_run K s t (run c m s) (run c m t).
Proof.
  intros L F G. specialize (L s t G). unfold run, alike, alike_run in *. destruct (m s) as [[a s']|x], (m t) as [[b t']|y]; try contradiction; [|exact L].
  destruct L as (_ & G' & N & L). rewrite (lam_sum_agree K (c_keys c) s t G F), (lam_sum_agree K (c_keys c) s' t' G' F).
  destruct (_ =? _); [auto|reflexivity].
Qed.
Lemma loc_nested K m c : within K c -> loc K (m c) -> loc K (as_nested m c).
Proof.
  intros F L s t G. pose proof (loc_run K c (m c) s t L F G) as R. unfold as_nested, alike_run, alike in *.
  destruct (run c (m c) s) as [s'|x], (run c (m c) t) as [t'|y]; cbn [rbind]; try contradiction; auto.
Qed.
Lemma loc_np_process K e ext c d : ext_local ext -> within K c -> loc K (np_process e ext c d).
Proof.
  intros X F. unfold np_process. apply loc_bind; [apply loc_lift|intros i]. destruct i. unfold np_deposit.
  repeat lazymatch goal with
    | |- loc _ (cpi _ _ _ _ _ (as_nested _)) => apply loc_cpi; [exact F|intros c' _ F'; apply loc_nested; [exact F'|apply loc_tp_process; assumption]]
    | _ => loc_step end.
Qed.
