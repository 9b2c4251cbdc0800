(** Property C93: an instruction depends on its own accounts only, and instructions that do not write each other's
    accounts can be executed in any order. *)

From Coq Require Import Strings.String Permutation.
From Verif Require Import TpDemoLaws Local PropClient.
Open Scope Z_scope.
Open Scope list_scope.

(** * Vocabulary *)

(** The programs of the bridge. *)
Inductive program := Loader | Proxy | Native.
(** An instruction of a transaction: program, account list, data. *)
Record job := Job { j_prog : program; j_metas : list meta; j_data : bytes }.
(** Its execution (src/entrypoint.rs:9-15 of each program calls its [Processor::process], then the runtime checks the lamports);
    [ext] is what payloads call. *)
Definition exec (e : env) (ext : extern) (j : job) (s : state) : res state :=
  match j_prog j with
  | Loader => let c := ctx_of rl_id (j_metas j) in run c (rl_process e c (j_data j)) s
  | Proxy => let c := ctx_of tp_id (j_metas j) in run c (tp_process e ext c (j_data j)) s
  | Native => let c := ctx_of np_id (j_metas j) in run c (np_process e ext c (j_data j)) s
  end.
Fixpoint exec_all (e : env) (ext : extern) (l : list job) (s : state) : res state :=
  match l with [] => Ok s | j :: l => rbind (exec e ext j s) (exec_all e ext l) end.
(** An account in both lists is writable in neither. *)
Definition apart (i j : job) : Prop := forall m n, In m (j_metas i) -> In n (j_metas j) -> m_key m = m_key n -> m_wr m = false /\ m_wr n = false.
(** The same accounts at the same time. *)
Definition same_accounts (s t : state) : Prop := (forall k, accs s k = accs t k) /\ now s = now t.

(** * Lemmas *)

Definition j_ctx (j : job) : ctx := ctx_of (match j_prog j with Loader => rl_id | Proxy => tp_id | Native => np_id end) (j_metas j).
Definition touches (K : key -> Prop) (j : job) : Prop := forall m, In m (j_metas j) -> K (m_key m).
Lemma touches_within K j : touches K j -> within K (j_ctx j).
Proof. intros H k I. unfold j_ctx, ctx_of in I. cbn [c_keys] in I. apply in_map_iff in I as (m & <- & I). apply H. exact I. Qed.
Lemma exec_alike e ext K j s t : ext_local ext -> touches K j -> agree K s t -> alike_run K s t (exec e ext j s) (exec e ext j t).
Proof.
  intros X T G. apply touches_within in T. unfold exec, j_ctx in *. destruct j as [[] ms d]; cbn [j_prog j_metas j_data] in *; cbv zeta; apply loc_run; try assumption.
  - apply loc_rl_process; assumption.
  - apply loc_tp_process; assumption.
  - apply loc_np_process; assumption.
Qed.
Lemma run_inner c m s s' : run c m s = Ok s' -> exists a, m s = Ok (a, s').
Proof. unfold run. destruct (m s) as [[a x]|]; [|discriminate]. destruct (_ =? _); [|discriminate]. intros H. injection H as <-. eauto. Qed.
Lemma exec_frame e ext j s s' : ext_ro ext -> exec e ext j s = Ok s' ->
  forall k, (forall m, In m (j_metas j) -> m_key m = k -> m_wr m = false) -> accs s' k = accs s k.
Proof.
  intros X H k R.
  assert (W : c_wr (j_ctx j) k = false).
  { unfold j_ctx, ctx_of. cbn [c_wr]. destruct (existsb _ _) eqn:E; [|reflexivity]. apply existsb_exists in E as (m & I & E).
    apply andb_true_iff in E as [E1 E2]. apply keqb_eq in E1. rewrite (R m I E1) in E2. discriminate E2. }
  revert W. unfold exec, j_ctx in *. destruct j as [[] ms d]; cbn [j_prog j_metas j_data] in *; cbv zeta in H; intros W; apply run_inner in H as [a H].
  - eapply (ro_rl_process (c_wr (ctx_of rl_id ms))) in H; [exact (H k W)|intros x Hx; exact Hx].
  - eapply (ro_tp_process (c_wr (ctx_of tp_id ms))) in H; [exact (H k W)|exact X|intros x Hx; exact Hx].
  - unfold np_process in H. apply bind_ok in H as (i & s1 & E & H). apply lift_ok in E as [_ ->].
    change (np_exec e ext (ctx_of np_id ms) i s = Ok (a, s')) in H.
    eapply (ro_np_exec (c_wr (ctx_of np_id ms))) in H; [exact (H k W)|exact X|intros x Hx; exact Hx].
Qed.
Lemma exec_now e ext j s s' : ext_local ext -> exec e ext j s = Ok s' -> now s' = now s.
Proof.
  intros X H. pose proof (exec_alike e ext (fun _ => True) j s s X (fun _ _ => I) (conj (fun _ _ => eq_refl) eq_refl)) as A.
  rewrite H in A. exact (proj1 (proj2 A)).
Qed.
Lemma apart_sym i j : apart i j -> apart j i.
Proof. intros H m n M N E. apply and_comm. apply H; auto. Qed.
(** The accounts the first instruction leaves alone. *)
Definition spared (i : job) (k : key) : Prop := forall m, In m (j_metas i) -> m_key m = k -> m_wr m = false.
Lemma apart_spared i j : apart i j -> touches (spared i) j.
Proof. intros H n N m M E. exact (proj1 (H m n M N E)). Qed.
Lemma spared_dec i k : spared i k \/ exists m, In m (j_metas i) /\ m_key m = k /\ m_wr m = true.
Proof.
  destruct (existsb (fun m => keqb (m_key m) k && m_wr m) (j_metas i)) eqn:E.
  - right. apply existsb_exists in E as (m & I & E). apply andb_true_iff in E as [E1 E2]. apply keqb_eq in E1. eauto.
  - left. intros m I M. destruct (m_wr m) eqn:W; [|reflexivity]. assert (T : existsb (fun m => keqb (m_key m) k && m_wr m) (j_metas i) = true); [|congruence].
    apply existsb_exists. exists m. split; [exact I|]. rewrite W, andb_true_r. subst k. apply keqb_refl.
Qed.

(** * C93 *)

(** The outcome of an instruction - refusal with which error, or success, what it leaves in its accounts and what it
    logs - is the same on two ledgers that show the same contents of the accounts in its list at the same time. *)
Theorem C93_local : forall e ext j s t, ext_local ext ->
  (forall m, In m (j_metas j) -> accs s (m_key m) = accs t (m_key m)) -> now s = now t ->
  match exec e ext j s, exec e ext j t with
  | Ok s', Ok t' => (forall m, In m (j_metas j) -> accs s' (m_key m) = accs t' (m_key m)) /\ exists l, logs s' = logs s ++ l /\ logs t' = logs t ++ l
  | Err x, Err y => x = y
  | _, _ => False
  end.
Proof.
  intros e ext j s t X G N. pose (K := fun k => exists m, In m (j_metas j) /\ m_key m = k).
  pose proof (exec_alike e ext K j s t X (fun m I => ex_intro _ m (conj I eq_refl))) as A.
  assert (G' : agree K s t) by (split; [intros k (m & I & <-); apply G; exact I|exact N]). specialize (A G').
  unfold alike_run in A. destruct (exec e ext j s) as [s'|x], (exec e ext j t) as [t'|y]; try exact A.
  destruct A as ([A _] & _ & L). split; [|exact L]. intros m I. apply A. exists m. auto.
Qed.

(** After an instruction that does not write its accounts an instruction is refused, with the same error, exactly if it
    would have been refused before. *)
Theorem C93_refused : forall e ext i j s s1 x, ext_local ext -> ext_ro ext -> apart i j -> exec e ext i s = Ok s1 ->
  (exec e ext j s1 = Err x <-> exec e ext j s = Err x).
Proof.
  intros e ext i j s s1 x X R A H.
  assert (G : agree (spared i) s s1) by (split; [intros k K; symmetry; exact (exec_frame e ext i s s1 R H k K)|symmetry; exact (exec_now e ext i s s1 X H)]).
  pose proof (exec_alike e ext _ j s s1 X (apart_spared i j A) G) as B. unfold alike_run in B.
  destruct (exec e ext j s), (exec e ext j s1); try contradiction; split; congruence.
Qed.

Lemma exec_swap e ext i j s s1 s2 : ext_local ext -> ext_ro ext -> apart i j -> exec e ext i s = Ok s1 -> exec e ext j s1 = Ok s2 ->
  exists t1 t2, exec e ext j s = Ok t1 /\ exec e ext i t1 = Ok t2 /\ same_accounts t2 s2.
Proof.
  intros X R A H1 H2.
  assert (G : agree (spared i) s s1) by (split; [intros k K; symmetry; exact (exec_frame e ext i s s1 R H1 k K)|symmetry; exact (exec_now e ext i s s1 X H1)]).
  pose proof (exec_alike e ext _ j s s1 X (apart_spared i j A) G) as B. unfold alike_run in B. rewrite H2 in B.
  destruct (exec e ext j s) as [t1|] eqn:T1; [|contradiction]. destruct B as ([B _] & _ & _).
  assert (G' : agree (spared j) s t1) by (split; [intros k K; symmetry; exact (exec_frame e ext j s t1 R T1 k K)|symmetry; exact (exec_now e ext j s t1 X T1)]).
  pose proof (exec_alike e ext _ i s t1 X (apart_spared j i (apart_sym _ _ A)) G') as C. unfold alike_run in C. rewrite H1 in C.
  destruct (exec e ext i t1) as [t2|] eqn:T2; [|contradiction]. destruct C as ([C _] & _ & _).
  exists t1, t2. split; [reflexivity|]. split; [exact T2|]. split.
  - intros k. destruct (spared_dec i k) as [S|(m & I & E & W)].
    + rewrite (exec_frame e ext i t1 t2 R T2 k S). apply B. exact S.
    + assert (S : spared j k). { intros n N E'. apply (A m n I N). congruence. }
      rewrite (exec_frame e ext j s1 s2 R H2 k S). symmetry. apply C. exact S.
  - rewrite (exec_now e ext i t1 t2 X T2), (exec_now e ext j s t1 X T1), (exec_now e ext j s1 s2 X H2), (exec_now e ext i s s1 X H1). reflexivity.
Qed.
Lemma exec_same e ext j s t s' : ext_local ext -> same_accounts s t -> exec e ext j s = Ok s' -> exists t', exec e ext j t = Ok t' /\ same_accounts s' t'.
Proof.
  intros X [G N] H. pose proof (exec_alike e ext (fun _ => True) j s t X (fun _ _ => I) (conj (fun k _ => G k) N)) as B.
  unfold alike_run in B. rewrite H in B. destruct (exec e ext j t) as [t'|]; [|contradiction]. exists t'. split; [reflexivity|].
  destruct B as ([B N'] & _ & _). split; [intros k; apply B; exact I|exact N'].
Qed.
Lemma same_acc_refl s : same_accounts s s. Proof. split; auto. Qed.
Lemma same_acc_trans s t u : same_accounts s t -> same_accounts t u -> same_accounts s u.
Proof. intros [A B] [A' B']. split; [intros k; rewrite A; apply A'|congruence]. Qed.
Lemma same_acc_sym s t : same_accounts s t -> same_accounts t s. Proof. intros [A B]. split; auto. Qed.
Lemma exec_all_same e ext l : ext_local ext -> forall s t s', same_accounts s t -> exec_all e ext l s = Ok s' -> exists t', exec_all e ext l t = Ok t' /\ same_accounts s' t'.
Proof.
  intros X. induction l as [|j l IH]; intros s t s' G H; cbn [exec_all] in *; [injection H as <-; eauto|].
  destruct (exec e ext j s) as [s1|] eqn:E; [|discriminate H]. cbn [rbind] in H. destruct (exec_same _ _ _ _ _ _ X G E) as (t1 & -> & G1). cbn [rbind]. eapply IH; eassumption.
Qed.
Lemma apart_perm l l' : Permutation l l' -> ForallOrdPairs apart l -> ForallOrdPairs apart l'.
Proof.
  induction 1 as [|x l l' P IH|x y l|l l1 l2 P1 IH1 P2 IH2]; intros F; auto.
  - inversion F as [|? ? F1 F2]. subst. constructor; [rewrite <- P; exact F1|auto].
  - inversion F as [|? ? F1 F2]. subst. inversion F2 as [|? ? F3 F4]. subst. inversion F1 as [|? ? F5 F6]. subst.
    constructor; [constructor; [apply apart_sym; exact F5|exact F3]|constructor; assumption].
Qed.

(** A list of instructions of which no one writes an account of another one leads to the same accounts in every order,
    and none of them fails in another order. *)
Theorem C93_order : forall e ext l l' s s', ext_local ext -> ext_ro ext -> ForallOrdPairs apart l -> Permutation l l' ->
  exec_all e ext l s = Ok s' -> exists t', exec_all e ext l' s = Ok t' /\ same_accounts s' t'.
Proof.
  intros e ext l l' s s' X R F P. revert s s' F. induction P as [|x l l' P IH|x y l|l l1 l2 P1 IH1 P2 IH2]; intros s s' F H.
  - exists s'. split; [exact H|apply same_acc_refl].
  - inversion F as [|? ? F1 F2]. subst. cbn [exec_all] in *. destruct (exec e ext x s) as [s1|]; [|discriminate H]. cbn [rbind] in *. apply IH; assumption.
  - inversion F as [|? ? F1 F2]. subst. inversion F1 as [|? ? F3 F4]. subst. cbn [exec_all] in *.
    destruct (exec e ext y s) as [s1|] eqn:E1; [|discriminate H]. cbn [rbind] in H. destruct (exec e ext x s1) as [s2|] eqn:E2; [|discriminate H]. cbn [rbind] in H.
    destruct (exec_swap _ _ _ _ _ _ _ X R F3 E1 E2) as (t1 & t2 & T1 & T2 & G). rewrite T1. cbn [rbind]. rewrite T2. cbn [rbind].
    eapply exec_all_same; [exact X|apply same_acc_sym; exact G|exact H].
  - destruct (IH1 s s' F H) as (t1 & T1 & G1). destruct (IH2 s t1 (apart_perm _ _ P1 F) T1) as (t2 & T2 & G2).
    exists t2. split; [exact T2|]. eapply same_acc_trans; eassumption.
Qed.

(** Payloads may call the bridge itself, which calls payloads that call the bridge, [n] levels deep. *)
Fixpoint bridge_ext (e : env) (n : nat) : extern :=
  match n with
  | O => fun _ _ => fail CpiDenied
  | S n => fun c d =>
    if keqb (c_pid c) tp_id then as_nested (fun c => tp_process e (bridge_ext e n) c d) c
    else if keqb (c_pid c) rl_id then as_nested (fun c => rl_process e c d) c
    else if keqb (c_pid c) np_id then as_nested (fun c => np_process e (bridge_ext e n) c d) c
    else fail CpiDenied
  end.
Lemma nested_inner m c s a s' : as_nested m c s = Ok (a, s') -> exists b, m c s = Ok (b, s').
Proof. unfold as_nested. destruct (run c (m c) s) as [x|] eqn:R; [|discriminate]. cbn [rbind]. intros H. injection H as _ <-. eapply run_inner. exact R. Qed.
(** Such payloads depend on their own accounts only and write what they may write only. *)
Theorem C93_payloads : forall e n, ext_local (bridge_ext e n) /\ ext_ro (bridge_ext e n).
Proof.
  intros e n. induction n as [|n [L R]]; cbn [bridge_ext].
  - split; [intros K c d _; apply loc_fail|intros c d s a s' H; discriminate H].
  - split.
    + intros K c d W. repeat match goal with |- loc _ (if ?b then _ else _) => destruct b end; try (apply loc_nested; [exact W|]).
      * apply loc_tp_process; assumption.
      * apply loc_rl_process; assumption.
      * apply loc_np_process; assumption.
      * apply loc_fail.
    + intros c d s a s' H. repeat match goal with H : (if ?b then _ else _) _ = _ |- _ => destruct b end; [| | |discriminate H]; apply nested_inner in H as [b H].
      * eapply (ro_tp_process (c_wr c)) in H; [exact H|exact R|intros x Hx; exact Hx].
      * eapply (ro_rl_process (c_wr c)) in H; [exact H|intros x Hx; exact Hx].
      * unfold np_process in H. apply bind_ok in H as (i & s1 & E & H). apply lift_ok in E as [_ ->].
        change (np_exec e (bridge_ext e n) c i s = Ok (b, s')) in H.
        eapply (ro_np_exec (c_wr c)) in H; [exact H|exact R|intros x Hx; exact Hx].
Qed.

(** * A concrete case *)

Definition proxy_job (x : list meta * tp_ix) : job := Job Proxy (fst x) (enc c_tp_ix (snd x)).
(** A relay votes on the request [tw1]; the manager raises the withdrawal fee. *)
Definition vote_job := proxy_job (tvote trelay1 tw1 tround).
Definition fee_job := proxy_job (tadmT tman ttsS (TpUpdateFee FWithdrawal 1 100)).
Ltac apart_tac := intros m n M N E; cbn [In j_metas vote_job fee_job proxy_job fst tvote tadmT] in M, N;
  repeat match goal with H : _ \/ _ |- _ => destruct H as [H|H] end; subst; try contradiction; first [discriminate E|split; reflexivity].
Example C93_ex : ForallOrdPairs apart [vote_job; fee_job] /\ is_ok (exec_all te (bridge_ext te 1) [vote_job; fee_job] ts3) = true /\
  is_ok (exec_all te (bridge_ext te 1) [fee_job; vote_job] ts3) = true /\
  beqb (dat (accs (unres (exec_all te (bridge_ext te 1) [vote_job; fee_job] ts3)) tw1)) (dat (accs ts3 tw1)) = false /\
  beqb (dat (accs (unres (exec_all te (bridge_ext te 1) [vote_job; fee_job] ts3)) ttsS)) (dat (accs ts3 ttsS)) = false.
Proof.
  split; [repeat (apply FOP_cons || apply FOP_nil || apply Forall_cons || apply Forall_nil); apart_tac|].
  split; [vm_compute; reflexivity|]. split; [vm_compute; reflexivity|]. split; vm_compute; reflexivity.
Qed.
(** The order matters as soon as one writes what the other reads: a deposit is possible before the emergency only. *)
Definition deposit_job := proxy_job (tdep tuser tuserS tvault td2 tmintS 2 1000).
Definition stop_job := proxy_job (tadmS tguard TpEnableEmergency).
Example C93_conflict : ~ apart deposit_job stop_job /\ is_ok (exec_all te (bridge_ext te 1) [deposit_job; stop_job] ts3) = true /\
  exec_all te (bridge_ext te 1) [stop_job; deposit_job] ts3 = Err (Custom 5).
Proof.
  split; [intros A; destruct (A (ro tset) (ww tset)) as [_ W]; [do 8 right; left; reflexivity|right; left; reflexivity|reflexivity|discriminate W]|].
  split; vm_compute; reflexivity.
Qed.

Print Assumptions C93_local.
Print Assumptions C93_refused.
Print Assumptions C93_order.
Print Assumptions C93_payloads.
