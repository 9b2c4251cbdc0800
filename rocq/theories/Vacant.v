(** An unused address of a request stays unused until a request is made there: a frame proved along the
    structure of the code.  No code of /repo is modelled here. *)

From Coq Require Import ZifyBool ZifyNat ZifyN.
From Verif Require Export Touch TpReq.
Ltac Zify.zify_post_hook ::= Z.div_mod_to_equations.
Open Scope Z_scope.
Open Scope list_scope.

(** The address [k] is derived for the token proxy, from seeds of a request only, and it is no associated
    token account. *)
Definition request_only (e : env) (k : key) : Prop := is_pda e tp_id k /\
  (forall sd, e_pda e sd tp_id = Some k -> exists r ts lt conf h b, sd = with_bump (sd_proposal r ts lt conf h) b) /\
  (forall sd, e_pda e sd ata_id <> Some k).

Section Vacant.
  Context (e : env) (k : key).

  (** A system account keeps owner and data. *)
  Definition vacR (s s' : state) : Prop := own (accs s k) = sys_id -> same_od s s' k.
  (** The same, unless it becomes an account of the token proxy and stays one. *)
  Definition bornR (s s' : state) : Prop :=
    (own (accs s k) = sys_id -> same_od s s' k \/ unused s k /\ own (accs s' k) = tp_id) /\
    (own (accs s k) = tp_id -> own (accs s' k) = tp_id).
  Lemma vac_refl s : vacR s s. Proof. intros _. apply same_od_refl. Qed.
  Lemma vac_trans a b c : vacR a b -> vacR b c -> vacR a c.
  Proof. intros H1 H2 O. pose proof (H1 O) as S1. apply (same_od_trans _ _ _ _ S1). apply H2. destruct S1; congruence. Qed.
  Lemma vac_log s b : vacR s (put_log s b). Proof. intros _. split; reflexivity. Qed.
  Lemma born_refl s : bornR s s. Proof. split; [intros _; left; apply same_od_refl|auto]. Qed.
  Lemma born_trans a b c : bornR a b -> bornR b c -> bornR a c.
  Proof.
    intros [H1 K1] [H2 K2]. split; [|auto]. intros O. destruct (H1 O) as [S1|[U O1]]; [|right; auto].
    destruct S1 as [S1 D1]. destruct H2 as [S2|[U O2]]; [congruence| |].
    - left. destruct S2 as [S2 D2]. split; congruence.
    - right. split; [|exact O2]. destruct U as [U1 U2]. split; congruence.
  Qed.
  Lemma born_log s b : bornR s (put_log s b). Proof. split; [intros _; left; split; reflexivity|auto]. Qed.

  (** Relations that a step may be shown to satisfy by what it does to a system account and to an account
      of the token proxy. *)
  Definition frame (R : state -> state -> Prop) : Prop := forall s s',
    (own (accs s k) = sys_id -> same_od s s' k) -> (own (accs s k) = tp_id -> own (accs s' k) = tp_id) -> R s s'.
  Lemma frame_vac : frame vacR. Proof. intros s s' A _. exact A. Qed.
  Lemma frame_born : frame bornR. Proof. intros s s' A B. split; [intros O; left; auto|exact B]. Qed.

  Section Steps.
    Context (R : state -> state -> Prop) (F : frame R) (refl : forall s, R s s) (trans : forall a b c, R a b -> R b c -> R a c).
    Lemma vac_sod s s' : sod s s' -> R s s'.
    Proof. intros S. apply F; [intros _; apply S|intros O; destruct (S k); congruence]. Qed.
    Lemma vac_set_data c j d : c_pid c <> sys_id -> rel R (set_data c j d).
    Proof.
      intros NS s x s' H. apply set_data_ok in H as [-> H]. apply F; intros O; [|rewrite own_put_dat; exact O].
      destruct (key_dec k j) as [->|N]; [|apply same_od_put_dat_other; exact N].
      destruct H as [<-|[E _]]; [apply same_od_put_dat_same|congruence].
    Qed.
    Lemma vac_set_lam c j z : rel R (set_lam c j z).
    Proof. intros s x s' H. apply set_lam_ok in H as [-> _]. apply vac_sod. intros i. split; [apply own_put_lam|apply dat_put_lam]. Qed.
    Lemma vac_transfer c a b n : rel R (sys_transfer c a b n).
    Proof. intros s x s' H. apply sys_transfer_ok in H as (_ & _ & _ & S & _). apply vac_sod. exact S. Qed.
    Lemma vac_allocate c j n : c_sg c k = false -> rel R (sys_allocate c j n).
    Proof.
      intros NS s x s' H. apply sys_allocate_ok in H as (S & _ & O1 & ->). apply F; intros O; [|rewrite own_put_dat; exact O].
      apply same_od_put_dat_other. intros ->. congruence.
    Qed.
    Lemma vac_assign c j o : c_sg c k = false -> rel R (sys_assign c j o).
    Proof.
      intros NS s x s' H. apply sys_assign_ok in H as [[_ ->]|(_ & -> & S)]; [apply refl|].
      assert (N : k <> j) by (intros ->; congruence).
      apply F; intros O; [split; [apply own_put_own_other; exact N|apply dat_put_own]|rewrite own_put_own_other by exact N; exact O].
    Qed.
    Lemma vac_create c a b l n o : c_sg c k = false -> rel R (sys_create c a b l n o).
    Proof.
      intros NS s x s' H. apply sys_create_ok in H as (C & _ & S & _). destruct C as (_ & _ & _ & _ & _ & C).
      assert (N : k <> b) by (intros ->; congruence).
      apply F; intros O; [apply C; exact N|destruct (C k N); congruence].
    Qed.
    Lemma cpi_unsigned c q ms pdas : cpi_ok c q ms pdas -> c_sg c k = false -> inb k pdas = false -> c_sg (ctx_of q ms) k = false.
    Proof.
      intros M NS NP. destruct (c_sg (ctx_of q ms) k) eqn:E; [|reflexivity]. exfalso.
      apply (cpi_sg _ _ _ _ _ M) in E as [E|E]; [congruence|]. apply inb_In in E. congruence.
    Qed.
    Lemma vac_cpi c infos q ms pdas f : c_sg c k = false -> inb k pdas = false ->
      (forall c', c_pid c' = q -> c_sg c' k = false -> rel R (f c')) -> rel R (cpi c infos q ms pdas f).
    Proof. intros NS NP H s x s' E. apply cpi_inv in E as [E M]. eapply H; [|eapply cpi_unsigned; eassumption|exact E]. reflexivity. Qed.
    Lemma vac_signer {A} c sd (f : key -> M A) : e_pda e sd (c_pid c) <> Some k ->
      (forall p, p <> k -> rel R (f p)) -> rel R (bind (pda_signer e c sd) f).
    Proof.
      intros N H s x s' E. apply bind_ok in E as (p & s1 & E1 & E). unfold pda_signer in E1. apply lift_ok in E1 as [E1 ->].
      apply ok_or_ok in E1. eapply H; [|exact E]. intros ->. congruence.
    Qed.
  End Steps.

  Context (SO : request_only e k).
  Lemma not_seeds sd : (forall r ts lt conf h b, sd <> with_bump (sd_proposal r ts lt conf h) b) -> e_pda e sd tp_id <> Some k.
  Proof. intros N E. destruct SO as (_ & S & _). apply S in E as (r & ts & lt & conf & h & b & E). exact (N _ _ _ _ _ _ E). Qed.
  Lemma not_ata sd : e_pda e sd ata_id <> Some k.
  Proof. apply SO. Qed.
  Lemma request_no_proxy : ~ is_proxy e k.
  Proof. intros (mint & r & b & E). revert E. apply not_seeds. intros; unfold with_bump, sd_proxy, sd_proposal; cbn; discriminate. Qed.
  Lemma request_unsigned c : signs (ordinary e) c -> c_sg c k = false.
  Proof.
    intros S. destruct (c_sg c k) eqn:E; [|reflexivity]. exfalso. apply request_no_proxy. apply (S _ E). apply SO.
  Qed.
End Vacant.

Ltac not_request := intros; unfold with_bump, sd_settings, sd_multivault, sd_ts_ever, sd_ts_sol, sd_mint, sd_vault, sd_deposit, sd_proxy, sd_proposal;
  cbn; discriminate.
Ltac vac_side :=
  first [assumption|discriminate
        |match goal with E : c_pid ?c = _ |- c_pid ?c <> _ => rewrite E; discriminate end
        |match goal with |- inb _ [] = false => reflexivity
                       | |- inb ?k [?p] = false => cbn [inb existsb]; rewrite keqb_ne by (intros ?; congruence); reflexivity end].
Ltac vac_core k R F refl trans log :=
  match goal with
  | |- rel _ (set_data _ _ _) => apply (vac_set_data _ R F); vac_side
  | |- rel _ (set_lam _ _ _) => apply (vac_set_lam _ R F)
  | |- rel _ (sys_transfer _ _ _ _) => apply (vac_transfer _ R F)
  | |- rel _ (sys_allocate _ _ _) => apply (vac_allocate _ R F); vac_side
  | |- rel _ (sys_assign _ _ _) => apply (vac_assign _ R F refl); vac_side
  | |- rel _ (sys_create _ _ _ _ _ _) => apply (vac_create _ R F); vac_side
  | |- rel _ (bind (pda_signer ?e ?c ?sd) _) => apply (vac_signer e k R);
      [match goal with E : c_pid c = _ |- _ => rewrite E end; first [apply not_ata; assumption|apply not_seeds; [assumption|not_request]]|intros ? ?]
  | |- rel _ (cpi _ _ _ _ _ _) => apply (vac_cpi k R); [vac_side|vac_side|intros ? ? ?]
  | |- rel _ (cpi _ _ _ _ _ _) => fail 1
  | |- rel _ (bind (pda_signer _ _ _) _) => fail 1
  | _ => touch_core refl trans log
  end.
Ltac vac_step k := vac_core k (vacR k) (frame_vac k) (vac_refl k) (vac_trans k) (vac_log k).
Ltac born_step k := vac_core k (bornR k) (frame_born k) (born_refl k) (born_trans k) (born_log k).

Lemma vac_delete k c j a : c_pid c <> sys_id -> rel (vacR k) (delete_account c j a).
Proof.
  intros NS. unfold delete_account. repeat match goal with
  | |- rel _ (set_own _ _ _) => intros s x s' H O; apply set_own_ok in H as [-> H];
      destruct (key_dec k j) as [->|N]; [|split; [apply own_put_own_other; exact N|apply dat_put_own]];
      split; [rewrite own_put_own; congruence|apply dat_put_own]
  | _ => vac_step k end.
Qed.
Lemma vac_fill_loop e k c a b m d f : request_only e k -> c_pid c = tp_id -> c_sg c k = false -> forall l x y,
  rel (vacR k) (fill_loop e c a b m d f x y l).
Proof.
  intros SO Hp NS. fix IH 1. intros [|j [|i l]] x y; cbn [fill_loop]; [repeat vac_step k|repeat vac_step k|].
  apply (rel_bind _ (vac_trans k)); [repeat vac_step k|intros [fee net]; apply IH].
Qed.

(** Instructions other than requests and payload executions. *)
Lemma vac_tp_exec e ext c i k : request_only e k -> c_pid c = tp_id -> c_sg c k = false -> is_payload i = false -> is_request i = false ->
  rel (vacR k) (tp_exec e ext c i).
Proof.
  intros SO Hp NS IP IR. destruct i; try discriminate IP; try discriminate IR; cbn [tp_exec];
    repeat match goal with
    | |- rel _ (delete_account _ _ _) => apply vac_delete; rewrite Hp; discriminate
    | |- rel _ (fill_loop _ _ _ _ _ _ _ _ _ _) => apply (vac_fill_loop e); assumption
    | _ => vac_step k end.
Qed.

Lemma born_create e k c a b l n sd : c_pid c = tp_id -> rel (bornR k) (invoke_create e c a b l n (c_pid c) sd).
Proof.
  intros Hp s x s' H. apply invoke_create_ok in H as (C & _). rewrite Hp in C. destruct C as (O & D & _ & O' & _ & C).
  destruct (key_dec k b) as [->|N].
  - split; [intros _; right; split; [split; assumption|exact O']|intros E; rewrite O in E; discriminate].
  - destruct (C k N) as [S1 S2]. split; [intros _; left; split; assumption|congruence].
Qed.
(** Requests. *)
Lemma born_tp_exec e ext c i k : request_only e k -> c_pid c = tp_id -> c_sg c k = false -> is_request i = true ->
  rel (bornR k) (tp_exec e ext c i).
Proof.
  intros SO Hp NS IR. destruct i; try discriminate IR; cbn [tp_exec];
    repeat match goal with
    | |- rel _ (invoke_create _ c _ _ _ _ (c_pid c) _) => apply born_create; exact Hp
    | _ => born_step k end.
Qed.

(** One instruction: an unused address of a request stays as it is, or a request is made there as asked. *)
Lemma vacant_call e ext c i s s' k : tp_call e ext c i s s' -> is_payload i = false -> request_only e k -> c_sg c k = false ->
  own (accs s k) = sys_id ->
  same_od s s' k \/ exists g m rls rr, born e c i s s' k g m rls rr.
Proof.
  intros C IP SO NS O. pose proof C as C0. apply tp_call_exec in C as (Hp & Oi & CK & H). destruct (is_request i) eqn:IR.
  2:{ left. apply (vac_tp_exec _ _ _ _ _ SO Hp NS IP IR _ _ _ H O). }
  destruct (born_tp_exec _ _ _ _ _ SO Hp NS IR _ _ _ H) as [B _]. destruct (B O) as [S|[U O']]; [left; exact S|right].
  destruct (request_made _ _ _ _ _ _ k C0 IR) as [[[Q _]|[_ Q]]|Q]; [rewrite O, O' in Q; discriminate|contradiction|exact Q].
Qed.
