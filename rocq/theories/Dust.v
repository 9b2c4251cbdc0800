(** Lamports at an unused address derived for the token proxy stay there: a frame proved along the structure of the
    code.  No code of /repo is modelled here. *)

From Coq Require Import ZifyBool ZifyNat ZifyN.
From Verif Require Export Vacant Nested TpDeposit.
Ltac Zify.zify_post_hook ::= Z.div_mod_to_equations.
Open Scope Z_scope.
Open Scope list_scope.

(** Nothing but [z] lamports or more is at [k]. *)
Definition dusty (s : state) (k : key) (z : Z) : Prop := own (accs s k) = sys_id /\ dat (accs s k) = [] /\ z <= lam (accs s k).

(** [rel_bind] that keeps what the first step did. *)
Lemma rel_bind_eq (R : state -> state -> Prop) (T : forall a b c, R a b -> R b c -> R a c) {A B} (m : M A) (f : A -> M B) :
  rel R m -> (forall a s s', m s = Ok (a, s') -> rel R (f a)) -> rel R (bind m f).
Proof. intros Hm Hf s y s' H. apply bind_ok in H as (a & s1 & H1 & H2). eapply T; [apply (Hm _ _ _ H1)|apply (Hf _ _ _ H1 _ _ _ H2)]. Qed.

Section Dust.
  Context (e : env) (k : key) (z : Z) (Z0 : 0 < z).
  Definition dustR (s s' : state) : Prop := dusty s k z -> dusty s' k z.
  Lemma dust_refl s : dustR s s. Proof. intros H; exact H. Qed.
  Lemma dust_trans a b c : dustR a b -> dustR b c -> dustR a c. Proof. unfold dustR. auto. Qed.
  Lemma dust_log s b : dustR s (put_log s b). Proof. intros H; exact H. Qed.

  Lemma dust_set_data c j d : c_pid c <> sys_id -> rel dustR (set_data c j d).
  Proof.
    intros NS s x s' H (O & D & L). apply set_data_ok in H as [-> H]. unfold dusty. rewrite own_put_dat, lam_put_dat. split; [exact O|]. split; [|exact L].
    unfold put_dat. destruct (key_dec k j) as [->|N]; [|rewrite accs_put_other by exact N; exact D].
    rewrite accs_put_same. cbn [dat]. destruct H as [<-|[E _]]; [exact D|congruence].
  Qed.
  Lemma dust_set_lam c j n : c_pid c <> sys_id -> rel dustR (set_lam c j n).
  Proof.
    intros NS s x s' H (O & D & L). apply set_lam_ok in H as [-> H]. unfold dusty. rewrite own_put_lam, dat_put_lam. split; [exact O|]. split; [exact D|].
    destruct (key_dec k j) as [->|N]; [|rewrite lam_put_lam_other by exact N; exact L]. rewrite lam_put_lam.
    destruct H as [->|[_ [H|E]]]; [exact L|lia|congruence].
  Qed.
  Lemma dust_set_own c j o : c_pid c <> sys_id -> rel dustR (set_own c j o).
  Proof.
    intros NS s x s' H (O & D & L). apply set_own_ok in H as [-> H]. unfold dusty. rewrite dat_put_own, lam_put_own. split; [|auto].
    unfold put_own. destruct (key_dec k j) as [->|N]; [|rewrite accs_put_other by exact N; exact O].
    rewrite accs_put_same. cbn [own]. destruct H as [<-|[E _]]; [exact O|congruence].
  Qed.
  Lemma dust_transfer c a b n : c_sg c k = false -> 0 <= n -> rel dustR (sys_transfer c a b n).
  Proof.
    intros NS N0 s x s' H (O & D & L). apply sys_transfer_ok in H as (S & _ & _ & SO & _ & DL & _). destruct (SO k) as [O' D'].
    split; [congruence|]. split; [congruence|]. specialize (DL k). cbv beta in DL. assert (N : k <> a) by (intros <-; congruence).
    unfold at_key in DL. rewrite (keqb_ne k a) in DL by exact N. destruct (keqb k b); lia.
  Qed.
  Lemma dust_allocate c j n : c_sg c k = false -> rel dustR (sys_allocate c j n).
  Proof.
    intros NS s x s' H (O & D & L). apply sys_allocate_ok in H as (S & _ & _ & ->). assert (N : k <> j) by (intros <-; congruence).
    unfold dusty. rewrite own_put_dat, lam_put_dat. unfold put_dat. rewrite accs_put_other by exact N. auto.
  Qed.
  Lemma dust_assign c j o : c_sg c k = false -> rel dustR (sys_assign c j o).
  Proof.
    intros NS s x s' H (O & D & L). apply sys_assign_ok in H as [[_ ->]|(_ & -> & S)]; [split; auto|].
    assert (N : k <> j) by (intros <-; congruence). unfold dusty. rewrite own_put_own_other by exact N. rewrite dat_put_own, lam_put_own. auto.
  Qed.
  Lemma dust_sys_create c a b l n o : c_sg c k = false -> 0 <= l -> rel dustR (sys_create c a b l n o).
  Proof.
    intros NS L0 s x s' H (O & D & L). apply sys_create_ok in H as (C & S1 & S2 & _ & _ & DL & _). destruct C as (_ & _ & _ & _ & _ & C).
    assert (N : k <> b) by (intros <-; congruence). assert (N' : k <> a) by (intros <-; congruence). destruct (C k N) as [O' D'].
    split; [congruence|]. split; [congruence|]. specialize (DL k). cbv beta in DL. unfold at_key in DL. rewrite (keqb_ne k a), (keqb_ne k b) in DL by assumption. lia.
  Qed.
  (** The creation of an account at its own derived address. *)
  Lemma dust_create c a b l n o sd : c_sg c k = false -> (e_pda e sd (c_pid c) = Some k -> b = k) -> rel dustR (invoke_create e c a b l n o sd).
  Proof.
    intros NS PB s x s' H (O & D & L). apply invoke_create_ok in H as (C & _ & DL & _ & (p & PD & SF & ST) & _). destruct C as (_ & _ & CL & _ & _ & C).
    assert (N : k <> b) by (intros <-; lia).
    assert (N' : k <> a). { intros <-. destruct SF as [SF|SF]; [congruence|]. rewrite <- SF in PD. apply N. symmetry. apply PB. exact PD. }
    destruct (C k N) as [O' D']. split; [congruence|]. split; [congruence|].
    specialize (DL k). cbv beta in DL. unfold at_key in DL. rewrite (keqb_ne k a), (keqb_ne k b) in DL by assumption. lia.
  Qed.
  Lemma dust_cpi c infos q ms pdas f : (forall c', c_pid c' = q -> (c_sg c k = false -> inb k pdas = false -> c_sg c' k = false) -> rel dustR (f c')) -> rel dustR (cpi c infos q ms pdas f).
  Proof. intros H s x s' E. apply cpi_inv in E as [E M]. eapply H; [|intros A B; eapply cpi_unsigned; eassumption|exact E]. reflexivity. Qed.
End Dust.

(** The address [k] is derived for the token proxy but for no proxy account, and it is no associated token account. *)
Definition plain_address (e : env) (k : key) : Prop := is_pda e tp_id k /\ ~ is_proxy e k /\ (forall sd, e_pda e sd ata_id <> Some k).

Lemma pda_signer_ok e c sd s p s' : pda_signer e c sd s = Ok (p, s') -> e_pda e sd (c_pid c) = Some p.
Proof. unfold pda_signer. intros H. apply lift_ok in H as [H _]. apply ok_or_ok in H. exact H. Qed.

Ltac dust_pid := match goal with E : c_pid ?c = _ |- c_pid ?c <> _ => rewrite E; discriminate end.
(** The signer of a call is not [k]. *)
Ltac dust_other := match goal with
  | |- inb _ [] = false => reflexivity
  | S : pda_signer ?e ?c ?sd _ = Ok (?p, _), PA : plain_address ?e ?k, E : c_pid ?c = _ |- inb ?k [?p] = false =>
      cbn [inb existsb]; rewrite keqb_ne; [reflexivity|];
      let X := fresh in intros X; rewrite <- X in S; apply pda_signer_ok in S; rewrite E in S;
      first [exact (proj2 (proj2 PA) _ S)|apply (proj1 (proj2 PA)); eexists _, _, _; exact S]
  end.
Ltac dust_sg := first [assumption|match goal with H : _ -> _ -> c_sg ?c' ?k = false |- c_sg ?c' ?k = false => apply H; [dust_sg|dust_other] end].
Lemma wrap64_nonneg n : 0 <= wrap64 n. Proof. unfold wrap64, u64max. lia. Qed.
Ltac dust_pos := first [assumption|apply wrap64_nonneg|lia].
Ltac dust_core k z :=
  match goal with
  | |- rel _ (set_data _ _ _) => apply dust_set_data; dust_pid
  | |- rel _ (set_lam _ _ _) => apply dust_set_lam; dust_pid
  | |- rel _ (set_own _ _ _) => apply dust_set_own; dust_pid
  | |- rel _ (sys_transfer _ _ _ _) => apply dust_transfer; [dust_sg|dust_pos]
  | |- rel _ (sys_allocate _ _ _) => apply dust_allocate; dust_sg
  | |- rel _ (sys_assign _ _ _) => apply dust_assign; dust_sg
  | |- rel _ (sys_create _ _ _ _ _ _) => apply dust_sys_create; [dust_sg|dust_pos]
  | |- rel _ (cpi _ _ _ _ _ _) => apply dust_cpi; intros ? ? ?
  | |- rel _ (bind _ _) => apply (rel_bind_eq _ (dust_trans k z)); [|intros ? ? ? ?]
  | |- rel _ (invoke_create _ _ _ _ _ _ _ _) => fail 1
  | |- rel _ (sys_transfer _ _ _ _) => fail 1
  | _ => touch_core (dust_refl k z) (dust_trans k z) (dust_log k z)
  end.

(** The creation of an account at the address the code has just derived. *)
Ltac dust_made :=
  apply dust_create; [assumption|dust_sg|];
  let X := fresh "X" in intros X;
  first
  [ match goal with F : lift (find_pda ?e ?sd ?p) _ = Ok ((?a, ?n), _), G : guard (keqb ?a ?b) _ _ = Ok _, X : e_pda ?e (with_bump ?sd ?n) ?p = Some ?k |- ?b = ?k =>
      apply lift_ok in F as [F _]; apply find_pda_some in F as [F _]; apply guard_ok in G as [G _]; apply keqb_eq in G; unfold with_bump in X; congruence end
  | match goal with D : deposit_address ?e ?c ?sd ?b _ = Ok ((_, ?n), _) |- _ =>
      apply deposit_address_ok in D as (_ & _ & D); cbn [snd] in D; apply find_pda_some in D as [D _]; unfold with_bump in X; congruence end ].
Ltac dust_step k z := first [match goal with |- rel _ (invoke_create _ _ _ _ _ _ _ _) => dust_made end|dust_core k z].

Section Exec.
  Context (e : env) (k : key) (z : Z) (Z0 : 0 < z) (PA : plain_address e k).
  Lemma dust_fill_loop c a b m d f : c_pid c = tp_id -> c_sg c k = false -> forall l x y, rel (dustR k z) (fill_loop e c a b m d f x y l).
  Proof.
    intros Hp NS. fix IH 1. intros [|j [|i l]] x y; cbn [fill_loop]; [repeat dust_step k z|repeat dust_step k z|].
    apply (rel_bind _ (dust_trans k z)); [repeat dust_step k z|intros [fee net]; apply IH].
  Qed.
  (** The lamports a caller sends along. *)
  Definition given (i : tp_ix) : Z := match i with
    | TpDepositEver _ _ _ v _ _ => v | TpDepositSol _ _ _ _ _ v _ _ => v | TpWithdrawEverRequest _ _ _ _ _ _ _ _ _ _ v => v
    | TpWithdrawSolRequest _ _ _ _ _ _ v => v | TpCancel _ _ v _ _ => v | TpFill _ _ _ v _ _ => v | _ => 0 end.
  Lemma given_nonneg i : okb c_tp_ix i = true -> 0 <= given i.
  Proof.
    intros O. destruct i; cbn [given]; try lia.
    - change (okb c_u128 seed && (okb c_u64 amount && (okb c_ever recipient && (okb c_u64 value && (true && okb c_bytes payload)))) = true) in O.
      rewrite !andb_true_iff, !okb_u64 in O. tauto.
    - change (okb c_u128 seed && (okb c_string name && (okb c_string symbol && (okb c_u64 amount && (okb c_ever recipient && (okb c_u64 value && (true && okb c_bytes payload)))))) = true) in O.
      rewrite !andb_true_iff, !okb_u64 in O. tauto.
    - change (okb c_u32 ts && (okb c_u64 lt && (true && (okb c_ever token && (okb c_string name && (okb c_string symbol && (okb c_u8 decimals && (true && (okb c_u128 amount && (okb c_bytes payload && okb c_u64 attached))))))))) = true) in O.
      rewrite !andb_true_iff, !okb_u64 in O. tauto.
    - change (okb c_u32 ts && (okb c_u64 lt && (true && (true && (okb c_u128 amount && (okb c_bytes payload && okb c_u64 attached))))) = true) in O.
      rewrite !andb_true_iff, !okb_u64 in O. tauto.
    - change (okb c_u128 seed && (okb c_ever recipient && (okb c_u64 value && (true && okb c_bytes payload))) = true) in O.
      rewrite !andb_true_iff, !okb_u64 in O. tauto.
    - change (okb c_u128 seed && (okb c_ever recipient && (okb c_u64 amount && (okb c_u64 value && (true && okb c_bytes payload)))) = true) in O.
      rewrite !andb_true_iff, !okb_u64 in O. tauto.
  Qed.
  (** Instructions other than payload executions. *)
  Lemma dust_tp_exec ext c i : c_pid c = tp_id -> c_sg c k = false -> okb c_tp_ix i = true -> is_payload i = false -> rel (dustR k z) (tp_exec e ext c i).
  Proof.
    intros Hp NS OI IP. pose proof (given_nonneg i OI) as GN. clear OI.
    destruct i; try discriminate IP; cbn [tp_exec given] in *;
    repeat match goal with
    | |- rel _ (fill_loop _ _ _ _ _ _ _ _ _ _) => apply dust_fill_loop; assumption
    | _ => dust_step k z end.
  Qed.
  Lemma dust_call ext c i s s' : tp_call e ext c i s s' -> is_payload i = false -> c_sg c k = false -> dusty s k z -> dusty s' k z.
  Proof. intros C IP NS. apply tp_call_exec in C as (Hp & OI & _ & H). apply (dust_tp_exec ext c i Hp NS OI IP _ _ _ H). Qed.

  (** Payload executions, however deep. *)
  Context (A : key -> Prop) (X : ctx -> state -> state -> Prop) (NA : ~ A k)
          (XD : forall c s s', X c s s' -> c_sg c k = false -> dusty s k z -> dusty s' k z).
  Lemma unsigned c : signs A c -> c_sg c k = false.
  Proof. intros S. destruct (c_sg c k) eqn:E; [|reflexivity]. exfalso. exact (NA (S _ E)). Qed.
  Lemma packed_dust {T} c (cd : codec T) n s s' j x : c_pid c = tp_id -> packed c cd n s s' j x -> dusty s k z -> dusty s' k z.
  Proof.
    intros Hp (-> & _ & _ & K) (O & D & L). unfold dusty. rewrite own_put_dat, lam_put_dat. split; [exact O|]. split; [|exact L].
    destruct (key_dec k j) as [->|N]; [|unfold put_dat; rewrite accs_put_other by exact N; exact D].
    destruct K as [->|[E _]]; [exact D|]. rewrite O, Hp in E. discriminate.
  Qed.
  Lemma dust_steps l s s' : steps e A X l s s' -> dusty s k z -> dusty s' k z.
  Proof.
    intros H. induction H as [s|c s s' _ S F|c ext i s s' S I C|l1 l2 s s1 s2 _ IH1 _ IH2|c i l s s1 s' P S I _ IH Q]; intros D.
    - exact D.
    - eapply XD; [exact F|apply unsigned; exact S|exact D].
    - eapply dust_call; [exact C|exact I|apply unsigned; exact S|exact D].
    - auto.
    - apply IH in D. destruct Q as (j & [(_ & _ & w & m & pn & _ & _ & _ & Q)|(_ & _ & w & m & pn & _ & _ & _ & Q)]); (eapply packed_dust; [exact P|exact Q|exact D]).
  Qed.
End Exec.

(** Instructions of the round loader. *)
Lemma dust_rl_exec e k z c i : 0 < z -> c_pid c = rl_id -> c_sg c k = false -> rel (dustR k z) (rl_exec e c i).
Proof.
  intros Z0 Hp NS. destruct i; cbn [rl_exec]; repeat dust_step k z.
Qed.
