(** Inversion lemmas for the runtime layer: what a successful computation says about the state
    before and after it. *)

From Coq Require Import ZifyBool ZifyNat ZifyN.
From Verif Require Export TypesLaws Runtime.
Ltac Zify.zify_post_hook ::= Z.div_mod_to_equations.

Lemma keqb_ne a b : a <> b -> keqb a b = false.
Proof. apply keqb_neq. Qed.

(** ** Reading an updated state *)

Lemma accs_put_same s k a : accs (put s k a) k = a.
Proof. unfold put, upd. cbn [accs]. rewrite keqb_refl. reflexivity. Qed.
Lemma accs_put_other s k a k' : k' <> k -> accs (put s k a) k' = accs s k'.
Proof. intros H. unfold put, upd. cbn [accs]. rewrite keqb_ne by assumption. reflexivity. Qed.

Lemma own_put_dat s k d k' : own (accs (put_dat s k d) k') = own (accs s k').
Proof.
  unfold put_dat. destruct (key_dec k' k) as [->|H];
  [rewrite accs_put_same|rewrite accs_put_other by assumption]; reflexivity.
Qed.
Lemma lam_put_dat s k d k' : lam (accs (put_dat s k d) k') = lam (accs s k').
Proof.
  unfold put_dat. destruct (key_dec k' k) as [->|H];
  [rewrite accs_put_same|rewrite accs_put_other by assumption]; reflexivity.
Qed.
Lemma dat_put_dat s k d : dat (accs (put_dat s k d) k) = d.
Proof. unfold put_dat. rewrite accs_put_same. reflexivity. Qed.
Lemma dat_put_dat_other s k d k' : k' <> k -> dat (accs (put_dat s k d) k') = dat (accs s k').
Proof. intros H. unfold put_dat. rewrite accs_put_other by assumption. reflexivity. Qed.

Lemma own_put_lam s k d k' : own (accs (put_lam s k d) k') = own (accs s k').
Proof.
  unfold put_lam. destruct (key_dec k' k) as [->|H];
  [rewrite accs_put_same|rewrite accs_put_other by assumption]; reflexivity.
Qed.
Lemma dat_put_lam s k d k' : dat (accs (put_lam s k d) k') = dat (accs s k').
Proof.
  unfold put_lam. destruct (key_dec k' k) as [->|H];
  [rewrite accs_put_same|rewrite accs_put_other by assumption]; reflexivity.
Qed.
Lemma lam_put_lam s k d : lam (accs (put_lam s k d) k) = d.
Proof. unfold put_lam. rewrite accs_put_same. reflexivity. Qed.
Lemma lam_put_lam_other s k d k' : k' <> k -> lam (accs (put_lam s k d) k') = lam (accs s k').
Proof. intros H. unfold put_lam. rewrite accs_put_other by assumption. reflexivity. Qed.

Lemma lam_put_own s k d k' : lam (accs (put_own s k d) k') = lam (accs s k').
Proof.
  unfold put_own. destruct (key_dec k' k) as [->|H];
  [rewrite accs_put_same|rewrite accs_put_other by assumption]; reflexivity.
Qed.
Lemma dat_put_own s k d k' : dat (accs (put_own s k d) k') = dat (accs s k').
Proof.
  unfold put_own. destruct (key_dec k' k) as [->|H];
  [rewrite accs_put_same|rewrite accs_put_other by assumption]; reflexivity.
Qed.
Lemma own_put_own s k d : own (accs (put_own s k d) k) = d.
Proof. unfold put_own. rewrite accs_put_same. reflexivity. Qed.
Lemma own_put_own_other s k d k' : k' <> k -> own (accs (put_own s k d) k') = own (accs s k').
Proof. intros H. unfold put_own. rewrite accs_put_other by assumption. reflexivity. Qed.

(** ** Computations *)

Lemma bind_ok {A B} (m : M A) (f : A -> M B) s r :
  bind m f s = Ok r -> exists a s1, m s = Ok (a, s1) /\ f a s1 = Ok r.
Proof. unfold bind. destruct (m s) as [[a s1]|]; [eauto|discriminate]. Qed.
Lemma lift_ok {A} (r : res A) s a s' : lift r s = Ok (a, s') -> r = Ok a /\ s' = s.
Proof. unfold lift. destruct r; [|discriminate]. intros H; injection H as <- <-. auto. Qed.
Lemma guard_ok b er s a s' : guard b er s = Ok (a, s') -> b = true /\ s' = s.
Proof. unfold guard. destruct b; [|discriminate]. intros H; injection H as <- <-. auto. Qed.
Lemma get_ok k s a s' : get k s = Ok (a, s') -> a = accs s k /\ s' = s.
Proof. unfold get. intros H; injection H as <- <-. auto. Qed.
Lemma data_ok k s a s' : data k s = Ok (a, s') -> a = dat (accs s k) /\ s' = s.
Proof. unfold data, bind, get, ret. intros H; injection H as <- <-. auto. Qed.
Lemma ret_ok {A} (x : A) s a s' : ret x s = Ok (a, s') -> a = x /\ s' = s.
Proof. unfold ret. intros H; injection H as <- <-. auto. Qed.
Lemma emit_ok b s a s' : emit b s = Ok (a, s') -> s' = put_log s b.
Proof. unfold emit. intros H; injection H as <- <-. auto. Qed.
Lemma ok_or_ok {A} (o : option A) er a : ok_or o er = Ok a -> o = Some a.
Proof. destruct o; [|discriminate]. cbn. intros H; injection H as ->. reflexivity. Qed.
Lemma rbind_ok {A B} (r : res A) (f : A -> res B) b : rbind r f = Ok b -> exists a, r = Ok a /\ f a = Ok b.
Proof. destruct r; [eauto|discriminate]. Qed.
Lemma check_rent_ok k s a s' : check_rent k s = Ok (a, s') -> k = rent_id /\ s' = s.
Proof. unfold check_rent. intros H. apply guard_ok in H as [H ->]. apply keqb_eq in H. auto. Qed.
Lemma check_clock_ok k s a s' : check_clock k s = Ok (a, s') -> k = clock_id /\ a = now s /\ s' = s.
Proof.
  unfold check_clock. intros H. apply bind_ok in H as (x & s1 & H & H2).
  apply guard_ok in H as [H ->]. injection H2 as <- <-. apply keqb_eq in H. auto.
Qed.
Lemma unpack_at_ok {A} (c : codec A) LEN ini k s x s' :
  unpack_at c LEN ini k s = Ok (x, s') -> unpack c LEN ini (dat (accs s k)) = Ok x /\ s' = s.
Proof.
  unfold unpack_at. intros H. apply bind_ok in H as (d & s1 & H & H2).
  apply data_ok in H as [-> ->]. apply lift_ok in H2. exact H2.
Qed.
Lemma pda_signer_ok e c sd s p s' :
  pda_signer e c sd s = Ok (p, s') -> e_pda e sd (c_pid c) = Some p /\ s' = s.
Proof. unfold pda_signer. intros H. apply lift_ok in H as [H ->]. apply ok_or_ok in H. auto. Qed.

(** One head step of a successful computation [H].  Conditionals are left to the caller. *)
Ltac msimple H :=
  lazymatch type of H with
  | guard _ _ _ = Ok _ => apply guard_ok in H; let E := fresh "E" in destruct H as [H E]; subst
  | lift _ _ = Ok _ => apply lift_ok in H; let E := fresh "E" in destruct H as [H E]; subst
  | get _ _ = Ok _ => apply get_ok in H; let E := fresh "E" in destruct H as [H E]; subst
  | data _ _ = Ok _ => apply data_ok in H; let E := fresh "E" in destruct H as [H E]; subst
  | ret _ _ = Ok _ => apply ret_ok in H; let E := fresh "E" in destruct H as [H E]; subst
  | check_rent _ _ = Ok _ => apply check_rent_ok in H; let E := fresh "E" in destruct H as [H E]; subst
  | check_clock _ _ = Ok _ =>
      apply check_clock_ok in H; let E := fresh "E" in let E2 := fresh "E" in
      destruct H as [H [E E2]]; subst
  | unpack_at _ _ _ _ _ = Ok _ => apply unpack_at_ok in H; let E := fresh "E" in destruct H as [H E]; subst
  | pda_signer _ _ _ _ = Ok _ => apply pda_signer_ok in H; let E := fresh "E" in destruct H as [H E]; subst
  | emit _ _ = Ok _ => apply emit_ok in H; subst
  | fail _ _ = Ok _ => discriminate H
  | _ => idtac
  end.
Ltac mstep H :=
  lazymatch type of H with
  | bind _ _ _ = Ok _ =>
      let a := fresh "v" in let s1 := fresh "s" in let H1 := fresh "H" in
      apply bind_ok in H; destruct H as (a & s1 & H1 & H); msimple H1; cbv beta in H
  | (match ?v with pair _ _ => _ end) _ = Ok _ => destruct v; cbv beta iota in H
  | (let _ := _ in _) _ = Ok _ => cbv zeta in H
  | _ => fail
  end.
Ltac minv H := repeat mstep H; msimple H.
(** The account list of a handler. *)
Ltac mkeys H :=
  repeat lazymatch type of H with
  | (match ?l with nil => _ | cons _ _ => _ end) _ = Ok _ =>
      first [ is_var l; destruct l; [discriminate H|]
            | let E := fresh "EK" in destruct l eqn:E; [discriminate H|] ]
  end.

(** ** Writes *)

Lemma set_data_ok c k d s a s' : set_data c k d s = Ok (a, s') ->
  s' = put_dat s k d /\
  (dat (accs s k) = d \/ own (accs s k) = c_pid c /\ c_wr c k = true).
Proof.
  unfold set_data. destruct (_ || _) eqn:E; [|discriminate]. intros H; injection H as <- <-.
  split; [reflexivity|]. apply orb_true_iff in E as [E|E].
  - left. apply beqb_eq. exact E.
  - right. apply andb_true_iff in E as [E1 E2]. apply keqb_eq in E1. auto.
Qed.
Lemma set_lam_ok c k z s a s' : set_lam c k z s = Ok (a, s') ->
  s' = put_lam s k z /\
  (z = lam (accs s k) \/
   c_wr c k = true /\ (lam (accs s k) < z \/ own (accs s k) = c_pid c)).
Proof.
  unfold set_lam. destruct (_ && _) eqn:E; [|discriminate]. intros H; injection H as <- <-.
  apply andb_true_iff in E as [_ E]. split; [reflexivity|]. apply orb_true_iff in E as [E|E].
  - left. apply Z.eqb_eq. exact E.
  - right. apply andb_true_iff in E as [E1 E2]. split; [exact E1|].
    apply orb_true_iff in E2 as [E2|E2]; [left; apply Z.ltb_lt; exact E2|right; apply keqb_eq; exact E2].
Qed.
Lemma set_lam_nn c k z s a s' : set_lam c k z s = Ok (a, s') -> 0 <= z.
Proof.
  unfold set_lam. destruct (_ && _) eqn:E; [|discriminate]. intros _. apply andb_true_iff in E as [E _].
  apply Z.leb_le. exact E.
Qed.
Lemma set_own_ok c k o s a s' : set_own c k o s = Ok (a, s') ->
  s' = put_own s k o /\
  (own (accs s k) = o \/
   own (accs s k) = c_pid c /\ c_wr c k = true /\ all0 (dat (accs s k)) = true).
Proof.
  unfold set_own. destruct (_ || _) eqn:E; [|discriminate]. intros H; injection H as <- <-.
  split; [reflexivity|]. apply orb_true_iff in E as [E|E].
  - left. apply keqb_eq. exact E.
  - right. apply andb_true_iff in E as [E1 E3]. apply andb_true_iff in E1 as [E1 E2].
    apply keqb_eq in E1. auto.
Qed.
Lemma pack_at_ok {A} cx (c : codec A) LEN k x s a s' : pack_at cx c LEN k x s = Ok (a, s') ->
  exists d', pack c LEN x (dat (accs s k)) = Ok d' /\ s' = put_dat s k d' /\
  (dat (accs s k) = d' \/ own (accs s k) = c_pid cx /\ c_wr cx k = true).
Proof.
  unfold pack_at. intros H. minv H. apply set_data_ok in H as [-> H]. eauto.
Qed.

(** ** Frames: owner and data *)

Definition same_od (s s' : state) (k : key) : Prop :=
  own (accs s' k) = own (accs s k) /\ dat (accs s' k) = dat (accs s k).
(** No owner and no data changed. *)
Definition sod (s s' : state) : Prop := forall k, same_od s s' k.
(** Only token accounts and mints (owned by the token program, or empty system accounts that become
    so) changed. *)
Definition quiet (s s' : state) : Prop := forall k,
  same_od s s' k \/
  (own (accs s' k) = spl_id /\
   (own (accs s k) = spl_id \/ own (accs s k) = sys_id /\ dat (accs s k) = [])).

Lemma same_od_refl s k : same_od s s k.
Proof. split; reflexivity. Qed.
Lemma same_od_trans a b c k : same_od a b k -> same_od b c k -> same_od a c k.
Proof. intros [H1 H2] [H3 H4]. split; congruence. Qed.
Lemma sod_refl s : sod s s.
Proof. intros k. apply same_od_refl. Qed.
Lemma sod_trans a b c : sod a b -> sod b c -> sod a c.
Proof. intros H1 H2 k. eapply same_od_trans; eauto. Qed.
Lemma sod_quiet s s' : sod s s' -> quiet s s'.
Proof. intros H k. left. apply H. Qed.
Lemma quiet_refl s : quiet s s.
Proof. apply sod_quiet, sod_refl. Qed.
Lemma quiet_trans a b c : quiet a b -> quiet b c -> quiet a c.
Proof.
  intros H1 H2 k. destruct (H1 k) as [[E1 E2]|[E1 E2]], (H2 k) as [[F1 F2]|[F1 F2]].
  - left. split; congruence.
  - right. rewrite <- E1, <- E2. auto.
  - right. split; [congruence|assumption].
  - right. auto.
Qed.
Lemma spl_ne_sys : spl_id <> sys_id. Proof. discriminate. Qed.
Lemma tp_ne_spl : tp_id <> spl_id. Proof. discriminate. Qed.
Lemma tp_ne_sys : tp_id <> sys_id. Proof. discriminate. Qed.
Lemma rl_ne_spl : rl_id <> spl_id. Proof. discriminate. Qed.
Lemma rl_ne_sys : rl_id <> sys_id. Proof. discriminate. Qed.
Lemma tp_ne_rl : tp_id <> rl_id. Proof. discriminate. Qed.

(** Accounts of other programs are untouched by a quiet step. *)
Lemma quiet_keep s s' k : quiet s s' -> own (accs s k) <> spl_id -> own (accs s k) <> sys_id ->
  same_od s s' k.
Proof. intros H H1 H2. destruct (H k) as [E|[_ [E|[E _]]]]; [exact E|contradiction|contradiction]. Qed.
(** An account of another program after a quiet step was there before. *)
Lemma quiet_back s s' k : quiet s s' -> own (accs s' k) <> spl_id -> same_od s s' k.
Proof. intros H H1. destruct (H k) as [E|[E _]]; [exact E|contradiction]. Qed.

Lemma sod_put_log s b : sod s (put_log s b).
Proof. intros k. split; reflexivity. Qed.
Lemma sod_put_lam s k z : sod s (put_lam s k z).
Proof. intros k'. split; [apply own_put_lam|apply dat_put_lam]. Qed.
Lemma same_od_put_dat_other s k d k' : k' <> k -> same_od s (put_dat s k d) k'.
Proof. intros H. split; [apply own_put_dat|apply dat_put_dat_other; assumption]. Qed.
Lemma same_od_put_dat_same s k : same_od s (put_dat s k (dat (accs s k))) k.
Proof. split; [apply own_put_dat|apply dat_put_dat]. Qed.
Lemma sod_put_dat_same s k : sod s (put_dat s k (dat (accs s k))).
Proof.
  intros k'. destruct (key_dec k' k) as [->|H];
  [apply same_od_put_dat_same|apply same_od_put_dat_other; assumption].
Qed.

(** Logs and clock unchanged. *)
Definition same_env (s s' : state) : Prop := logs s' = logs s /\ now s' = now s.
Lemma same_env_refl s : same_env s s. Proof. split; reflexivity. Qed.
Lemma same_env_trans a b c : same_env a b -> same_env b c -> same_env a c.
Proof. intros [? ?] [? ?]. split; congruence. Qed.

(** Lamport changes: [k] gains [f k]. *)
Definition dlam (s s' : state) (f : key -> Z) : Prop :=
  forall k, lam (accs s' k) = lam (accs s k) + f k.
Definition at_key (a : key) (z : Z) (k : key) : Z := if keqb k a then z else 0.
Lemma at_same a z : at_key a z a = z.
Proof. unfold at_key. rewrite keqb_refl. reflexivity. Qed.
Lemma at_other a z k : k <> a -> at_key a z k = 0.
Proof. intros H. unfold at_key. rewrite keqb_ne by assumption. reflexivity. Qed.

(** ** CPI *)

Lemma inb_In k l : inb k l = true <-> In k l.
Proof.
  unfold inb. rewrite existsb_exists. split.
  - intros (x & H & E). apply keqb_eq in E as ->. exact H.
  - intros H. exists k. split; [exact H|apply keqb_refl].
Qed.

(** Privileges an instruction with metas [ms] and signers [pdas] takes from its caller [c]. *)
Definition cpi_ok (c : ctx) (pid : key) (ms : list meta) (pdas : list key) : Prop :=
  In pid (c_keys c) /\
  forall m, In m ms -> In (m_key m) (c_keys c) /\
    (m_sg m = true -> c_sg c (m_key m) = true \/ In (m_key m) pdas) /\
    (m_wr m = true -> c_wr c (m_key m) = true).

Lemma cpi_inv c infos pid ms pdas f s a s' : cpi c infos pid ms pdas f s = Ok (a, s') ->
  f (ctx_of pid ms) s = Ok (a, s') /\ cpi_ok c pid ms pdas.
Proof.
  unfold cpi. intros H. minv H. split; [exact H|]. split; [apply inb_In; assumption|].
  intros m Hm. match goal with E : forallb _ _ = true |- _ => rewrite forallb_forall in E; apply E in Hm end.
  unfold meta_ok in Hm. rewrite !andb_true_iff, !orb_true_iff, !negb_true_iff in Hm.
  destruct Hm as [[[_ Hk] Hs] Hw]. apply inb_In in Hk. rewrite inb_In in Hs.
  split; [exact Hk|]. split.
  - intros E. rewrite E in Hs. destruct Hs as [[?|?]|?]; [discriminate|auto|auto].
  - intros E. rewrite E in Hw. destruct Hw; [discriminate|assumption].
Qed.

Lemma ctx_of_sg pid ms k : c_sg (ctx_of pid ms) k = true ->
  exists m, In m ms /\ m_key m = k /\ m_sg m = true.
Proof.
  cbn [ctx_of c_sg]. rewrite existsb_exists. intros (m & H & E). apply andb_true_iff in E as [E1 E2].
  apply keqb_eq in E1. eauto.
Qed.
Lemma ctx_of_wr pid ms k : c_wr (ctx_of pid ms) k = true ->
  exists m, In m ms /\ m_key m = k /\ m_wr m = true.
Proof.
  cbn [ctx_of c_wr]. rewrite existsb_exists. intros (m & H & E). apply andb_true_iff in E as [E1 E2].
  apply keqb_eq in E1. eauto.
Qed.
Lemma cpi_sg c pid ms pdas k : cpi_ok c pid ms pdas -> c_sg (ctx_of pid ms) k = true ->
  c_sg c k = true \/ In k pdas.
Proof. intros [_ H] E. apply ctx_of_sg in E as (m & Hm & <- & Es). apply H in Hm. tauto. Qed.
Lemma cpi_wr c pid ms pdas k : cpi_ok c pid ms pdas -> c_wr (ctx_of pid ms) k = true -> c_wr c k = true.
Proof. intros [_ H] E. apply ctx_of_wr in E as (m & Hm & <- & Es). apply H in Hm. tauto. Qed.

(** ** System program *)

Lemma blen0_nil {A} (l : list A) : (blen l =? 0) = true -> l = [].
Proof. destruct l; [reflexivity|]. unfold blen. cbn [length]. intros H. lia. Qed.

Lemma sys_transfer_ok c from to amt s a s' : sys_transfer c from to amt s = Ok (a, s') ->
  c_sg c from = true /\ dat (accs s from) = [] /\ amt <= lam (accs s from) /\
  sod s s' /\ same_env s s' /\
  dlam s s' (fun k => at_key to amt k - at_key from amt k) /\
  (amt = 0 \/ c_wr c from = true /\ (amt < 0 \/ own (accs s from) = c_pid c)).
Proof.
  unfold sys_transfer. intros H. minv H.
  match goal with X : set_lam c from _ _ = _ |- _ => apply set_lam_ok in X as [-> X]; rename X into Hf end.
  apply set_lam_ok in H as [-> H].
  match goal with X : (blen _ =? 0) = true |- _ => apply blen0_nil in X end.
  split; [assumption|]. split; [assumption|]. split; [lia|].
  split; [eapply sod_trans; apply sod_put_lam|]. split; [split; reflexivity|]. split.
  - intros k. destruct (key_dec k to) as [->|Ht].
    + rewrite lam_put_lam, at_same. destruct (key_dec to from) as [->|Hn].
      * rewrite lam_put_lam, at_same. lia.
      * rewrite lam_put_lam_other, at_other by assumption. lia.
    + rewrite lam_put_lam_other, (at_other to) by assumption. destruct (key_dec k from) as [->|Hn].
      * rewrite lam_put_lam, at_same. lia.
      * rewrite lam_put_lam_other, at_other by assumption. lia.
  - destruct Hf as [Hf|[Hw Hf]]; [left; lia|right]. split; [exact Hw|].
    destruct Hf; [left; lia|right; assumption].
Qed.

Lemma all0_repeat n : all0 (repeat x00 n) = true.
Proof. unfold all0. induction n; [reflexivity|]. cbn [repeat forallb]. rewrite IHn. reflexivity. Qed.

(** What becomes of the address [to] when an account is created there. *)
Definition created (s s' : state) (to owner : key) (space : Z) : Prop :=
  own (accs s to) = sys_id /\ dat (accs s to) = [] /\ lam (accs s to) <= 0 /\
  own (accs s' to) = owner /\ dat (accs s' to) = repeat x00 (Z.to_nat space) /\
  forall k, k <> to -> same_od s s' k.

Lemma sys_allocate_ok c k space s a s' : sys_allocate c k space s = Ok (a, s') ->
  c_sg c k = true /\ dat (accs s k) = [] /\ own (accs s k) = sys_id /\
  s' = put_dat s k (repeat x00 (Z.to_nat space)).
Proof.
  unfold sys_allocate. intros H. minv H. apply set_data_ok in H as [-> _].
  match goal with X : _ && _ = true |- _ => apply andb_true_iff in X as [X1 X2] end.
  apply blen0_nil in X1. apply keqb_eq in X2. auto.
Qed.
Lemma sys_assign_ok c k owner s a s' : sys_assign c k owner s = Ok (a, s') ->
  (own (accs s k) = owner /\ s' = s) \/ (own (accs s k) <> owner /\ s' = put_own s k owner /\ c_sg c k = true).
Proof.
  unfold sys_assign. intros H. minv H. destruct (keqb (own (accs s k)) owner) eqn:E.
  - minv H. left. split; [apply keqb_eq; exact E|reflexivity].
  - minv H. apply set_own_ok in H as [-> _]. right. apply keqb_neq in E. auto.
Qed.

Lemma sys_create_ok c from to lamports space owner s a s' :
  sys_create c from to lamports space owner s = Ok (a, s') ->
  created s s' to owner space /\ c_sg c from = true /\ c_sg c to = true /\
  lamports <= lam (accs s from) /\
  same_env s s' /\ dlam s s' (fun k => at_key to lamports k - at_key from lamports k) /\
  (0 < lamports -> (c_wr c from = true /\ own (accs s from) = c_pid c) \/ from = to).
Proof.
  unfold sys_create. intros H. mstep H. mstep H. rename H0 into Hl0.
  apply bind_ok in H as (x1 & s1 & Ha & H). apply bind_ok in H as (x2 & s2 & Hb & H).
  apply sys_allocate_ok in Ha as (A1 & A2 & A3 & Ea).
  apply sys_assign_ok in Hb.
  apply sys_transfer_ok in H as (T1 & T2 & T3 & T4 & T5 & T6 & T7).
  assert (Hs2 : (s2 = s1 /\ own (accs s1 to) = owner) \/ s2 = put_own s1 to owner) by tauto.
  assert (Ho : own (accs s2 to) = owner).
  { destruct Hs2 as [[-> E]| ->]; [exact E|apply own_put_own]. }
  assert (Hd : forall k, dat (accs s2 k) = dat (accs s1 k)).
  { intros k. destruct Hs2 as [[-> _]| ->]; [reflexivity|apply dat_put_own]. }
  assert (Hl : forall k, lam (accs s2 k) = lam (accs s k)).
  { intros k. subst s1. destruct Hs2 as [[-> _]| ->]; [|rewrite lam_put_own]; apply lam_put_dat. }
  assert (Ho2 : forall k, k <> to -> own (accs s2 k) = own (accs s k)).
  { intros k Hk. subst s1. destruct Hs2 as [[-> _]| ->]; [|rewrite own_put_own_other by assumption]; apply own_put_dat. }
  assert (He : same_env s s2).
  { subst s1. destruct Hs2 as [[-> _]| ->]; split; reflexivity. }
  split; [|split; [exact T1|split; [assumption|]]].
  - unfold created. split; [assumption|]. split; [assumption|]. split; [lia|].
    destruct (T4 to) as [E1 E2]. split; [congruence|]. split.
    + rewrite E2, Hd, Ea. apply dat_put_dat.
    + intros k Hk. destruct (T4 k) as [F1 F2]. split; [rewrite F1; apply Ho2; assumption|].
      rewrite F2, Hd, Ea. apply dat_put_dat_other. assumption.
  - split; [rewrite <- Hl; exact T3|]. split; [|split].
    + eapply same_env_trans; eassumption.
    + intros k. rewrite T6, Hl. reflexivity.
    + intros Hp. destruct (key_dec from to) as [->|Hn]; [right; reflexivity|left].
      destruct T7 as [T7|[T7 [T8|T8]]]; [lia|lia|]. split; [exact T7|]. rewrite <- T8. symmetry. auto.
Qed.

(** ** The invoke wrappers *)

Lemma invoke_transfer_ok c from to amt s a s' : invoke_transfer c from to amt s = Ok (a, s') ->
  c_sg c from = true /\ dat (accs s from) = [] /\ amt <= lam (accs s from) /\
  sod s s' /\ same_env s s' /\
  dlam s s' (fun k => at_key to amt k - at_key from amt k) /\
  c_wr c from = true /\ c_wr c to = true /\ (0 < amt -> own (accs s from) = sys_id) /\ In sys_id (c_keys c).
Proof.
  unfold invoke_transfer. intros H. apply cpi_inv in H as [H P].
  apply sys_transfer_ok in H as (T1 & T2 & T3 & T4 & T5 & T6 & T7).
  pose proof P as P0. destruct P as [P1 P2].
  destruct (P2 (Meta from true true)) as (_ & Q1 & Q2); [left; reflexivity|].
  destruct (P2 (Meta to false true)) as (_ & _ & Q3); [right; left; reflexivity|].
  cbn [m_sg m_wr m_key] in *.
  destruct (Q1 eq_refl) as [Q|[]].
  repeat split; auto; try apply T5; try apply T4. intros Hp. destruct T7 as [?|[_ [?|T7]]]; [lia|lia|exact T7].
Qed.

Lemma invoke_create_ok e c from to lamports space owner sd s a s' :
  invoke_create e c from to lamports space owner sd s = Ok (a, s') ->
  created s s' to owner space /\ same_env s s' /\
  dlam s s' (fun k => at_key to lamports k - at_key from lamports k) /\
  lamports <= lam (accs s from) /\
  (exists p, e_pda e sd (c_pid c) = Some p /\
     (c_sg c from = true \/ from = p) /\ (c_sg c to = true \/ to = p)) /\
  c_wr c from = true /\ c_wr c to = true /\
  (0 < lamports -> own (accs s from) = sys_id) /\ In sys_id (c_keys c).
Proof.
  unfold invoke_create. intros H. minv H. apply cpi_inv in H as [H P].
  apply sys_create_ok in H as (C & S1 & S2 & T3 & T5 & T6 & T7).
  destruct P as [P1 P2].
  destruct (P2 (Meta from true true)) as (_ & Q1 & Q2); [left; reflexivity|].
  destruct (P2 (Meta to true true)) as (_ & Q3 & Q4); [right; left; reflexivity|].
  cbn [m_sg m_wr m_key] in *.
  split; [exact C|]. split; [exact T5|]. split; [exact T6|]. split; [exact T3|].
  split; [|split; [auto|split; [auto|split; [|exact P1]]]].
  - eexists. split; [eassumption|]. cbn [In] in *.
    destruct (Q1 eq_refl) as [?|[?|[]]], (Q3 eq_refl) as [?|[?|[]]]; auto.
  - intros Hp. destruct (T7 Hp) as [[_ T]| ->]; [exact T|]. apply C.
Qed.

(** ** A whole instruction *)
Lemma run_ok c m s s' : run c m s = Ok s' ->
  m s = Ok (tt, s') /\ lam_sum (c_keys c) s = lam_sum (c_keys c) s'.
Proof.
  unfold run. destruct (m s) as [[[] s1]|]; [|discriminate].
  destruct (Z.eqb_spec (lam_sum (c_keys c) s) (lam_sum (c_keys c) s1)) as [E|]; [|discriminate].
  intros H; injection H as <-. auto.
Qed.

(** ** Derived addresses *)

Lemma find_from_some e sd pid n k b : find_from e sd pid n = Some (k, b) ->
  e_pda e (sd ++ [zb b]) pid = Some k /\ 1 <= b <= Z.of_nat n.
Proof.
  induction n as [|n IH]; cbn [find_from]; [discriminate|].
  destruct (e_pda e (sd ++ [zb (Z.of_nat (S n))]) pid) as [k'|] eqn:E.
  - intros H; injection H as <- <-. split; [exact E|lia].
  - intros H. apply IH in H as [H1 H2]. split; [exact H1|lia].
Qed.
Lemma find_pda_some e sd pid k b : find_pda e sd pid = Ok (k, b) ->
  e_pda e (sd ++ [zb b]) pid = Some k /\ 1 <= b <= 255.
Proof. unfold find_pda. intros H. apply ok_or_ok in H. apply find_from_some in H. exact H. Qed.

(** ** Lamport sums *)

Definition ksum (f : key -> Z) (l : list key) : Z := fold_right (fun k z => f k + z) 0 l.
Lemma dedup_In k l : In k (dedup l) <-> In k l.
Proof.
  induction l as [|x l IH]; [reflexivity|]. cbn [dedup]. destruct (inb x l) eqn:E.
  - apply inb_In in E. rewrite IH. split; [right; assumption|]. intros [->|H]; assumption.
  - cbn [In]. rewrite IH. reflexivity.
Qed.
Lemma dedup_NoDup l : NoDup (dedup l).
Proof.
  induction l as [|x l IH]; [constructor|]. cbn [dedup]. destruct (inb x l) eqn:E; [exact IH|].
  constructor; [|exact IH]. rewrite dedup_In. intros H. apply inb_In in H. congruence.
Qed.
Lemma ksum_at_out a z l : ~ In a l -> ksum (at_key a z) l = 0.
Proof.
  induction l as [|x l IH]; [reflexivity|]. intros H. cbn [ksum fold_right]. fold (ksum (at_key a z) l).
  rewrite IH by (intros X; apply H; right; exact X). rewrite at_other; [reflexivity|]. intros ->. apply H. left. reflexivity.
Qed.
Lemma ksum_at a z l : NoDup l -> In a l -> ksum (at_key a z) l = z.
Proof.
  induction l as [|x l IH]; [contradiction|]. intros N H. inversion N as [|y m N1 N2]. subst.
  cbn [ksum fold_right]. fold (ksum (at_key a z) l). destruct H as [->|H].
  - rewrite at_same, ksum_at_out by exact N1. lia.
  - rewrite IH by assumption. rewrite at_other; [lia|]. intros ->. contradiction.
Qed.
Lemma ksum_sub f g l : ksum (fun k => f k - g k) l = ksum f l - ksum g l.
Proof. induction l as [|x l IH]; [reflexivity|]. unfold ksum in *. cbn [fold_right]. lia. Qed.
Lemma lam_sum_dlam s s' f l : dlam s s' f -> lam_sum l s' = lam_sum l s + ksum f (dedup l).
Proof.
  intros D. unfold lam_sum, ksum. induction (dedup l) as [|x r IH]; [reflexivity|].
  cbn [fold_right]. rewrite D, IH. lia.
Qed.
(** A payment between two accounts of the instruction keeps the sum. *)
Lemma lam_sum_pay s s' a b z l : dlam s s' (fun k => at_key a z k - at_key b z k) ->
  In a l -> In b l -> lam_sum l s' = lam_sum l s.
Proof.
  intros D A B. rewrite (lam_sum_dlam _ _ _ _ D), ksum_sub, !ksum_at; try apply dedup_NoDup; try (apply dedup_In; assumption). lia.
Qed.
