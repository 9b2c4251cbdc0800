(** Histories in which no request record contains the address of its own account.  That address is derived from
    the hash of the event in the record, so a record that contains it is a fixed point of the hash.  No code of
    /repo is modelled here. *)

From Coq Require Import ZifyBool ZifyNat ZifyN.
From Verif Require Export Life.
Ltac Zify.zify_post_hook ::= Z.div_mod_to_equations.
Open Scope Z_scope.
Open Scope list_scope.

(** * Vocabulary *)

(** The bytes [x] occur in [d]. *)
Definition part (x d : bytes) : Prop := exists a r, d = a ++ x ++ r.
(** The account [k] does not contain its own address. *)
Definition unnamed (k : key) (s : state) : Prop := ~ part (kb k) (dat (accs s k)).

(** As [tp_ext], [tp_instr] and [tp_hist]; whenever the token proxy is called, the state satisfies [G]. *)
Fixpoint ext_in (G : state -> Prop) (e : env) (n : nat) (ext : extern) : Prop := forall c d s a s', ext c d s = Ok (a, s') ->
  (c_pid c <> tp_id /\ foreign_with e (c_sg c) s s') \/
  match n with
  | O => False
  | S m => c_pid c = tp_id /\ G s /\ exists ext', ext_in G e m ext' /\ run c (tp_process e ext' c d) s = Ok s'
  end.
Definition instr_in (G : state -> Prop) (e : env) (n : nat) (s s' : state) : Prop := exists c ext d,
  c_pid c = tp_id /\ clock_ok s /\ signs (ordinary e) c /\ G s /\ ext_in G e n ext /\ run c (tp_process e ext c d) s = Ok s'.
Definition hist_in (G : state -> Prop) (e : env) (n : nat) : state -> state -> Prop := hist e tp_id (instr_in G e n).

(** As [calls]; the nested calls of a payload execution on [k] leave [k] alone. *)
Inductive tame (e : env) (k : key) : list call -> state -> state -> Prop :=
| tm_nil s : tame e k [] s s
| tm_other c s s' : c_pid c <> tp_id -> signs (ordinary e) c -> others e c s s' -> tame e k [] s s'
| tm_call c ext i s s' : signs (ordinary e) c -> is_payload i = false -> tp_call e ext c i s s' -> tame e k [Call c i s s'] s s'
| tm_seq l1 l2 s s1 s2 : tame e k l1 s s1 -> tame e k l2 s1 s2 -> tame e k (l1 ++ l2) s s2
| tm_payload c i l s s1 s' : c_pid c = tp_id -> signs (ordinary e) c -> is_payload i = true ->
    tame e k l s s1 -> payload_packs i c s s1 s' ->
    (hd_error (c_keys c) = Some k -> own (accs s k) = tp_id -> same_od s s1 k) -> tame e k l s s'.
Inductive tame_trace (e : env) (k : key) : list call -> state -> state -> Prop :=
| tt_refl s : tame_trace e k [] s s
| tt_prog l l' s s1 s2 : tame_trace e k l s s1 -> tame e k l' s1 s2 -> tame_trace e k (l ++ l') s s2
| tt_foreign l s s1 s2 : tame_trace e k l s s1 -> foreign e tp_id s1 s2 -> tame_trace e k l s s2
| tt_purge l s s1 s2 : tame_trace e k l s s1 -> purge s1 s2 -> tame_trace e k l s s2.

(** * Payloads are parts of records *)

Lemma part_refl x : part x x.
Proof. exists [], []. rewrite app_nil_r. reflexivity. Qed.
Lemma part_l x a b : part x a -> part x (a ++ b).
Proof. intros (p & r & ->). exists p, (r ++ b). rewrite <- !app_assoc. reflexivity. Qed.
Lemma part_r x a b : part x b -> part x (a ++ b).
Proof. intros (p & r & ->). exists (a ++ p), r. rewrite <- !app_assoc. reflexivity. Qed.
Lemma part_trans x y z : part x y -> part y z -> part x z.
Proof. intros (a & b & ->) (c & d & ->). exists (c ++ a), (b ++ d). rewrite <- !app_assoc. reflexivity. Qed.
Lemma part_flat {A} (f : A -> bytes) x y l : In y l -> part x (f y) -> part x (flat_map f l).
Proof.
  intros H P. induction l as [|z l IH]; [destruct H|]. cbn [flat_map]. destruct H as [->|H]; [apply part_l; exact P|apply part_r; apply IH; exact H].
Qed.

#[export] Instance lawful_vec8 {A} (c : codec A) : Lawful c -> NonEmpty c -> Lawful (c_vec8 c).
Proof.
  intros L N. split; cbn [c_vec8 enc dec okb].
  - intros l r H. apply andb_true_iff in H as [Hl Ho].
    assert (RT : dec c_u64 (le 8 (blen l) ++ flat_map (enc c) l ++ r) = Some (blen l, flat_map (enc c) l ++ r)).
    { change (le 8 (blen l)) with (enc c_u64 (blen l)). apply rt. unfold c_u64, c_uint. cbn [okb]. pose proof (blen_nonneg l). unfold u64max in Hl.
      change (256 ^ Z.of_nat 8) with (2 ^ 64). lia. }
    rewrite <- app_assoc, RT. clear RT.
    assert (blen l <= blen (flat_map (enc c) l ++ r)).
    { rewrite blen_app. pose proof (flat_map_ne c N l). pose proof (blen_nonneg r). unfold blen in *. lia. }
    destruct (Z.leb_spec (blen l) (blen (flat_map (enc c) l ++ r))); [|lia].
    unfold blen at 1. rewrite Nat2Z.id. apply dec_n_rt; assumption.
  - intros b l r H. destruct (dec c_u64 b) as [[n r1]|] eqn:E; [|discriminate].
    apply can in E as [-> O]. assert (0 <= n < u64max) by (unfold c_u64, c_uint in O; cbn [okb] in O; change (256 ^ Z.of_nat 8) with u64max in O; lia).
    destruct (n <=? blen r1); [|discriminate].
    apply dec_n_can in H as [-> [Hlen Ho]]; [|assumption].
    assert (blen l = n) by (unfold blen; lia). subst n.
    unfold c_u64, c_uint. cbn [enc]. rewrite <- app_assoc, Ho. split; [reflexivity|]. apply andb_true_iff. split; [lia|reflexivity].
Qed.
#[export] Instance lawful_byte : Lawful c_byte.
Proof.
  split; cbn [c_byte enc dec okb].
  - reflexivity.
  - intros [|x b] y r H; [discriminate|]. injection H as <- <-. auto.
Qed.
#[export] Instance ne_byte : NonEmpty c_byte.
Proof. split. intros x. cbn [c_byte enc length]. lia. Qed.
#[export] Instance lawful_cmeta : Lawful c_meta.
Proof. unfold c_meta. apply lawful_iso; [intros (a & b & c); reflexivity|intros []; reflexivity|typeclasses eauto]. Qed.
#[export] Instance ne_cmeta : NonEmpty c_meta.
Proof. unfold c_meta. apply ne_iso. typeclasses eauto. Qed.
#[export] Instance lawful_instr : Lawful c_instr.
Proof. unfold c_instr. apply lawful_iso; [intros (a & b & c); reflexivity|intros []; reflexivity|typeclasses eauto]. Qed.
#[export] Instance ne_instr : NonEmpty c_instr.
Proof. unfold c_instr. apply ne_iso. typeclasses eauto. Qed.

Lemma payload_names p l i m : payload_instrs p = Ok l -> In i l -> In m (i_metas i) -> part (kb (m_key m)) p.
Proof.
  unfold payload_instrs. destruct (dec (c_vec8 c_instr) p) as [[l0 r]|] eqn:D; [|discriminate]. intros H I M. injection H as ->.
  apply can in D as [-> _]. apply part_l. cbn [c_vec8 enc]. apply part_r. eapply part_flat; [exact I|].
  unfold c_instr, c_iso. cbn [enc c_pair fst snd]. apply part_r, part_l. cbn [c_vec8 enc]. apply part_r. eapply part_flat; [exact M|].
  unfold c_meta, c_iso. cbn [enc c_pair fst snd]. apply part_l. cbn [c_key enc]. apply part_refl.
Qed.
Lemma wever_payload d w : unpack c_wever TP_LEN (@p_init _ _) d = Ok w -> part (wee_payload (wl_data (p_event w))) d.
Proof.
  intros U. apply unpack_ok in U as (q & -> & _); [|typeclasses eauto]. apply part_l. replace (enc c_wever w) with (enc c_phead (phead w) ++ enc (c_withlen c_wever_event) (p_event w) ++ enc (c_withlen c_wmeta) (p_meta w) ++ enc (c_vec c_vote) (p_signers w))
    by (symmetry; exact (prop_split _ _ w)). apply part_r, part_l.
  unfold c_withlen, c_wever_event, c_iso. cbn [enc c_pair fst snd]. do 7 apply part_r. unfold c_bytes. cbn [enc]. apply part_r, part_refl.
Qed.
Lemma wsol_payload d w : unpack c_wsol TP_LEN (@p_init _ _) d = Ok w -> part (wse_payload (wl_data (p_event w))) d.
Proof.
  intros U. apply unpack_ok in U as (q & -> & _); [|typeclasses eauto]. apply part_l. replace (enc c_wsol w) with (enc c_phead (phead w) ++ enc (c_withlen c_wsol_event) (p_event w) ++ enc (c_withlen c_wmeta) (p_meta w) ++ enc (c_vec c_vote) (p_signers w))
    by (symmetry; exact (prop_split _ _ w)). apply part_r, part_l.
  unfold c_withlen, c_wsol_event, c_iso. cbn [enc c_pair fst snd]. do 4 apply part_r. unfold c_bytes. cbn [enc]. apply part_r, part_refl.
Qed.

(** * Calls that may not write [k] leave it alone *)

Definition never : extern := fun _ _ => fail CpiDenied.
Lemma plain_exec e ext c i : is_payload i = false -> tp_exec e ext c i = tp_exec e never c i.
Proof. destruct i; intros H; (discriminate H || reflexivity). Qed.
Lemma plain_readonly e ext c i s a s' k : is_payload i = false -> tp_exec e ext c i s = Ok (a, s') -> c_wr c k = false -> accs s' k = accs s k.
Proof.
  intros I H W. rewrite (plain_exec _ _ _ _ I) in H. eapply (ro_tp_exec (c_wr c)) in H; [apply H; exact W| |intros j J; exact J].
  intros c' d' x y x' H'. discriminate H'.
Qed.
Lemma packs_readonly i c s s1 s' k : payload_packs i c s s1 s' -> c_wr c k = false -> same_od s1 s' k.
Proof.
  intros (k0 & Q) W. destruct (key_dec k k0) as [->|NE].
  - destruct Q as [(_ & _ & w & n & pn & _ & _ & _ & P)|(_ & _ & w & n & pn & _ & _ & _ & P)];
      (split; [eapply packed_own; exact P|]); destruct P as (_ & _ & _ & [D|[_ X]]); (exact D || congruence).
  - destruct Q as [(_ & _ & w & n & pn & _ & _ & _ & P)|(_ & _ & w & n & pn & _ & _ & _ & P)]; eapply packed_od; eassumption.
Qed.

(** The instructions of a payload of [k] that does not name [k]. *)
Definition spares (k : key) (l : list instr) : Prop := forall i, In i l -> c_wr (ctx_of (i_pid i) (i_metas i)) k = false.
Lemma unnamed_spares k p l d : ~ part (kb k) d -> part p d -> payload_instrs p = Ok l -> spares k l.
Proof.
  intros U P H i I. destruct (c_wr (ctx_of (i_pid i) (i_metas i)) k) eqn:E; [|reflexivity]. exfalso. apply ctx_of_wr in E as (m & M & <- & _).
  apply U. eapply part_trans; [|exact P]. eapply payload_names; eassumption.
Qed.

(** [payload_two] with the instructions that were run. *)
Lemma payload_three e ext c i s s' k : is_payload i = true -> tp_exec e ext c i s = Ok (tt, s') ->
  s' = s \/ exists l s1, (l = [] /\ s1 = s \/ exists proxy mint recipient b, e_pda e (with_bump (sd_proxy mint recipient) b) (c_pid c) = Some proxy /\
    nested_run e ext c proxy l s s1) /\ payload_packs i c s s1 s' /\
    (hd_error (c_keys c) = Some k -> unnamed k s -> spares k l).
Proof.
  intros I H. destruct i; try discriminate; cbn [tp_exec] in H.
  - apply tp_execute_payload_ever_ok in H as (w0 & rest & w & K & U & [[_ ->]|(W & mint & n & pn & l & s1 & _ & KD & PI & N & P)]); [left; reflexivity|right].
    exists l, s1. split; [|split].
    + destruct N as [N|(proxy & PD & N)]; [left; exact N|right]. exists proxy, mint. do 2 eexists. split; [exact PD|exact N].
    + exists w0. left. rewrite K. split; [reflexivity|]. split; [reflexivity|]. exists w, n, pn. auto.
    + rewrite K. cbn [hd_error]. intros E UN. injection E as ->. eapply unnamed_spares; [exact UN|eapply wever_payload; exact U|exact PI].
  - apply tp_execute_payload_sol_ok in H as (w0 & rest & w & K & U & [[_ ->]|(W & mint & n & pn & l & s1 & _ & KD & PI & N & P)]); [left; reflexivity|right].
    exists l, s1. split; [|split].
    + destruct N as [N|(proxy & PD & N)]; [left; exact N|right]. exists proxy, mint. do 2 eexists. split; [exact PD|exact N].
    + exists w0. right. rewrite K. split; [reflexivity|]. split; [reflexivity|]. exists w, n, pn. auto.
    + rewrite K. cbn [hd_error]. intros E UN. injection E as ->. eapply unnamed_spares; [exact UN|eapply wsol_payload; exact U|exact PI].
Qed.

(** What an instruction does to [k] if it may not write it, and as a list of calls. *)
Definition fair (e : env) (k : key) (ext : extern) : Prop := forall c d s a s', ext c d s = Ok (a, s') -> clock_ok s -> signs (ordinary e) c ->
  now s' = now s /\ (exists l, tame e k l s s') /\ (c_wr c k = false -> own (accs s k) = tp_id -> same_od s s' k).

Lemma spared_run e ext k c proxy l s s1 : fair e k ext -> c_pid c = tp_id -> signs (ordinary e) c -> is_proxy e proxy -> clock_ok s ->
  nested_run e ext c proxy l s s1 ->
  now s1 = now s /\ (exists l', tame e k l' s s1) /\ (spares k l \/ c_wr c k = false -> own (accs s k) = tp_id -> same_od s s1 k).
Proof.
  intros X Hp S PX CK N. induction N as [s|j l s s1 s2 x C N IH].
  - split; [reflexivity|]. split; [exists []; apply tm_nil|]. intros _ _. apply same_od_refl.
  - apply cpi_inv in C as [C CO]. destruct PX as (mint & r & b & PD).
    assert (SG : signs (ordinary e) (ctx_of (i_pid j) (i_metas j))).
    { eapply (nested_signs e (ordinary e) c _ _ proxy mint r b); [exact S|intros k0 P _; exact P|exact Hp|rewrite Hp; exact PD|exact CO]. }
    destruct (X _ _ _ _ _ C CK SG) as (E1 & (l1 & T1) & K1).
    destruct IH as (E2 & (l2 & T2) & K2); [unfold clock_ok in *; rewrite E1; exact CK|].
    split; [congruence|]. split; [exists (l1 ++ l2); eapply tm_seq; eassumption|].
    intros SP O. assert (SO : same_od s s1 k).
    { apply K1; [|exact O]. destruct SP as [SP|W]; [apply SP; left; reflexivity|].
      destruct (c_wr (ctx_of (i_pid j) (i_metas j)) k) eqn:E; [|reflexivity]. rewrite (cpi_wr _ _ _ _ _ CO E) in W. discriminate W. }
    apply (same_od_trans _ _ _ _ SO). apply K2; [|rewrite (proj1 SO); exact O]. destruct SP as [SP|W]; [left|right; exact W].
    intros i I. apply SP. right. exact I.
Qed.

Lemma fair_call e k ext c d s s' : fair e k ext -> c_pid c = tp_id -> clock_ok s -> signs (ordinary e) c -> unnamed k s ->
  run c (tp_process e ext c d) s = Ok s' ->
  now s' = now s /\ (exists l, tame e k l s s') /\ (c_wr c k = false -> own (accs s k) = tp_id -> same_od s s' k).
Proof.
  intros X Hp CK S UN R. pose proof R as R0. apply tp_process_ok in R as (i & D & Oi & H). destruct (is_payload i) eqn:I.
  - destruct (payload_three _ _ _ _ _ _ k I H) as [->|(l & s1 & N & PK & SP)].
    { split; [reflexivity|]. split; [exists []; apply tm_nil|]. intros _ _. apply same_od_refl. }
    assert (Q : now s1 = now s /\ (exists l', tame e k l' s s1) /\ (spares k l \/ c_wr c k = false -> own (accs s k) = tp_id -> same_od s s1 k)).
    { destruct N as [[_ ->]|(proxy & mint & r & b & PD & N)].
      - split; [reflexivity|]. split; [exists []; apply tm_nil|]. intros _ _. apply same_od_refl.
      - eapply spared_run; try eassumption. exists mint, r, b. rewrite <- Hp. exact PD. }
    destruct Q as (E & (l' & T) & K). split.
    { destruct PK as (k0 & [(_ & _ & w & m & pn & _ & _ & _ & Q)|(_ & _ & w & m & pn & _ & _ & _ & Q)]); destruct Q as [-> _]; exact E. }
    split.
    + exists l'. eapply tm_payload; try eassumption. intros HD O. apply K; [left; apply SP; assumption|exact O].
    + intros W O. apply (same_od_trans _ s1); [apply K; [right; exact W|exact O]|]. eapply packs_readonly; eassumption.
  - split; [apply (nn_tp_exec _ _ _ _ I _ _ _ H)|]. split.
    + exists [Call c i s s']. eapply tm_call; [exact S|exact I|]. split; [exact Hp|]. split; [exact CK|]. exists d. split; [exact D|exact R0].
    + intros W _. pose proof (plain_readonly _ _ _ _ _ _ _ k I H W) as E. unfold same_od. rewrite E. auto.
Qed.

Lemma fair_ext e k n : forall ext, ext_in (unnamed k) e n ext -> fair e k ext.
Proof.
  assert (OT : forall c s s', c_pid c <> tp_id -> signs (ordinary e) c -> foreign_with e (c_sg c) s s' ->
    now s' = now s /\ (exists l, tame e k l s s') /\ (c_wr c k = false -> own (accs s k) = tp_id -> same_od s s' k)).
  { intros c s s' P S F. split; [apply F|]. split; [exists []; eapply tm_other; eassumption|]. intros _ O. destruct F as [_ F]. destruct (F k) as (_ & F2 & _).
    apply F2. exact O. }
  induction n as [|n IH]; intros ext X c d s a s' H CK S; apply X in H as [[P F]|H]; try (apply (OT c); assumption); [destruct H|].
  destruct H as (P & G & ext' & X' & R). eapply fair_call; [apply IH; exact X'|exact P|exact CK|exact S|exact G|exact R].
Qed.

(** Every such instruction and every such history is a list of calls. *)
Lemma instr_tame e k n s s' : instr_in (unnamed k) e n s s' -> exists l, tame e k l s s'.
Proof.
  intros (c & ext & d & Hp & CK & S & G & X & R). apply fair_ext in X. destruct (fair_call _ _ _ _ _ _ _ X Hp CK S G R) as (_ & T & _). exact T.
Qed.
Lemma hist_tame e k n s s' : hist_in (unnamed k) e n s s' -> exists l, tame_trace e k l s s'.
Proof.
  intros H. induction H as [s|s s1 s2 _ [l IH] P|s s1 s2 _ [l IH] F|s s1 s2 _ [l IH] G].
  - exists []. apply tt_refl.
  - apply instr_tame in P as (l' & P). exists (l ++ l'). eapply tt_prog; eassumption.
  - exists l. eapply tt_foreign; eassumption.
  - exists l. eapply tt_purge; eassumption.
Qed.

(** They are ordinary ones. *)
Lemma ext_in_tp G e n : forall ext, ext_in G e n ext -> tp_ext e n ext.
Proof.
  induction n as [|n IH]; intros ext X c d s a s' H; apply X in H; [exact H|].
  destruct H as [H|(P & _ & ext' & X' & R)]; [left; exact H|right]. split; [exact P|]. exists ext'. auto.
Qed.
Lemma hist_in_tp G e n s s' : hist_in G e n s s' -> tp_hist e n s s'.
Proof.
  intros H. induction H as [s|s s1 s2 _ IH P|s s1 s2 _ IH F|s s1 s2 _ IH F].
  - apply h_refl.
  - eapply h_prog; [exact IH|]. destruct P as (c & ext & d & Hp & CK & S & _ & X & R). exists c, ext, d. apply ext_in_tp in X. auto.
  - eapply h_foreign; eassumption.
  - eapply h_purge; eassumption.
Qed.
Lemma tame_steps e k l s s' : tame e k l s s' -> calls e l s s'.
Proof.
  intros H. induction H.
  - apply st_nil.
  - eapply st_other; eassumption.
  - eapply st_call; eassumption.
  - eapply st_seq; eassumption.
  - eapply st_payload; eassumption.
Qed.
Lemma tame_trace_trace e k l s s' : tame_trace e k l s s' -> trace e l s s'.
Proof.
  intros H. induction H.
  - apply tr_refl.
  - eapply tr_prog; [eassumption|]. eapply tame_steps. eassumption.
  - eapply tr_foreign; eassumption.
  - eapply tr_purge; eassumption.
Qed.
