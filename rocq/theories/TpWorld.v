(** Histories of the token proxy, nested calls included.  No code of /repo is modelled here: this is
    the runtime's view of a program that calls other programs (token-proxy/src/processor.rs:2153-2241
    runs arbitrary instructions chosen by a payload). *)

From Coq Require Import ZifyBool ZifyNat ZifyN.
From Verif Require Export World TpSpec Frames.
Open Scope Z_scope.
Ltac Zify.zify_post_hook ::= Z.div_mod_to_equations.

(** [k] is an address the token proxy signs for while it executes a payload. *)
Definition is_proxy (e : env) (k : key) : Prop :=
  exists mint recipient b, e_pda e (with_bump (sd_proxy mint recipient) b) tp_id = Some k.

(** What a nested call of another program with signers [sg] can do: as [foreign], but an unused
    derived address that signs may be put to use. *)
Definition foreign_with (e : env) (sg : key -> bool) (s s' : state) : Prop := now s' = now s /\ forall k,
  (0 <= lam (accs s k) -> 0 <= lam (accs s' k)) /\
  (own (accs s k) = tp_id -> same_od s s' k /\ lam (accs s k) <= lam (accs s' k)) /\
  (own (accs s k) <> tp_id -> own (accs s' k) = tp_id -> all0 (dat (accs s' k)) = true) /\
  (is_pda e tp_id k -> sg k = false -> own (accs s k) = sys_id -> same_od s s' k).

(** [ext] behaves like the runtime with at most [n] nested levels of token-proxy calls: what it calls
    is either another program or the token proxy itself. *)
Fixpoint tp_ext (e : env) (n : nat) (ext : extern) : Prop := forall c d s a s', ext c d s = Ok (a, s') ->
  (c_pid c <> tp_id /\ foreign_with e (c_sg c) s s') \/
  match n with
  | O => False
  | S m => c_pid c = tp_id /\ exists ext', tp_ext e m ext' /\ run c (tp_process e ext' c d) s = Ok s'
  end.

(** Only allowed keys sign. *)
Definition signs (A : key -> Prop) (c : ctx) : Prop := forall k, c_sg c k = true -> A k.
(** Nobody but the token proxy signs for addresses derived for it, and it signs in nested calls only
    for proxy accounts. *)
Definition ordinary (e : env) (k : key) : Prop := is_pda e tp_id k -> is_proxy e k.

(** One instruction of the token proxy with at most [n] nested levels of itself. *)
Definition tp_instr (e : env) (n : nat) (s s' : state) : Prop := exists c ext d,
  c_pid c = tp_id /\ clock_ok s /\ signs (ordinary e) c /\ tp_ext e n ext /\ run c (tp_process e ext c d) s = Ok s'.
Definition tp_hist (e : env) (n : nat) : state -> state -> Prop := hist e tp_id (tp_instr e n).

(** ** Induction over the steps of an instruction *)

Definition payload_packs (i : tp_ix) (c : ctx) (s s1 s' : state) : Prop := exists k,
  (i = TpExecutePayloadEver /\ hd_error (c_keys c) = Some k /\ exists w n pn,
     unpack c_wever TP_LEN (@p_init _ _) (dat (accs s k)) = Ok w /\ w_status w = WWaitExecute /\ p_kind w = KProposal n pn /\
     packed c c_wever TP_LEN s1 s' k (w_set_status w WProcessed)) \/
  (i = TpExecutePayloadSol /\ hd_error (c_keys c) = Some k /\ exists w n pn,
     unpack c_wsol TP_LEN (@p_init _ _) (dat (accs s k)) = Ok w /\ w_status w = WWaitExecute /\ p_kind w = KProposal n pn /\
     packed c c_wsol TP_LEN s1 s' k (w_set_status w WProcessed)).

Lemma payload_nested {E} (cd : codec (prop E (withlen wmeta))) e ext c w0 w mintk r p s s' :
  payload_eff e ext c cd w0 w mintk r p s s' ->
  s' = s \/ (w_status w = WWaitExecute /\ exists n pn s1, p_kind w = KProposal n pn /\ nested e ext c s s1 /\
    packed c cd TP_LEN s1 s' w0 (w_set_status w WProcessed)).
Proof.
  intros [[_ ->]|(W & mint & n & pn & l & s1 & _ & KD & _ & N & P)]; [left; reflexivity|]. right.
  split; [exact W|]. exists n, pn, s1. split; [exact KD|]. split; [|exact P].
  destruct N as [[_ ->]|(proxy & PD & N)]; [left; reflexivity|right; exists proxy, l, mint, r, (opt_or pn 0); auto].
Qed.
Lemma payload_two e ext c i s s' : is_payload i = true -> tp_exec e ext c i s = Ok (tt, s') ->
  exists s1, nested e ext c s s1 /\ (s' = s1 \/ payload_packs i c s s1 s').
Proof.
  intros I H. destruct i; try discriminate; cbn [tp_exec] in H.
  - apply tp_execute_payload_ever_ok in H as (w0 & rest & w & K & U & P).
    apply payload_nested in P as [->|(W & n & pn & s1 & KD & N & P)]; [exists s; split; [left|left]; reflexivity|].
    exists s1. split; [exact N|]. right. exists w0. left. rewrite K. split; [reflexivity|]. split; [reflexivity|].
    exists w, n, pn. auto.
  - apply tp_execute_payload_sol_ok in H as (w0 & rest & w & K & U & P).
    apply payload_nested in P as [->|(W & n & pn & s1 & KD & N & P)]; [exists s; split; [left|left]; reflexivity|].
    exists s1. split; [exact N|]. right. exists w0. right. rewrite K. split; [reflexivity|]. split; [reflexivity|].
    exists w, n, pn. auto.
Qed.

Lemma nested_signs e (A : key -> Prop) c pid ms p mint r b : signs A c -> (forall k, is_proxy e k -> A k) ->
  c_pid c = tp_id -> e_pda e (with_bump (sd_proxy mint r) b) (c_pid c) = Some p -> cpi_ok c pid ms [p] -> signs A (ctx_of pid ms).
Proof.
  intros S AP Hp PD (_ & M) k Sg. apply ctx_of_sg in Sg as (m & Hm & <- & Sg). destruct (M m Hm) as (_ & B & _).
  destruct (B Sg) as [B1|[B1|[]]]; [apply S; exact B1|]. apply AP. subst p. exists mint, r, b. rewrite <- Hp. exact PD.
Qed.

Section Induct.
  Context (e : env) (A : key -> Prop) (AP : forall k, is_proxy e k -> A k) (P : state -> state -> Prop)
    (Prefl : forall s, P s s) (Ptrans : forall a b c, P a b -> P b c -> P a c)
    (Pforeign : forall sg s s', (forall k, sg k = true -> A k) -> foreign_with e sg s s' -> P s s')
    (Pcall : forall c ext i s s', c_pid c = tp_id -> signs A c -> okb c_tp_ix i = true -> clock_ok s ->
       is_payload i = false -> tp_exec e ext c i s = Ok (tt, s') -> P s s')
    (Ppack : forall c i s s1 s', c_pid c = tp_id -> is_payload i = true -> P s s1 -> payload_packs i c s s1 s' -> P s s').

  Definition nowP (s s' : state) : Prop := now s' = now s /\ P s s'.
  Lemma induct_run : forall n ext c d s s', tp_ext e n ext -> c_pid c = tp_id -> signs A c -> clock_ok s ->
    run c (tp_process e ext c d) s = Ok s' -> nowP s s'.
  Proof.
    induction n as [|n IH]; intros ext c d s s' X Hp S CK R;
      apply tp_process_ok in R as (i & _ & Oi & H); destruct (is_payload i) eqn:I;
      try (split; [apply nn_tp_exec in H; [apply H|exact I]|eapply Pcall; eassumption]).
    - destruct (payload_two _ _ _ _ _ _ I H) as (s1 & N & Q).
      assert (N1 : nowP s s1).
      { destruct N as [->|(proxy & l & mint & r & b & PD & N)]; [split; [reflexivity|apply Prefl]|].
        clear Q H. induction N as [s|j l s s1 s2 x C N IHN]; [split; [reflexivity|apply Prefl]|].
        apply cpi_inv in C as [C CO]. cbn [tp_ext] in X. apply X in C as [[_ F]|[]].
        assert (E : now s1 = now s) by apply F.
        destruct IHN as [E2 P2]; [unfold clock_ok in *; rewrite E; exact CK|].
        split; [congruence|]. apply (Ptrans _ s1); [|exact P2]. eapply Pforeign; [|exact F].
        eapply nested_signs; eassumption. }
      destruct N1 as [E1 P1]. destruct Q as [->|Q]; [split; assumption|]. split.
      + destruct Q as (k & [(_ & _ & w & m & pn & _ & _ & _ & Q)|(_ & _ & w & m & pn & _ & _ & _ & Q)]); destruct Q as [-> _]; exact E1.
      + eapply Ppack; eassumption.
    - destruct (payload_two _ _ _ _ _ _ I H) as (s1 & N & Q).
      assert (N1 : nowP s s1).
      { destruct N as [->|(proxy & l & mint & r & b & PD & N)]; [split; [reflexivity|apply Prefl]|].
        clear Q H. induction N as [s|j l s s1 s2 x C N IHN]; [split; [reflexivity|apply Prefl]|].
        apply cpi_inv in C as [C CO]. cbn [tp_ext] in X. pose proof C as C0.
        assert (SG : signs A (ctx_of (i_pid j) (i_metas j))) by (eapply nested_signs; eassumption).
        assert (Q1 : nowP s s1).
        { apply X in C as [[_ F]|(PI & ext' & X' & R)].
          - split; [apply F|]. eapply Pforeign; [|exact F]. exact SG.
          - eapply IH; eassumption. }
        destruct Q1 as [E P1].
        destruct IHN as [E2 P2]; [unfold clock_ok in *; rewrite E; exact CK|].
        split; [congruence|]. apply (Ptrans _ s1); assumption. }
      destruct N1 as [E1 P1]. destruct Q as [->|Q]; [split; assumption|]. split.
      + destruct Q as (k & [(_ & _ & w & m & pn & _ & _ & _ & Q)|(_ & _ & w & m & pn & _ & _ & _ & Q)]); destruct Q as [-> _]; exact E1.
      + eapply Ppack; eassumption.
  Qed.
End Induct.

(** ** Which instructions debit which accounts of the token proxy *)

Lemma unpack_slice {A} (cd : codec A) d x : unpack_from_slice cd d = Ok x -> unpack cd (blen d) (fun _ => true) d = Ok x.
Proof.
  intros H. apply unpack_init; [|reflexivity]. with_strategy transparent [unpack_unchecked] unfold unpack_unchecked.
  rewrite Z.eqb_refl. exact H.
Qed.
Lemma kind_gprop d g : unpack_from_slice c_gprop d = Ok g -> kind_at d = Some (p_kind g).
Proof. intros H. apply unpack_slice in H. eapply kind_prop; [| |exact H]; typeclasses eauto. Qed.
Lemma kind_gdep d g : unpack_from_slice c_gdep d = Ok g -> kind_at d = Some (d_kind g).
Proof. intros H. apply unpack_slice in H. eapply kind_dep; [| |exact H]; typeclasses eauto. Qed.

Definition debits_kind (i : tp_ix) (kd : account_kind) : Prop :=
  match kd, i with
  | KMultiVault _, TpWithdrawMultiVault _ => True
  | KProposal _ _, (TpVote _ | TpCloseWithdrawal) => True
  | KDeposit _, TpCloseDeposit => True
  | _, _ => False
  end.
Lemma tp_debit e ext c i s s' k : c_pid c = tp_id -> okb c_tp_ix i = true -> is_payload i = false ->
  tp_exec e ext c i s = Ok (tt, s') -> nonneg s -> own (accs s k) = tp_id ->
  lam (accs s k) <= lam (accs s' k) \/ exists kd, kind_at (dat (accs s k)) = Some kd /\ debits_kind i kd.
Proof.
  intros Hp Oi Ip H N O. destruct (debits i) eqn:D.
  - destruct i; try discriminate; cbn [tp_exec] in H.
    + apply tp_vote_ok in H as (r & wk & rrk & rest & K & V).
      destruct V as (g & rr & n & old & S & NV & U & RA & RR & KR & PO & NE & [(_ & ->)|(-> & d & PK & DD & OW & W & SO & _ & _ & DL & _)]); [left; lia|].
      destruct (key_dec k wk) as [->|X].
      * right. destruct RA as (m & pn & KD & _). exists (KProposal m pn). split; [|exact Logic.I]. rewrite <- KD. apply kind_gprop. exact U.
      * left. rewrite (DL k). rewrite (at_other wk) by exact X. unfold at_key. destruct (keqb k r); unfold RELAY_REPARATION; lia.
    + apply tp_close_deposit_ok in H as (au & dk & rest & g & seed & m & K & S & U & T & KD & P & A & DE).
      destruct (key_dec k dk) as [->|X].
      * right. exists (KDeposit m). split; [|exact Logic.I]. rewrite <- KD. apply kind_gdep. exact U.
      * left. destruct DE as (_ & _ & _ & _ & _ & LA & LO & _). destruct (key_dec k au) as [->|Y].
        -- rewrite LA by exact X. pose proof (N dk). lia.
        -- rewrite LO by assumption. lia.
    + apply tp_close_withdrawal_ok in H as (wk & au & rest & g & m & K & U & RA & A & T & ST & DE).
      destruct (key_dec k wk) as [->|X].
      * right. destruct RA as (x & pn & KD & _). exists (KProposal x pn). split; [|exact Logic.I]. rewrite <- KD. apply kind_gprop. exact U.
      * left. destruct DE as (_ & _ & _ & _ & _ & LA & LO & _). destruct (key_dec k au) as [->|Y].
        -- rewrite LA by exact X. pose proof (N wk). lia.
        -- rewrite LO by assumption. lia.
    + apply tp_withdraw_multi_vault_ok in H as (a & r & mv & sk & rest & st & pn & K & S & _ & _ & (mvr & m & U & KD & _) & LE & _ & _ & DL & _).
      destruct (key_dec k mv) as [->|X].
      * right. exists (KMultiVault m). split; [|exact Logic.I]. rewrite <- KD. eapply kind_multi_vault. exact U.
      * left. rewrite (DL k), (at_other mv) by exact X. unfold at_key.
        assert (0 <= amount) by (cbn [okb c_tp_ix] in Oi; apply okb_u64 in Oi; lia). destruct (keqb k r); lia.
  - left. apply (lam_tp_exec _ _ _ _ D _ _ _ H N). exact O.
Qed.

(** ** What happens to a record, by its kind *)
Lemma effect_kind e c i s s' k kd : tp_effect e c i s s' k -> own (accs s k) = tp_id -> kind_at (dat (accs s k)) = Some kd ->
  same_od s s' k \/
  match kd with
  | KSettings _ _ => exists st st' pn, tp_sets s k st /\ tp_sets s' k st' /\ tp_settings_in e tp_id s k st pn /\
      settings_cause e c i s st st'
  | KTokenSettings _ _ => exists ts ts' vn, tp_token s k ts /\ tp_token s' k ts' /\ token_in e tp_id s k ts vn /\
      token_cause e c i s ts ts'
  | KProposal _ _ => True
  | KDeposit _ => exists author, close_why e c i s k author /\ deleted c s s' k author
  | _ => False
  end.
Proof.
  intros T O K. assert (NU : ~ unused s k) by (intros [U _]; rewrite U in O; discriminate).
  destruct T; try contradiction.
  - destruct H as [H|[H _]]; [left; exact H|contradiction].
  - right. pose proof H1 as (U & n & KD & _). apply kind_tp_settings in U. rewrite K in U. injection U as ->. rewrite KD. eauto 8.
  - right. pose proof H1 as (U & n & KD & _). apply kind_token_settings in U. rewrite K in U. injection U as ->. rewrite KD. eauto 8.
  - right. destruct H3 as (g & rr & n & old & S & NV & U & (m & pn & KD & _) & _). apply kind_gprop in U. rewrite K in U. injection U as ->. rewrite KD. exact Logic.I.
  - right. destruct H2 as [_ U], H3 as (m & pn & KD & _). eapply kind_prop in U; try typeclasses eauto. rewrite K in U. injection U as ->. rewrite KD. exact Logic.I.
  - right. destruct H as [_ U], H0 as (m & pn & KD & _). eapply kind_prop in U; try typeclasses eauto. rewrite K in U. injection U as ->. rewrite KD. exact Logic.I.
  - right. destruct H as [_ U], H0 as (m & pn & KD & _). eapply kind_prop in U; try typeclasses eauto. rewrite K in U. injection U as ->. rewrite KD. exact Logic.I.
  - right. pose proof H as [(_ & _ & g & seed & n & U & _ & KD & _)|(_ & g & m & U & (n & pn & KD & _) & _)].
    + apply kind_gdep in U. rewrite K in U. injection U as ->. rewrite KD. eauto.
    + apply kind_gprop in U. rewrite K in U. injection U as ->. rewrite KD. exact Logic.I.
Qed.

(** ** Records that are never closed *)
Section Kept.
  Context {R B : Type} (cd : codec R) (L : Lawful cd) (ini : R -> bool) (core : R -> B) (e : env) (k : key)
    (knd : R -> account_kind) (good : R -> Prop) (goodB : forall x y, core x = core y -> good x -> good y)
    (Kind : forall d x, unpack cd TP_LEN ini d = Ok x -> kind_at d = Some (knd x))
    (Lasting : forall x, good x -> match knd x with KSettings _ _ | KTokenSettings _ _ => True | _ => False end)
    (Step : forall c i s s' x, tp_effect e c i s s' k -> held cd ini s k x -> good x -> ~ same_od s s' k ->
       exists x', held cd ini s' k x' /\ core x' = core x).

  Definition kept (s s' : state) : Prop := nonneg s -> nonneg s' /\
    forall x, held cd ini s k x -> good x -> 1 <= lam (accs s k) ->
      exists x', held cd ini s' k x' /\ core x' = core x /\ 1 <= lam (accs s' k).
  Lemma kept_refl s : kept s s.
  Proof. intros N. split; [exact N|]. intros x H G Z. exists x. auto. Qed.
  Lemma kept_trans a b c : kept a b -> kept b c -> kept a c.
  Proof.
    intros H1 H2 N. destruct (H1 N) as [N1 K1]. destruct (H2 N1) as [N2 K2]. split; [exact N2|].
    intros x H G Z. destruct (K1 x H G Z) as (y & Hy & Cy & Zy).
    destruct (K2 y Hy) as (z & Hz & Cz & Zz); [eapply goodB; [symmetry; exact Cy|exact G]|exact Zy|].
    exists z. split; [exact Hz|]. split; [congruence|exact Zz].
  Qed.
  Lemma kept_same s s' : (nonneg s -> nonneg s') -> (own (accs s k) = tp_id -> same_od s s' k /\ lam (accs s k) <= lam (accs s' k)) -> kept s s'.
  Proof.
    intros N S Z. split; [auto|]. intros x H G Z1. pose proof H as [O U]. destruct (S O) as [SO LE].
    exists x. split; [eapply held_same; eassumption|]. split; [reflexivity|lia].
  Qed.
  Lemma kept_call c ext i s s' : c_pid c = tp_id -> okb c_tp_ix i = true -> clock_ok s -> is_payload i = false ->
    tp_exec e ext c i s = Ok (tt, s') -> kept s s'.
  Proof.
    intros Hp Oi CK Ip H N. pose proof (nn_tp_exec _ _ _ _ Ip _ _ _ H) as [_ NN]. split; [auto|].
    intros x Hx G Z. pose proof Hx as [O U]. pose proof (Kind _ _ U) as KD. pose proof (Lasting _ G) as LA.
    assert (LE : lam (accs s k) <= lam (accs s' k)).
    { destruct (tp_debit _ _ _ _ _ _ k Hp Oi Ip H N O) as [?|(kd & K & D)]; [assumption|]. rewrite KD in K. injection K as <-.
      destruct (knd x); try contradiction; destruct i; contradiction. }
    pose proof (tp_exec_effect _ _ _ _ _ _ k Hp Oi CK Ip H) as T.
    destruct (effect_kind _ _ _ _ _ _ _ T O KD) as [SO|_].
    - exists x. split; [eapply held_same; eassumption|]. split; [reflexivity|lia].
    - destruct (key_dec (own (accs s' k)) (own (accs s k))) as [E1|E1]; [destruct (list_eq_dec Byte.byte_eq_dec (dat (accs s' k)) (dat (accs s k))) as [E2|E2]|].
      + exists x. split; [eapply held_same; [split; eassumption|exact Hx]|]. split; [reflexivity|lia].
      + destruct (Step _ _ _ _ _ T Hx G) as (x' & Hx' & C); [intros [_ ?]; contradiction|]. exists x'. split; [exact Hx'|]. split; [exact C|lia].
      + destruct (Step _ _ _ _ _ T Hx G) as (x' & Hx' & C); [intros [? _]; contradiction|]. exists x'. split; [exact Hx'|]. split; [exact C|lia].
  Qed.
  Lemma kept_pack c i s s1 s' : c_pid c = tp_id -> is_payload i = true -> kept s s1 -> payload_packs i c s s1 s' -> kept s s'.
  Proof.
    intros Hp Ip KS P N. destruct (KS N) as [N1 K1].
    assert (PL : forall j, lam (accs s' j) = lam (accs s1 j)).
    { intros j. destruct P as (j0 & [(_ & _ & w & n & pn & _ & _ & _ & P)|(_ & _ & w & n & pn & _ & _ & _ & P)]); apply (packed_lam _ _ _ _ _ _ _ P). }
    split; [intros j; rewrite PL; apply N1|]. intros x H G Z. destruct (K1 x H G Z) as (x' & H' & C & Z').
    exists x'. split; [|split; [exact C|rewrite PL; exact Z']]. eapply held_same; [|exact H'].
    pose proof (Lasting _ G) as LA. destruct H as [O U]. apply Kind in U.
    destruct P as (j0 & [(_ & _ & w & n & pn & UP & _ & KD & P)|(_ & _ & w & n & pn & UP & _ & KD & P)]);
      apply (packed_od _ _ _ _ _ _ _ P); intros <-; eapply kind_prop in UP; try typeclasses eauto;
      rewrite UP in U; injection U as U; rewrite <- U, KD in LA; exact LA.
  Qed.

  Lemma kept_foreign s s' sg : foreign_with e sg s s' -> kept s s'.
  Proof.
    intros [_ F]. apply kept_same; [intros N j; apply (F j); apply N|]. apply (F k).
  Qed.
  Lemma kept_purge s s' : purge s s' -> kept s s'.
  Proof.
    intros F N. split.
    - intros j. destruct (F j) as [->|[_ ->]]; [apply N|cbn; lia].
    - intros x H G Z. destruct (F k) as [E|[E _]]; [|lia]. exists x. unfold held. rewrite E. auto.
  Qed.
  Lemma kept_instr n s s' : tp_instr e n s s' -> kept s s'.
  Proof.
    intros (c & ext & d & Hp & CK & S & X & R0).
    apply (induct_run e (ordinary e)) with (P := kept) (n := n) (ext := ext) (c := c) (d := d); try assumption.
    - intros j J _. exact J.
    - apply kept_refl.
    - apply kept_trans.
    - intros sg a b _. apply kept_foreign.
    - intros. eapply kept_call; eassumption.
    - intros. eapply kept_pack; eassumption.
  Qed.
  Lemma kept_hist n s s' : tp_hist e n s s' -> kept s s'.
  Proof.
    intros H. induction H as [s|s s1 s2 _ IH H|s s1 s2 _ IH H|s s1 s2 _ IH H].
    - apply kept_refl.
    - apply (kept_trans _ _ _ IH). eapply kept_instr. exact H.
    - apply (kept_trans _ _ _ IH). apply kept_same; [intros N j; apply (H j); apply N|apply (H k)].
    - apply (kept_trans _ _ _ IH). apply kept_purge. exact H.
  Qed.
End Kept.

(** The settings account. *)
Lemma settings_cause_kind e c i s st st' : settings_cause e c i s st st' -> gs_kind st' = gs_kind st.
Proof.
  intros [a S U [(x & _ & ->)|[(x & _ & ->)|[(x & _ & ->)|[_ ->]]]]|a S U _ ->]; reflexivity.
Qed.
Lemma settings_kept e n s s' k st pn : tp_hist e n s s' -> nonneg s -> tp_sets s k st -> tp_settings_in e tp_id s k st pn ->
  1 <= lam (accs s k) ->
  exists st', tp_sets s' k st' /\ tp_settings_in e tp_id s' k st' pn /\ gs_kind st' = gs_kind st /\ 1 <= lam (accs s' k).
Proof.
  intros H N T V Z.
  destruct (kept_hist c_tp_settings gs_init gs_kind e k gs_kind (fun st => exists n, gs_kind st = KSettings n pn)) with (n := n) (s := s) (s' := s')
    as [_ Q]; try assumption.
  - intros x y E (m & K). exists m. congruence.
  - intros d x. apply kind_tp_settings.
  - intros x (m & ->). exact Logic.I.
  - intros c i a b x T1 H1 (m & K) NS. pose proof H1 as [O U]. pose proof (kind_tp_settings _ _ _ _ U) as KD. rewrite K in KD.
    destruct (effect_kind _ _ _ _ _ _ _ T1 O KD) as [?|(x1 & x2 & q & A1 & A2 & A3 & A4)]; [contradiction|].
    exists x2. split; [exact A2|]. destruct A1 as [_ A1]. assert (x1 = x) by congruence. subst x1. eapply settings_cause_kind. exact A4.
  - destruct V as (U & m & K & P). destruct (Q st T) as (st' & T' & K' & Z'); [exists m; exact K|exact Z|].
    exists st'. split; [exact T'|]. split; [|auto]. split; [apply T'|]. exists m. split; [congruence|exact P].
Qed.

(** Token settings. *)
Lemma token_cause_core e c i s ts ts' : token_cause e c i s ts ts' -> tk_akind ts' = tk_akind ts /\ tk_kind ts' = tk_kind ts.
Proof.
  intros [a st S _ _ TC|a S U _ ->|am fee _ _ _ _ ->|fee net _ _ _ _ _ _ ->|a st net _ S _ _ _ _ ->|a st am _ S _ _ _ ->];
    try (split; reflexivity).
  destruct i; try contradiction; cbn [token_change] in TC; try (subst; split; reflexivity).
  - destruct t; subst; split; reflexivity.
  - destruct TC as [-> _]; split; reflexivity.
Qed.
Lemma token_kept e n s s' k ts vn : tp_hist e n s s' -> nonneg s -> tp_token s k ts -> token_in e tp_id s k ts vn ->
  1 <= lam (accs s k) ->
  exists ts', tp_token s' k ts' /\ token_in e tp_id s' k ts' vn /\ tk_akind ts' = tk_akind ts /\ tk_kind ts' = tk_kind ts /\ 1 <= lam (accs s' k).
Proof.
  intros H N T V Z.
  destruct (kept_hist c_token_settings tk_init (fun ts => (tk_akind ts, tk_kind ts)) e k tk_akind
      (fun ts => exists n, tk_akind ts = KTokenSettings n vn)) with (n := n) (s := s) (s' := s')
    as [_ Q]; try assumption.
  - intros x y E (m & K). exists m. injection E as E _. congruence.
  - intros d x. apply kind_token_settings.
  - intros x (m & ->). exact Logic.I.
  - intros c i a b x T1 H1 (m & K) NS. pose proof H1 as [O U]. pose proof (kind_token_settings _ _ _ _ U) as KD. rewrite K in KD.
    destruct (effect_kind _ _ _ _ _ _ _ T1 O KD) as [?|(x1 & x2 & q & A1 & A2 & A3 & A4)]; [contradiction|].
    exists x2. split; [exact A2|]. destruct A1 as [_ A1]. assert (x1 = x) by congruence. subst x1.
    apply token_cause_core in A4 as [-> ->]. reflexivity.
  - destruct V as (U & m & K & P). destruct (Q ts T) as (ts' & T' & K' & Z'); [exists m; exact K|exact Z|].
    injection K' as K1 K2.
    exists ts'. split; [exact T'|]. split; [|auto]. split; [apply T'|]. exists m. split; [congruence|]. rewrite K2. exact P.
Qed.
