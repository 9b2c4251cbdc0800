(** Token balances and supplies, and how each instruction of the token proxy changes them.  No code of
    /repo is modelled here. *)

From Coq Require Import ZifyBool ZifyNat ZifyN.
From Verif Require Export TpReq.
Open Scope Z_scope.
Ltac Zify.zify_post_hook ::= Z.div_mod_to_equations.

(** ** Balances and supplies *)

(** Tokens in [k]: 0 unless [k] is an initialized token account of the token program. *)
Definition balance (s : state) (k : key) : Z :=
  if keqb (own (accs s k)) spl_id then
    match unpack c_tacc TACC_LEN ta_init (dat (accs s k)) with Ok t => ta_amount t | _ => 0 end
  else 0.
(** Tokens of mint [k] in existence: 0 unless [k] is an initialized mint of the token program. *)
Definition supply (s : state) (k : key) : Z :=
  if keqb (own (accs s k)) spl_id then
    match unpack c_tmint TMINT_LEN tm_init (dat (accs s k)) with Ok t => tm_supply t | _ => 0 end
  else 0.

Lemma balance_tok s k t : tok_in s k t -> balance s k = ta_amount t.
Proof. intros [O T]. unfold balance. rewrite O, keqb_refl. unfold tacc_in in T. rewrite T. reflexivity. Qed.
Lemma supply_mint s k t : mint_in s k t -> supply s k = tm_supply t.
Proof. intros [O T]. unfold supply. rewrite O, keqb_refl. unfold tmint_in in T. rewrite T. reflexivity. Qed.
Lemma balance_mint s k t : mint_in s k t -> balance s k = 0.
Proof.
  intros [O T]. unfold balance. rewrite O, keqb_refl.
  destruct (unpack c_tacc TACC_LEN ta_init (dat (accs s k))) as [x|er] eqn:E; [|reflexivity].
  destruct (tacc_tmint _ _ _ _ E T).
Qed.
Lemma supply_tok s k t : tok_in s k t -> supply s k = 0.
Proof.
  intros [O T]. unfold supply. rewrite O, keqb_refl.
  destruct (unpack c_tmint TMINT_LEN tm_init (dat (accs s k))) as [x|er] eqn:E; [|reflexivity].
  destruct (tacc_tmint _ _ _ _ T E).
Qed.
Lemma balance_other s k : own (accs s k) <> spl_id -> balance s k = 0.
Proof. intros N. unfold balance. rewrite keqb_ne by exact N. reflexivity. Qed.
Lemma supply_other s k : own (accs s k) <> spl_id -> supply s k = 0.
Proof. intros N. unfold supply. rewrite keqb_ne by exact N. reflexivity. Qed.
Lemma balance_same s s' k : same_od s s' k -> balance s' k = balance s k.
Proof. intros [O D]. unfold balance. rewrite O, D. reflexivity. Qed.
Lemma supply_same s s' k : same_od s s' k -> supply s' k = supply s k.
Proof. intros [O D]. unfold supply. rewrite O, D. reflexivity. Qed.
Lemma balance_range s k : 0 <= balance s k < u64max.
Proof.
  unfold balance. destruct (keqb (own (accs s k)) spl_id); [|unfold u64max; lia].
  destruct (unpack c_tacc TACC_LEN ta_init (dat (accs s k))) as [x|er] eqn:E; [|unfold u64max; lia].
  apply tacc_in_ok in E as (E & _). apply okb_tacc in E. lia.
Qed.
Lemma supply_range s k : 0 <= supply s k < u64max.
Proof.
  unfold supply. destruct (keqb (own (accs s k)) spl_id); [|unfold u64max; lia].
  destruct (unpack c_tmint TMINT_LEN tm_init (dat (accs s k))) as [x|er] eqn:E; [|unfold u64max; lia].
  apply tmint_in_ok in E as (E & _). apply okb_tmint in E. lia.
Qed.

(** ** Changes of balances *)

(** [k] becomes a token account for wrapped lamports; what it holds depends on its lamports. *)
Definition native_new (s s' : state) (k : key) : Prop :=
  own (accs s k) <> spl_id /\ exists t, tok_in s' k t /\ ta_mint t = native_mint.
(** The system program or the token proxy. *)
Definition plain (o : key) : Prop := o = sys_id \/ o = tp_id.
Lemma plain_ne o : plain o -> o <> spl_id.
Proof. intros [->| ->]; discriminate. Qed.
(** The same token account with, possibly, another amount; nobody is made its delegate. *)
Definition ta_kept (t t' : tacc) : Prop := ta_moved t t' /\ (fst (ta_delegate t) = false -> fst (ta_delegate t') = false).
(** Balances change by [f], supplies by [g]; token accounts and mints stay what they are. *)
Record tokens (s s' : state) (f g : key -> Z) : Prop := Tokens {
  to_bal : forall j, balance s' j = balance s j + f j \/ native_new s s' j;
  to_sup : forall j, supply s' j = supply s j + g j;
  to_own : forall j, own (accs s j) = spl_id -> own (accs s' j) = spl_id;
  to_acc : forall j t, tok_in s j t -> exists t', tok_in s' j t' /\ ta_kept t t';
  to_mint : forall j m, mint_in s j m -> exists m', mint_in s' j m' /\ tm_auth m' = tm_auth m /\ tm_decimals m' = tm_decimals m;
  to_new : forall j, own (accs s j) <> spl_id -> own (accs s' j) = own (accs s j) \/ plain (own (accs s' j)) \/
    (exists t, tok_in s' j t) \/ exists m, mint_in s' j m /\ tm_auth m = (true, j) }.
Definition none : key -> Z := fun _ => 0.
Definition gain (k : key) (n : Z) : key -> Z := fun j => if keqb j k then n else 0.
Definition shift (src dst : key) (n : Z) : key -> Z := fun j => gain dst n j - gain src n j.

Lemma tokens_ext s s' f g f' g' : (forall j, f j = f' j) -> (forall j, g j = g' j) -> tokens s s' f g -> tokens s s' f' g'.
Proof.
  intros Ef Eg [B S O A M W]. constructor; auto; intros j; [rewrite <- Ef|rewrite <- Eg]; auto.
Qed.
Lemma ta_kept_refl t : ta_kept t t.
Proof. unfold ta_kept, ta_moved. auto 10. Qed.
Lemma ta_kept_trans a b c : ta_kept a b -> ta_kept b c -> ta_kept a c.
Proof. unfold ta_kept, ta_moved. intros [(H1 & H2 & H3 & H4 & H5) H6] [(J1 & J2 & J3 & J4 & J5) J6]. split; [repeat split; congruence|auto]. Qed.
Lemma ta_kept_same t n d m : d = ta_delegate t -> ta_kept t (ta_with t n d m).
Proof. intros ->. split; [apply ta_with_moved|auto]. Qed.
Lemma ta_kept_spent t au n dl da m : may_spend t au n dl da -> ta_kept t (ta_with t m dl da).
Proof.
  intros S. split; [apply ta_with_moved|]. cbn [ta_delegate ta_with]. intros D.
  destruct S as [(E & _)|(_ & _ & -> & _)]; [rewrite E in D; discriminate D|exact D].
Qed.
Lemma tokens_trans s s1 s2 f g f' g' : tokens s s1 f g -> tokens s1 s2 f' g' ->
  tokens s s2 (fun j => f j + f' j) (fun j => g j + g' j).
Proof.
  intros [B S O A M W] [B' S' O' A' M' W']. constructor.
  - intros j. destruct (B' j) as [E'|(N' & t & T & E')].
    + destruct (B j) as [E|(N & t & T & E)]; [left; lia|right]. split; [exact N|].
      destruct (A' _ _ T) as (t' & T' & MV). exists t'. split; [exact T'|]. destruct MV as [[MV _] _]. congruence.
    + right. split; [intros X; apply N', O, X|]. exists t. auto.
  - intros j. rewrite S', S. lia.
  - auto.
  - intros j t T. destruct (A _ _ T) as (t1 & T1 & M1). destruct (A' _ _ T1) as (t2 & T2 & M2).
    exists t2. split; [exact T2|]. eapply ta_kept_trans; eassumption.
  - intros j m T. destruct (M _ _ T) as (t1 & T1 & M1 & D1). destruct (M' _ _ T1) as (t2 & T2 & M2 & D2).
    exists t2. split; [exact T2|]. split; congruence.
  - intros j N. destruct (W j N) as [E|[P|[(t & T)|(m & T & E)]]].
    + destruct (W' j) as [E'|X]; [congruence|left; congruence|auto].
    + destruct (W' j (plain_ne _ P)) as [E'|X]; [right; left; rewrite E'; exact P|auto].
    + destruct (A' _ _ T) as (t' & T' & _). right. right. left. exists t'. exact T'.
    + destruct (M' _ _ T) as (m' & T' & E' & _). right. right. right. exists m'. split; [exact T'|congruence].
Qed.

(** Nothing of the token program changes. *)
Definition nospl (s s' : state) : Prop := forall j,
  same_od s s' j \/ (own (accs s j) <> spl_id /\ plain (own (accs s' j))).
Lemma nospl_refl s : nospl s s.
Proof. intros j. left. apply same_od_refl. Qed.
Lemma nospl_trans a b c : nospl a b -> nospl b c -> nospl a c.
Proof.
  intros H1 H2 j. destruct (H1 j) as [H|[H H']], (H2 j) as [J|[J J']].
  - left. exact (same_od_trans _ _ _ _ H J).
  - right. destruct H as [H _]. split; [congruence|exact J'].
  - right. destruct J as [J _]. rewrite J. split; assumption.
  - right. auto.
Qed.
Lemma nospl_sod s s' : sod s s' -> nospl s s'.
Proof. intros H j. left. apply H. Qed.
Lemma nospl_accs s s' : accs s' = accs s -> nospl s s'.
Proof. intros H j. left. split; rewrite H; reflexivity. Qed.
Lemma nospl_one s s' k : (forall j, j <> k -> same_od s s' j) ->
  (same_od s s' k \/ own (accs s k) <> spl_id /\ plain (own (accs s' k))) -> nospl s s'.
Proof. intros H H' j. destruct (key_dec j k) as [->|N]; [exact H'|left; apply H; exact N]. Qed.
Lemma nospl_packed {A} c (cd : codec A) LEN s s' k x : c_pid c = tp_id -> packed c cd LEN s s' k x -> nospl s s'.
Proof.
  intros Hp P. apply (nospl_one s s' k); [apply (packed_od c cd LEN s s' k x P)|].
  pose proof (packed_own c cd LEN s s' k x P k) as O. destruct P as (_ & _ & _ & [D|[W _]]); [left; split; auto|right].
  rewrite O, W, Hp. split; [discriminate|right; reflexivity].
Qed.
Lemma nospl_log {A} c (cd : codec A) LEN s s' k x l : c_pid c = tp_id -> packed c cd LEN (St (accs s) l (now s)) s' k x -> nospl s s'.
Proof. intros Hp P. apply (nospl_trans _ (St (accs s) l (now s))); [apply nospl_accs; reflexivity|]. eapply nospl_packed; eassumption. Qed.
Lemma nospl_put {A} c (cd : codec A) LEN s s' k x l : c_pid c = tp_id -> packed c cd LEN (put_log s l) s' k x -> nospl s s'.
Proof. intros Hp P. apply (nospl_trans _ (put_log s l)); [apply nospl_accs; reflexivity|]. eapply nospl_packed; eassumption. Qed.
Lemma nospl_lpaid c s s' a b z : lpaid c s s' a b z -> nospl s s'.
Proof. intros (_ & _ & _ & S & _). apply nospl_sod. exact S. Qed.
Lemma nospl_recorded {A} e c (cd : codec A) x f k l s s' : c_pid c = tp_id -> recorded e c cd x f k l s s' -> nospl s s'.
Proof.
  intros Hp ((O & _ & O' & _) & _ & SO & _). apply (nospl_one s s' k SO). right. rewrite O, O', Hp. split; [discriminate|right; reflexivity].
Qed.
Lemma nospl_created s s' k n : created s s' k tp_id n -> nospl s s'.
Proof. intros (O & _ & _ & O' & _ & SO). apply (nospl_one s s' k SO). right. rewrite O, O'. split; [discriminate|right; reflexivity]. Qed.
Lemma nospl_deleted c s s' k a : own (accs s k) <> spl_id -> deleted c s s' k a -> nospl s s'.
Proof. intros N (_ & O' & _ & SO & _). apply (nospl_one s s' k SO). right. rewrite O'. split; [exact N|left; reflexivity]. Qed.

Lemma tokens_none s s' : nospl s s' -> tokens s s' none none.
Proof.
  intros H. constructor; unfold none.
  - intros j. left. destruct (H j) as [S|[N N']]; [rewrite (balance_same _ _ _ S); lia|rewrite !balance_other by (assumption || apply plain_ne; assumption); lia].
  - intros j. destruct (H j) as [S|[N N']]; [rewrite (supply_same _ _ _ S); lia|rewrite !supply_other by (assumption || apply plain_ne; assumption); lia].
  - intros j O. destruct (H j) as [[S _]|[N _]]; [congruence|contradiction].
  - intros j t [O T]. exists t. split; [|apply ta_kept_refl]. destruct (H j) as [S|[N _]]; [|contradiction].
    exact (same_od_tok _ _ _ _ S (conj O T)).
  - intros j t [O T]. exists t. split; [|auto]. destruct (H j) as [S|[N _]]; [|contradiction].
    exact (same_od_mint _ _ _ _ S (conj O T)).
  - intros j _. destruct (H j) as [[S _]|[_ P]]; [left; exact S|right; left; exact P].
Qed.
Lemma tokens_then s s1 s2 f g : tokens s s1 f g -> nospl s1 s2 -> tokens s s2 f g.
Proof. intros T N. refine (tokens_ext _ _ _ _ _ _ _ _ (tokens_trans _ _ _ _ _ _ _ T (tokens_none _ _ N))); intros j; unfold none; lia. Qed.
Lemma tokens_after s s1 s2 f g : nospl s s1 -> tokens s1 s2 f g -> tokens s s2 f g.
Proof. intros N T. refine (tokens_ext _ _ _ _ _ _ _ _ (tokens_trans _ _ _ _ _ _ _ (tokens_none _ _ N) T)); intros j; unfold none; lia. Qed.
Lemma tokens_zero_trans s s1 s2 f g : tokens s s1 none none -> tokens s1 s2 f g -> tokens s s2 f g.
Proof. intros N T. refine (tokens_ext _ _ _ _ _ _ _ _ (tokens_trans _ _ _ _ _ _ _ N T)); intros j; unfold none; lia. Qed.

Lemma gain_at k n : gain k n k = n.
Proof. unfold gain. rewrite keqb_refl. reflexivity. Qed.
Lemma gain_other k n j : j <> k -> gain k n j = 0.
Proof. intros N. unfold gain. rewrite keqb_ne by exact N. reflexivity. Qed.

Lemma tokens_minted s s' mint dst n : minted s s' mint dst n -> tokens s s' (gain dst n) (gain mint n).
Proof.
  intros (b & m & TD & TM & ND & Em & _ & TD' & TM' & SO & _). constructor.
  - intros j. left. destruct (key_dec j dst) as [->|N1]; [rewrite gain_at, (balance_tok _ _ _ TD), (balance_tok _ _ _ TD'); reflexivity|].
    rewrite gain_other by exact N1. destruct (key_dec j mint) as [->|N2]; [rewrite (balance_mint _ _ _ TM), (balance_mint _ _ _ TM'); lia|].
    rewrite (balance_same s s' j) by (apply SO; assumption). lia.
  - intros j. destruct (key_dec j mint) as [->|N1]; [rewrite gain_at, (supply_mint _ _ _ TM), (supply_mint _ _ _ TM'); reflexivity|].
    rewrite gain_other by exact N1. destruct (key_dec j dst) as [->|N2]; [rewrite (supply_tok _ _ _ TD), (supply_tok _ _ _ TD'); lia|].
    rewrite (supply_same s s' j) by (apply SO; assumption). lia.
  - intros j O. destruct (key_dec j dst) as [->|N1]; [apply TD'|]. destruct (key_dec j mint) as [->|N2]; [apply TM'|].
    destruct (SO j N2 N1) as [SO1 _]. congruence.
  - intros j t T. destruct (key_dec j dst) as [->|N1].
    { rewrite (tacc_in_fun _ _ _ _ (proj2 T) (proj2 TD)). eexists. split; [exact TD'|apply ta_kept_same; reflexivity]. }
    destruct (key_dec j mint) as [->|N2]; [destruct (tacc_tmint _ _ _ _ (proj2 T) (proj2 TM))|].
    exists t. split; [exact (same_od_tok _ _ _ _ (SO j N2 N1) T)|apply ta_kept_refl].
  - intros j t T. destruct (key_dec j mint) as [->|N1].
    { rewrite (tmint_in_fun _ _ _ _ (proj2 T) (proj2 TM)). eexists. split; [exact TM'|split; reflexivity]. }
    destruct (key_dec j dst) as [->|N2]; [destruct (tacc_tmint _ _ _ _ (proj2 TD) (proj2 T))|].
    exists t. split; [exact (same_od_mint _ _ _ _ (SO j N1 N2) T)|split; reflexivity].
  - intros j N. left. destruct (key_dec j dst) as [->|N1]; [destruct TD; contradiction|]. destruct (key_dec j mint) as [->|N2]; [destruct TM; contradiction|]. apply (SO j N2 N1).
Qed.
Lemma tokens_burned s s' src mint au n : burned s s' src mint au n -> tokens s s' (gain src (- n)) (gain mint (- n)).
Proof.
  intros (b & m & dl & da & TD & TM & ND & Em & _ & _ & SP & TD' & TM' & SO & _). constructor.
  - intros j. left. destruct (key_dec j src) as [->|N1]; [rewrite gain_at, (balance_tok _ _ _ TD), (balance_tok _ _ _ TD'); reflexivity|].
    rewrite gain_other by exact N1. destruct (key_dec j mint) as [->|N2]; [rewrite (balance_mint _ _ _ TM), (balance_mint _ _ _ TM'); lia|].
    rewrite (balance_same s s' j) by (apply SO; assumption). lia.
  - intros j. destruct (key_dec j mint) as [->|N1]; [rewrite gain_at, (supply_mint _ _ _ TM), (supply_mint _ _ _ TM'); reflexivity|].
    rewrite gain_other by exact N1. destruct (key_dec j src) as [->|N2]; [rewrite (supply_tok _ _ _ TD), (supply_tok _ _ _ TD'); lia|].
    rewrite (supply_same s s' j) by (apply SO; assumption). lia.
  - intros j O. destruct (key_dec j src) as [->|N1]; [apply TD'|]. destruct (key_dec j mint) as [->|N2]; [apply TM'|].
    destruct (SO j N2 N1) as [SO1 _]. congruence.
  - intros j t T. destruct (key_dec j src) as [->|N1].
    { rewrite (tacc_in_fun _ _ _ _ (proj2 T) (proj2 TD)). eexists. split; [exact TD'|]. destruct SP as [(_ & -> & _)|SP]; [apply ta_kept_same; reflexivity|eapply ta_kept_spent; exact SP]. }
    destruct (key_dec j mint) as [->|N2]; [destruct (tacc_tmint _ _ _ _ (proj2 T) (proj2 TM))|].
    exists t. split; [exact (same_od_tok _ _ _ _ (SO j N2 N1) T)|apply ta_kept_refl].
  - intros j t T. destruct (key_dec j mint) as [->|N1].
    { rewrite (tmint_in_fun _ _ _ _ (proj2 T) (proj2 TM)). eexists. split; [exact TM'|split; reflexivity]. }
    destruct (key_dec j src) as [->|N2]; [destruct (tacc_tmint _ _ _ _ (proj2 TD) (proj2 T))|].
    exists t. split; [exact (same_od_mint _ _ _ _ (SO j N1 N2) T)|split; reflexivity].
  - intros j N. left. destruct (key_dec j src) as [->|N1]; [destruct TD; contradiction|]. destruct (key_dec j mint) as [->|N2]; [destruct TM; contradiction|]. apply (SO j N2 N1).
Qed.
Lemma tokens_moved s s' src dst au n : moved s s' src dst au n -> tokens s s' (shift src dst n) none.
Proof.
  intros (a & b & dl & da & TA & TB & Em & LE & SP & SAME & DIFF & SO & _).
  destruct (key_dec src dst) as [->|ND].
  { rewrite (SAME eq_refl). eapply tokens_ext; [| |apply tokens_none, nospl_refl]; intros j; unfold none, shift; lia. }
  destruct (DIFF ND) as [TA' TB']. constructor.
  - intros j. left. unfold shift. destruct (key_dec j dst) as [->|N1].
    { rewrite gain_at, gain_other, (balance_tok _ _ _ TB), (balance_tok _ _ _ TB') by congruence. tacbn. lia. }
    rewrite (gain_other dst) by exact N1. destruct (key_dec j src) as [->|N2].
    { rewrite gain_at, (balance_tok _ _ _ TA), (balance_tok _ _ _ TA'). tacbn. lia. }
    rewrite gain_other by exact N2. rewrite (balance_same s s' j) by (apply SO; assumption). lia.
  - intros j. unfold none. destruct (key_dec j dst) as [->|N1]; [rewrite (supply_tok _ _ _ TB), (supply_tok _ _ _ TB'); lia|].
    destruct (key_dec j src) as [->|N2]; [rewrite (supply_tok _ _ _ TA), (supply_tok _ _ _ TA'); lia|].
    rewrite (supply_same s s' j) by (apply SO; assumption). lia.
  - intros j O. destruct (key_dec j dst) as [->|N1]; [apply TB'|]. destruct (key_dec j src) as [->|N2]; [apply TA'|].
    destruct (SO j N2 N1) as [SO1 _]. congruence.
  - intros j t T. destruct (key_dec j dst) as [->|N1].
    { rewrite (tacc_in_fun _ _ _ _ (proj2 T) (proj2 TB)). eexists. split; [exact TB'|apply ta_kept_same; reflexivity]. }
    destruct (key_dec j src) as [->|N2].
    { rewrite (tacc_in_fun _ _ _ _ (proj2 T) (proj2 TA)). eexists. split; [exact TA'|eapply ta_kept_spent; exact SP]. }
    exists t. split; [exact (same_od_tok _ _ _ _ (SO j N2 N1) T)|apply ta_kept_refl].
  - intros j t T. destruct (key_dec j dst) as [->|N1]; [destruct (tacc_tmint _ _ _ _ (proj2 TB) (proj2 T))|].
    destruct (key_dec j src) as [->|N2]; [destruct (tacc_tmint _ _ _ _ (proj2 TA) (proj2 T))|].
    exists t. split; [exact (same_od_mint _ _ _ _ (SO j N2 N1) T)|split; reflexivity].
  - intros j N. left. destruct (key_dec j dst) as [->|N1]; [destruct TB; contradiction|]. destruct (key_dec j src) as [->|N2]; [destruct TA; contradiction|]. apply (SO j N2 N1).
Qed.

(** A new token account or mint at an address that was not the token program's. *)
Lemma tokens_new s s' : (forall j, same_od s s' j \/
    (own (accs s j) <> spl_id /\ (plain (own (accs s' j)) \/
       (exists t, tok_in s' j t /\ (ta_mint t = native_mint \/ ta_amount t = 0)) \/
       (exists m, mint_in s' j m /\ tm_supply m = 0 /\ tm_auth m = (true, j))))) ->
  tokens s s' none none.
Proof.
  intros H. constructor; unfold none.
  - intros j. destruct (H j) as [S|[N [N'|[(t & T & [E|E])|(m & M & E & EA)]]]].
    + left. rewrite (balance_same _ _ _ S). lia.
    + left. rewrite !balance_other by (assumption || apply plain_ne; assumption). lia.
    + right. split; [exact N|]. exists t. auto.
    + left. rewrite (balance_tok _ _ _ T), (balance_other s) by exact N. lia.
    + left. rewrite (balance_mint _ _ _ M), (balance_other s) by exact N. lia.
  - intros j. destruct (H j) as [S|[N [N'|[(t & T & E)|(m & M & E & EA)]]]].
    + rewrite (supply_same _ _ _ S). lia.
    + rewrite !supply_other by (assumption || apply plain_ne; assumption). lia.
    + rewrite (supply_tok _ _ _ T), (supply_other s) by exact N. lia.
    + rewrite (supply_mint _ _ _ M), (supply_other s) by exact N. lia.
  - intros j O. destruct (H j) as [[S _]|[N _]]; [congruence|contradiction].
  - intros j t [O T]. exists t. split; [|apply ta_kept_refl]. destruct (H j) as [S|[N _]]; [|contradiction].
    exact (same_od_tok _ _ _ _ S (conj O T)).
  - intros j t [O T]. exists t. split; [|auto]. destruct (H j) as [S|[N _]]; [|contradiction].
    exact (same_od_mint _ _ _ _ S (conj O T)).
  - intros j N. destruct (H j) as [[S _]|[_ [P|[(t & T & _)|(m & M & _ & E)]]]]; [left; exact S|right; left; exact P|right; right; left; exists t; exact T|right; right; right; exists m; auto].
Qed.
Lemma tokens_registered_ever e c f mint tsk ev s s' : c_pid c = tp_id -> registered_ever e c f mint tsk ev s s' -> tokens s s' none none.
Proof.
  intros Hp (mn & tn & ata & an & m & t & _ & _ & _ & _ & _ & _ & OM & _ & MI & SU & _ & AU & _ & OA & _ & TA & TM & _ & AM & NR & SO & _).
  apply tokens_new. intros j. destruct (key_dec j mint) as [->|N1].
  { right. rewrite OM. split; [discriminate|]. right. right. exists m. auto. }
  destruct (key_dec j ata) as [->|N2].
  { right. rewrite OA. split; [discriminate|]. right. left. exists t. split; [exact TA|].
    destruct (key_dec mint native_mint) as [E|N]; [left; congruence|right; auto]. }
  destruct (key_dec j tsk) as [->|N3]; [|left; apply SO; assumption].
  destruct NR as (O1 & _ & O2 & _). right. rewrite O1, O2, Hp. split; [discriminate|]. left. right. reflexivity.
Qed.
Lemma tokens_registered_sol e c f vault mint tsk n sy s s' : c_pid c = tp_id -> registered_sol e c f vault mint tsk n sy s s' -> tokens s s' none none.
Proof.
  intros Hp (vn & tn & t & _ & _ & _ & OV & _ & TV & TM & _ & _ & _ & AM & NR & SO & _).
  apply tokens_new. intros j. destruct (key_dec j vault) as [->|N1].
  { right. rewrite OV. split; [discriminate|]. right. left. exists t. split; [exact TV|].
    destruct (key_dec mint native_mint) as [E|N]; [left; congruence|right; apply AM, N]. }
  destruct (key_dec j tsk) as [->|N3]; [|left; apply SO; assumption].
  destruct NR as (O1 & _ & O2 & _). right. rewrite O1, O2, Hp. split; [discriminate|]. left. right. reflexivity.
Qed.
Lemma tokens_proxy e c p m r f a l pn s s' : proxy_eff e c p m r f a l pn s s' -> tokens s s' none none.
Proof.
  intros [(_ & _ & ->)|(_ & px & mint & tk & rr & n & s1 & _ & _ & _ & _ & O & M & L)]; [apply tokens_none, nospl_refl|].
  eapply tokens_then; [|eapply nospl_lpaid; exact L].
  destruct M as [(_ & (t & T & TM & _ & _ & AM) & _ & SO & _)|[_ ->]]; [|apply tokens_none, nospl_refl].
  apply tokens_new. intros j. destruct (key_dec j px) as [->|N]; [|left; apply SO; exact N].
  right. rewrite O. split; [discriminate|]. right. left. exists t. split; [exact T|].
  destruct (key_dec mint native_mint) as [E|N]; [left; congruence|right; apply AM, N].
Qed.
Lemma nospl_tail {E} (ce : codec E) e c f a w rls rr ts lt conf ev evb pn ep tok rcp amt s s' : c_pid c = tp_id ->
  tail_eff e c ce f a w rls rr ts lt conf ev evb pn ep tok rcp amt s s' -> nospl s s'.
Proof.
  intros Hp (wn & _ & [[_ ->]|(_ & s1 & R & L)]); [apply nospl_refl|].
  eapply nospl_trans; [eapply nospl_recorded; [exact Hp|exact R]|eapply nospl_lpaid; exact L].
Qed.
Lemma nospl_settled {A} (cw : codec A) c s s1 s' tsk ts2 wk w' l : c_pid c = tp_id -> spl_step s s1 ->
  blen (dat (accs s wk)) = TP_LEN -> blen (dat (accs s tsk)) = TP_LEN ->
  settled c cw s s1 s' tsk ts2 wk w' l -> nospl s1 s'.
Proof.
  intros Hp SS LW LT (NE & WR & CH & WT & SO & _). pose proof (SS _ LW) as [QW DW]. pose proof (SS _ LT) as [QT DT].
  intros j. destruct (key_dec j wk) as [->|N1].
  { destruct WR as (W1 & _). destruct CH as [D|[O _]]; [left; split; congruence|right]. rewrite Hp in O.
    rewrite QW, W1, O. split; [discriminate|right; reflexivity]. }
  destruct (key_dec j tsk) as [->|N2]; [|left; apply SO; assumption].
  destruct ts2 as [t|]; cbn [wrote_ts] in WT.
  - destruct WT as ((W1 & _) & [D|[O _]]); [left; split; congruence|right]. rewrite Hp in O. rewrite QT, W1, O. split; [discriminate|right; reflexivity].
  - destruct WT as [W1 W2]. left. split; congruence.
Qed.

(** ** The flow of each instruction *)

Definition approver (e : env) (c : ctx) (s : state) : Prop :=
  exists a st, c_sg c a = true /\ settings_of e s st /\ entitled e tp_id s (gs_wmanager st) a.
Definition fee_taker (e : env) (c : ctx) (s : state) : Prop :=
  exists a st, c_sg c a = true /\ settings_of e s st /\ entitled e tp_id s (gs_manager st) a.
(** [a] may spend from [t]; accounts of the system program and the incinerator may be burned by all. *)
Definition spender (t : tacc) (a : key) : Prop := ta_owner t = a \/ ta_delegate t = (true, a).
(** The request at [k] is paid: it becomes finished, or waits for its payload. *)
Definition paid_status (payload : bytes) (st : wstatus) : Prop :=
  payload = [] /\ st = WProcessed \/ payload <> [] /\ st = WWaitExecute.
(** [dst] holds tokens [mint] afterwards, and is [owner]'s, or the proxy of [owner] for [pm]. *)
Definition got (e : env) (s' : state) (payload : bytes) (pm owner dst : key) : Prop :=
  exists r, tok_in s' dst r /\
  (payload = [] /\ ta_owner r = owner \/ payload <> [] /\ exists n, find_pda e (sd_proxy pm owner) tp_id = Ok (dst, n)).

Variant tp_flow (e : env) (c : ctx) (i : tp_ix) (s s' : state) : Prop :=
| TF_none : tokens s s' none none -> tp_flow e c i s s'
| TF_ever k w mint mn dst n st : tp_wever s k w -> request_addr e tp_id k w (wever_hash e w) -> wpos i c k ->
    (i = TpWithdrawEver /\ w_status w = WNew /\ p_required w <= w_confirms w \/
     i = TpApproveEver /\ w_status w = WWaitApprove /\ approver e c s) ->
    find_pda e (sd_mint (token_hash e (wee_token (wl_data (p_event w))))) tp_id = Ok (mint, mn) ->
    got e s' (wee_payload (wl_data (p_event w))) mint (wee_recipient (wl_data (p_event w))) dst -> 0 <= n ->
    paid_status (wee_payload (wl_data (p_event w))) st -> tp_wever s' k (w_set_status w st) ->
    tokens s s' (gain dst n) (gain mint n) -> tp_flow e c i s s'
| TF_sol k w vault vn pm dst n st : tp_wsol s k w -> request_addr e tp_id k w (wsol_hash e w) -> wpos i c k ->
    (i = TpWithdrawSol /\ (w_status w = WNew \/ w_status w = WPending) /\ p_required w <= w_confirms w \/
     i = TpApproveSol /\ w_status w = WWaitApprove /\ approver e c s) ->
    find_pda e (sd_vault (wse_mint (wl_data (p_event w)))) tp_id = Ok (vault, vn) ->
    got e s' (wse_payload (wl_data (p_event w))) pm (wse_recipient (wl_data (p_event w))) dst -> 0 <= n ->
    paid_status (wse_payload (wl_data (p_event w))) st -> tp_wsol s' k (w_set_status w st) ->
    tokens s s' (shift vault dst n) none -> tp_flow e c i s s'
| TF_fee_ever tsk ts mint mn m token d dst n : i = TpWithdrawEverFee n -> fee_taker e c s ->
    token_in e tp_id s tsk ts mn -> tk_kind ts = TKEver m token d -> 0 <= n <= tk_fee_supply ts ->
    find_pda e (sd_mint (token_hash e token)) tp_id = Ok (mint, mn) ->
    tokens s s' (gain dst n) (gain mint n) -> tp_flow e c i s s'
| TF_fee_sol tsk ts mint vn vault v dst n : i = TpWithdrawSolFee n -> fee_taker e c s ->
    token_in e tp_id s tsk ts vn -> tk_kind ts = TKSol mint v -> 0 <= n <= tk_fee_supply ts ->
    find_pda e (sd_vault mint) tp_id = Ok (vault, vn) ->
    tokens s s' (shift vault dst n) none -> tp_flow e c i s s'
| TF_burn f g src mint n : (exists seed r v ev p, i = TpDepositEver seed n r v ev p) -> 
    (exists t a, tok_in s src t /\ (ta_owner t = sys_id \/ ta_owner t = incinerator_id \/ c_sg c a = true /\ spender t a)) -> 0 <= n ->
    f = gain src (- n) -> g = gain mint (- n) -> tokens s s' f g -> tp_flow e c i s s'
| TF_user src f : (exists seed na sy n r v ev p, i = TpDepositSol seed na sy n r v ev p) \/ (exists seed r n v ev p, i = TpFill seed r n v ev p) ->
    (exists t a, tok_in s src t /\ c_sg c a = true /\ spender t a) \/ own (accs s src) <> spl_id ->
    (forall j, j <> src -> 0 <= f j) ->
    tokens s s' f none -> tp_flow e c i s s'
| TF_proxy owner mint proxy pn dst n : i = TpWithdrawProxy n -> c_sg c owner = true ->
    find_pda e (sd_proxy mint owner) tp_id = Ok (proxy, pn) -> 0 <= n -> 
    tokens s s' (shift proxy dst n) none -> tp_flow e c i s s'.

Lemma w_set_status_eq {E} (w : prop E (withlen wmeta)) st : w_status (w_set_status w st) = st.
Proof. reflexivity. Qed.
Lemma settled_held {E} (ce : codec E) (Le : Lawful ce) c s s1 s' tsk ts2 wk (w : prop E (withlen wmeta)) st l :
  c_pid c = tp_id -> unpack (c_prop ce (c_withlen c_wmeta)) TP_LEN (@p_init _ _) (dat (accs s wk)) = Ok w ->
  settled c (c_prop ce (c_withlen c_wmeta)) s s1 s' tsk ts2 wk (w_set_status w st) l -> w_status w <> st ->
  held (c_prop ce (c_withlen c_wmeta)) (@p_init _ _) s wk w /\ held (c_prop ce (c_withlen c_wmeta)) (@p_init _ _) s' wk (w_set_status w st).
Proof.
  intros Hp U (NE & W & WD & _) NS.
  assert (O : okb (c_prop ce (c_withlen c_wmeta)) w = true) by (eapply okb_unpack; [typeclasses eauto|exact U]).
  assert (I : p_init w = true) by (apply unpack_unchecked_init in U; apply U).
  destruct (wrote_cases c (c_prop ce (c_withlen c_wmeta)) _ (@p_init _ _) s s' wk (w_set_status w st) w Hp W WD U) as [X|X];
    [apply okb_set_status; exact O|exact I| |exact X].
  exfalso. apply NS. rewrite <- (w_set_status_eq w st). f_equal. destruct X as [_ X].
  apply unpack_unchecked_init in U as [U _].
  eapply (prop_bytes_eq (c_prop ce (c_withlen c_wmeta)) _ _ _ _ _ U); [apply okb_set_status; exact O|].
  destruct W as (_ & W & _). rewrite <- X at 1. exact W.
Qed.

Lemma nospl_tok s s' k t : nospl s s' -> tok_in s k t -> tok_in s' k t.
Proof. intros N [O T]. destruct (N k) as [S|[X _]]; [|contradiction]. exact (same_od_tok _ _ _ _ S (conj O T)). Qed.
Lemma got_minted e s s1 s' kind payload mint owner dst n st : minted s s1 mint dst n -> nospl s1 s' ->
  dest e tp_id s kind payload mint owner dst st -> got e s' payload mint owner dst /\ paid_status payload st.
Proof.
  intros (b & m & TD & _ & _ & Em & _ & TD' & _) NS D. pose proof (nospl_tok _ _ _ _ NS TD') as T.
  destruct D as [(P & -> & r & R & OW)|(P & -> & m' & n' & _ & F)].
  - split; [|left; auto]. eexists. split; [exact T|]. left. split; [exact P|].
    rewrite (tacc_in_fun _ _ _ _ (proj2 TD) R). exact OW.
  - split; [|right; auto]. eexists. split; [exact T|]. right. split; [exact P|]. exists n'. exact F.
Qed.
Lemma got_moved e s s1 s' kind payload pm owner src au dst n st : moved s s1 src dst au n -> nospl s1 s' ->
  dest e tp_id s kind payload pm owner dst st -> got e s' payload pm owner dst /\ paid_status payload st.
Proof.
  intros (a & b & dl & da & TA & TB & Em & _ & _ & SAME & DIFF & _) NS D.
  assert (T : exists r, tok_in s' dst r /\ ta_owner r = ta_owner b).
  { destruct (key_dec src dst) as [->|N]; [rewrite (SAME eq_refl) in NS|destruct (DIFF N) as [_ TB']].
    - exists b. split; [exact (nospl_tok _ _ _ _ NS TB)|reflexivity].
    - eexists. split; [exact (nospl_tok _ _ _ _ NS TB')|reflexivity]. }
  destruct T as (r' & T & OT).
  destruct D as [(P & -> & r & R & OW)|(P & -> & m' & n' & _ & F)].
  - split; [|left; auto]. exists r'. split; [exact T|]. left. split; [exact P|].
    rewrite OT, (tacc_in_fun _ _ _ _ (proj2 TB) R). exact OW.
  - split; [|right; auto]. exists r'. split; [exact T|]. right. split; [exact P|]. exists n'. exact F.
Qed.
Lemma paid_ne payload st : paid_status payload st -> st <> WNew /\ st <> WPending /\ st <> WWaitApprove.
Proof. intros [[_ ->]|[_ ->]]; repeat split; discriminate. Qed.

(** Execution of an Ever withdrawal, the token being registered. *)
Lemma ever_exec_flow e c w wk mint r tsk t s s' : c_pid c = tp_id -> wpos TpWithdrawEver c wk -> wever_in e tp_id s wk w ->
  ever_exec_eff e c w wk mint r tsk t s s' -> tp_flow e c TpWithdrawEver s s'.
Proof.
  intros Hp WP [U RA] (ts & mn & m & d & md & VT & KT & EM & FM & TM & H). rewrite Hp in *.
  destruct H as [[-> _]|(Q & ST & amount & fee & net & st & s1 & _ & _ & _ & N0 & _ & _ & P & SE)]; [apply TF_none, tokens_none, nospl_refl|].
  pose proof (wever_in_len _ _ _ _ _ (conj U RA)) as LW. pose proof (token_len _ _ _ _ _ _ VT) as LT.
  destruct P as [(_ & -> & ->)|(_ & _ & MI & D & _)].
  - apply TF_none, tokens_none. eapply nospl_settled; [exact Hp|apply spl_step_refl|exact LW|exact LT|exact SE].
  - assert (NS : nospl s1 s') by (eapply nospl_settled; [exact Hp|eapply minted_step; exact MI|exact LW|exact LT|exact SE]).
    destruct (got_minted _ _ _ _ _ _ _ _ _ _ _ MI NS D) as [G PS].
    destruct (settled_held (c_withlen c_wever_event) _ _ _ _ _ _ _ _ _ _ _ Hp U SE) as [H1 H2]; [rewrite ST; intros <-; apply paid_ne in PS; tauto|].
    eapply TF_ever; [exact H1|exact RA|exact WP| |exact FM|exact G|exact N0|exact PS|exact H2|].
    + left. auto.
    + eapply tokens_then; [apply tokens_minted; exact MI|exact NS].
Qed.
Lemma flow_after e c s s0 s' wk : wpos TpWithdrawEver c wk -> same_od s s0 wk -> tokens s s0 none none ->
  tp_flow e c TpWithdrawEver s0 s' -> tp_flow e c TpWithdrawEver s s'.
Proof.
  intros WPK SO T F. destruct F as [T2|k w mint mn dst n st H1 RA WP CA FM G N0 PS H2 T2|k w vault vn pm dst n st H1 RA WP CA| | |? ? ? ? ? (? & ? & ? & ? & ? & X)|? ? [(? & ? & ? & ? & ? & ? & ? & ? & X)|(? & ? & ? & ? & ? & ? & X)]|];
    try discriminate.
  - apply TF_none. exact (tokens_zero_trans _ _ _ _ _ T T2).
  - assert (k = wk) as -> by (cbn [wpos] in WP, WPK; congruence).
    eapply TF_ever; [exact (held_same _ _ _ _ _ _ (same_od_sym _ _ _ SO) H1)|exact RA|exact WP| |exact FM|exact G|exact N0|exact PS|exact H2|exact (tokens_zero_trans _ _ _ _ _ T T2)].
    destruct CA as [CA|[CA _]]; [left; exact CA|discriminate].
  - destruct CA as [[X _]|[X _]]; discriminate.
Qed.
Lemma withdraw_ever_flow e c s s' : c_pid c = tp_id -> tp_withdraw_ever e c s = Ok (tt, s') -> tp_flow e c TpWithdrawEver s s'.
Proof.
  intros Hp H. apply tp_withdraw_ever_ok in H as (wk & mint & r & tsk & sk & x & y & z & u & rest & w & t & KS & _ & W & _ & H).
  assert (WP : wpos TpWithdrawEver c wk) by (cbn [wpos]; rewrite KS; reflexivity). rewrite Hp in W.
  destruct H as [(_ & _ & ->)|[(_ & H)|(_ & f & rest' & s0 & _ & R & W0 & H)]].
  - apply TF_none, tokens_none, nospl_refl.
  - eapply ever_exec_flow; [exact Hp|exact WP|exact W|exact H].
  - eapply (flow_after e c s s0 s' wk WP); [|eapply tokens_registered_ever; [exact Hp|exact R]|rewrite Hp in W0; eapply ever_exec_flow; [exact Hp|exact WP|exact W0|exact H]].
    eapply registered_other; [exact R|]. apply blen_ne. exact (wever_in_len _ _ _ _ _ W).
Qed.

Lemma sol_paid_flow e c i w wk vault dst pm vn n s s1 s' st tsk ts vn' ts2 l : c_pid c = tp_id -> wpos i c wk -> wsol_in e tp_id s wk w ->
  (i = TpWithdrawSol /\ (w_status w = WNew \/ w_status w = WPending) /\ p_required w <= w_confirms w \/
     i = TpApproveSol /\ w_status w = WWaitApprove /\ approver e c s) ->
  find_pda e (sd_vault (wse_mint (wl_data (p_event w)))) tp_id = Ok (vault, vn) -> 0 <= n -> token_in e tp_id s tsk ts vn' ->
  sol_paid e c w vault dst pm (wse_mint (wl_data (p_event w))) vn n s s1 st ->
  settled c c_wsol s s1 s' tsk ts2 wk (w_set_status w st) l -> tp_flow e c i s s'.
Proof.
  intros Hp WP [U RA] CA FV N0 VT P SE. pose proof (wsol_in_len _ _ _ _ _ (conj U RA)) as LW. pose proof (token_len _ _ _ _ _ _ VT) as LT.
  assert (NS : nospl s1 s') by (eapply nospl_settled; [exact Hp|eapply sol_paid_step; exact P|exact LW|exact LT|exact SE]).
  destruct P as (v & _ & [(_ & -> & _)|(_ & MV & D & _)]); [apply TF_none, tokens_none; exact NS|]. rewrite Hp in D.
  destruct (got_moved _ _ _ _ _ _ _ _ _ _ _ _ _ MV NS D) as [G PS].
  destruct (settled_held (c_withlen c_wsol_event) _ _ _ _ _ _ _ _ _ _ _ Hp U SE) as [H1 H2].
  { apply paid_ne in PS as (P1 & P2 & P3). destruct CA as [(_ & [E|E] & _)|(_ & E & _)]; rewrite E; congruence. }
  eapply TF_sol; [exact H1|exact RA|exact WP|exact CA|exact FV|exact G|exact N0|exact PS|exact H2|].
  eapply tokens_then; [apply (tokens_moved _ _ _ _ _ _ MV)|exact NS].
Qed.
Lemma withdraw_sol_flow e c s s' : c_pid c = tp_id -> tp_withdraw_sol e c s = Ok (tt, s') -> tp_flow e c TpWithdrawSol s s'.
Proof.
  intros Hp H. apply tp_withdraw_sol_ok in H as (wk & vault & r & tsk & mint & sk & x & y & rest & w & st0 & pn & KS & W & _ & _ & H).
  assert (WP : wpos TpWithdrawSol c wk) by (cbn [wpos]; rewrite KS; reflexivity). rewrite Hp in W.
  destruct H as (ts & vn & sv & VT & KT & EM & FV & [[-> _]|(Q & fee & net & st & s1 & F & -> & N0 & H)]); [apply TF_none, tokens_none, nospl_refl|].
  rewrite Hp in VT, FV. pose proof (wsol_in_len _ _ _ _ _ W) as LW. pose proof (token_len _ _ _ _ _ _ VT) as LT.
  destruct H as [(ST & _ & _ & [(_ & -> & ->)|(_ & _ & P)] & SE)|[(ST & P & SE)|(ST & _ & -> & -> & SE)]].
  - apply TF_none, tokens_none. eapply nospl_settled; [exact Hp|apply spl_step_refl|exact LW|exact LT|exact SE].
  - eapply sol_paid_flow; [exact Hp|exact WP|exact W|left; auto|exact FV|exact N0|exact VT|exact P|exact SE].
  - eapply sol_paid_flow; [exact Hp|exact WP|exact W|left; auto|exact FV|exact N0|exact VT|exact P|exact SE].
  - apply TF_none, tokens_none. eapply nospl_settled; [exact Hp|apply spl_step_refl|exact LW|exact LT|exact SE].
Qed.
Lemma approve_ever_flow e c s s' : c_pid c = tp_id -> tp_approve_ever e c s = Ok (tt, s') -> tp_flow e c TpApproveEver s s'.
Proof.
  intros Hp H. apply tp_approve_ever_ok in H as (a & mint & wk & r & tsk & sk & x & y & rest & w & KS & B).
  destruct B as (ts & mn & m & d & md & st & pn & S & VS & GE & EN & W & ST & VT & KT & EM & FM & TM & amount & fee & net & st' & s1 & ts2 & GA & F & NE & N0 & MI & D & _ & _ & _ & R & SE).
  rewrite Hp in VS, EN, W, VT, FM, D.
  assert (WP : wpos TpApproveEver c wk) by (cbn [wpos]; rewrite KS; reflexivity).
  pose proof (wever_in_len _ _ _ _ _ W) as LW. pose proof (token_len _ _ _ _ _ _ VT) as LT. destruct W as [U RA].
  assert (NS : nospl s1 s') by (eapply nospl_settled; [exact Hp|eapply minted_step; exact MI|exact LW|exact LT|exact SE]).
  destruct (got_minted _ _ _ _ _ _ _ _ _ _ _ MI NS D) as [G PS].
  destruct (settled_held (c_withlen c_wever_event) _ _ _ _ _ _ _ _ _ _ _ Hp U SE) as [H1 H2]; [rewrite ST; intros <-; apply paid_ne in PS; tauto|].
  eapply TF_ever; [exact H1|exact RA|exact WP| |exact FM|exact G|exact N0|exact PS|exact H2|].
  - right. split; [reflexivity|]. split; [exact ST|]. exists a, st. split; [exact S|]. split; [exists sk, pn; exact VS|exact EN].
  - eapply tokens_then; [apply tokens_minted; exact MI|exact NS].
Qed.
Lemma approve_sol_flow e c s s' : c_pid c = tp_id -> tp_approve_sol e c s = Ok (tt, s') -> tp_flow e c TpApproveSol s s'.
Proof.
  intros Hp H. apply tp_approve_sol_ok in H as (a & vault & wk & r & tsk & sk & x & y & rest & w & KS & B).
  destruct B as (ts & vn & sv & st & pn & S & VS & GE & EN & W & ST & VT & KT & EM & FV & fee & net & st' & s1 & ts2 & F & NE & N0 & P & R & SE).
  rewrite Hp in VS, EN, W, VT, FV.
  assert (WP : wpos TpApproveSol c wk) by (cbn [wpos]; rewrite KS; reflexivity).
  eapply sol_paid_flow; [exact Hp|exact WP|exact W|right|exact FV|exact N0|exact VT|exact P|exact SE].
  split; [reflexivity|]. split; [exact ST|]. exists a, st. split; [exact S|]. split; [exists sk, pn; exact VS|exact EN].
Qed.
Lemma ever_fee_flow e c x s s' : c_pid c = tp_id -> 0 <= x -> tp_withdraw_ever_fee e c x s = Ok (tt, s') -> tp_flow e c (TpWithdrawEverFee x) s s'.
Proof.
  intros Hp X H. apply tp_withdraw_ever_fee_ok in H as (a & mint & r & tsk & sk & y & rest & KS & B); [|exact X].
  destruct B as (st & pn & ts & mn & m & token & d & s1 & SG & VS & EN & VT & KT & FM & _ & _ & LE & MI & _ & _ & _ & PK).
  rewrite Hp in VS, EN, VT, FM. eapply TF_fee_ever; [reflexivity| |exact VT|exact KT|split; [exact X|exact LE]|exact FM|].
  - exists a, st. split; [exact SG|]. split; [exists sk, pn; exact VS|exact EN].
  - eapply tokens_then; [apply tokens_minted; exact MI|eapply nospl_packed; [exact Hp|exact PK]].
Qed.
Lemma sol_fee_flow e c x s s' : c_pid c = tp_id -> 0 <= x -> tp_withdraw_sol_fee e c x s = Ok (tt, s') -> tp_flow e c (TpWithdrawSolFee x) s s'.
Proof.
  intros Hp X H. apply tp_withdraw_sol_fee_ok in H as (a & vault & tsk & r & sk & y & rest & KS & B); [|exact X].
  destruct B as (st & pn & ts & vn & sm & sv & s1 & SG & VS & EN & VT & KT & FV & LE & MV & _ & _ & _ & PK).
  rewrite Hp in VS, EN, VT, FV. eapply TF_fee_sol; [reflexivity| |exact VT|exact KT|split; [exact X|exact LE]|exact FV|].
  - exists a, st. split; [exact SG|]. split; [exists sk, pn; exact VS|exact EN].
  - eapply tokens_then; [apply (tokens_moved _ _ _ _ _ _ MV)|eapply nospl_packed; [exact Hp|exact PK]].
Qed.
Lemma may_spender t a n dl da : may_spend t a n dl da -> spender t a.
Proof. intros [(H & _)|(_ & H & _)]; [right|left]; exact H. Qed.
Lemma deposit_ever_flow e c seed n r v ev p s s' : c_pid c = tp_id -> 0 <= n -> tp_deposit_ever e c seed n r v ev p s = Ok (tt, s') ->
  tp_flow e c (TpDepositEver seed n r v ev p) s s'.
Proof.
  intros Hp X H. apply tp_deposit_ever_ok in H as (f & cr & ct & dk & mint & mv & tsk & sk & x & y & z & rest & KS & B); [|exact X].
  destruct B as (st & pn & ts & mn & m & token & d & md & dn & fee & pu & amt & s1 & s2 & s3 & SG & _ & _ & _ & _ & _ & _ & _ & _ & _ & _ & _ & _ & _ & _ & B).
  cbv zeta in B. destruct B as (BU & _ & _ & RE & PK & LP).
  eapply (TF_burn e c _ s s' _ _ ct mint n); [do 5 eexists; reflexivity| |exact X|reflexivity|reflexivity|].
  - destruct BU as (a & mm & dl & da & TA & _ & _ & _ & _ & _ & [([O|O] & _)|MS] & _); exists a, cr; split; auto.
    right. right. split; [exact SG|]. eapply may_spender. exact MS.
  - eapply tokens_then; [apply (tokens_burned _ _ _ _ _ _ BU)|].
    eapply nospl_trans; [eapply nospl_recorded; [exact Hp|exact RE]|]. eapply nospl_trans; [eapply nospl_packed; [exact Hp|exact PK]|eapply nospl_lpaid; exact LP].
Qed.
Lemma deposit_sol_flow e c seed na sy n r v ev p s s' : c_pid c = tp_id -> 0 <= n -> tp_deposit_sol e c seed na sy n r v ev p s = Ok (tt, s') ->
  tp_flow e c (TpDepositSol seed na sy n r v ev p) s s'.
Proof.
  intros Hp X H. apply tp_deposit_sol_ok in H as (f & cr & ct & vk & dk & mint & mv & tsk & sk & x & y & z & rest & st & pn & s0 & KS & SG & _ & _ & _ & _ & R & B); [|exact X].
  assert (T0 : tokens s s0 none none).
  { destruct R as [(_ & ->)|(_ & R)]; [apply tokens_none, nospl_refl|eapply tokens_registered_sol; [exact Hp|exact R]]. }
  destruct B as (ts & vn & sm & sv & md & vt & dn & fee & amt & s1 & s2 & s3 & _ & _ & _ & _ & _ & _ & _ & _ & _ & _ & _ & _ & _ & _ & _ & B).
  cbv zeta in B. destruct B as ((MV & _) & LP & RE & PK).
  eapply (TF_user e c _ s s' ct (shift ct vk n)).
  - left. do 8 eexists. reflexivity.
  - destruct MV as (a & b & dl & da & TA & _ & _ & _ & MS & _). destruct (key_dec (own (accs s ct)) spl_id) as [O|O]; [left|right; exact O].
    destruct R as [(_ & ->)|(_ & R)].
    + exists a, cr. split; [exact TA|]. split; [exact SG|]. eapply may_spender. exact MS.
    + assert (S0 : same_od s s0 ct).
      { destruct R as (vn' & tn' & t' & _ & _ & _ & OV & _ & _ & _ & _ & _ & _ & _ & (OT & _) & SO & _).
        apply SO; intros E; subst; [rewrite O in OV|rewrite O in OT]; discriminate. }
      exists a, cr. split; [exact (same_od_tok _ _ _ _ (same_od_sym _ _ _ S0) TA)|]. split; [exact SG|]. eapply may_spender. exact MS.
  - intros j N. unfold shift. rewrite (gain_other ct) by exact N. unfold gain. destruct (keqb j vk); lia.
  - eapply tokens_zero_trans; [exact T0|]. eapply tokens_then; [apply (tokens_moved _ _ _ _ _ _ MV)|].
    eapply nospl_trans; [eapply nospl_lpaid; exact LP|]. eapply nospl_trans; [eapply nospl_recorded; [exact Hp|exact RE]|eapply nospl_packed; [exact Hp|exact PK]].
Qed.
Lemma proxy_flow e c x s s' : c_pid c = tp_id -> 0 <= x -> tp_withdraw_proxy e c x s = Ok (tt, s') -> tp_flow e c (TpWithdrawProxy x) s s'.
Proof.
  intros Hp X H. apply tp_withdraw_proxy_ok in H as (cr & r & px & mint & rest & n & KS & SG & F & MV & _); [|exact X]. rewrite Hp in F.
  eapply TF_proxy; [reflexivity|exact SG|exact F|exact X|apply (tokens_moved _ _ _ _ _ _ MV)].
Qed.

(** ** Fill *)
Lemma fill_one_flow e c a at_ sm dk f wk rt fee net s s' : c_pid c = tp_id -> fill_one_eff e c a at_ sm dk f wk rt fee net s s' ->
  exists out, 0 <= out /\ tokens s s' (shift at_ rt out) none /\ (exists t, tok_in s at_ t /\ c_sg c a = true /\ spender t a).
Proof.
  intros Hp (w & r & out & s1 & s2 & _ & _ & _ & _ & _ & _ & _ & _ & _ & _ & O0 & (MV & SG & _) & PK & ->).
  exists out. split; [exact O0|]. split.
  - eapply tokens_then; [apply (tokens_moved _ _ _ _ _ _ MV)|].
    apply (nospl_trans _ s2); [eapply nospl_put; [exact Hp|exact PK]|apply nospl_accs; reflexivity].
  - destruct MV as (t & b & dl & da & TA & _ & _ & _ & MS & _). exists t. split; [exact TA|]. split; [exact SG|]. eapply may_spender. exact MS.
Qed.
Lemma fill_run_flow e c a at_ sm dk f fe n l s fe' n' l' s' : c_pid c = tp_id ->
  fill_run e c a at_ sm dk f fe n l s fe' n' l' s' ->
  exists g, tokens s s' g none /\ (forall j, j <> at_ -> 0 <= g j) /\ (s' = s \/ exists t, tok_in s at_ t /\ c_sg c a = true /\ spender t a).
Proof.
  intros Hp H. induction H as [fe n l s L|fe n wk rt l s fee net s1 fe' n' l' s' F H IH].
  - exists none. split; [apply tokens_none, nospl_refl|]. split; [intros; unfold none; lia|left; reflexivity].
  - destruct IH as (g & T & P & _). destruct (fill_one_flow _ _ _ _ _ _ _ _ _ _ _ _ _ Hp F) as (out & O0 & T1 & SP).
    exists (fun j => shift at_ rt out j + g j). split; [|split; [|right; exact SP]].
    + refine (tokens_ext _ _ _ _ _ _ _ _ (tokens_trans _ _ _ _ _ _ _ T1 T)); intros j; unfold none; lia.
    + intros j N. specialize (P j N). unfold shift. rewrite (gain_other at_) by exact N. unfold gain. destruct (keqb j rt); lia.
Qed.
Lemma fill_flow e c seed r n v ev p s s' : c_pid c = tp_id -> tp_fill e c seed r n v ev p s = Ok (tt, s') -> tp_flow e c (TpFill seed r n v ev p) s s'.
Proof.
  intros Hp H. apply tp_fill_ok in H as (f & a & at_ & mint & dk & sk & x & tsk & y & z & mv & rest & KS & B).
  destruct B as (st & pn & ts & vn & sm & sv & md & dn & fees & nets & vault & un & vt & fee & amt & s1 & s2 & s3 & s4 & SG & _ & _ & _ & _ & _ & _ & _ & _ & _ & _ & LP & FR & (CR & _) & _ & _ & _ & _ & (MV & _) & _ & _ & _ & PK).
  cbv zeta in PK. rewrite Hp in CR. destruct (fill_run_flow _ _ _ _ _ _ _ _ _ _ _ _ _ _ _ Hp FR) as (g & T & P & SP).
  assert (N0 : 0 <= wrap64 (n - nets)) by apply wrap64_range.
  eapply (TF_user e c _ s s' at_ (fun j => g j + shift at_ vault (wrap64 (n - nets)) j)).
  - right. do 6 eexists. reflexivity.
  - left. destruct SP as [->|(t & TA & _ & S)].
    + destruct MV as (t & b & dl & da & TA & _ & _ & _ & MS & _). exists t, a. split; [|split; [exact SG|eapply may_spender; exact MS]].
      destruct TA as [O TA]. destruct CR as (OD & _ & _ & OD' & _ & SO).
      assert (S3 : same_od s1 s3 at_) by (apply SO; intros E; subst; rewrite OD' in O; discriminate).
      destruct LP as (_ & _ & _ & SL & _).
      exact (same_od_tok _ _ _ _ (same_od_sym _ _ _ (same_od_trans _ _ _ _ (SL at_) S3)) (conj O TA)).
    + exists t, a. destruct LP as (_ & _ & _ & SL & _). split; [exact (same_od_tok _ _ _ _ (same_od_sym _ _ _ (SL at_)) TA)|]. split; [exact SG|exact S].
  - intros j N. specialize (P j N). unfold shift. rewrite (gain_other at_) by exact N. unfold gain. destruct (keqb j vault); lia.
  - eapply tokens_after; [eapply nospl_lpaid; exact LP|].
    assert (T2 : tokens s2 s' (shift at_ vault (wrap64 (n - nets))) none).
    { eapply tokens_after; [eapply nospl_created; exact CR|]. eapply tokens_then; [apply (tokens_moved _ _ _ _ _ _ MV)|].
      eapply nospl_put; [exact Hp|exact PK]. }
    refine (tokens_ext _ _ _ _ _ _ _ _ (tokens_trans _ _ _ _ _ _ _ T T2)); intros j; unfold none; lia.
Qed.

(** ** All instructions but payload execution *)
Lemma deleted_own c s s' k a kd : c_pid c = tp_id -> deleted c s s' k a -> kind_at (dat (accs s k)) = Some kd ->
  (forall d, all0 d = true -> kind_at d <> Some kd) -> own (accs s k) = tp_id.
Proof.
  intros Hp (_ & _ & _ & _ & _ & _ & _ & [[W _]|W]) K Z; [congruence|].
  destruct (Z (dat (accs s k))); [|exact K]. rewrite W. clear. induction (length (dat (accs s k))) as [|n IH]; [reflexivity|exact IH].
Qed.
Lemma multi_vault_nospl e c x s s' : tp_withdraw_multi_vault e c x s = Ok (tt, s') -> nospl s s'.
Proof. intros H. apply tp_withdraw_multi_vault_ok in H as (a & r & mv & sk & rest & st & pn & _ & _ & _ & _ & _ & _ & S & _). apply nospl_sod. exact S. Qed.

Theorem tp_exec_flow e ext c i s s' : c_pid c = tp_id -> okb c_tp_ix i = true -> is_payload i = false ->
  tp_exec e ext c i s = Ok (tt, s') -> tp_flow e c i s s'.
Proof.
  intros Hp O NP H.
  assert (AD : match i with TpChangeDepositLimit _ | TpChangeWithdrawalLimits _ _ | TpEnableTokenEmergency
             | TpUpdateFee _ _ _ | TpUpdateTokenName _ _ => True | _ => False end -> tp_flow e c i s s').
  { intros A. destruct (token_admin_ok _ _ _ _ _ _ _ H A) as (a & tsk & sk & rest & st & pn & ts & vn & ts' & s1 & _ & _ & _ & _ & _ & _ & -> & PK).
    apply TF_none, tokens_none. eapply nospl_log; [exact Hp|exact PK]. }
  destruct i; try discriminate NP; try exact (AD Logic.I); cbn [tp_exec] in H; clear AD.
  - apply tp_vote_ok in H as (relay & k & rrk & rest & KS & g & rr & j & old & SG & NV & U & RA & RR & _ & PO & NE & V).
    apply TF_none, tokens_none. destruct V as [[_ ->]|(_ & d' & PK & D & OW & CH & SO & _ & _ & _ & OT & _)]; [apply nospl_refl|].
    apply (nospl_one s s' k SO). right. rewrite OW, OT, Hp. split; [discriminate|right; reflexivity].
  - apply withdraw_ever_flow; assumption.
  - apply withdraw_sol_flow; assumption.
  - apply tp_initialize_ok in H as (f & ini & sk & mv & pd & sy & rest & sn & pn & mn & _ & _ & _ & _ & _ & _ & _ & ((O1 & _) & O1' & _) & ((O2 & _) & O2' & _) & SO & _).
    apply TF_none, tokens_none. intros j. destruct (key_dec j sk) as [->|N1]; [right; rewrite O1, O1', Hp; split; [discriminate|right; reflexivity]|].
    destruct (key_dec j mv) as [->|N2]; [right; rewrite O2, O2', Hp; split; [discriminate|right; reflexivity]|]. left. apply SO; assumption.
  - apply deposit_ever_flow; [exact Hp|apply ix_deposit_ever in O; lia|exact H].
  - apply deposit_sol_flow; [exact Hp|apply ix_deposit_sol in O as (O & _); lia|exact H].
  - apply tp_withdraw_ever_request_ok in H as (f & a & w & rlsk & rrk & x & y & z & rest & _ & rls & rpn & rr & pn & s1 & _ & _ & _ & _ & _ & _ & P & T).
    apply TF_none. eapply tokens_then; [eapply tokens_proxy; exact P|eapply nospl_tail; [exact Hp|exact T]].
  - apply tp_withdraw_sol_request_ok in H as (f & a & w & tsk & rlsk & rrk & x & y & z & rest & _ & tks & vn & sv & mint & rls & rpn & rr & pn & s1 & _ & _ & _ & _ & _ & _ & P & T).
    cbv zeta in T. apply TF_none. eapply tokens_then; [eapply tokens_proxy; exact P|eapply nospl_tail; [exact Hp|exact T]].
  - apply admin_settings_ok in H as (a & sk & rest & st & pn & _ & _ & _ & _ & PK). apply TF_none, tokens_none. eapply nospl_packed; [exact Hp|exact PK].
  - apply admin_settings_ok in H as (a & sk & rest & st & pn & _ & _ & _ & _ & PK). apply TF_none, tokens_none. eapply nospl_packed; [exact Hp|exact PK].
  - apply admin_settings_ok in H as (a & sk & rest & st & pn & _ & _ & _ & _ & PK). apply TF_none, tokens_none. eapply nospl_packed; [exact Hp|exact PK].
  - apply tp_enable_emergency_ok in H as (a & sk & rest & st & pn & _ & _ & _ & _ & PK). apply TF_none, tokens_none. eapply nospl_packed; [exact Hp|exact PK].
  - apply admin_settings_ok in H as (a & sk & rest & st & pn & _ & _ & _ & _ & PK). apply TF_none, tokens_none. eapply nospl_packed; [exact Hp|exact PK].
  - apply tp_disable_token_emergency_ok in H as (a & tsk & sk & rest & st & pn & ts & vn & _ & _ & _ & _ & _ & PK). apply TF_none, tokens_none. eapply nospl_packed; [exact Hp|exact PK].
  - apply approve_ever_flow; assumption.
  - apply approve_sol_flow; assumption.
  - apply ever_fee_flow; [exact Hp|apply ix_amount_ever in O; lia|exact H].
  - apply sol_fee_flow; [exact Hp|apply ix_amount_sol in O; lia|exact H].
  - apply tp_change_bounty_ok in H as (a & wk & rest & w & _ & _ & _ & _ & _ & PK). apply TF_none, tokens_none. eapply nospl_packed; [exact Hp|exact PK].
  - apply tp_cancel_ok in H as (f & a & mint & wk & dk & sk & tsk & x & y & mv & rest & _ & B).
    destruct B as (st & pn & w & ts & vn & sv & md & dn & fee & amt & s1 & s2 & _ & _ & _ & _ & _ & _ & _ & _ & _ & _ & _ & _ & _ & _ & _ & _ & _ & B).
    cbv zeta in B. destruct B as (LP & RE & PK). apply TF_none, tokens_none.
    eapply nospl_trans; [eapply nospl_lpaid; exact LP|]. eapply nospl_trans; [eapply nospl_recorded; [exact Hp|exact RE]|].
    eapply nospl_put; [exact Hp|exact PK].
  - apply fill_flow; assumption.
  - apply proxy_flow; [exact Hp|apply ix_amount_proxy in O; lia|exact H].
  - apply tp_close_deposit_ok in H as (a & k & rest & g & seed & n & KS & SG & U & _ & KD & _ & -> & D).
    assert (OK : own (accs s k) = tp_id).
    { pose proof (kind_gdep _ _ U) as KG. rewrite KD in KG. eapply deleted_own; [exact Hp|exact D|exact KG|intros d; apply all0_kind_dep]. }
    apply TF_none, tokens_none. eapply nospl_deleted; [|exact D]. rewrite OK. discriminate.
  - apply tp_close_withdrawal_ok in H as (k & a & rest & g & m & KS & U & (n & pn & KD & _) & -> & M & ST & D).
    assert (OK : own (accs s k) = tp_id).
    { pose proof (kind_gprop _ _ U) as KG. rewrite KD in KG. eapply deleted_own; [exact Hp|exact D|exact KG|intros d; apply (all0_kind d n pn)]. }
    apply TF_none, tokens_none. eapply nospl_deleted; [|exact D]. rewrite OK. discriminate.
  - apply TF_none, tokens_none. eapply multi_vault_nospl. exact H.
Qed.
