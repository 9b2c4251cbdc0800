(** The same handler on two account lists: if the second list carries the flags and addresses the handler uses, it
    does the same. *)

From Coq Require Import ZifyBool ZifyNat ZifyN Permutation.
From Verif Require Export Bindings RlWorld Frames TpValid TpAdmin TpDeposit.
Ltac Zify.zify_post_hook ::= Z.div_mod_to_equations.

(** From [s], whatever [m] achieves [m'] achieves. *)
Definition mim {A} (s : state) (m m' : M A) : Prop := forall r, m s = Ok r -> m' s = Ok r.

Lemma mim_refl {A} s (m : M A) : mim s m m. Proof. intros r H. exact H. Qed.
Lemma mim_eq {A} s (m m' : M A) : m = m' -> mim s m m'. Proof. intros ->. apply mim_refl. Qed.
Lemma mim_bind {A B} s (m m' : M A) (f f' : A -> M B) : mim s m m' ->
  (forall a s1, m s = Ok (a, s1) -> mim s1 (f a) (f' a)) -> mim s (bind m f) (bind m' f').
Proof.
  intros Hm Hf [b s2] H. apply bind_ok in H as (a & s1 & H1 & H2). unfold bind. rewrite (Hm _ H1). exact (Hf _ _ H1 _ H2).
Qed.
Lemma mim_guard s b b' x : (b = true -> b' = true) -> mim s (guard b x) (guard b' x).
Proof. intros I r. unfold guard. destruct b; [rewrite I by reflexivity; auto|discriminate]. Qed.
Lemma mim_set_data s c c' k d : c_pid c' = c_pid c -> c_wr c' k = true -> mim s (set_data c k d) (set_data c' k d).
Proof.
  intros P W r. unfold set_data. rewrite P, W. destruct (beqb _ d); [auto|]. destruct (keqb _ _); [|discriminate].
  destruct (c_wr c k); [auto|discriminate].
Qed.
Lemma mim_set_lam s c c' k d : c_pid c' = c_pid c -> c_wr c' k = true -> mim s (set_lam c k d) (set_lam c' k d).
Proof.
  intros P W r. unfold set_lam. rewrite P, W. destruct (0 <=? d); [|discriminate].
  destruct (d =? _); [auto|]. destruct (c_wr c k); [auto|discriminate].
Qed.
Lemma mim_set_own s c c' k d : c_pid c' = c_pid c -> c_wr c' k = true -> mim s (set_own c k d) (set_own c' k d).
Proof.
  intros P W r. unfold set_own. rewrite P, W. destruct (keqb _ d); [auto|]. destruct (keqb _ _); [|discriminate].
  destruct (c_wr c k); [auto|discriminate].
Qed.
Lemma mim_pack {A} s c c' (cd : codec A) n k x : c_pid c' = c_pid c -> c_wr c' k = true ->
  mim s (pack_at c cd n k x) (pack_at c' cd n k x).
Proof.
  intros P W. unfold pack_at. apply mim_bind; [apply mim_refl|]. intros d s1 _. apply mim_bind; [apply mim_refl|].
  intros d' s2 _. apply mim_set_data; assumption.
Qed.

(** ** Flags *)

Lemma wr_in p ms k b : In (mw k b) ms -> c_wr (ctx_of p ms) k = true.
Proof.
  intros H. unfold ctx_of; cbn [c_wr]. apply existsb_exists. exists (mw k b). split; [exact H|].
  cbn [mw m_key m_wr]. rewrite keqb_refl. reflexivity.
Qed.
Lemma sg_in p ms k w : In (Meta k true w) ms -> c_sg (ctx_of p ms) k = true.
Proof.
  intros H. unfold ctx_of; cbn [c_sg]. apply existsb_exists. exists (Meta k true w). split; [exact H|].
  cbn [m_key m_sg]. rewrite keqb_refl. reflexivity.
Qed.
Lemma inb_in k l : In k l -> inb k l = true.
Proof. intros H. apply existsb_exists. exists k. split; [exact H|apply keqb_refl]. Qed.
Lemma meta_ok_intro c infos pdas k sg wr : In k infos -> In k (c_keys c) ->
  (sg = true -> c_sg c k = true \/ In k pdas) -> (wr = true -> c_wr c k = true) ->
  meta_ok c infos pdas (Meta k sg wr) = true.
Proof.
  intros I K S W. unfold meta_ok; cbn [m_key m_sg m_wr]. rewrite !inb_in by assumption. cbn [andb].
  assert (A : negb sg || c_sg c k || inb k pdas = true).
  { destruct sg; [|reflexivity]. cbn [negb orb]. destruct (S eq_refl) as [-> |D]; [reflexivity|].
    rewrite (inb_in _ _ D). apply orb_true_r. }
  rewrite A. cbn [andb]. destruct wr; [|reflexivity]. cbn [negb orb]. exact (W eq_refl).
Qed.

(** ** Calls *)

Lemma mim_cpi s c c' infos infos' pid ms pdas pdas' f : In pid (c_keys c') ->
  forallb (meta_ok c' infos' pdas') ms = true ->
  mim s (cpi c infos pid ms pdas f) (cpi c' infos' pid ms pdas' f).
Proof.
  intros I M. unfold cpi. apply mim_bind; [apply mim_guard; intros _; apply inb_in; exact I|]. intros _ s1 _.
  apply mim_bind; [apply mim_guard; intros _; exact M|]. intros _ s2 _. apply mim_refl.
Qed.

Lemma mim_create s e c c' from to l n o sd : c_pid c' = c_pid c -> In sys_id (c_keys c') -> In from (c_keys c') ->
  In to (c_keys c') -> c_sg c' from = true -> c_wr c' from = true -> c_wr c' to = true ->
  e_pda e sd (c_pid c) = Some to ->
  mim s (invoke_create e c from to l n o sd) (invoke_create e c' from to l n o sd).
Proof.
  intros P S F T SF WF WT E. unfold invoke_create, pda_signer. rewrite P. apply mim_bind; [apply mim_refl|].
  intros p s1 H. apply lift_ok in H as [H ->]. rewrite E in H. cbn [ok_or] in H. injection H as <-.
  apply mim_cpi; [exact S|]. cbn [forallb]. rewrite !meta_ok_intro; try reflexivity; try assumption; intros _;
    try assumption; [right; left; reflexivity|left; exact SF].
Qed.

Lemma mim_transfer s c c' from to z : In sys_id (c_keys c') -> In from (c_keys c') -> In to (c_keys c') ->
  c_sg c' from = true -> c_wr c' from = true -> c_wr c' to = true ->
  mim s (invoke_transfer c from to z) (invoke_transfer c' from to z).
Proof.
  intros S F T SF WF WT. unfold invoke_transfer. apply mim_cpi; [exact S|]. cbn [forallb].
  rewrite !meta_ok_intro; try reflexivity; try assumption; intros H; try discriminate; try assumption; left; exact SF.
Qed.

Lemma mim_tok_transfer s c c' src dst auth z pdas : In spl_id (c_keys c') -> In src (c_keys c') -> In dst (c_keys c') ->
  In auth (c_keys c') -> c_wr c' src = true -> c_wr c' dst = true -> c_sg c' auth = true \/ In auth pdas ->
  mim s (invoke_tok_transfer c src dst auth z pdas) (invoke_tok_transfer c' src dst auth z pdas).
Proof.
  intros S A B C WA WB SA. unfold invoke_tok_transfer. apply mim_cpi; [exact S|]. cbn [forallb].
  rewrite !meta_ok_intro; try reflexivity; try assumption; intros H; try discriminate; try assumption.
Qed.
Lemma mim_tok_mint s c c' m dst auth z pdas : In spl_id (c_keys c') -> In m (c_keys c') -> In dst (c_keys c') ->
  In auth (c_keys c') -> c_wr c' m = true -> c_wr c' dst = true -> c_sg c' auth = true \/ In auth pdas ->
  mim s (invoke_tok_mint_to c m dst auth z pdas) (invoke_tok_mint_to c' m dst auth z pdas).
Proof.
  intros S A B C WA WB SA. unfold invoke_tok_mint_to. apply mim_cpi; [exact S|]. cbn [forallb].
  rewrite !meta_ok_intro; try reflexivity; try assumption; intros H; try discriminate; try assumption.
Qed.
Lemma mim_tok_burn s c c' src m auth z : In spl_id (c_keys c') -> In src (c_keys c') -> In m (c_keys c') ->
  In auth (c_keys c') -> c_wr c' src = true -> c_wr c' m = true -> c_sg c' auth = true ->
  mim s (invoke_tok_burn c src m auth z) (invoke_tok_burn c' src m auth z).
Proof.
  intros S A B C WA WB SA. unfold invoke_tok_burn. apply mim_cpi; [exact S|]. cbn [forallb].
  rewrite !meta_ok_intro; try reflexivity; try assumption; intros H; try discriminate; try assumption; left; exact SA.
Qed.
Lemma mim_init_mint s e c c' m a fr d pdas : In spl_id (c_keys c') -> In m (c_keys c') -> In rent_id (c_keys c') ->
  c_wr c' m = true -> mim s (invoke_init_mint e c m a fr d pdas) (invoke_init_mint e c' m a fr d pdas).
Proof.
  intros S A B WA. unfold invoke_init_mint. apply mim_cpi; [exact S|]. cbn [forallb].
  rewrite !meta_ok_intro; try reflexivity; try assumption; intros H; try discriminate; try assumption.
Qed.
Lemma mim_init_account s e c c' infos infos' k m o pdas : In spl_id (c_keys c') -> In k (c_keys c') -> In m (c_keys c') ->
  In k infos' -> In m infos' -> c_wr c' k = true ->
  mim s (invoke_init_account3 e c infos k m o pdas) (invoke_init_account3 e c' infos' k m o pdas).
Proof.
  intros S A B IA IB WA. unfold invoke_init_account3. apply mim_cpi; [exact S|]. cbn [forallb].
  rewrite !meta_ok_intro; try reflexivity; try assumption; intros H; try discriminate; try assumption.
Qed.
Lemma mim_init_immutable s c c' infos infos' k : In spl_id (c_keys c') -> In k (c_keys c') -> In k infos' ->
  c_wr c' k = true -> mim s (invoke_init_immutable c infos k) (invoke_init_immutable c' infos' k).
Proof.
  intros S A IA WA. unfold invoke_init_immutable. apply mim_cpi; [exact S|]. cbn [forallb].
  rewrite !meta_ok_intro; try reflexivity; try assumption; intros H; try discriminate; try assumption.
Qed.
Lemma mim_sync_native s c c' k : In spl_id (c_keys c') -> In k (c_keys c') -> c_wr c' k = true ->
  mim s (invoke_sync_native c k) (invoke_sync_native c' k).
Proof.
  intros S A WA. unfold invoke_sync_native. apply mim_cpi; [exact S|]. cbn [forallb].
  rewrite !meta_ok_intro; try reflexivity; try assumption; intros H; try discriminate; try assumption.
Qed.
Lemma mim_ata s e c c' funder wallet mint ata b : find_pda e (ata_seeds wallet mint) ata_id = Ok (ata, b) ->
  In ata_id (c_keys c') -> In sys_id (c_keys c') -> In spl_id (c_keys c') -> In funder (c_keys c') ->
  In wallet (c_keys c') -> In mint (c_keys c') -> In ata (c_keys c') -> c_sg c' funder = true -> c_wr c' funder = true ->
  c_wr c' ata = true -> mim s (invoke_ata_create e c funder wallet mint) (invoke_ata_create e c' funder wallet mint).
Proof.
  intros FA P Y T F W M A SF WF WA. unfold invoke_ata_create. rewrite FA. apply mim_bind; [apply mim_refl|].
  intros [a n] s1 H. apply lift_ok in H as [H ->]. injection H as <- <-. apply mim_cpi; [exact P|]. cbn [forallb].
  rewrite !meta_ok_intro; try reflexivity; try assumption; intros H; try discriminate; try assumption; left; exact SF.
Qed.
Lemma mim_pda_account s e c c' payer n o si si' k sd : c_pid c' = c_pid c -> In sys_id (c_keys c') ->
  In payer (c_keys c') -> In k (c_keys c') -> c_sg c' payer = true -> c_wr c' payer = true -> c_wr c' k = true ->
  e_pda e sd (c_pid c) = Some k ->
  mim s (create_pda_account e c payer n o si k sd) (create_pda_account e c' payer n o si' k sd).
Proof.
  intros P S F T SF WF WT E. unfold create_pda_account, pda_signer. rewrite P. apply mim_bind; [apply mim_refl|].
  intros a s1 _. destruct (0 <? lam a).
  - apply mim_bind.
    + destruct (0 <? _); [|apply mim_refl]. apply mim_cpi; [exact S|]. cbn [forallb].
      rewrite !meta_ok_intro; try reflexivity; try assumption; intros; try discriminate; try assumption;
        [right; left; reflexivity|left; reflexivity|left; exact SF].
    + intros _ s2 _. apply mim_bind; [apply mim_refl|].
      intros p s3 H. apply lift_ok in H as [H ->]. rewrite E in H. cbn [ok_or] in H. injection H as <-.
      apply mim_bind; [|intros _ s4 _]; (apply mim_cpi; [exact S|]; cbn [forallb];
        rewrite !meta_ok_intro; try reflexivity; try assumption; intros; try discriminate; try assumption;
        [left; reflexivity|right; left; reflexivity]).
  - apply mim_bind; [apply mim_refl|].
    intros p s3 H. apply lift_ok in H as [H ->]. rewrite E in H. cbn [ok_or] in H. injection H as <-.
    apply mim_cpi; [exact S|]. cbn [forallb].
    rewrite !meta_ok_intro; try reflexivity; try assumption; intros; try discriminate; try assumption;
      [right; left; reflexivity|right; left; reflexivity|left; reflexivity|left; exact SF].
Qed.

(** ** Parts that use nothing but the program id *)

Ltac by_pid := intros P; repeat (unfold tp_valid_settings, tp_live_settings, valid_ts_ever, valid_ts_sol, valid_ts_any,
  valid_multivault, tp_valid_prop, valid_wever, valid_wsol, rl_valid_settings, rl_valid_proposal, rl_valid_round,
  deposit_address, check_proxy, pda_signer, validate_programdata); rewrite ?P; reflexivity.
Lemma tp_valid_settings_pid e c c' k : c_pid c' = c_pid c -> tp_valid_settings e c' k = tp_valid_settings e c k.
Proof. by_pid. Qed.
Lemma tp_live_settings_pid e c c' k : c_pid c' = c_pid c -> tp_live_settings e c' k = tp_live_settings e c k.
Proof. by_pid. Qed.
Lemma valid_ts_ever_pid e c c' k : c_pid c' = c_pid c -> valid_ts_ever e c' k = valid_ts_ever e c k.
Proof. by_pid. Qed.
Lemma valid_ts_sol_pid e c c' k : c_pid c' = c_pid c -> valid_ts_sol e c' k = valid_ts_sol e c k.
Proof. by_pid. Qed.
Lemma valid_ts_any_pid e c c' k : c_pid c' = c_pid c -> valid_ts_any e c' k = valid_ts_any e c k.
Proof. by_pid. Qed.
Lemma valid_multivault_pid e c c' k : c_pid c' = c_pid c -> valid_multivault e c' k = valid_multivault e c k.
Proof. by_pid. Qed.
Lemma tp_valid_prop_pid {E N} e c c' k (p : prop E N) h : c_pid c' = c_pid c ->
  tp_valid_prop e c' k p h = tp_valid_prop e c k p h.
Proof. by_pid. Qed.
Lemma valid_wever_pid e c c' k : c_pid c' = c_pid c -> valid_wever e c' k = valid_wever e c k.
Proof. by_pid. Qed.
Lemma valid_wsol_pid e c c' k : c_pid c' = c_pid c -> valid_wsol e c' k = valid_wsol e c k.
Proof. by_pid. Qed.
Lemma rl_valid_settings_pid e c c' k : c_pid c' = c_pid c -> rl_valid_settings e c' k = rl_valid_settings e c k.
Proof. by_pid. Qed.
Lemma rl_valid_proposal_pid e c c' k p : c_pid c' = c_pid c -> rl_valid_proposal e c' k p = rl_valid_proposal e c k p.
Proof. by_pid. Qed.
Lemma rl_valid_round_pid e c c' k : c_pid c' = c_pid c -> rl_valid_round e c' k = rl_valid_round e c k.
Proof. by_pid. Qed.
Lemma deposit_address_pid e c c' n k : c_pid c' = c_pid c -> deposit_address e c' n k = deposit_address e c n k.
Proof. by_pid. Qed.
Lemma check_proxy_pid e c c' a m o k : c_pid c' = c_pid c -> check_proxy e c' a m o k = check_proxy e c a m o k.
Proof. by_pid. Qed.
Lemma pda_signer_pid e c c' sd : c_pid c' = c_pid c -> pda_signer e c' sd = pda_signer e c sd.
Proof. by_pid. Qed.

(** ** Lamport sums over two account lists *)

Lemma ksum_perm f l l' : Permutation l l' -> ksum f l = ksum f l'.
Proof. induction 1; unfold ksum in *; cbn [fold_right] in *; lia. Qed.
Lemma ksum_filter f l : ksum f l = ksum f (filter (fun k => negb (f k =? 0)) l).
Proof.
  induction l as [|x l IH]; [reflexivity|]. cbn [filter]. destruct (Z.eqb_spec (f x) 0) as [E|E]; cbn [negb];
    unfold ksum in *; cbn [fold_right]; lia.
Qed.
Lemma ksum_support f l l' : NoDup l -> NoDup l' -> (forall k, f k <> 0 -> In k l /\ In k l') -> ksum f l = ksum f l'.
Proof.
  intros N N' S. rewrite (ksum_filter f l), (ksum_filter f l'). apply ksum_perm.
  apply NoDup_Permutation; [apply NoDup_filter; exact N|apply NoDup_filter; exact N'|].
  intros k. rewrite !filter_In. split; intros [I E]; (split; [|exact E]); apply S;
    destruct (Z.eqb_spec (f k) 0); [discriminate E|assumption|discriminate E|assumption].
Qed.
Lemma lam_sum_ksum l s s' : lam_sum l s' - lam_sum l s = ksum (fun k => lam (accs s' k) - lam (accs s k)) (dedup l).
Proof. rewrite ksum_sub. reflexivity. Qed.

(** A run that changes only writable accounts passes the runtime's check with any list that names them. *)
Lemma run_mim c c' m m' s s' : mim s m m' -> rel (roR (c_wr c)) m -> rel (roR (c_wr c')) m' ->
  (forall k, c_wr c k = true -> In k (c_keys c)) -> (forall k, c_wr c' k = true -> In k (c_keys c')) ->
  run c m s = Ok s' -> run c' m' s = Ok s'.
Proof.
  intros H R R' W W' E. unfold run in *. destruct (m s) as [[[] s1]|] eqn:X; [|discriminate].
  rewrite (H _ X). destruct (Z.eqb_spec (lam_sum (c_keys c) s) (lam_sum (c_keys c) s1)) as [L|]; [|discriminate].
  injection E as <-. assert (D : lam_sum (c_keys c') s = lam_sum (c_keys c') s1).
  { pose proof (lam_sum_ksum (c_keys c) s s1) as A. pose proof (lam_sum_ksum (c_keys c') s s1) as B.
    rewrite (ksum_support _ (dedup (c_keys c)) (dedup (c_keys c'))) in A; [lia|apply dedup_NoDup|apply dedup_NoDup|].
    intros k N. rewrite !dedup_In. split; [apply W|apply W'].
    - destruct (c_wr c k) eqn:F; [reflexivity|]. rewrite (R _ _ _ X _ F) in N. lia.
    - destruct (c_wr c' k) eqn:F; [reflexivity|]. rewrite (R' _ _ _ (H _ X) _ F) in N. lia. }
  rewrite D, Z.eqb_refl. reflexivity.
Qed.
Lemma ctx_wr_in p ms k : c_wr (ctx_of p ms) k = true -> In k (c_keys (ctx_of p ms)).
Proof.
  unfold ctx_of; cbn [c_wr c_keys]. intros H. apply existsb_exists in H as (m & I & E).
  apply andb_true_iff in E as [E _]. apply keqb_eq in E as <-. apply in_map. exact I.
Qed.

Lemma pda_signer_is e sd q k n p : find_pda e sd q = Ok (k, n) -> e_pda e (with_bump sd n) q = Some p -> p = k.
Proof. intros F X. apply find_pda_some in F as [F _]. unfold with_bump in X. rewrite F in X. injection X as ->. reflexivity. Qed.

(** ** Both runs in lockstep

    [c] and [c'] are the two contexts; [C' : c' = ctx_of ..] gives the flags of the second. *)
Ltac mm_in := repeat first [left; reflexivity | right].
Ltac mm_norm := repeat match goal with Q : c_pid ?c = _ |- context [c_pid ?c] => rewrite Q end.
Ltac mm_norm_in X := repeat match goal with Q : c_pid ?c = _ |- _ => match type of X with context [c_pid c] => rewrite Q in X end end.
Ltac mm_flag :=
  mm_norm;
  lazymatch goal with
  | |- @eq key ?a ?a => reflexivity
  | C' : ?c' = ctx_of _ _ |- In _ (c_keys ?c') => rewrite C'; cbn [ctx_of c_keys map mw mr m_key]; solve [mm_in]
  | C' : ?c' = ctx_of _ _ |- c_wr ?c' _ = true => rewrite C'; eapply wr_in; solve [mm_in]
  | C' : ?c' = ctx_of _ _ |- c_sg ?c' _ = true => rewrite C'; eapply sg_in; solve [mm_in]
  | |- c_sg _ _ = true \/ In _ _ => first [left; mm_flag | right; mm_flag]
  | |- In ?k [?k] => left; reflexivity
  | |- In _ (_ :: _) => solve [mm_in]
  | |- e_pda ?e (with_bump ?sd ?n) ?p = Some ?k =>
      match goal with F : find_pda e sd p = Ok (k, n) |- _ => exact (proj1 (find_pda_some _ _ _ _ _ F)) end
  | |- find_pda ?e ?sd ?p = _ => match goal with F : find_pda e sd p = _ |- _ => exact F end
  | |- e_pda ?e ?sd ?p = _ => match goal with F : e_pda e sd p = _ |- _ => exact F end
  end.
Ltac mm_fact X :=
  lazymatch type of X with
  | lift _ _ = Ok _ => apply lift_ok in X; destruct X as [X ->]; mm_fact X
  | guard _ _ _ = Ok _ => apply guard_ok in X; destruct X as [X ->]; mm_fact X
  | get _ _ = Ok _ => apply get_ok in X; destruct X as [X ->]
  | data _ _ = Ok _ => apply data_ok in X; destruct X as [X ->]
  | ret _ _ = Ok _ => apply ret_ok in X; destruct X as [X ->]
  | check_rent _ _ = Ok _ => apply check_rent_ok in X; destruct X as [X ->]
  | emit _ _ = Ok _ => clear X
  | pda_signer _ _ _ _ = Ok (?p, _) => apply pda_signer_ok in X; destruct X as [X ->]; mm_norm_in X;
      try match type of X with e_pda ?e (with_bump ?sd ?n) ?q = _ =>
        match goal with F : find_pda e sd q = Ok (?k, n) |- _ =>
          let Q := fresh "Q" in assert (Q : p = k) by exact (pda_signer_is _ _ _ _ _ _ F X); subst p end end
  | validate_pda _ _ _ _ _ = Ok ?v =>
      let E := fresh "E" in apply validate_pda_ok in X; destruct X as [E X]; mm_norm_in X; first [subst v | idtac]
  | rl_valid_proposal _ _ _ _ _ = Ok (?v, _) =>
      let E := fresh "E" in apply rl_valid_proposal_ok in X; destruct X as (-> & E & X); first [subst v | idtac]
  | deposit_address _ _ _ _ _ = Ok (?v, _) =>
      let a := fresh "a" in let b := fresh "b" in let E := fresh "E" in
      destruct v as [a b]; apply deposit_address_ok in X; destruct X as (-> & E & X); cbn [fst snd] in E, X; mm_norm_in X; subst a
  | validate_programdata _ _ _ _ = Ok _ => apply validate_programdata_ok in X
  | keqb ?a ?b = true => apply keqb_eq in X; first [subst a | subst b | idtac]
  | _ => idtac
  end.
Ltac mm_pid := apply mim_eq; symmetry;
  first [ apply tp_valid_settings_pid | apply tp_live_settings_pid | apply valid_ts_ever_pid | apply valid_ts_sol_pid
        | apply valid_ts_any_pid | apply valid_multivault_pid | apply tp_valid_prop_pid | apply valid_wever_pid
        | apply valid_wsol_pid | apply rl_valid_settings_pid | apply rl_valid_proposal_pid | apply rl_valid_round_pid
        | apply deposit_address_pid | apply check_proxy_pid | apply pda_signer_pid ]; congruence.
Ltac mm_leaf :=
  lazymatch goal with
  | |- mim _ (guard _ _) _ => apply mim_guard; intros _; mm_flag
  | |- mim _ (set_data _ _ _) _ => apply mim_set_data; mm_flag
  | |- mim _ (set_lam _ _ _) _ => apply mim_set_lam; mm_flag
  | |- mim _ (set_own _ _ _) _ => apply mim_set_own; mm_flag
  | |- mim _ (pack_at _ _ _ _ _) _ => apply mim_pack; mm_flag
  | |- mim _ (invoke_create _ _ _ _ _ _ _ _) _ => apply mim_create; mm_flag
  | |- mim _ (invoke_transfer _ _ _ _) _ => apply mim_transfer; mm_flag
  | |- mim _ (invoke_tok_transfer _ _ _ _ _ _) _ => apply mim_tok_transfer; mm_flag
  | |- mim _ (invoke_tok_mint_to _ _ _ _ _ _) _ => apply mim_tok_mint; mm_flag
  | |- mim _ (invoke_tok_burn _ _ _ _ _) _ => apply mim_tok_burn; mm_flag
  | |- mim _ (invoke_init_mint _ _ _ _ _ _ _) _ => apply mim_init_mint; mm_flag
  | |- mim _ (invoke_init_account3 _ _ _ _ _ _ _) _ => apply mim_init_account; mm_flag
  | |- mim _ (invoke_init_immutable _ _ _) _ => apply mim_init_immutable; mm_flag
  | |- mim _ (invoke_sync_native _ _) _ => apply mim_sync_native; mm_flag
  | |- mim _ (invoke_ata_create _ _ _ _ _) _ => eapply mim_ata; mm_flag
  | |- mim _ (create_pda_account _ _ _ _ _ _ _ _) _ => apply mim_pda_account; mm_flag
  end.
Ltac mm1 :=
  lazymatch goal with
  | |- mim _ (bind _ _) _ =>
      apply mim_bind; [|let v := fresh "v" in let s1 := fresh "s" in let X := fresh "X" in
        intros v s1 X; mm_fact X; cbv beta]
  | |- mim _ (match ?v with pair _ _ => _ end) _ => destruct v; cbv beta iota
  | |- mim _ (check_authority _ _ _ _ _ _) _ => fail
  | |- mim _ (create_proxy_account _ _ _ _ _ _ _ _) _ => fail
  | |- mim _ (fill_loop _ _ _ _ _ _ _ _ _ _) _ => fail
  | |- mim _ (let _ := _ in _) _ => cbv zeta
  | |- mim _ (match ?b with _ => _ end) _ => let E := fresh "B" in destruct b eqn:E; cbv iota
  | |- mim _ ?m _ => first [ mm_pid | mm_leaf | let f := rel_head m in unfold f; mm_norm ]
  end.
Ltac mm :=
  lazymatch goal with
  | |- mim _ ?m ?m' => first [ constr_eq m m'; apply mim_refl | mm1 ]
  end.

Ltac mm_start EK := let c' := fresh "c'" in
  match goal with |- mim _ _ ?g => match g with context [ctx_of ?p ?ms] =>
    remember (ctx_of p ms) as c' eqn:C';
    assert (P' : c_pid c' = p) by (rewrite C'; reflexivity);
    assert (K' : c_keys c' = map m_key ms) by (rewrite C'; reflexivity); cbn [map mw mr m_key app] in K' end end.

