(** What the token proxy's validation blocks establish. *)

From Coq Require Import ZifyBool ZifyNat ZifyN.
From Verif Require Export SplLaws RlLaws TokenProxy.
Ltac Zify.zify_post_hook ::= Z.div_mod_to_equations.

(** ** What the accounts of a state say *)

(** The account at [k] is the settings account of program [pid] and holds [st]; [pn] is the stored
    bump of the program-data address. *)
Definition tp_settings_in (e : env) (pid : key) (s : state) (k : key) (st : tp_settings) (pn : Z) : Prop :=
  unpack c_tp_settings TP_LEN gs_init (dat (accs s k)) = Ok st /\
  exists n, gs_kind st = KSettings n pn /\ find_pda e sd_settings pid = Ok (k, n).

(** The address of a token's settings. *)
Definition ts_seeds (e : env) (tk : token_kind) : bytes :=
  match tk with TKEver _ token _ => sd_ts_ever (token_hash e token) | TKSol mint _ => sd_ts_sol mint end.
(** The account at [k] is the settings account of the token it describes; [vn] is the stored bump of
    the token's mint or vault address. *)
Definition token_in (e : env) (pid : key) (s : state) (k : key) (ts : token_settings) (vn : Z) : Prop :=
  unpack c_token_settings TP_LEN tk_init (dat (accs s k)) = Ok ts /\
  exists n, tk_akind ts = KTokenSettings n vn /\ find_pda e (ts_seeds e (tk_kind ts)) pid = Ok (k, n).

(** The account at [k] is the multi-vault of [pid]. *)
Definition multivault_in (e : env) (pid : key) (s : state) (k : key) : Prop :=
  exists mv n, unpack c_multi_vault TP_LEN mv_init (dat (accs s k)) = Ok mv /\
    mv_kind mv = KMultiVault n /\ find_pda e sd_multivault pid = Ok (k, n).

(** [k] is the address derived from a request's round, event coordinates and event hash [h]. *)
Definition request_addr {E M_} (e : env) (pid : key) (k : key) (p : prop E M_) (h : key) : Prop :=
  exists n pn, p_kind p = KProposal n pn /\
  find_pda e (sd_proposal (p_round p) (pd_ts (p_pda p)) (pd_lt (p_pda p)) (pd_conf (p_pda p)) h) pid = Ok (k, n).
(** The account at [k] decodes as the withdrawal request [w] whose content [k] is derived from. *)
Definition wever_in (e : env) (pid : key) (s : state) (k : key) (w : wever) : Prop :=
  unpack c_wever TP_LEN (@p_init _ _) (dat (accs s k)) = Ok w /\ request_addr e pid k w (wever_hash e w).
Definition wsol_in (e : env) (pid : key) (s : state) (k : key) (w : wsol) : Prop :=
  unpack c_wsol TP_LEN (@p_init _ _) (dat (accs s k)) = Ok w /\ request_addr e pid k w (wsol_hash e w).

(** ** The blocks *)

Lemma tp_valid_settings_ok e c k s r s' : tp_valid_settings e c k s = Ok (r, s') ->
  s' = s /\ tp_settings_in e (c_pid c) s k (fst r) (snd r).
Proof.
  unfold tp_valid_settings, tp_settings_at. intros H. minv H. split; [reflexivity|].
  match goal with X : into_settings _ = _ |- _ => apply into_settings_ok in X end.
  match goal with X : validate_pda _ _ _ _ _ = _ |- _ => apply validate_pda_ok in X as [_ ?] end.
  split; [first [pdaok|assumption]|]. cbn [fst snd]. eauto.
Qed.
Lemma tp_live_settings_ok e c k s r s' : tp_live_settings e c k s = Ok (r, s') ->
  s' = s /\ tp_settings_in e (c_pid c) s k (fst r) (snd r) /\ gs_emergency (fst r) = false.
Proof.
  unfold tp_live_settings. intros H. mstep H. apply tp_valid_settings_ok in H0 as [-> V]. minv H.
  cbn [fst snd] in *. mfacts. auto.
Qed.
Lemma valid_ts_ever_ok e c k s ts token d mn s' : valid_ts_ever e c k s = Ok ((ts, token, d, mn), s') ->
  s' = s /\ token_in e (c_pid c) s k ts mn /\ exists m, tk_kind ts = TKEver m token d.
Proof.
  unfold valid_ts_ever, token_settings_at. intros H. minv H. injection H as <- <- <- <-. mfacts.
  split; [reflexivity|]. split; [|eauto]. split; [assumption|].
  match goal with X : tk_kind _ = _ |- _ => rewrite X end. cbn [ts_seeds]. eauto.
Qed.
Lemma valid_ts_sol_ok e c k s ts mint vault vn s' : valid_ts_sol e c k s = Ok ((ts, mint, vault, vn), s') ->
  s' = s /\ token_in e (c_pid c) s k ts vn /\ tk_kind ts = TKSol mint vault.
Proof.
  unfold valid_ts_sol, token_settings_at. intros H. minv H. injection H as <- <- <- <-. mfacts.
  split; [reflexivity|]. split; [|assumption]. split; [assumption|].
  match goal with X : tk_kind _ = _ |- _ => rewrite X end. cbn [ts_seeds]. eauto.
Qed.
Lemma valid_ts_any_ok e c k s ts p s' : valid_ts_any e c k s = Ok ((ts, p), s') ->
  s' = s /\ p = k /\ exists vn, token_in e (c_pid c) s k ts vn.
Proof.
  unfold valid_ts_any, token_settings_at. intros H. minv H. injection H as <- <-.
  match goal with X : into_token_settings _ = _ |- _ => apply into_token_settings_ok in X end.
  match goal with X : validate_pda _ _ _ _ _ = _ |- _ => apply validate_pda_ok in X as [-> ?] end.
  split; [reflexivity|]. split; [reflexivity|]. eexists. split; [assumption|]. eauto.
Qed.
Lemma token_live_ok ts s a s' : token_live ts s = Ok (a, s') -> s' = s /\ tk_emergency ts = false.
Proof. unfold token_live. intros H. msimple H. mfacts. auto. Qed.
Lemma valid_multivault_ok e c k s a s' : valid_multivault e c k s = Ok (a, s') ->
  s' = s /\ multivault_in e (c_pid c) s k.
Proof.
  unfold valid_multivault, multi_vault_at. intros H. minv H.
  match goal with X : into_multi_vault _ = _ |- _ => apply into_multi_vault_ok in X end.
  match goal with X : validate_pda _ _ _ _ _ = _ |- _ => apply validate_pda_ok in X as [_ ?] end.
  split; [reflexivity|]. do 2 eexists. eauto.
Qed.
Lemma tp_valid_prop_ok {E M_} e c k (p : prop E M_) h s r s' : tp_valid_prop e c k p h s = Ok (r, s') ->
  s' = s /\ r = k /\ request_addr e (c_pid c) k p h.
Proof.
  unfold tp_valid_prop. intros H. minv H.
  match goal with X : into_proposal _ = _ |- _ => apply into_proposal_ok in X end.
  match goal with X : validate_pda _ _ _ _ _ = _ |- _ => apply validate_pda_ok in X as [-> ?] end.
  split; [reflexivity|]. split; [reflexivity|]. do 2 eexists. eauto.
Qed.
Lemma valid_wever_ok e c k s w wk s' : valid_wever e c k s = Ok ((w, wk), s') ->
  s' = s /\ wk = k /\ wever_in e (c_pid c) s k w.
Proof.
  unfold valid_wever, wever_at. intros H. mstep H. mstep H. msimple H. injection H as <- <-.
  match goal with X : tp_valid_prop _ _ _ _ _ _ = _ |- _ => apply tp_valid_prop_ok in X as (-> & -> & V) end.
  split; [reflexivity|]. split; [reflexivity|]. split; assumption.
Qed.
Lemma valid_wsol_ok e c k s w wk s' : valid_wsol e c k s = Ok ((w, wk), s') ->
  s' = s /\ wk = k /\ wsol_in e (c_pid c) s k w.
Proof.
  unfold valid_wsol, wsol_at. intros H. mstep H. mstep H. msimple H. injection H as <- <-.
  match goal with X : tp_valid_prop _ _ _ _ _ _ = _ |- _ => apply tp_valid_prop_ok in X as (-> & -> & V) end.
  split; [reflexivity|]. split; [reflexivity|]. split; assumption.
Qed.
Lemma tp_valid_round_ok e k s r s' : tp_valid_round e k s = Ok (r, s') ->
  s' = s /\ round_in e rl_id s k r.
Proof.
  unfold tp_valid_round, relay_round_at. intros H. minv H. split; [reflexivity|].
  match goal with X : into_relay_round _ = _ |- _ => apply into_relay_round_ok in X end.
  match goal with X : validate_pda _ _ _ _ _ = _ |- _ => apply validate_pda_ok in X as [_ ?] end.
  split; [first [pdaok|assumption]|]. eauto.
Qed.
Lemma tp_valid_rl_settings_ok e k s r s' : tp_valid_rl_settings e k s = Ok (r, s') ->
  s' = s /\ exists pn, rl_settings_in e rl_id s k r pn.
Proof.
  unfold tp_valid_rl_settings, rl_settings_at. intros H. minv H. split; [reflexivity|].
  match goal with X : into_settings _ = _ |- _ => apply into_settings_ok in X end.
  match goal with X : validate_pda _ _ _ _ _ = _ |- _ => apply validate_pda_ok in X as [_ ?] end.
  eexists. split; [first [pdaok|assumption]|]. eauto.
Qed.

(** [authority] holds the role or is the upgrade authority of [pid]; [pn] is the bump of the
    program-data address stored in the settings. *)
Definition entitled (e : env) (pid : key) (s : state) (role authority : key) : Prop :=
  authority = role \/ upgrade_auth e pid s authority.

Lemma check_authority_ok e c role authority pn rest s a s' :
  check_authority e c role authority pn rest s = Ok (a, s') ->
  s' = s /\ entitled e (c_pid c) s role authority.
Proof.
  unfold check_authority. intros H. destruct (keqb authority role) eqn:E.
  - msimple H. mfacts. split; [reflexivity|]. left. exact E.
  - destruct rest as [|pd rest]; [discriminate|]. minv H. mfacts. split; [reflexivity|]. right.
    exists pd. eexists. split; [pdaok|]. assumption.
Qed.

(** ** Kinds of records

    Every record of the token proxy starts with its initialized flag and its kind. *)
Definition kind_at (d : bytes) : option account_kind :=
  match dec (c_bool ** c_kind) d with Some ((_, k), _) => Some k | None => None end.

Lemma kind_at_enc b k r : okb c_kind k = true -> kind_at (enc c_bool b ++ enc c_kind k ++ r) = Some k.
Proof.
  intros O. unfold kind_at. rewrite app_assoc.
  change (enc c_bool b ++ enc c_kind k) with (enc (c_bool ** c_kind) (b, k)).
  rewrite rt; [reflexivity|]. cbn [okb c_pair fst snd]. rewrite O. destruct b; reflexivity.
Qed.

Ltac kind_tac U :=
  apply unpack_unchecked_init in U as [U _]; apply unpack_unchecked_ok in U as (r & -> & O & _);
  [|typeclasses eauto].

Lemma kind_tp_settings LEN i d x : unpack c_tp_settings LEN i d = Ok x -> kind_at d = Some (gs_kind x).
Proof.
  intros U. kind_tac U. unfold c_tp_settings, c_iso in *. cbn [enc okb c_pair fst snd] in *.
  rewrite <- !app_assoc. apply kind_at_enc. do 1 (apply andb_true_iff in O as [_ O]). apply andb_true_iff in O. apply O.
Qed.
Lemma kind_token_settings LEN i d x : unpack c_token_settings LEN i d = Ok x -> kind_at d = Some (tk_akind x).
Proof.
  intros U. kind_tac U. unfold c_token_settings, c_iso in *. cbn [enc okb c_pair fst snd] in *.
  rewrite <- !app_assoc. apply kind_at_enc. do 1 (apply andb_true_iff in O as [_ O]). apply andb_true_iff in O. apply O.
Qed.
Lemma kind_multi_vault LEN i d x : unpack c_multi_vault LEN i d = Ok x -> kind_at d = Some (mv_kind x).
Proof.
  intros U. kind_tac U. unfold c_multi_vault, c_iso in *. cbn [enc okb c_pair fst snd] in *.
  rewrite <- !app_assoc. apply kind_at_enc. apply andb_true_iff in O. apply O.
Qed.
Lemma kind_prop {E M_} (ce : codec E) (cm : codec M_) (L1 : Lawful ce) (L2 : Lawful cm) LEN i d x :
  unpack (c_prop ce cm) LEN i d = Ok x -> kind_at d = Some (p_kind x).
Proof.
  intros U. kind_tac U. unfold c_prop, c_iso in *. cbn [enc okb c_pair fst snd] in *.
  rewrite <- !app_assoc. apply kind_at_enc. do 1 (apply andb_true_iff in O as [_ O]). apply andb_true_iff in O. apply O.
Qed.
Lemma kind_dep {E M_} (ce : codec E) (cm : codec M_) (L1 : Lawful ce) (L2 : Lawful cm) LEN i d x :
  unpack (c_dep ce cm) LEN i d = Ok x -> kind_at d = Some (d_kind x).
Proof.
  intros U. kind_tac U. unfold c_dep, c_iso in *. cbn [enc okb c_pair fst snd] in *.
  rewrite <- !app_assoc. apply kind_at_enc. do 1 (apply andb_true_iff in O as [_ O]). apply andb_true_iff in O. apply O.
Qed.

Lemma unpack_len {A} (c : codec A) (L : Lawful c) LEN i d x : unpack c LEN i d = Ok x -> blen d = LEN.
Proof.
  intros U. apply unpack_unchecked_init in U as [U _]. apply unpack_unchecked_ok in U as (r & _ & _ & B); [exact B|exact L].
Qed.
