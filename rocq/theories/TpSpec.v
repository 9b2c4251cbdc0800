(** Vocabulary of the token-proxy statements (C23 - C62) and its connection with the model's own
    predicates.  No code of /repo is modelled here. *)

From Coq Require Import Strings.String ZifyBool ZifyNat ZifyN.
From Verif Require Export TpEffects.
Open Scope Z_scope.
Open Scope list_scope.
Ltac Zify.zify_post_hook ::= Z.div_mod_to_equations.

(** * Vocabulary *)

(** The token proxy, called in context [c] with data that decodes to [i] while the clock holds an
    i64, turns [s] into [s'].  [ext] is what other programs do when a payload calls them. *)
Definition tp_call (e : env) (ext : extern) (c : ctx) (i : tp_ix) (s s' : state) : Prop :=
  c_pid c = tp_id /\ clock_ok s /\
  exists d, try_from_slice c_tp_ix d = Some i /\ run c (tp_process e ext c d) s = Ok s'.

(** [k] is the address derived from seeds [sd] for the token proxy. *)
Definition tp_addr (e : env) (sd : bytes) (k : key) : Prop := exists n, find_pda e sd tp_id = Ok (k, n).

(** The program-data account of the token proxy names [a] as upgrade authority: variant number 3, a
    slot, "some", the key. *)
Definition tp_authority_is (e : env) (s : state) (a : key) : Prop :=
  exists pd n slot rest, find_pda e (kb tp_id) loader_id = Ok (pd, n) /\ List.length slot = 8%nat /\
    dat (accs s pd) = [x03; x00; x00; x00] ++ slot ++ [x01] ++ kb a ++ rest.
(** Somebody signed who holds [role] or is the upgrade authority. *)
Definition signed_for (e : env) (c : ctx) (s : state) (role : key) : Prop :=
  exists a, c_sg c a = true /\ (a = role \/ tp_authority_is e s a).
Definition authority_signed (e : env) (c : ctx) (s : state) : Prop :=
  exists a, c_sg c a = true /\ tp_authority_is e s a.

(** [k] is the settings account and reads [st]. *)
Definition settings_at (e : env) (s : state) (k : key) (st : tp_settings) : Prop :=
  tp_addr e (str "settings") k /\ unpack c_tp_settings TP_LEN gs_init (dat (accs s k)) = Ok st.
(** [k] is the settings account of the token it names and reads [ts]: the seeds are "settings" and
    the hash of the Everscale token's address or the Solana token's mint. *)
Definition token_at (e : env) (s : state) (k : key) (ts : token_settings) : Prop :=
  tp_addr e (str "settings" ++ match tk_kind ts with
                              | TKEver _ token _ => kb (token_hash e token)
                              | TKSol mint _ => kb mint end) k /\
  unpack c_token_settings TP_LEN tk_init (dat (accs s k)) = Ok ts.

(** Nothing but the data of [k] differs. *)
Definition only_data_of (k : key) (s s' : state) : Prop :=
  lam (accs s' k) = lam (accs s k) /\ own (accs s' k) = own (accs s k) /\
  (forall j, j <> k -> accs s' j = accs s j).

(** Programs called by a payload leave the owner and data of the token proxy's accounts alone, that
    is, do not call back into the token proxy. *)
Definition ext_outside (ext : extern) : Prop := forall c d s a s' k,
  ext c d s = Ok (a, s') -> own (accs s k) = tp_id -> same_od s s' k.

(** * Bridging lemmas *)

Lemma tp_process_ok e ext c d s s' : run c (tp_process e ext c d) s = Ok s' ->
  exists i, try_from_slice c_tp_ix d = Some i /\ okb c_tp_ix i = true /\ tp_exec e ext c i s = Ok (tt, s').
Proof.
  intros H. apply run_ok in H as [H _]. unfold tp_process in H.
  apply bind_ok in H as (i & s1 & B & H). cbv beta in H. apply lift_ok in B as [B ->].
  apply ok_or_ok in B. exists i. split; [exact B|]. split; [|exact H].
  eapply try_from_slice_can; [typeclasses eauto|exact B].
Qed.
Lemma tp_call_exec e ext c i s s' : tp_call e ext c i s s' ->
  c_pid c = tp_id /\ okb c_tp_ix i = true /\ clock_ok s /\ tp_exec e ext c i s = Ok (tt, s').
Proof.
  intros (Hp & CK & d & D & R). apply tp_process_ok in R as (j & Dj & O & R).
  rewrite D in Dj. assert (j = i) by congruence. subst j. auto.
Qed.

Lemma tp_authority_spec e s a : upgrade_auth e tp_id s a -> tp_authority_is e s a.
Proof.
  intros (pd & n & P & U). unfold upgrade_authority in U.
  destruct (dec (c_u32 ** c_u64 ** c_option c_key) (dat (accs s pd))) as [[[v [slot o]] rest]|] eqn:D; [|discriminate].
  destruct v as [|v|v]; try discriminate. destruct v as [v|v|]; try discriminate. destruct v as [v|v|]; try discriminate.
  destruct o as [k|]; [|discriminate]. injection U as ->.
  apply can in D as [D _]. exists pd, n, (le 8 slot), rest.
  split; [exact P|]. split; [apply le_length|]. rewrite D. cbn [enc c_pair c_option fst snd c_key].
  unfold c_u32, c_u64, c_uint. cbn [enc]. rewrite <- !app_assoc. reflexivity.
Qed.
Lemma entitled_spec e c s role a : c_sg c a = true -> entitled e tp_id s role a -> signed_for e c s role.
Proof. intros S [H|H]; exists a; (split; [exact S|]); [left; exact H|right; apply tp_authority_spec; exact H]. Qed.
Lemma authority_signed_spec e c s a : c_sg c a = true -> upgrade_auth e tp_id s a -> authority_signed e c s.
Proof. intros S H. exists a. split; [exact S|apply tp_authority_spec; exact H]. Qed.

Lemma settings_spec e s k st pn : tp_settings_in e tp_id s k st pn -> settings_at e s k st.
Proof. intros [U (n & _ & P)]. split; [exists n; exact P|exact U]. Qed.
Lemma token_spec e s k ts vn : token_in e tp_id s k ts vn -> token_at e s k ts.
Proof.
  intros [U (n & _ & P)]. split; [|exact U]. unfold ts_seeds in P. destruct (tk_kind ts); exists n; exact P.
Qed.
Lemma tp_addr_fun e sd k k' : tp_addr e sd k -> tp_addr e sd k' -> k' = k.
Proof. intros [n A] [n' B]. congruence. Qed.
Lemma settings_at_fun e s k st k' st' : settings_at e s k st -> settings_at e s k' st' -> k' = k /\ st' = st.
Proof. intros [A U] [A' U']. pose proof (tp_addr_fun _ _ _ _ A A'). subst. split; congruence. Qed.
Lemma settings_of_spec e s st : settings_of e s st -> exists k, settings_at e s k st.
Proof. intros (k & pn & H). exists k. eapply settings_spec. exact H. Qed.

(** The settings account named by the validation is the settings account. *)
Lemma settings_at_in e s k st k' st' pn : settings_at e s k st -> tp_settings_in e tp_id s k' st' pn -> k' = k /\ st' = st.
Proof. intros A B. eapply settings_at_fun; [exact A|]. eapply settings_spec. exact B. Qed.

(** ** Payload execution *)

(** What the called programs did. *)
Definition nested (e : env) (ext : extern) (c : ctx) (s s1 : state) : Prop :=
  s1 = s \/ exists proxy l mint recipient b, e_pda e (with_bump (sd_proxy mint recipient) b) (c_pid c) = Some proxy /\
    nested_run e ext c proxy l s s1.
Lemma nested_outside e ext c s s' : ext_outside ext -> nested e ext c s s' ->
  forall k, own (accs s k) = tp_id -> same_od s s' k.
Proof.
  intros X [->|(proxy & l & mint & r & b & _ & H)] k; [intros _; apply same_od_refl|].
  induction H as [s|i l s s1 s2 x C R IH]; intros O; [apply same_od_refl|].
  unfold cpi in C. apply bind_ok in C as (u1 & t1 & B1 & C). apply guard_ok in B1 as [_ ->].
  apply bind_ok in C as (u2 & t2 & B2 & C). apply guard_ok in B2 as [_ ->].
  pose proof (X _ _ _ _ _ k C O) as Q. apply (same_od_trans _ _ _ _ Q). apply IH. destruct Q as [Q _]. congruence.
Qed.

(** The request record written at the end, seen from one account. *)
Definition payload_wrote {E} (cd : codec (prop E (withlen wmeta))) (c : ctx) (s s1 s' : state) (k : key) : Prop :=
  hd_error (c_keys c) = Some k /\ own (accs s1 k) = tp_id /\ exists w n pn,
    unpack cd TP_LEN (@p_init _ _) (dat (accs s k)) = Ok w /\ w_status w = WWaitExecute /\ p_kind w = KProposal n pn /\
    packed c cd TP_LEN s1 s' k (w_set_status w WProcessed).
Definition payload_wrote_i (i : tp_ix) (c : ctx) (s s1 s' : state) (k : key) : Prop :=
  (i = TpExecutePayloadEver /\ payload_wrote c_wever c s s1 s' k) \/
  (i = TpExecutePayloadSol /\ payload_wrote c_wsol c s s1 s' k).

Lemma payload_cases1 {E} (cd : codec (prop E (withlen wmeta))) e ext c w0 w mintk r p s s' k rest :
  c_pid c = tp_id -> c_keys c = w0 :: rest -> unpack cd TP_LEN (@p_init _ _) (dat (accs s w0)) = Ok w ->
  payload_eff e ext c cd w0 w mintk r p s s' ->
  exists s1, nested e ext c s s1 /\ (same_od s1 s' k \/ payload_wrote cd c s s1 s' k).
Proof.
  intros Hp K U [[_ ->]|(W & mint & n & pn & l & s1 & _ & KD & _ & N & P)].
  - exists s. split; [left; reflexivity|left; apply same_od_refl].
  - exists s1. split.
    { destruct N as [[_ ->]|(proxy & PD & N)]; [left; reflexivity|right; exists proxy, l, mint, r, (opt_or pn 0); auto]. }
    destruct (key_dec k w0) as [->|D]; [|left; apply (packed_od _ _ _ _ _ _ _ P _ D)].
    pose proof P as (_ & _ & _ & [Q|[O _]]).
    + left. split; [apply (packed_own _ _ _ _ _ _ _ P)|exact Q].
    + right. split; [rewrite K; reflexivity|]. split; [congruence|]. exists w, n, pn. auto.
Qed.
Lemma payload_cases e ext c i s s' k : c_pid c = tp_id -> is_payload i = true -> tp_exec e ext c i s = Ok (tt, s') ->
  exists s1, nested e ext c s s1 /\ (same_od s1 s' k \/ payload_wrote_i i c s s1 s' k).
Proof.
  intros Hp I H. destruct i; try discriminate; cbn [tp_exec] in H.
  - apply tp_execute_payload_ever_ok in H as (w0 & rest & w & K & U & P).
    destruct (payload_cases1 _ _ _ _ _ _ _ _ _ _ _ k _ Hp K U P) as (s1 & N & [Q|Q]); exists s1; (split; [exact N|]); [left; exact Q|right; left; auto].
  - apply tp_execute_payload_sol_ok in H as (w0 & rest & w & K & U & P).
    destruct (payload_cases1 _ _ _ _ _ _ _ _ _ _ _ k _ Hp K U P) as (s1 & N & [Q|Q]); exists s1; (split; [exact N|]); [left; exact Q|right; right; auto].
Qed.

Lemma payload_kind i c s s1 s' k : payload_wrote_i i c s s1 s' k -> exists n pn, kind_at (dat (accs s k)) = Some (KProposal n pn).
Proof.
  intros [[_ (_ & _ & w & n & pn & U & _ & K & _)]|[_ (_ & _ & w & n & pn & U & _ & K & _)]]; exists n, pn; rewrite <- K;
    eapply kind_prop; [| |exact U| | |exact U]; typeclasses eauto.
Qed.

(** Without nested calls of the token proxy a payload leaves every record of another kind alone. *)
Lemma payload_same e ext c i s s' k : c_pid c = tp_id -> is_payload i = true -> tp_exec e ext c i s = Ok (tt, s') ->
  ext_outside ext -> own (accs s k) = tp_id -> (forall n pn, kind_at (dat (accs s k)) <> Some (KProposal n pn)) -> same_od s s' k.
Proof.
  intros Hp I H X O N. destruct (payload_cases _ _ _ _ _ _ k Hp I H) as (s1 & Q & [R|R]).
  - apply (same_od_trans _ _ _ _ (nested_outside _ _ _ _ _ X Q _ O) R).
  - destruct (payload_kind _ _ _ _ _ _ R) as (n & pn & K). exfalso. apply (N n pn K).
Qed.
