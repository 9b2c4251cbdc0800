(** Property C82: the balance of a vault and the supply of a bridge mint over all histories are accounted
    for, call by call. *)

From Coq Require Import Strings.String ZifyBool ZifyNat ZifyN.
From Verif Require Import TpDemoLaws TpFlow Nested PropTpFlow PropTpPay PropTpMoney PropNested.
Open Scope Z_scope.
Open Scope list_scope.
Ltac Zify.zify_post_hook ::= Z.div_mod_to_equations.
Local Notation total := PropTpMoney.total.

(** * Histories *)

(** From [s] to [s'] by instructions of the token proxy, whose payloads call other programs and the token
    proxy again to any depth; by transactions of others, which follow the rules of the token program and
    which [v] does not sign; by the passing of time; and by the removal of accounts without lamports other
    than [v]. *)
Inductive vault_hist (e : env) (v : key) : state -> state -> Prop :=
| vh_refl s : vault_hist e v s s
| vh_instr n s s1 s2 : vault_hist e v s s1 -> deep e (fun k => k <> v) token_program n s1 s2 -> vault_hist e v s s2
| vh_other c s s1 s2 : vault_hist e v s s1 -> c_sg c v = false -> token_rules c s1 s2 -> vault_hist e v s s2
| vh_purge s s1 s2 : vault_hist e v s s1 -> lam (accs s1 v) <> 0 -> purge s1 s2 -> vault_hist e v s s2.

(** The same with the calls of the token proxy listed in order. *)
Inductive vault_calls (e : env) (v : key) : list call -> state -> state -> Prop :=
| vc_refl s : vault_calls e v [] s s
| vc_instr l l' s s1 s2 : vault_calls e v l s s1 -> steps e (fun k => k <> v) token_program l' s1 s2 -> vault_calls e v (l ++ l') s s2
| vc_other c l s s1 s2 : vault_calls e v l s s1 -> c_sg c v = false -> token_rules c s1 s2 -> vault_calls e v l s s2
| vc_purge l s s1 s2 : vault_calls e v l s s1 -> lam (accs s1 v) <> 0 -> purge s1 s2 -> vault_calls e v l s s2.

(** For a mint [m]: others also leave the accounts of the token proxy and unused addresses derived for it
    alone. *)
Inductive mint_hist (e : env) (m : key) : state -> state -> Prop :=
| mh_refl s : mint_hist e m s s
| mh_instr n s s1 s2 : mint_hist e m s s1 -> deep e (fun k => k <> m) (other_program e) n s1 s2 -> mint_hist e m s s2
| mh_other c t s s1 s2 : mint_hist e m s s1 -> c_sg c m = false -> other_program e c s1 s2 -> mint_hist e m s (St (accs s2) (logs s2) t)
| mh_purge s s1 s2 : mint_hist e m s s1 -> purge s1 s2 -> mint_hist e m s s2.
Inductive mint_calls (e : env) (m : key) : list call -> state -> state -> Prop :=
| mc_refl s : mint_calls e m [] s s
| mc_instr l l' s s1 s2 : mint_calls e m l s s1 -> steps e (fun k => k <> m) (other_program e) l' s1 s2 -> mint_calls e m (l ++ l') s s2
| mc_other c t l s s1 s2 : mint_calls e m l s s1 -> c_sg c m = false -> other_program e c s1 s2 -> mint_calls e m l s (St (accs s2) (logs s2) t)
| mc_purge l s s1 s2 : mint_calls e m l s s1 -> purge s1 s2 -> mint_calls e m l s s2.

(** * What a call does *)

(** The request at [k], of status [st0] with enough confirmations or waiting for the approval that the
    withdrawal manager signs, is executed or approved by [i]. *)
Definition confirmed_or_approved {E M_} (e : env) (c : ctx) (i : tp_ix) (s : state) (exec appr : tp_ix)
    (w : prop (withlen E) M_) (st : wstatus) (pending : bool) : Prop :=
  i = exec /\ (st = WNew \/ pending = true /\ st = WPending) /\ p_required w <= confirmed (p_signers w) \/
  i = appr /\ st = WWaitApprove /\ wmanager_signed e c s.

(** The call takes [n] tokens out of the vault [v]: for a request of the vault's token, which is paid
    afterwards and gets its amount less fee, or as collected fees, which are recorded in the settings of
    the vault's token and shrink by [n]. *)
Variant vault_spent (e : env) (c : ctx) (i : tp_ix) (s s' : state) (v : key) (n : Z) : Prop :=
| VS_request k w st tsk ts : nth_error (c_keys c) (request_pos i) = Some k -> sol_request e s k w ->
    confirmed_or_approved e c i s TpWithdrawSol TpApproveSol w (status_of w) true ->
    sol_request e s' k (w_set_status w st) -> paid st ->
    sol_token e s w v tsk ts ->
    n = wse_amount (event_of w) mod 2 ^ 64 - fee_on (tk_fee_wdr ts) (wse_amount (event_of w) mod 2 ^ 64) ->
    vault_spent e c i s s' v n
| VS_fee tsk ts mint v' : i = TpWithdrawSolFee n -> manager_signed e c s -> token_at e s tsk ts -> tk_kind ts = TKSol mint v' ->
    tp_addr e (str "vault" ++ kb mint) v -> n <= tk_fee_supply ts ->
    token_at e s' tsk (tk_set_fee_supply ts (tk_fee_supply ts - n)) -> vault_spent e c i s s' v n.

(** The call changes the balance of [v] by [z]: a loss is one of the two above; a deposit that names [v] as
    vault, with a token that is registered, adds its amount. *)
Definition vault_entry (e : env) (v : key) (x : call) (z : Z) : Prop :=
  match x with Call c i s s' =>
    balance s' v = balance s v + z /\
    (z < 0 -> vault_spent e c i s s' v (- z)) /\
    (forall seed name symbol amount recipient value evers payload tsk,
       i = TpDepositSol seed name symbol amount recipient value evers payload -> nth_error (c_keys c) 3 = Some v ->
       nth_error (c_keys c) 7 = Some tsk -> lam (accs s tsk) <> 0 -> z = amount)
  end.

(** The call creates [n] tokens of the mint [m]: for a request of the mint's token, which is paid afterwards
    and gets its amount in the mint's decimals less fee (if the decimals differ by less than 39), or as
    collected fees, which shrink by [n]. *)
Variant mint_spent (e : env) (c : ctx) (i : tp_ix) (s s' : state) (m : key) (n : Z) : Prop :=
| MS_request k w st md tsk ts : nth_error (c_keys c) (request_pos i) = Some k -> ever_request e s k w ->
    confirmed_or_approved e c i s TpWithdrawEver TpApproveEver w (status_of w) false ->
    ever_request e s' k (w_set_status w st) -> paid st ->
    ever_token e s' w m md tsk ts -> fees_kept e s tsk ts ->
    (ever_scales w md -> n = ever_gross w md mod 2 ^ 64 - fee_on (tk_fee_wdr ts) (ever_gross w md mod 2 ^ 64)) ->
    mint_spent e c i s s' m n
| MS_fee tsk ts m' token d : i = TpWithdrawEverFee n -> manager_signed e c s -> token_at e s tsk ts -> tk_kind ts = TKEver m' token d ->
    tp_addr e (str "mint" ++ kb (token_hash e token)) m -> n <= tk_fee_supply ts ->
    token_at e s' tsk (tk_set_fee_supply ts (tk_fee_supply ts - n)) -> mint_spent e c i s s' m n.

(** The call changes the supply of [m] by [z]: a gain is one of the two above; a loss is a deposit of as
    many tokens, and a deposit that names [m] as mint takes away its amount. *)
Definition mint_entry (e : env) (m : key) (x : call) (z : Z) : Prop :=
  match x with Call c i s s' =>
    supply s' m = supply s m + z /\
    (0 < z -> mint_spent e c i s s' m z) /\
    (z < 0 -> exists seed recipient value evers payload, i = TpDepositEver seed (- z) recipient value evers payload) /\
    (forall seed amount recipient value evers payload,
       i = TpDepositEver seed amount recipient value evers payload -> nth_error (c_keys c) 4 = Some m -> z = - amount)
  end.
Definition sum (l : list Z) : Z := fold_right Z.add 0 l.

(** * Proofs *)

Lemma sum_app l l' : sum (l ++ l') = sum l + sum l'.
Proof. induction l as [|x l IH]; cbn [app sum fold_right]; [reflexivity|]. unfold sum in *. lia. Qed.
Lemma set_status_request_sol e s k (w : wsol) st : tp_wsol s k (w_set_status w st) -> request_addr e tp_id k w (wsol_hash e w) ->
  sol_request e s k (w_set_status w st).
Proof. intros W RA. apply sol_request_is; [exact W|exact RA]. Qed.
Lemma set_status_request_ever e s k (w : wever) st : tp_wever s k (w_set_status w st) -> request_addr e tp_id k w (wever_hash e w) ->
  ever_request e s k (w_set_status w st).
Proof. intros W RA. apply ever_request_is; [exact W|exact RA]. Qed.
Lemma wpos_pos i c k : wpos i c k -> i = TpWithdrawSol \/ i = TpApproveSol \/ i = TpWithdrawEver \/ i = TpApproveEver ->
  nth_error (c_keys c) (request_pos i) = Some k.
Proof. intros W [->|[->|[->| ->]]]; exact W. Qed.

Lemma vault_call_spent e ext c i s s' v : tp_call e ext c i s s' -> is_payload i = false -> locked s v -> c_sg c v = false -> ~ is_proxy e v ->
  balance s' v < balance s v -> vault_spent e c i s s' v (balance s v - balance s' v).
Proof.
  intros C I L SG NP B. pose proof (vault_call _ _ _ _ _ _ _ C I L SG NP B) as VO. destruct L as (_ & _ & tv & T & _).
  assert (REQ : i = TpWithdrawSol \/ i = TpApproveSol -> vault_spent e c i s s' v (balance s v - balance s' v)).
  { intros IX. destruct (C31_sol_partial _ _ _ _ _ _ C IX (ex_intro _ v B)) as (k & w & vault & tsk & ts & dst & n & K & R & TK & (_ & _ & BA & _ & RE) & ND & N0 & NE & _).
    cbv zeta in NE. destruct (BA ND) as [BV BD].
    assert (v = vault).
    { destruct (key_dec v vault) as [E|N1]; [exact E|]. exfalso. destruct (key_dec v dst) as [->|N2]; [lia|].
      assert (SO : same_od s s' v) by (apply RE; [apply T|intros [_ [X|X]]; contradiction]). rewrite (balance_same _ _ _ SO) in B. lia. }
    subst vault. pose proof (flow_call _ _ _ _ _ _ C I) as F.
    destruct F as [T0|k0 w0 mint mn dst0 n0 st H1 RA WP CA FM _ _ PS H2 T0|k0 w0 vault vn pm dst0 n0 st H1 RA WP CA FV _ _ PS H2 T0|tsk0 ts0 mint mn m0 tok d dst0 n0 XI _ _ _ _ _ T0|tsk0 ts0 mint vn vault v' dst0 n0 XI _ _ _ _ _ T0|f g src mint n0 (? & ? & ? & ? & ? & XI) _ _ _ _ T0|src f [(? & ? & ? & ? & ? & ? & ? & ? & XI)|(? & ? & ? & ? & ? & ? & XI)] SP NN T0|owner mint proxy pn dst0 n0 XI _ FP _ T0];
      try (exfalso; rewrite XI in IX; destruct IX as [X|X]; discriminate X).
    - exfalso. apply (lost _ _ _ _ _ T0) in B. unfold none in B. lia.
    - exfalso. destruct CA as [(XI & _)|(XI & _)]; rewrite XI in IX; destruct IX as [X|X]; discriminate X.
    - assert (K0 : nth_error (c_keys c) (request_pos i) = Some k0) by (apply wpos_pos; [exact WP|destruct IX; auto]).
      assert (k0 = k) by congruence. subst k0.
      assert (w0 = w) by (destruct R as (_ & U & _), H1 as [_ U1]; congruence). subst w0.
      eapply (VS_request _ _ _ _ _ _ _ k w st tsk ts); [exact K|exact R| |apply set_status_request_sol; assumption|eapply paid_paid; exact PS|exact TK|lia].
      destruct CA as [(XI & ST & Q)|(XI & ST & AP)]; [left|right].
      + split; [exact XI|]. split; [destruct ST as [ST|ST]; auto|]. rewrite <- (sol_confirmed _ _ _ H1). exact Q.
      + split; [exact XI|]. split; [exact ST|apply approver_signed; exact AP]. }
  destruct VO as [k w XI|k w XI|n tk ts mint v' XI MS TA KT AV N0]; [apply REQ; auto|apply REQ; auto|].
  subst i. destruct (C40_sol _ _ _ _ _ _ C) as (au & vault & dst & tsk & sk & st & ts1 & ts1' & m & v1 & _ & SA & SF & TA1 & KT1 & AV1 & LE & TA' & -> & LV & BA & _ & RE).
  assert (ND : vault <> dst).
  { intros E. assert (SO : same_od s s' v) by (apply RE; [apply T|intros [X _]; contradiction]). rewrite (balance_same _ _ _ SO) in B. lia. }
  destruct (BA ND) as [BV BD].
  assert (v = vault).
  { destruct (key_dec v vault) as [E|N1]; [exact E|]. exfalso. destruct (key_dec v dst) as [->|N2]; [lia|].
    assert (SO : same_od s s' v) by (apply RE; [apply T|intros [_ [X|X]]; contradiction]). rewrite (balance_same _ _ _ SO) in B. lia. }
  subst vault. replace (balance s v - balance s' v) with n by lia.
  eapply VS_fee; [reflexivity|exact MS|exact TA1|exact KT1|exact AV1|exact LE|exact TA'].
Qed.

Lemma vault_call_entry e ext c i s s' v : tp_call e ext c i s s' -> is_payload i = false -> locked s v -> c_sg c v = false -> ~ is_proxy e v ->
  vault_entry e v (Call c i s s') (balance s' v - balance s v).
Proof.
  intros C I L SG NP. split; [lia|]. split.
  - intros N. replace (- (balance s' v - balance s v)) with (balance s v - balance s' v) by lia. eapply vault_call_spent; try eassumption. lia.
  - intros seed name symbol amount recipient value evers payload tsk -> K3 K7 LT.
    destruct (C38_partial _ _ _ _ _ _ _ _ _ _ _ _ _ C) as (fu & se & src & vault & dep & mint & mv & tsk' & t & md & ts' & m & v' & (rest & K) & _ & _ & _ & SS & SP & B).
    rewrite K in K3, K7. cbn [nth_error] in K3, K7. injection K3 as ->. injection K7 as ->. cbv zeta in B.
    destruct B as (_ & EQ & NE & _). destruct L as (_ & _ & tv & T & OW & DE & _).
    destruct (key_dec src v) as [->|N].
    + exfalso. specialize (EQ eq_refl).
      destruct (flow_tokens _ _ _ _ _ (flow_call _ _ _ _ _ _ C I)) as (f & g & TO).
      destruct (to_acc _ _ _ _ TO _ _ T) as (t' & T' & (_ & O' & _) & D').
      assert (t = t') by exact (tacc_in_fun _ _ _ _ (proj2 EQ) (proj2 T')). subst t'.
      destruct SP as [SP|SP]; [congruence|]. specialize (D' DE). rewrite SP in D'. discriminate D'.
    + destruct (NE N) as (_ & _ & _ & BV). rewrite BV by (left; exact LT). lia.
Qed.

Lemma vault_ledger e l s s' v : steps e (fun k => k <> v) token_program l s s' -> ~ is_proxy e v -> locked s v ->
  locked s' v /\ exists zs, Forall2 (vault_entry e v) l zs /\ balance s v + sum zs <= balance s' v.
Proof.
  intros H NP. induction H as [s|c s s' P S [_ R]|c ext i s s' S I C|l1 l2 s s1 s2 _ IH1 _ IH2|c i l s s1 s' Hp S I _ IH Q]; intros L.
  - split; [exact L|]. exists []. split; [constructor|cbn; lia].
  - destruct L as (V1 & V2 & t & T & OW & DE & CL). destruct (R v) as [RT _].
    destruct (RT t T) as (t' & T' & OW' & DE' & CL' & LE); [|congruence|congruence|exact DE|exact CL|].
    { rewrite OW. destruct (c_sg c v) eqn:E; [|reflexivity]. exfalso. exact (S v E eq_refl). }
    split; [split; [exact V1|]; split; [exact V2|]; exists t'; rewrite OW', OW; auto|].
    exists []. split; [constructor|]. rewrite (balance_tok _ _ _ T), (balance_tok _ _ _ T'). cbn. lia.
  - destruct (flow_tokens _ _ _ _ _ (flow_call _ _ _ _ _ _ C I)) as (f & g & T). split; [eapply locked_tokens; eassumption|].
    exists [balance s' v - balance s v]. split; [|cbn; lia]. constructor; [|constructor]. eapply vault_call_entry; try eassumption.
    destruct (c_sg c v) eqn:E; [exfalso; exact (S v E eq_refl)|reflexivity].
  - destruct (IH1 L) as [L1 (z1 & F1 & B1)]. destruct (IH2 L1) as [L2 (z2 & F2 & B2)]. split; [exact L2|].
    exists (z1 ++ z2). split; [apply Forall2_app; assumption|]. rewrite sum_app. lia.
  - destruct (IH L) as [L1 (z1 & F1 & B1)]. apply payload_packs_nospl in Q; [|exact Hp]. apply tokens_none in Q.
    split; [eapply locked_tokens; eassumption|]. exists z1. split; [exact F1|].
    destruct (to_bal _ _ _ _ Q v) as [E|(N & _)]; [unfold none in E; lia|].
    destruct L1 as (_ & _ & t & [O _] & _). contradiction.
Qed.

Lemma vault_hist_calls e v s s' : vault_hist e v s s' -> ~ is_proxy e v -> exists l, vault_calls e v l s s'.
Proof.
  intros H NP. induction H as [s|n s s1 s2 _ (l & IH) D|c s s1 s2 _ (l & IH) SG R|s s1 s2 _ (l & IH) LA P].
  - exists []. constructor.
  - apply deep_steps in D as (l' & D); [|intros k P ->; exact (NP P)|intros c a b [E _]; exact E]. exists (l ++ l'). eapply vc_instr; eassumption.
  - exists l. eapply vc_other; eassumption.
  - exists l. eapply vc_purge; eassumption.
Qed.

Lemma vault_calls_ledger e v l s s' : vault_calls e v l s s' -> ~ is_proxy e v -> locked s v ->
  locked s' v /\ exists zs, Forall2 (vault_entry e v) l zs /\ balance s v + sum zs <= balance s' v.
Proof.
  intros H NP L. induction H as [s|l l' s s1 s2 _ IH D|c l s s1 s2 _ IH SG R|l s s1 s2 _ IH LA P].
  - split; [exact L|]. exists []. split; [constructor|cbn; lia].
  - destruct (IH L) as [L1 (z1 & F1 & B1)]. destruct (vault_ledger _ _ _ _ _ D NP L1) as [L2 (z2 & F2 & B2)]. split; [exact L2|].
    exists (z1 ++ z2). split; [apply Forall2_app; assumption|]. rewrite sum_app. lia.
  - destruct (IH L) as [(V1 & V2 & t & T & OW & DE & CL) (z1 & F1 & B1)]. destruct (R v) as [RT _].
    destruct (RT t T) as (t' & T' & OW' & DE' & CL' & LE); [congruence|congruence|congruence|exact DE|exact CL|].
    split; [split; [exact V1|]; split; [exact V2|]; exists t'; rewrite OW', OW; auto|].
    exists z1. split; [exact F1|]. rewrite (balance_tok _ _ _ T) in B1. rewrite (balance_tok _ _ _ T'). lia.
  - destruct (IH L) as [L1 (z1 & F1 & B1)]. destruct (P v) as [E|[Z _]]; [|contradiction].
    assert (SO : same_od s1 s2 v) by (unfold same_od; rewrite E; auto). split.
    + destruct L1 as (V1 & V2 & t & T & R). split; [exact V1|]. split; [exact V2|]. exists t. split; [exact (same_od_tok _ _ _ _ SO T)|exact R].
    + exists z1. split; [exact F1|]. rewrite (balance_same _ _ _ SO). exact B1.
Qed.

(** * C82 *)

(** Over every history, the balance of a vault is at least what it was plus what the listed calls of the
    token proxy did to it. *)
Theorem C82_vault : forall e v s s', vault_hist e v s s' -> ~ is_proxy e v -> locked s v ->
  exists l zs, vault_calls e v l s s' /\ Forall2 (vault_entry e v) l zs /\ balance s v + sum zs <= balance s' v.
Proof.
  intros e v s s' H NP L. destruct (vault_hist_calls _ _ _ _ H NP) as (l & C). exists l.
  destruct (vault_calls_ledger _ _ _ _ _ C NP L) as [_ (zs & F & B)]. exists zs. auto.
Qed.

Lemma mint_call_spent e ext c i s s' m : tp_call e ext c i s s' -> is_payload i = false ->
  supply s m < supply s' m -> mint_spent e c i s s' m (supply s' m - supply s m).
Proof.
  intros C I B. pose proof (mint_call _ _ _ _ _ _ _ C I B) as MO.
  assert (REQ : i = TpWithdrawEver \/ i = TpApproveEver -> mint_spent e c i s s' m (supply s' m - supply s m)).
  { intros IX. destruct (C31_ever_partial _ _ _ _ _ _ C IX (ex_intro _ m B)) as (k & w & mint & md & tsk & ts & dst & n & K & R & TK & FK & (_ & SU & SJ & _) & N0 & NE & _).
    assert (m = mint) by (destruct (key_dec m mint) as [E|N1]; [exact E|specialize (SJ m N1); lia]).
    subst mint. pose proof (flow_call _ _ _ _ _ _ C I) as F.
    destruct F as [T0|k0 w0 mint mn dst0 n0 st H1 RA WP CA FM _ _ PS H2 T0|k0 w0 vault vn pm dst0 n0 st H1 RA WP CA FV _ _ PS H2 T0|tsk0 ts0 mint mn m0 tok d dst0 n0 XI _ _ _ _ _ T0|tsk0 ts0 mint vn vault v' dst0 n0 XI _ _ _ _ _ T0|f g src mint n0 (? & ? & ? & ? & ? & XI) _ _ _ _ T0|src f [(? & ? & ? & ? & ? & ? & ? & ? & XI)|(? & ? & ? & ? & ? & ? & XI)] SP NN T0|owner mint proxy pn dst0 n0 XI _ FP _ T0];
      try (exfalso; rewrite XI in IX; destruct IX as [X|X]; discriminate X).
    - exfalso. apply (grew _ _ _ _ _ T0) in B. unfold none in B. lia.
    - assert (K0 : nth_error (c_keys c) (request_pos i) = Some k0) by (apply wpos_pos; [exact WP|destruct IX; auto]).
      assert (k0 = k) by congruence. subst k0.
      assert (w0 = w) by (destruct R as (_ & U & _), H1 as [_ U1]; congruence). subst w0.
      eapply (MS_request _ _ _ _ _ _ _ k w st md tsk ts); [exact K|exact R| |apply set_status_request_ever; assumption|eapply paid_paid; exact PS|exact TK|exact FK|].
      + destruct CA as [(XI & ST & Q)|(XI & ST & AP)]; [left|right].
        * split; [exact XI|]. split; [left; exact ST|]. rewrite <- (ever_confirmed _ _ _ H1). exact Q.
        * split; [exact XI|]. split; [exact ST|apply approver_signed; exact AP].
      + intros SC. rewrite <- (NE SC). lia.
    - exfalso. destruct CA as [(XI & _)|(XI & _)]; rewrite XI in IX; destruct IX as [X|X]; discriminate X. }
  destruct MO as [k w XI|k w XI|n tk ts m' token d XI MS TA KT AV N0]; [apply REQ; auto|apply REQ; auto|].
  subst i. destruct (C40_ever _ _ _ _ _ _ C) as (au & mint & dst & tsk & sk & st & ts1 & ts1' & m1 & tok1 & d1 & _ & SA & SF & TA1 & KT1 & AV1 & LE & TA' & -> & _ & SU & _ & RE).
  assert (m = mint).
  { pose proof (flow_call _ _ _ _ _ _ C I) as F.
    destruct F as [T0|k0 w0 mint0 mn dst0 n0 st0 H1 RA WP [(X & _)|(X & _)] FM _ _ PS H2 T0|k0 w0 vault vn pm dst0 n0 st0 H1 RA WP [(X & _)|(X & _)] FV _ _ PS H2 T0|tsk0 ts0 mint0 mn m0 tok0 d0 dst0 n0 X _ _ _ _ _ T0|tsk0 ts0 mint0 vn vault v' dst0 n0 X _ _ _ _ _ T0|f g src mint0 n0 (? & ? & ? & ? & ? & X) _ _ _ _ T0|src f [(? & ? & ? & ? & ? & ? & ? & ? & X)|(? & ? & ? & ? & ? & ? & X)] SP NN T0|owner mint0 proxy pn dst0 n0 X _ FP _ T0];
      try discriminate X.
    - exfalso. apply (grew _ _ _ _ _ T0) in B. unfold none in B. lia.
    - pose proof (to_sup _ _ _ _ T0 m) as E1. pose proof (to_sup _ _ _ _ T0 mint) as E2. unfold gain in E1, E2.
      destruct (keqb m mint0) eqn:Q1; [|lia]. apply keqb_eq in Q1. subst mint0. injection X as <-.
      destruct (keqb mint m) eqn:Q2; [apply keqb_eq in Q2; auto|]. exfalso. lia. }
  subst mint. replace (supply s' m - supply s m) with n by lia.
  eapply MS_fee; [reflexivity|exact MS|exact TA1|exact KT1|exact AV1|exact LE|exact TA'].
Qed.

Lemma mint_call_entry e ext c i s s' m : tp_call e ext c i s s' -> is_payload i = false ->
  mint_entry e m (Call c i s s') (supply s' m - supply s m).
Proof.
  intros C I. split; [lia|]. split; [|split].
  - intros N. eapply mint_call_spent; try eassumption. lia.
  - intros N. pose proof (flow_call _ _ _ _ _ _ C I) as F.
    destruct F as [T0|k0 w0 mint mn dst0 n0 st H1 RA WP CA FM _ N0 PS H2 T0|k0 w0 vault vn pm dst0 n0 st H1 RA WP CA FV _ N0 PS H2 T0|tsk0 ts0 mint mn m0 tok d dst0 n0 XI _ _ _ [N0 _] _ T0|tsk0 ts0 mint vn vault v' dst0 n0 XI _ _ _ N0 _ T0|f g src mint n0 (a1 & a2 & a3 & a4 & a5 & XI) _ N0 -> -> T0|src f _ SP NN T0|owner mint proxy pn dst0 n0 XI _ FP _ T0];
      pose proof (to_sup _ _ _ _ T0 m) as E; unfold none, gain in E; try (exfalso; lia).
    + exfalso. destruct (keqb m mint); lia.
    + exfalso. destruct (keqb m mint); lia.
    + destruct (keqb m mint); [|exfalso; lia]. exists a1, a2, a3, a4, a5. rewrite XI. f_equal. lia.
  - intros seed amount recipient value evers payload -> K4.
    destruct (C37_partial _ _ _ _ _ _ _ _ _ _ _ C) as (fu & se & src & dep & mint & mv & tsk & t & md & ts & ts' & m' & token & dec & amt & rent & (rest & K) & _ & _ & _ & _ & _ & _ & _ & _ & B).
    rewrite K in K4. cbn [nth_error] in K4. injection K4 as ->. cbv zeta in B. destruct B as (_ & _ & _ & B & _). lia.
Qed.

Lemma mint_safe_other e c s s' m : other_program e c s s' -> c_sg c m = false -> is_pda e tp_id m -> mint_safe s m ->
  mint_safe s' m /\ supply s' m <= supply s m.
Proof.
  intros ([_ R] & [_ F] & K) SG IP L. destruct (F m) as (_ & F1 & _ & F2). destruct L as [[O|O]|[T|(x & M & AU)]].
  - pose proof (F2 IP SG O) as SO. split; [left; left; rewrite (proj1 SO); exact O|]. rewrite (supply_same _ _ _ SO). lia.
  - destruct (F1 O) as [SO _]. split; [left; right; rewrite (proj1 SO); exact O|]. rewrite (supply_same _ _ _ SO). lia.
  - destruct T as (t & T). destruct (K m IP SG (ex_intro _ t T)) as [O|(t' & T')].
    + split; [left; left; exact O|]. rewrite (supply_plain s') by (left; exact O). apply supply_range.
    + split; [right; left; exists t'; exact T'|]. rewrite (supply_tok _ _ _ T'). apply supply_range.
  - destruct (R m) as [_ RU]. destruct (RU x M) as (x' & M' & A' & LE); [rewrite AU; exact SG|].
    split; [right; right; exists x'; split; [exact M'|congruence]|]. rewrite (supply_mint _ _ _ M), (supply_mint _ _ _ M'). exact LE.
Qed.

Lemma mint_ledger e l s s' m : steps e (fun k => k <> m) (other_program e) l s s' -> is_pda e tp_id m -> mint_safe s m ->
  mint_safe s' m /\ exists zs, Forall2 (mint_entry e m) l zs /\ supply s' m <= supply s m + sum zs.
Proof.
  intros H IP. induction H as [s|c s s' P S X|c ext i s s' S I C|l1 l2 s s1 s2 _ IH1 _ IH2|c i l s s1 s' Hp S I _ IH Q]; intros L.
  - split; [exact L|]. exists []. split; [constructor|cbn; lia].
  - assert (SG : c_sg c m = false) by (destruct (c_sg c m) eqn:E; [exfalso; exact (S m E eq_refl)|reflexivity]).
    destruct (mint_safe_other _ _ _ _ _ X SG IP L) as [L1 B1]. split; [exact L1|]. exists []. split; [constructor|cbn; lia].
  - destruct (flow_tokens _ _ _ _ _ (flow_call _ _ _ _ _ _ C I)) as (f & g & T). split; [eapply mint_safe_tokens; eassumption|].
    exists [supply s' m - supply s m]. split; [|cbn; lia]. constructor; [|constructor]. eapply mint_call_entry; eassumption.
  - destruct (IH1 L) as [L1 (z1 & F1 & B1)]. destruct (IH2 L1) as [L2 (z2 & F2 & B2)]. split; [exact L2|].
    exists (z1 ++ z2). split; [apply Forall2_app; assumption|]. rewrite sum_app. lia.
  - destruct (IH L) as [L1 (z1 & F1 & B1)]. apply payload_packs_nospl in Q; [|exact Hp]. apply tokens_none in Q.
    split; [eapply mint_safe_tokens; eassumption|]. exists z1. split; [exact F1|].
    pose proof (to_sup _ _ _ _ Q m) as E. unfold none in E. lia.
Qed.

Lemma mint_hist_calls e m s s' : mint_hist e m s s' -> ~ is_proxy e m -> exists l, mint_calls e m l s s'.
Proof.
  intros H NP. induction H as [s|n s s1 s2 _ (l & IH) D|c t s s1 s2 _ (l & IH) SG R|s s1 s2 _ (l & IH) P].
  - exists []. constructor.
  - apply deep_steps in D as (l' & D); [|intros k P ->; exact (NP P)|intros c a b [[E _] _]; exact E]. exists (l ++ l'). eapply mc_instr; eassumption.
  - exists l. eapply mc_other; eassumption.
  - exists l. eapply mc_purge; eassumption.
Qed.

Lemma mint_calls_ledger e m l s s' : mint_calls e m l s s' -> is_pda e tp_id m -> mint_safe s m ->
  mint_safe s' m /\ exists zs, Forall2 (mint_entry e m) l zs /\ supply s' m <= supply s m + sum zs.
Proof.
  intros H IP L. induction H as [s|l l' s s1 s2 _ IH D|c t l s s1 s2 _ IH SG R|l s s1 s2 _ IH P].
  - split; [exact L|]. exists []. split; [constructor|cbn; lia].
  - destruct (IH L) as [L1 (z1 & F1 & B1)]. destruct (mint_ledger _ _ _ _ _ D IP L1) as [L2 (z2 & F2 & B2)]. split; [exact L2|].
    exists (z1 ++ z2). split; [apply Forall2_app; assumption|]. rewrite sum_app. lia.
  - destruct (IH L) as [L1 (z1 & F1 & B1)]. destruct (mint_safe_other _ _ _ _ _ R SG IP L1) as [L2 B2].
    split; [exact L2|]. exists z1. split; [exact F1|]. change (supply (St (accs s2) (logs s2) t) m) with (supply s2 m). lia.
  - destruct (IH L) as [L1 (z1 & F1 & B1)]. destruct (P m) as [E|[_ E]].
    + assert (SO : same_od s1 s2 m) by (unfold same_od; rewrite E; auto). split; [|exists z1; split; [exact F1|rewrite (supply_same _ _ _ SO); exact B1]].
      destruct L1 as [[O|O]|[(t & T)|(x & M & AU)]];
        [left; left; rewrite (proj1 SO); exact O|left; right; rewrite (proj1 SO); exact O|right; left; exists t; exact (same_od_tok _ _ _ _ SO T)|right; right; exists x].
      split; [|exact AU]. unfold mint_in, tmint_in in *. rewrite E. exact M.
    + assert (PL : plain (own (accs s2 m))) by (rewrite E; left; reflexivity).
      split; [left; exact PL|]. exists z1. split; [exact F1|]. rewrite (supply_plain _ _ PL). pose proof (supply_range s1 m). lia.
Qed.

(** Over every history, from the moment the address of a bridge mint is unused: the supply is at most
    what it was plus what the listed calls of the token proxy did to it. *)
Theorem C82_mint : forall e m token s s', mint_hist e m s s' ->
  tp_addr e (str "mint" ++ kb (token_hash e token)) m -> ~ is_proxy e m -> own_mint s m ->
  exists l zs, mint_calls e m l s s' /\ Forall2 (mint_entry e m) l zs /\ supply s' m <= supply s m + sum zs.
Proof.
  intros e m token s s' H (mn & AD) NP OM. pose proof (find_pda_some _ _ _ _ _ AD) as [PA _].
  assert (MS : mint_safe s m) by (destruct OM as [O|X]; [left; left; exact O|right; right; exact X]).
  destruct (mint_hist_calls _ _ _ _ H NP) as (l & C). exists l.
  destruct (mint_calls_ledger _ _ _ _ _ C (ex_intro _ _ PA) MS) as [_ (zs & F & B)]. exists zs. auto.
Qed.
(** In particular, all tokens of a bridge mint that exist came into being by these calls. *)
Corollary C82_backed : forall e m token s s', mint_hist e m s s' ->
  tp_addr e (str "mint" ++ kb (token_hash e token)) m -> ~ is_proxy e m -> own (accs s m) = sys_id ->
  exists l zs, mint_calls e m l s s' /\ Forall2 (mint_entry e m) l zs /\ 0 <= supply s' m <= sum zs.
Proof.
  intros e m token s s' H AD NP O. destruct (C82_mint _ _ _ _ _ H AD NP (or_introl O)) as (l & zs & C & F & B).
  exists l, zs. split; [exact C|]. split; [exact F|]. rewrite (supply_plain s) in B by (left; exact O). split; [apply supply_range|exact B].
Qed.

(** ** Demo: a payload whose execution executes two other requests *)
Lemma time_passes e v s s' t : vault_hist e v s s' -> vault_hist e v s (St (accs s') (logs s') t).
Proof.
  intros H. apply (vh_other _ _ (ctx_of sys_id []) _ s'); [exact H|reflexivity|].
  intros k. split.
  - intros x X _ _ _ A B. exists x. split; [exact X|]. split; [reflexivity|]. split; [exact A|]. split; [exact B|]. apply Z.le_refl.
  - intros x X _. exists x. split; [exact X|]. split; [reflexivity|]. apply Z.le_refl.
Qed.
(** The vault loses 9995, then two days pass; the supply of the Ever token grows by 69965. *)
Example C82_ex : vault_hist te tvault ts52 (St (accs ts53) (logs ts53) (now ts53 + 172800)) /\ ~ is_proxy te tvault /\ locked ts52 tvault /\
  balance ts52 tvault = 30035 /\ balance ts53 tvault = 20040 /\
  mint_hist te tmintE ts52 ts53 /\ tp_addr te (str "mint" ++ kb (token_hash te tever)) tmintE /\ ~ is_proxy te tmintE /\ own_mint ts52 tmintE /\
  supply ts52 tmintE = 79960 /\ supply ts53 tmintE = 149925.
Proof.
  destruct C41_ex2 as (D & NP & L & B1 & B2), C42_ex2 as (D' & AD & NP' & OM & S1 & S2).
  split; [apply time_passes; eapply vh_instr; [apply vh_refl|exact D]|]. split; [exact NP|]. split; [exact L|]. split; [exact B1|]. split; [exact B2|].
  split; [eapply mh_instr; [apply mh_refl|exact D']|]. auto 10.
Qed.
(** The first execution of a withdrawal of the Ever token: its mint is not in use before. *)
Example C82_ex_first : mint_hist te tmintE ts7 ts8 /\ tp_addr te (str "mint" ++ kb (token_hash te tever)) tmintE /\ ~ is_proxy te tmintE /\
  own (accs ts7 tmintE) = sys_id /\ supply ts8 tmintE = 79960.
Proof.
  split; [|destruct C42_ex2 as (_ & AD & NP' & _); split; [exact AD|]; split; [exact NP'|]; vm_compute; split; reflexivity].
  eapply (mh_instr _ _ 0); [apply mh_refl|].
  exists (ctx_of tp_id (fst (texecE tw5 trecvE tregE))), no_ext, (enc c_tp_ix (snd (texecE tw5 trecvE tregE))).
  split; [reflexivity|]. split; [vm_compute; split; [discriminate|reflexivity]|]. split.
  - intros k S ->. vm_compute in S. discriminate S.
  - split; [intros c d a y b F; destruct (no_ext_never _ _ _ _ F)|]. unfold ts8. apply ok_unres. vm_compute. reflexivity.
Qed.

Print Assumptions C82_vault.
Print Assumptions C82_mint.
Print Assumptions C82_backed.
