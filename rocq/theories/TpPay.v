(** What the paying instructions of the token proxy do when they succeed. *)

From Coq Require Import ZifyBool ZifyNat ZifyN.
From Verif Require Export TpAdmin.
Ltac Zify.zify_post_hook ::= Z.div_mod_to_equations.

(** ** Arithmetic *)
Lemma cadd_ok b x y z : cadd b x y = Ok z -> z = x + y /\ x + y < b.
Proof. unfold cadd. destruct (x + y <? b) eqn:E; [|discriminate]. intros H; injection H as <-. lia. Qed.
Lemma csub_ok x y z : csub x y = Ok z -> z = x - y /\ y <= x.
Proof. unfold csub. destruct (y <=? x) eqn:E; [|discriminate]. intros H; injection H as <-. lia. Qed.
Lemma cdiv_ok x y z : cdiv x y = Ok z -> y <> 0 /\ z = x / y.
Proof. unfold cdiv. destruct (y =? 0) eqn:E; [discriminate|]. intros H; injection H as <-. lia. Qed.
Lemma cmul_ok b x y z : cmul b x y = Ok z -> z = x * y /\ x * y < b.
Proof. unfold cmul. destruct (x * y <? b) eqn:E; [|discriminate]. intros H; injection H as <-. lia. Qed.
Lemma fee_of_ok b f x z : fee_of b f x = Ok z ->
  fi_div f <> 0 /\ z = Z.max 1 (x / fi_div f * fi_mul f) /\ x / fi_div f * fi_mul f < b.
Proof.
  unfold fee_of. intros H. apply rbind_ok in H as (q & H1 & H). apply rbind_ok in H as (y & H2 & H).
  apply cdiv_ok in H1 as [D ->]. apply cmul_ok in H2 as [-> B]. injection H as <-. auto.
Qed.
Lemma get_withdrawal_amount_range x a b z : get_withdrawal_amount x a b = Ok z -> 0 <= z < u64max.
Proof.
  unfold get_withdrawal_amount. intros H. apply rbind_ok in H as (y & _ & H). injection H as <-. apply wrap64_range.
Qed.

Ltac afacts := repeat match goal with
  | X : cadd _ _ _ = Ok _ |- _ => apply cadd_ok in X; let E := fresh "E" in destruct X as [E X]
  | X : csub _ _ = Ok _ |- _ => apply csub_ok in X; let E := fresh "E" in destruct X as [E X]
  end.

(** ** Payments *)

(** Exactly [amount] new tokens of [mint] appear in [dst]; nothing else changes. *)
Definition minted (s s' : state) (mint dst : key) (amount : Z) : Prop :=
  exists b m,
    tok_in s dst b /\ mint_in s mint m /\ mint <> dst /\ ta_mint b = mint /\ tm_auth m = (true, mint) /\
    tok_in s' dst (ta_with b (ta_amount b + amount) (ta_delegate b) (ta_damount b)) /\
    mint_in s' mint (tm_with_supply m (tm_supply m + amount)) /\
    (forall k, k <> mint -> k <> dst -> same_od s s' k) /\ same_env s s' /\
    (forall k, lam (accs s' k) = lam (accs s k)).
(** Exactly [amount] tokens move from [src] to [dst] by the power of [auth]; nothing else changes. *)
Definition moved (s s' : state) (src dst auth : key) (amount : Z) : Prop :=
  exists a b dl da,
    tok_in s src a /\ tok_in s dst b /\ ta_mint a = ta_mint b /\ amount <= ta_amount a /\
    may_spend a auth amount dl da /\
    (src = dst -> s' = s) /\
    (src <> dst ->
       tok_in s' src (ta_with a (ta_amount a - amount) dl da) /\
       tok_in s' dst (ta_with b (ta_amount b + amount) (ta_delegate b) (ta_damount b))) /\
    (forall k, k <> src -> k <> dst -> same_od s s' k) /\ same_env s s' /\
    dlam s s' (fun k => if fst (ta_native a) then at_key dst amount k - at_key src amount k else 0).

Lemma make_ever_transfer_ok e c mint dst token mn amount s a s' : 0 <= amount ->
  make_ever_transfer e c mint dst token mn amount s = Ok (a, s') ->
  minted s s' mint dst amount /\
  (c_sg c mint = true \/ e_pda e (with_bump (sd_mint (token_hash e token)) mn) (c_pid c) = Some mint) /\
  c_wr c mint = true /\ c_wr c dst = true.
Proof.
  unfold make_ever_transfer. intros Ha H. mstep H.
  apply invoke_tok_mint_to_ok in H as (b & m & T1 & T2 & T3 & T4 & T5 & T6 & T7 & T8 & T9 & T10 & T11 & T12 & T13 & _); [|exact Ha].
  split; [|split; [|auto]].
  - exists b, m. repeat (split; [assumption|]). assumption.
  - destruct T6 as [X|[<-|[]]]; [left; exact X|right; assumption].
Qed.
Lemma make_sol_transfer_ok e c vault dst mint vn amount s a s' : 0 <= amount ->
  make_sol_transfer e c vault dst mint vn amount s = Ok (a, s') ->
  moved s s' vault dst vault amount /\
  (c_sg c vault = true \/ e_pda e (with_bump (sd_vault mint) vn) (c_pid c) = Some vault) /\
  c_wr c vault = true /\ c_wr c dst = true.
Proof.
  unfold make_sol_transfer. intros Ha H. mstep H.
  apply invoke_tok_transfer_ok in H as (x & b & dl & da & T1 & T2 & T3 & T4 & T5 & T6 & T7 & T8 & T9 & T10 & T11 & T12 & T13 & _); [|exact Ha].
  split; [|split; [|auto]].
  - exists x, b, dl, da. repeat (split; [assumption|]). assumption.
  - destruct T5 as [X|[<-|[]]]; [left; exact X|right; assumption].
Qed.

(** [dst] may receive a payment to [owner]: without payload it is a token account of [owner] and the
    request is finished; with payload it is the proxy of [owner] for [mint] and the payload waits. *)
Definition dest (e : env) (pid : key) (s : state) (kind : account_kind) (payload : bytes)
  (mint owner dst : key) (st : wstatus) : Prop :=
  (payload = [] /\ st = WProcessed /\ exists r, tacc_in s dst r /\ ta_owner r = owner) \/
  (payload <> [] /\ st = WWaitExecute /\
   exists m n, kind = KProposal m (Some n) /\ find_pda e (sd_proxy mint owner) pid = Ok (dst, n)).

Lemma check_recipient_ok k owner s a s' : check_recipient k owner s = Ok (a, s') ->
  s' = s /\ exists r, tacc_in s k r /\ ta_owner r = owner.
Proof.
  unfold check_recipient. intros H. repeat tstep H. msimple H. mfacts. eauto.
Qed.
Lemma check_proxy_ok e c kind mint owner k s a s' : check_proxy e c kind mint owner k s = Ok (a, s') ->
  s' = s /\ exists m n, kind = KProposal m (Some n) /\ find_pda e (sd_proxy mint owner) (c_pid c) = Ok (k, n).
Proof.
  unfold check_proxy. intros H. minv H. mfacts. subst. split; [reflexivity|]. do 2 eexists. split; [reflexivity|pdaok].
Qed.

Lemma nil_b_true {A} (l : list A) : nil_b l = true -> l = [].
Proof. destruct l; [reflexivity|discriminate]. Qed.
Lemma nil_b_false {A} (l : list A) : nil_b l = false -> l <> [].
Proof. destruct l; [discriminate|]. intros _ H. discriminate. Qed.

Lemma pay_ever_ok e c w mint dst token mn amount s st s' : 0 <= amount ->
  pay_ever e c w mint dst token mn amount s = Ok (st, s') ->
  minted s s' mint dst amount /\
  dest e (c_pid c) s (p_kind w) (wee_payload (wl_data (p_event w))) mint (wee_recipient (wl_data (p_event w))) dst st /\
  (c_sg c mint = true \/ e_pda e (with_bump (sd_mint (token_hash e token)) mn) (c_pid c) = Some mint) /\
  c_wr c mint = true /\ c_wr c dst = true.
Proof.
  unfold pay_ever. intros Ha H. cbv zeta in H. destruct (nil_b _) eqn:E.
  - mstep H. apply check_recipient_ok in H0 as [-> R]. mstep H. msimple H.
    match goal with X : make_ever_transfer _ _ _ _ _ _ _ _ = _ |- _ => apply make_ever_transfer_ok in X as (M1 & M2 & M3); [|exact Ha] end.
    split; [exact M1|]. split; [|auto]. left. apply nil_b_true in E. auto.
  - mstep H. apply check_proxy_ok in H0 as [-> R]. mstep H. msimple H.
    match goal with X : make_ever_transfer _ _ _ _ _ _ _ _ = _ |- _ => apply make_ever_transfer_ok in X as (M1 & M2 & M3); [|exact Ha] end.
    split; [exact M1|]. split; [|auto]. right. apply nil_b_false in E. auto.
Qed.

Lemma pay_sol_ok e c w vault dst mint smint vn amount s st s' : 0 <= amount ->
  pay_sol e c w vault dst mint smint vn amount s = Ok (st, s') ->
  exists v, tacc_in s vault v /\
  ((st = WPending /\ s' = s /\ ta_amount v < amount) \/
   (amount <= ta_amount v /\ moved s s' vault dst vault amount /\
    dest e (c_pid c) s (p_kind w) (wse_payload (wl_data (p_event w))) mint (wse_recipient (wl_data (p_event w))) dst st /\
    (c_sg c vault = true \/ e_pda e (with_bump (sd_vault smint) vn) (c_pid c) = Some vault) /\
    c_wr c vault = true /\ c_wr c dst = true)).
Proof.
  unfold pay_sol. intros Ha H. cbv zeta in H. destruct (nil_b _) eqn:E.
  - mstep H. apply check_recipient_ok in H0 as [-> R]. tstep H.
    match goal with X : tacc_in s vault ?x |- _ => rename x into va; rename X into TV end. exists va. split; [exact TV|].
    destruct (ta_amount va <? amount) eqn:L.
    + msimple H. left. split; [reflexivity|]. split; [reflexivity|lia].
    + mstep H. msimple H. right. split; [lia|].
      match goal with X : make_sol_transfer _ _ _ _ _ _ _ _ = _ |- _ => apply make_sol_transfer_ok in X as (M1 & M2 & M3); [|exact Ha] end.
      split; [exact M1|]. split; [|auto]. left. apply nil_b_true in E. auto.
  - mstep H. apply check_proxy_ok in H0 as [-> R]. tstep H.
    match goal with X : tacc_in s vault ?x |- _ => rename x into va; rename X into TV end. exists va. split; [exact TV|].
    destruct (ta_amount va <? amount) eqn:L.
    + msimple H. left. split; [reflexivity|]. split; [reflexivity|lia].
    + mstep H. msimple H. right. split; [lia|].
      match goal with X : make_sol_transfer _ _ _ _ _ _ _ _ = _ |- _ => apply make_sol_transfer_ok in X as (M1 & M2 & M3); [|exact Ha] end.
      split; [exact M1|]. split; [|auto]. right. apply nil_b_false in E. auto.
Qed.

(** ** Book-keeping after a payment *)

(** No account of record size changed (only token accounts and new accounts did). *)
Definition spl_step (s s1 : state) : Prop := forall k, blen (dat (accs s k)) = TP_LEN -> same_od s s1 k.
Lemma spl_step_refl s : spl_step s s.
Proof. intros k _. apply same_od_refl. Qed.
Lemma spl_step_trans a b c : spl_step a b -> spl_step b c -> spl_step a c.
Proof.
  intros H1 H2 k B. pose proof (H1 k B) as [O D]. eapply same_od_trans; [split; [exact O|exact D]|]. apply H2. rewrite D. exact B.
Qed.
Lemma tok_len s k t : tok_in s k t -> blen (dat (accs s k)) = 165.
Proof. intros [_ T]. apply tacc_in_ok in T. apply T. Qed.
Lemma mint_len s k t : mint_in s k t -> blen (dat (accs s k)) = 82.
Proof. intros [_ T]. apply tmint_in_ok in T. apply T. Qed.
Lemma minted_step s s' mint dst amount : minted s s' mint dst amount -> spl_step s s'.
Proof.
  intros (b & m & T1 & T2 & _ & _ & _ & _ & _ & F & _) k B. apply F; intros ->.
  - apply mint_len in T2. rewrite T2 in B. discriminate.
  - apply tok_len in T1. rewrite T1 in B. discriminate.
Qed.
Lemma moved_step s s' src dst auth amount : moved s s' src dst auth amount -> spl_step s s'.
Proof.
  intros (a & b & dl & da & T1 & T2 & _ & _ & _ & _ & _ & F & _) k B. apply F; intros ->.
  - apply tok_len in T1. rewrite T1 in B. discriminate.
  - apply tok_len in T2. rewrite T2 in B. discriminate.
Qed.

(** The token's daily total so far. *)
Definition spent (ts : token_settings) (epoch : Z) : Z := if tk_wepoch ts =? epoch then tk_wdamount ts else 0.
(** Token settings after a withdrawal of [net] with [fee] on day [epoch]. *)
Definition charge (ts : token_settings) (epoch fee net : Z) : token_settings :=
  tk_set_daily (tk_set_fee_supply ts (tk_fee_supply ts + fee)) epoch (spent ts epoch + net).

Lemma roll_day_facts ts ep :
  tk_fee_wdr (roll_day ts ep) = tk_fee_wdr ts /\ tk_fee_supply (roll_day ts ep) = tk_fee_supply ts /\
  tk_wdamount (roll_day ts ep) = spent ts ep /\
  forall fs d, tk_set_daily (tk_set_fee_supply (roll_day ts ep) fs) (tk_wepoch (roll_day ts ep)) d =
               tk_set_daily (tk_set_fee_supply ts fs) ep d.
Proof.
  unfold roll_day, spent. destruct (tk_wepoch ts =? ep) eqn:E.
  - apply Z.eqb_eq in E. subst. auto.
  - repeat split; reflexivity.
Qed.

Definition wrote_ts (c : ctx) (s s' : state) (tsk : key) (ts2 : option token_settings) : Prop :=
  match ts2 with
  | Some t => wrote c_token_settings s s' tsk t /\
      (dat (accs s' tsk) = dat (accs s tsk) \/ own (accs s tsk) = c_pid c /\ c_wr c tsk = true)
  | None => same_od s s' tsk
  end.

(** The records after a payment [s -> s1]: the request holds [w'], the token settings [ts2]. *)
Definition settled {A} (c : ctx) (cw : codec A) (s s1 s' : state) (tsk : key) (ts2 : option token_settings)
  (wk : key) (w' : A) (l : list bytes) : Prop :=
  wk <> tsk /\ wrote cw s s' wk w' /\
  (dat (accs s' wk) = dat (accs s wk) \/ own (accs s wk) = c_pid c /\ c_wr c wk = true) /\
  wrote_ts c s s' tsk ts2 /\
  (forall k, k <> wk -> k <> tsk -> same_od s1 s' k) /\
  (forall k, lam (accs s' k) = lam (accs s1 k)) /\ logs s' = logs s1 ++ l /\ now s' = now s1.

Definition packed_ts (c : ctx) (s1 s2 : state) (tsk : key) (ts2 : option token_settings) : Prop :=
  match ts2 with Some t => packed c c_token_settings TP_LEN s1 s2 tsk t | None => s2 = s1 end.

Lemma same_od_wrote {A} (cd : codec A) s s1 s' k x : same_od s s1 k -> wrote cd s1 s' k x -> wrote cd s s' k x.
Proof. intros [O D] (W1 & W2 & W3). rewrite D in *. split; [congruence|]. auto. Qed.
Lemma wrote_same_od {A} (cd : codec A) s s1 s' k x : same_od s1 s' k -> wrote cd s s1 k x -> wrote cd s s' k x.
Proof. intros [O D] (W1 & W2 & W3). split; [congruence|]. split; [congruence|]. auto. Qed.

Lemma settle {A} (c : ctx) (cw : codec A) s s1 s2 s3 s' tsk ts2 wk w' l :
  spl_step s s1 -> packed_ts c s1 s2 tsk ts2 -> s3 = St (accs s2) (logs s2 ++ l) (now s2) ->
  packed c cw TP_LEN s3 s' wk w' ->
  wk <> tsk -> blen (dat (accs s wk)) = TP_LEN -> blen (dat (accs s tsk)) = TP_LEN ->
  settled c cw s s1 s' tsk ts2 wk w' l.
Proof.
  intros ST PT E3 P N B1 B2.
  assert (A3 : accs s3 = accs s2) by (rewrite E3; reflexivity).
  assert (X2 : (forall k, k <> tsk -> accs s2 k = accs s1 k) /\ (forall k, lam (accs s2 k) = lam (accs s1 k)) /\ same_env s1 s2).
  { destruct ts2 as [t|]; cbn [packed_ts] in PT.
    - split; [intros k; exact (packed_other _ _ _ _ _ _ _ PT k)|]. split; [exact (packed_lam _ _ _ _ _ _ _ PT)|exact (packed_env _ _ _ _ _ _ _ PT)].
    - subst. split; [reflexivity|]. split; [reflexivity|]. apply same_env_refl. }
  destruct X2 as (F2 & L2 & V2).
  assert (Sw : same_od s s3 wk).
  { eapply same_od_trans; [apply ST; exact B1|]. split; rewrite A3, F2 by exact N; reflexivity. }
  split; [exact N|]. split; [eapply same_od_wrote; [exact Sw|]; exact (packed_wrote _ _ _ _ _ _ _ P)|]. split.
  { destruct P as (_ & _ & _ & P). destruct Sw as [S1 S2]. rewrite S1, S2 in P. exact P. }
  split; [|split; [|split; [|split]]].
  - destruct ts2 as [t|]; cbn [packed_ts wrote_ts] in *.
    + assert (Q : wrote c_token_settings s s2 tsk t).
      { eapply same_od_wrote; [apply ST; exact B2|]. exact (packed_wrote _ _ _ _ _ _ _ PT). }
      assert (R : same_od s2 s' tsk).
      { eapply same_od_trans; [|eapply packed_od; [exact P|congruence]]. split; rewrite A3; reflexivity. }
      split; [eapply wrote_same_od; [exact R|exact Q]|].
      destruct PT as (_ & _ & _ & PT). destruct (ST tsk B2) as [S1 S2]. rewrite S1, S2 in PT. destruct R as [R1 R2]. rewrite R2. exact PT.
    + subst s2. eapply same_od_trans; [apply ST; exact B2|]. eapply same_od_trans; [|eapply packed_od; [exact P|congruence]].
      split; rewrite A3; reflexivity.
  - intros k N1 N2. eapply same_od_trans; [|eapply packed_od; [exact P|exact N1]]. split; rewrite A3, F2 by exact N2; reflexivity.
  - intros k. rewrite (packed_lam _ _ _ _ _ _ _ P), A3. apply L2.
  - destruct (packed_env _ _ _ _ _ _ _ P) as [-> _]. rewrite E3. cbn [logs]. destruct V2 as [-> _]. reflexivity.
  - destruct (packed_env _ _ _ _ _ _ _ P) as [_ ->]. rewrite E3. cbn [now]. destruct V2 as [_ ->]. reflexivity.
Qed.

(** A request and a token settings account are different accounts. *)
Lemma request_ne_token e pid s k1 k2 {E M_} (ce : codec E) (cm : codec M_) (L1 : Lawful ce) (L2 : Lawful cm) i
  (w : prop E M_) h ts vn :
  unpack (c_prop ce cm) TP_LEN i (dat (accs s k1)) = Ok w -> request_addr e pid k1 w h ->
  token_in e pid s k2 ts vn -> k1 <> k2.
Proof.
  intros U (n & pn & K & _) [T (m & K2 & _)] ->. apply (kind_prop _ _ L1 L2) in U. apply kind_token_settings in T. congruence.
Qed.
Lemma token_len e pid s k ts vn : token_in e pid s k ts vn -> blen (dat (accs s k)) = TP_LEN.
Proof. intros [T _]. eapply unpack_len; [|exact T]. typeclasses eauto. Qed.
Lemma wever_in_len e pid s k w : wever_in e pid s k w -> blen (dat (accs s k)) = TP_LEN.
Proof. intros [T _]. eapply unpack_len; [|exact T]. typeclasses eauto. Qed.
Lemma wsol_in_len e pid s k w : wsol_in e pid s k w -> blen (dat (accs s k)) = TP_LEN.
Proof. intros [T _]. eapply unpack_len; [|exact T]. typeclasses eauto. Qed.

(** ** Execution of Ever withdrawals *)

Definition w_confirms {E M_} (w : prop E M_) : Z := wrap32 (confirms (p_signers w)).

Lemma ever_eqb_eq a b : ever_eqb a b = true -> a = b.
Proof.
  unfold ever_eqb. intros H. apply andb_true_iff in H as [H1 H2]. apply Z.eqb_eq in H1. apply keqb_eq in H2.
  destruct a as [x y], b as [z u]. cbn in H1, H2. congruence.
Qed.

Definition ever_exec_eff (e : env) (c : ctx) (w : wever) (withdrawal mint recipient tsk : key) (t : Z)
  (s s' : state) : Prop :=
  let ev := wl_data (p_event w) in
  exists ts mn m dec_ md,
    token_in e (c_pid c) s tsk ts mn /\ tk_kind ts = TKEver m (wee_token ev) dec_ /\ tk_emergency ts = false /\
    find_pda e (sd_mint (token_hash e (wee_token ev))) (c_pid c) = Ok (mint, mn) /\ tmint_in s mint md /\
    ((s' = s /\ (w_confirms w < p_required w \/ w_status w <> WNew)) \/
     (p_required w <= w_confirms w /\ w_status w = WNew /\
      exists amount fee net st s1,
        get_withdrawal_amount (wee_amount ev) (wee_decimals ev) (tm_decimals md) = Ok amount /\
        fee_of u64max (tk_fee_wdr ts) amount = Ok fee /\ net = amount - fee /\ 0 <= net /\
        tk_fee_supply ts + fee < u64max /\ spent ts (epoch_of t) + net < u64max /\
        ((tk_wlimit ts < net \/ tk_wdlimit ts < spent ts (epoch_of t) + net) /\ st = WWaitApprove /\ s1 = s \/
         net <= tk_wlimit ts /\ spent ts (epoch_of t) + net <= tk_wdlimit ts /\
         minted s s1 mint recipient net /\
         dest e (c_pid c) s (p_kind w) (wee_payload ev) mint (wee_recipient ev) recipient st /\
         (c_sg c mint = true \/ e_pda e (with_bump (sd_mint (token_hash e (wee_token ev))) mn) (c_pid c) = Some mint) /\
         c_wr c mint = true /\ c_wr c recipient = true) /\
        settled c c_wever s s1 s' tsk (Some (charge ts (epoch_of t) fee net)) withdrawal (w_set_status w st)
          [enc c_ev_status (EvStatus withdrawal st)])).

Lemma withdraw_ever_exec_ok e c w withdrawal mint recipient tsk t s a s' :
  withdraw_ever_exec e c w withdrawal withdrawal mint recipient tsk t s = Ok (a, s') ->
  wever_in e (c_pid c) s withdrawal w -> ever_exec_eff e c w withdrawal mint recipient tsk t s s'.
Proof.
  unfold withdraw_ever_exec, ever_exec_eff. intros H VW. cbv zeta in *. repeat tstep H.
  match goal with X : ever_eqb _ _ = true |- _ => apply ever_eqb_eq in X; subst end.
  match goal with X : validate_pda _ _ _ _ _ = _ |- _ => apply validate_pda_ok in X as [_ PM] end.
  match goal with X : tmint_in s mint ?x |- _ => rename x into md end.
  exists ts, mn, m, dec_, md. split; [exact VT|]. split; [exact KT|]. split; [exact LT|]. split; [exact PM|].
  split; [assumption|].
  destruct ((p_required w <=? _) && _) eqn:G.
  - right. apply andb_true_iff in G as [G1 G2]. mfacts. unfold w_confirms. split; [lia|]. split; [assumption|].
    destruct (roll_day_facts ts (epoch_of t)) as (R1 & R2 & R3 & R4).
    do 5 mstep H.
    match goal with X : get_withdrawal_amount _ _ _ = Ok ?x |- _ => rename x into amount; rename X into GA end.
    match goal with X : fee_of _ _ _ = Ok ?x |- _ => rename x into fee; rename X into HF end.
    match goal with X : csub amount fee = Ok ?x |- _ => rename x into net; apply csub_ok in X as [EN LN] end.
    match goal with X : cadd _ (tk_fee_supply _) _ = Ok ?x |- _ => rename x into fs; apply cadd_ok in X as [ES LS] end.
    match goal with X : cadd _ (tk_wdamount _) _ = Ok ?x |- _ => rename x into daily; apply cadd_ok in X as [ED LD] end.
    rewrite R1 in HF. rewrite R2 in ES, LS. rewrite R3 in ED, LD. rewrite R4 in H. subst fs daily.
    change (tk_set_daily (tk_set_fee_supply ts (tk_fee_supply ts + fee)) (epoch_of t) (spent ts (epoch_of t) + net))
      with (charge ts (epoch_of t) fee net) in H.
    apply bind_ok in H as (st & s1 & HP & H). cbv beta in H.
    apply bind_ok in H as (u2 & s2 & H2 & H). cbv beta in H. apply pack_at_packed in H2.
    apply bind_ok in H as (u3 & s3 & H3 & H). cbv beta in H. apply emit_ok in H3. apply pack_at_packed in H.
    exists amount, fee, net, st, s1. split; [exact GA|]. split; [exact HF|]. split; [exact EN|]. split; [lia|].
    split; [lia|]. split; [lia|].
    assert (SP : ((tk_wlimit ts < net \/ tk_wdlimit ts < spent ts (epoch_of t) + net) /\ st = WWaitApprove /\ s1 = s \/
         net <= tk_wlimit ts /\ spent ts (epoch_of t) + net <= tk_wdlimit ts /\
         minted s s1 mint recipient net /\
         dest e (c_pid c) s (p_kind w) (wee_payload (wl_data (p_event w))) mint (wee_recipient (wl_data (p_event w))) recipient st /\
         (c_sg c mint = true \/ e_pda e (with_bump (sd_mint (token_hash e (wee_token (wl_data (p_event w))))) mn) (c_pid c) = Some mint) /\
         c_wr c mint = true /\ c_wr c recipient = true)).
    { destruct ((tk_wlimit ts <? net) || _) eqn:GL.
      - msimple HP. left. split; [lia|]. auto.
      - right. apply pay_ever_ok in HP; [|lia]. split; [lia|]. split; [lia|]. exact HP. }
    split; [exact SP|]. eapply settle; [|exact H2|exact H3|exact H| | |].
    + destruct SP as [(_ & _ & ->)|(_ & _ & M & _)]; [apply spl_step_refl|eapply minted_step; exact M].
    + destruct VW as [U A]. eapply (request_ne_token e (c_pid c)); [| |exact U|exact A|exact VT]; typeclasses eauto.
    + eapply wever_in_len; exact VW.
    + eapply token_len; exact VT.
  - left. msimple H. split; [reflexivity|]. apply andb_false_iff in G as [G|G]; [left; unfold w_confirms; lia|right].
    apply wstatus_eqb_neq. exact G.
Qed.

(** [k] was an unused address (apart from lamports) and holds the record [x] afterwards. *)
Definition new_record {A} (cd : codec A) (LEN : Z) (x : A) (owner : key) (s s' : state) (k : key) : Prop :=
  own (accs s k) = sys_id /\ dat (accs s k) = [] /\ own (accs s' k) = owner /\
  exists r, dat (accs s' k) = enc cd x ++ r /\ all0 r = true /\ blen (dat (accs s' k)) = LEN.
Lemma new_unpack {A} (cd : codec A) (L : Lawful cd) LEN x owner s s' k :
  new_record cd LEN x owner s s' k -> okb cd x = true -> unpack_unchecked cd LEN (dat (accs s' k)) = Ok x.
Proof. intros (_ & _ & _ & r & E & _ & B) O. rewrite E in *. apply unpack_unchecked_enc; assumption. Qed.
Lemma created_packed {A} (cd : codec A) LEN x c s s0 s1 k owner s' :
  created s s0 k owner LEN -> same_od s0 s1 k -> packed c cd LEN s1 s' k x ->
  new_record cd LEN x owner s s' k.
Proof.
  intros (C1 & C2 & C3 & C4 & C5 & C6) [O1 O2] P. split; [exact C1|]. split; [exact C2|].
  rewrite (packed_own _ _ _ _ _ _ _ P). split; [congruence|]. destruct P as (-> & B1 & B2 & _).
  rewrite dat_put_dat. eexists. split; [reflexivity|]. split.
  - rewrite O2, C5, skipn_repeat. apply all0_repeat.
  - rewrite blen_app. unfold blen in *. rewrite skipn_length. lia.
Qed.
Lemma new_record_same_od {A} (cd : codec A) LEN x owner s0 s s' s2 k :
  same_od s0 s k -> new_record cd LEN x owner s s' k -> same_od s' s2 k -> new_record cd LEN x owner s0 s2 k.
Proof.
  intros [O1 D1] (A1 & A2 & A3 & A4) [O2 D2]. unfold new_record. rewrite O2, D2, <- O1, <- D1. auto.
Qed.

Definition sol_decimals (d : Z) : Z := Z.min 9 d.

(** Registration of the Ever token of event [ev]. *)
Definition registered_ever (e : env) (c : ctx) (funder mint tsk : key) (ev : wever_event) (s s' : state) : Prop :=
  let h := token_hash e (wee_token ev) in
  exists mn tn ata an m t,
    find_pda e (sd_mint h) (c_pid c) = Ok (mint, mn) /\
    find_pda e (sd_ts_ever h) (c_pid c) = Ok (tsk, tn) /\
    find_pda e (ata_seeds (wee_recipient ev) mint) ata_id = Ok (ata, an) /\
    mint <> tsk /\ mint <> ata /\ ata <> tsk /\
    own (accs s mint) = sys_id /\ dat (accs s mint) = [] /\
    mint_in s' mint m /\ tm_supply m = 0 /\ tm_decimals m = sol_decimals (wee_decimals ev) /\
    tm_auth m = (true, mint) /\ fst (tm_freeze m) = false /\
    own (accs s ata) = sys_id /\ dat (accs s ata) = [] /\
    tok_in s' ata t /\ ta_mint t = mint /\ ta_owner t = wee_recipient ev /\ (mint <> native_mint -> ta_amount t = 0) /\
    new_record c_token_settings TP_LEN
      (new_token_settings (KTokenSettings tn mn) (TKEver mint (wee_token ev) (wee_decimals ev)) (wee_name ev) (wee_symbol ev))
      (c_pid c) s s' tsk /\
    (forall k, k <> mint -> k <> ata -> k <> tsk -> same_od s s' k) /\
    (exists p, 0 <= p /\ dlam s s' (fun k =>
       at_key mint (Z.max 1 (rent_min e TMINT_LEN)) k + at_key ata p k + at_key tsk (Z.max 1 (rent_min e TP_LEN)) k
       - at_key funder (Z.max 1 (rent_min e TMINT_LEN) + p + Z.max 1 (rent_min e TP_LEN)) k)) /\
    logs s' = logs s ++ [enc c_ev_token (EvToken tsk (wee_symbol ev) (wee_name ev) mint None (Some (wee_decimals ev))
          (Some (sol_decimals (wee_decimals ev))) (Some (wee_token ev)) default_fee)] /\ now s' = now s /\
    c_wr c mint = true /\ c_wr c tsk = true /\ c_wr c ata = true.

Lemma repeat_nil_inv {A} (x : A) n : repeat x n = [] -> n = O.
Proof. destruct n; [reflexivity|discriminate]. Qed.

Lemma register_ever_ok e c funder mint tsk ev s a s' : 0 <= wee_decimals ev < 256 ->
  register_ever e c funder mint tsk ev s = Ok (a, s') -> registered_ever e c funder mint tsk ev s s'.
Proof.
  unfold register_ever, registered_ever. intros Hd H. cbv zeta in *.
  replace (if 9 <? wee_decimals ev then 9 else wee_decimals ev) with (sol_decimals (wee_decimals ev)) in H
    by (unfold sol_decimals; destruct (9 <? wee_decimals ev) eqn:E; lia).
  set (sd := sol_decimals (wee_decimals ev)) in *.
  mstep H. destruct v as [mk mn]. cbv beta iota in H. mstep H. mfacts. subst mk.
  match goal with X : find_pda e (sd_mint _) _ = _ |- _ => rename X into PM end.
  apply bind_ok in H as (u1 & s1 & C1 & H). cbv beta in H.
  apply invoke_create_ok in C1 as (C1 & E1 & D1 & _ & _ & _ & W1 & _).
  mstep H.
  apply bind_ok in H as (u2 & s2 & I1 & H). cbv beta in H.
  apply invoke_init_mint_ok in I1 as (m0 & U0 & _ & T2); [|unfold sd, sol_decimals; lia]. cbv zeta in T2.
  destruct T2 as (E2 & T2 & O2).
  apply bind_ok in H as (u3 & s3 & A1 & H). cbv beta in H.
  apply invoke_ata_create_ok in A1 as (ata & an & ta & PA & OA & DA & TA & TA1 & TA2 & TA3 & FA & EA & (p & P0 & DP & _) & _ & WA).
  apply bind_ok in H as ([tk tn] & s3' & PT & H). apply lift_ok in PT as [PT ->]. cbv beta iota in H.
  apply bind_ok in H as (u4' & s3'' & G & H). apply guard_ok in G as [G ->]. apply keqb_eq in G. rewrite G in *. clear G tk.
  apply bind_ok in H as (u4 & s4 & C4 & H). cbv beta in H.
  apply invoke_create_ok in C4 as (C4 & E4 & D4 & _ & _ & _ & W4 & _).
  apply bind_ok in H as (u5 & s5 & E5 & H). cbv beta in H. apply emit_ok in E5. apply pack_at_packed in H.
  (* distinct addresses *)
  pose proof C1 as (C11 & C12 & C13 & C14 & C15 & C16). pose proof C4 as (C41 & C42 & C43 & C44 & C45 & C46).
  assert (N1 : mint <> ata). { intros X. rewrite <- X in DA. destruct T2 as [_ T2]. apply tmint_in_ok in T2. destruct T2 as (_ & B & _). rewrite DA in B. discriminate. }
  assert (N2 : mint <> tsk).
  { intros X. rewrite <- X in C42. destruct (FA mint N1) as [_ F2]. rewrite F2 in C42. destruct T2 as [_ T2]. apply tmint_in_ok in T2.
    destruct T2 as (_ & B & _). rewrite C42 in B. discriminate. }
  assert (N3 : ata <> tsk).
  { intros X. rewrite <- X in C42. apply tok_len in TA. rewrite C42 in TA. discriminate. }
  assert (S45 : forall k, k <> tsk -> same_od s4 s' k).
  { intros k N. eapply same_od_trans; [|eapply packed_od; [exact H|exact N]]. rewrite E5. apply sod_put_log. }
  assert (M0 : m0 = tmint_zero).
  { pose proof (tmint_zero_ok) as Z0. rewrite C15 in U0. congruence. }
  eexists mn, tn, ata, an, _, ta. split; [exact PM|]. split; [exact PT|]. split; [exact PA|].
  split; [exact N2|]. split; [exact N1|]. split; [exact N3|]. split; [exact C11|]. split; [exact C12|].
  split.
  { eapply same_od_mint; [|exact T2]. eapply same_od_trans; [apply FA; exact N1|]. eapply same_od_trans; [apply C46; exact N2|].
    apply S45. exact N2. }
  rewrite M0. split; [reflexivity|]. split; [reflexivity|]. split; [reflexivity|]. split; [reflexivity|].
  assert (SA : same_od s s2 ata).
  { eapply same_od_trans; [apply C16; congruence|]. rewrite E2. apply same_od_put_dat_other. congruence. }
  destruct SA as [SA1 SA2]. split; [congruence|]. split; [congruence|]. split.
  { eapply same_od_tok; [|exact TA]. eapply same_od_trans; [apply C46; exact N3|]. apply S45. exact N3. }
  split; [exact TA1|]. split; [exact TA2|]. split; [exact TA3|]. split.
  { assert (Q0 : same_od s s1 tsk) by (apply C16; intros X; apply N2; rewrite X; reflexivity).
    assert (Q1 : same_od s1 s2 tsk) by (rewrite E2; apply same_od_put_dat_other; intros X; apply N2; rewrite X; reflexivity).
    assert (Q2 : same_od s2 s3 tsk) by (apply FA; intros X; apply N3; rewrite X; reflexivity).
    assert (Q4 : same_od s4 s5 tsk) by (rewrite E5; apply sod_put_log).
    eapply (new_record_same_od _ _ _ _ s s3 s');
      [exact (same_od_trans _ _ _ _ Q0 (same_od_trans _ _ _ _ Q1 Q2))|exact (created_packed _ _ _ _ _ _ _ _ _ _ C4 Q4 H)|apply same_od_refl]. }
  split.
  { intros k K1 K2 K3.
    assert (Q1 : same_od s1 s2 k) by (rewrite E2; apply same_od_put_dat_other; exact K1).
    exact (same_od_trans _ _ _ _ (C16 k K1) (same_od_trans _ _ _ _ Q1 (same_od_trans _ _ _ _ (FA k K2)
      (same_od_trans _ _ _ _ (C46 k K3) (S45 k K3))))). }
  split.
  { exists p. split; [exact P0|]. intros k. rewrite (packed_lam _ _ _ _ _ _ _ H), E5. cbn [put_log accs]. rewrite D4, DP, E2, lam_put_dat, D1.
    unfold at_key. destruct (keqb k mint), (keqb k funder), (keqb k ata), (keqb k tsk); lia. }
  split.
  { destruct (packed_env _ _ _ _ _ _ _ H) as [-> _]. rewrite E5. cbn [put_log logs]. destruct E4 as [-> _]. destruct EA as [-> _].
    rewrite E2. cbn [put_dat put logs]. destruct E1 as [-> _]. reflexivity. }
  split.
  { destruct (packed_env _ _ _ _ _ _ _ H) as [_ ->]. rewrite E5. cbn [put_log now]. destruct E4 as [_ ->]. destruct EA as [_ ->].
    rewrite E2. cbn [put_dat put now]. destruct E1 as [_ ->]. reflexivity. }
  auto.
Qed.

Lemma wever_facts e pid s k w : wever_in e pid s k w ->
  okb c_wever w = true /\ 0 <= wee_decimals (wl_data (p_event w)) < 256 /\ 0 <= wee_amount (wl_data (p_event w)) < u128max.
Proof.
  intros [U _]. apply unpack_ok in U as (r & _ & O & _); [|typeclasses eauto]. split; [exact O|].
  unfold c_wever, wever in O. rewrite (okb_prop (c_withlen c_wever_event) (c_withlen c_wmeta)), !andb_true_iff, okb_withlen, !andb_true_iff in O.
  destruct O as (_ & _ & _ & _ & (_ & O) & _).
  change (okb c_wever_event) with (fun x => okb (c_ever ** c_string ** c_string ** c_u8 ** c_u128 ** c_key ** c_bytes)
    (wee_token x, (wee_name x, (wee_symbol x, (wee_decimals x, (wee_amount x, (wee_recipient x, wee_payload x))))))) in O.
  cbv beta in O. cbn [okb c_pair fst snd] in O. rewrite !andb_true_iff in O. destruct O as (_ & _ & _ & O1 & O2 & _).
  unfold c_u8, c_u128 in *. cbn [okb c_uint] in O1, O2. change (256 ^ Z.of_nat 1) with 256 in O1.
  change (256 ^ Z.of_nat 16) with u128max in O2. lia.
Qed.
Lemma wsol_facts e pid s k w : wsol_in e pid s k w ->
  okb c_wsol w = true /\ 0 <= wse_amount (wl_data (p_event w)) < u128max.
Proof.
  intros [U _]. apply unpack_ok in U as (r & _ & O & _); [|typeclasses eauto]. split; [exact O|].
  unfold c_wsol, wsol in O. rewrite (okb_prop (c_withlen c_wsol_event) (c_withlen c_wmeta)), !andb_true_iff, okb_withlen, !andb_true_iff in O.
  destruct O as (_ & _ & _ & _ & (_ & O) & _).
  cbn [c_wsol_event c_iso okb c_pair fst snd] in O. rewrite !andb_true_iff in O.
  unfold c_u128 in *. cbn [okb c_uint] in O.
  change (256 ^ Z.of_nat 16) with u128max in O. lia.
Qed.

Lemma same_od_wever e pid s s' k w : same_od s s' k -> wever_in e pid s k w -> wever_in e pid s' k w.
Proof. intros [_ D] [U A]. split; [rewrite D; exact U|exact A]. Qed.
Lemma registered_other e c funder mint tsk ev s s' k :
  registered_ever e c funder mint tsk ev s s' -> dat (accs s k) <> [] -> same_od s s' k.
Proof.
  intros (mn & tn & ata & an & m & t & _ & _ & _ & _ & _ & _ & _ & D1 & _ & _ & _ & _ & _ & _ & D2 & _ & _ & _ & _ & (_ & D3 & _) & F & _) N.
  apply F; intros ->; auto.
Qed.
Lemma blen_ne {A} (l : list A) : blen l = TP_LEN -> l <> [].
Proof. intros H ->. discriminate. Qed.

Definition withdraw_ever_eff (e : env) (c : ctx) (withdrawal mint recipient tsk settings : key) (rest : list key)
  (w : wever) (t : Z) (s s' : state) : Prop :=
  wever_in e (c_pid c) s withdrawal w /\
  (exists st pn, tp_settings_in e (c_pid c) s settings st pn /\ gs_emergency st = false) /\
  ((lam (accs s tsk) = 0 /\ rest = [] /\ s' = s) \/
   (lam (accs s tsk) <> 0 /\ ever_exec_eff e c w withdrawal mint recipient tsk t s s') \/
   (lam (accs s tsk) = 0 /\ exists funder rest' s0, rest = funder :: rest' /\
      registered_ever e c funder mint tsk (wl_data (p_event w)) s s0 /\
      wever_in e (c_pid c) s0 withdrawal w /\
      ever_exec_eff e c w withdrawal mint recipient tsk t s0 s')).

Lemma tp_withdraw_ever_ok e c s a s' : tp_withdraw_ever e c s = Ok (a, s') ->
  exists withdrawal mint recipient tsk settings x y z u rest w t,
    c_keys c = withdrawal :: mint :: recipient :: tsk :: settings :: x :: y :: z :: u :: rest /\
    t = now s /\
    withdraw_ever_eff e c withdrawal mint recipient tsk settings rest w t s s'.
Proof.
  unfold tp_withdraw_ever, withdraw_ever_eff. intros H. mkeys H. repeat tstep H.
  do 10 eexists. exists w. eexists. split; [reflexivity|]. split; [shelve|]. split; [exact VW|]. split; [eauto|].
  destruct (lam (accs s k2) =? 0) eqn:L.
  - destruct l as [|f l]; [left; msimple H; split; [lia|auto]|]. right. right. split; [lia|].
    apply bind_ok in H as (u1 & s0 & H1 & H). apply register_ever_ok in H1; [|eapply wever_facts; exact VW].
    exists f, l, s0. split; [reflexivity|]. split; [exact H1|].
    assert (W0 : wever_in e (c_pid c) s0 k w).
    { eapply same_od_wever; [|exact VW]. eapply registered_other; [exact H1|]. apply blen_ne. eapply wever_in_len; exact VW. }
    split; [exact W0|]. eapply withdraw_ever_exec_ok; [exact H|exact W0].
  - right. left. split; [lia|]. eapply withdraw_ever_exec_ok; [exact H|exact VW].
  Unshelve. all: try reflexivity.
Qed.

(** ** Execution of Solana withdrawals *)

(** A payment of [amount] from the vault, or none if the vault holds less. *)
Definition sol_paid (e : env) (c : ctx) (w : wsol) (vault dst mint smint : key) (vn amount : Z) (s s1 : state) (st : wstatus) : Prop :=
  exists v, tacc_in s vault v /\
  ((st = WPending /\ s1 = s /\ ta_amount v < amount) \/
   (amount <= ta_amount v /\ moved s s1 vault dst vault amount /\
    dest e (c_pid c) s (p_kind w) (wse_payload (wl_data (p_event w))) mint (wse_recipient (wl_data (p_event w))) dst st /\
    (c_sg c vault = true \/ e_pda e (with_bump (sd_vault smint) vn) (c_pid c) = Some vault) /\
    c_wr c vault = true /\ c_wr c dst = true)).
Lemma sol_paid_step e c w vault dst mint smint vn amount s s1 st :
  sol_paid e c w vault dst mint smint vn amount s s1 st -> spl_step s s1.
Proof. intros (v & _ & [(_ & -> & _)|(_ & M & _)]); [apply spl_step_refl|eapply moved_step; exact M]. Qed.

Definition sol_exec_eff (e : env) (c : ctx) (w : wsol) (withdrawal vault recipient mint tsk : key) (t : Z)
  (s s' : state) : Prop :=
  let ev := wl_data (p_event w) in
  exists ts vn svault,
    token_in e (c_pid c) s tsk ts vn /\ tk_kind ts = TKSol (wse_mint ev) svault /\ tk_emergency ts = false /\
    find_pda e (sd_vault (wse_mint ev)) (c_pid c) = Ok (vault, vn) /\
    ((s' = s /\ w_confirms w < p_required w) \/
     (p_required w <= w_confirms w /\
      exists fee net st s1,
        fee_of u64max (tk_fee_wdr ts) (wrap64 (wse_amount ev)) = Ok fee /\ net = wrap64 (wse_amount ev) - fee /\ 0 <= net /\
        ((w_status w = WNew /\ tk_fee_supply ts + fee < u64max /\ spent ts (epoch_of t) + net < u64max /\
          ((tk_wlimit ts < net \/ tk_wdlimit ts < spent ts (epoch_of t) + net) /\ st = WWaitApprove /\ s1 = s \/
           net <= tk_wlimit ts /\ spent ts (epoch_of t) + net <= tk_wdlimit ts /\
           sol_paid e c w vault recipient mint (wse_mint ev) vn net s s1 st) /\
          settled c c_wsol s s1 s' tsk (Some (charge ts (epoch_of t) fee net)) withdrawal (w_set_status w st)
            [enc c_ev_status (EvStatus withdrawal st)]) \/
         (w_status w = WPending /\ sol_paid e c w vault recipient mint (wse_mint ev) vn net s s1 st /\
          settled c c_wsol s s1 s' tsk None withdrawal (w_set_status w st) [enc c_ev_status (EvStatus withdrawal st)]) \/
         (w_status w <> WNew /\ w_status w <> WPending /\ st = w_status w /\ s1 = s /\
          settled c c_wsol s s1 s' tsk None withdrawal (w_set_status w st) [enc c_ev_status (EvStatus withdrawal st)])))).

Lemma tp_withdraw_sol_ok e c s a s' : tp_withdraw_sol e c s = Ok (a, s') ->
  exists withdrawal vault recipient tsk mint settings x y rest w st pn,
    c_keys c = withdrawal :: vault :: recipient :: tsk :: mint :: settings :: x :: y :: rest /\
    wsol_in e (c_pid c) s withdrawal w /\
    tp_settings_in e (c_pid c) s settings st pn /\ gs_emergency st = false /\
    sol_exec_eff e c w withdrawal vault recipient mint tsk (now s) s s'.
Proof.
  unfold tp_withdraw_sol, sol_exec_eff. intros H. mkeys H. repeat tstep H.
  do 9 eexists. exists w. do 2 eexists. split; [reflexivity|]. split; [exact VW|]. split; [exact VS|]. split; [exact LV|].
  match goal with X : validate_pda _ _ _ _ _ = _ |- _ => apply validate_pda_ok in X as [_ PM] end. mfacts. subst.
  exists ts, vn, svault. split; [exact VT|]. split; [exact KT|]. split; [exact LT|]. split; [exact PM|].
  assert (NE : k <> k2) by (destruct VW as [U A]; eapply (request_ne_token e (c_pid c)); [| |exact U|exact A|exact VT]; typeclasses eauto).
  pose proof (wsol_in_len _ _ _ _ _ VW) as LW. pose proof (token_len _ _ _ _ _ _ VT) as LTK.
  destruct (p_required w <=? _) eqn:G; [|left; msimple H; split; [reflexivity|unfold w_confirms; lia]].
  right. split; [unfold w_confirms; lia|]. cbv zeta in H. do 2 mstep H.
  match goal with X : fee_of _ _ _ = Ok ?x |- _ => rename x into fee; rename X into HF end.
  match goal with X : csub _ fee = Ok ?x |- _ => rename x into net; rename X into CS end.
  apply bind_ok in H as (st' & s2 & HP & H). cbv beta in H.
  apply bind_ok in H as (u3 & s3 & H3 & H). cbv beta in H. apply pack_at_packed in H.
  assert (OTHER : w_status w <> WNew -> w_status w <> WPending -> ret (w_status w) s = Ok (st', s2) ->
    settled c c_wsol s s s' k2 None k (w_set_status w st') [enc c_ev_status (EvStatus k st')] /\ st' = w_status w /\ s2 = s).
  { intros W1 W2 HR. apply ret_ok in HR as [-> ->]. apply emit_ok in H3. split; [|auto].
    eapply settle; [apply spl_step_refl|reflexivity|exact H3|exact H|exact NE|exact LW|exact LTK]. }
  destruct (w_status w) eqn:EW.
  - (* New *)
    destruct (roll_day_facts ts (epoch_of (now s))) as (R1 & R2 & R3 & R4). cbv zeta in HP.
    do 2 mstep HP.
    match goal with X : cadd _ (tk_fee_supply _) _ = Ok ?x |- _ => rename x into fs; apply cadd_ok in X as [ES LS] end.
    match goal with X : cadd _ (tk_wdamount _) _ = Ok ?x |- _ => rename x into daily; apply cadd_ok in X as [ED LD] end.
    apply csub_ok in CS as [EN LN]. apply emit_ok in H3.
    rewrite R2 in ES, LS. rewrite R3 in ED, LD. rewrite R4 in HP. subst fs daily.
    change (tk_set_daily (tk_set_fee_supply ts (tk_fee_supply ts + fee)) (epoch_of (now s)) (spent ts (epoch_of (now s)) + net))
      with (charge ts (epoch_of (now s)) fee net) in HP.
    apply bind_ok in HP as (st2 & s1 & HP & HQ). cbv beta in HQ.
    apply bind_ok in HQ as (u2 & s2' & H2 & HQ). cbv beta in HQ. apply ret_ok in HQ as [-> ->]. apply pack_at_packed in H2.
    exists fee, net. eexists. exists s1. split; [exact HF|]. split; [exact EN|]. split; [lia|]. left.
    split; [reflexivity|]. split; [lia|]. split; [lia|].
    match goal with |- ?P /\ _ => assert (SP : P) end.
    { destruct ((tk_wlimit ts <? net) || _) eqn:GL.
      - msimple HP. left. split; [lia|]. auto.
      - right. split; [lia|]. split; [lia|]. apply pay_sol_ok in HP; [exact HP|lia]. }
    split; [exact SP|]. eapply settle; [|exact H2|exact H3|exact H|exact NE|exact LW|exact LTK].
    destruct SP as [(_ & _ & ->)|(_ & _ & M)]; [apply spl_step_refl|eapply sol_paid_step; exact M].
  - destruct OTHER as (S1 & S2 & S3); [congruence|congruence|exact HP|]. apply csub_ok in CS as [EN LN].
    exists fee, net, st', s. split; [exact HF|]. split; [exact EN|]. split; [lia|]. right. right.
    split; [discriminate|]. split; [discriminate|]. split; [exact S2|]. split; [reflexivity|exact S1].
  - destruct OTHER as (S1 & S2 & S3); [congruence|congruence|exact HP|]. apply csub_ok in CS as [EN LN].
    exists fee, net, st', s. split; [exact HF|]. split; [exact EN|]. split; [lia|]. right. right.
    split; [discriminate|]. split; [discriminate|]. split; [exact S2|]. split; [reflexivity|exact S1].
  - (* Pending *)
    apply csub_ok in CS as [EN LN]. apply emit_ok in H3. apply pay_sol_ok in HP; [|lia].
    exists fee, net, st', s2. split; [exact HF|]. split; [exact EN|]. split; [lia|]. right. left.
    split; [reflexivity|]. split; [exact HP|].
    eapply settle; [eapply sol_paid_step; exact HP|reflexivity|exact H3|exact H|exact NE|exact LW|exact LTK].
  - destruct OTHER as (S1 & S2 & S3); [congruence|congruence|exact HP|]. apply csub_ok in CS as [EN LN].
    exists fee, net, st', s. split; [exact HF|]. split; [exact EN|]. split; [lia|]. right. right.
    split; [discriminate|]. split; [discriminate|]. split; [exact S2|]. split; [reflexivity|exact S1].
  - destruct OTHER as (S1 & S2 & S3); [congruence|congruence|exact HP|]. apply csub_ok in CS as [EN LN].
    exists fee, net, st', s. split; [exact HF|]. split; [exact EN|]. split; [lia|]. right. right.
    split; [discriminate|]. split; [discriminate|]. split; [exact S2|]. split; [reflexivity|exact S1].
Qed.

(** ** Approval *)

(** The token settings written back on approval: the day's total is reduced if the request was made
    on the day of its approval. *)
Definition released (ts : token_settings) (request_epoch ep net : Z) (ts2 : option token_settings) : Prop :=
  (request_epoch <> ep /\ ts2 = None) \/
  (request_epoch = ep /\ net <= tk_wdamount ts /\ ts2 = Some (tk_set_daily ts (tk_wepoch ts) (tk_wdamount ts - net))).

Lemma release_daily_ok {E} c tsk ts (w : prop E (withlen wmeta)) t net s a s' :
  release_daily c tsk ts w t net s = Ok (a, s') ->
  exists ts2, released ts (wm_epoch (wl_data (p_meta w))) (epoch_of t) net ts2 /\ packed_ts c s s' tsk ts2.
Proof.
  unfold release_daily. intros H. destruct (_ =? _) eqn:E1.
  - apply bind_ok in H as (d & s1 & H1 & H). apply lift_ok in H1 as [H1 ->]. apply csub_ok in H1 as [-> L].
    apply pack_at_packed in H. eexists. split; [right; split; [lia|]; split; [exact L|reflexivity]|exact H].
  - apply ret_ok in H as [_ ->]. exists None. split; [left; split; [lia|reflexivity]|reflexivity].
Qed.

Definition approve_ever_eff (e : env) (c : ctx) (w : wever) (authority mint withdrawal recipient tsk settings : key)
  (s s' : state) : Prop :=
  let ev := wl_data (p_event w) in
  exists ts mn m dec_ md st pn,
    c_sg c authority = true /\
    tp_settings_in e (c_pid c) s settings st pn /\ gs_emergency st = false /\
    entitled e (c_pid c) s (gs_wmanager st) authority /\
    wever_in e (c_pid c) s withdrawal w /\ w_status w = WWaitApprove /\
    token_in e (c_pid c) s tsk ts mn /\ tk_kind ts = TKEver m (wee_token ev) dec_ /\ tk_emergency ts = false /\
    find_pda e (sd_mint (token_hash e (wee_token ev))) (c_pid c) = Ok (mint, mn) /\ tmint_in s mint md /\
    exists amount fee net st' s1 ts2,
        get_withdrawal_amount (wee_amount ev) (wee_decimals ev) (tm_decimals md) = Ok amount /\
        fee_of u64max (tk_fee_wdr ts) amount = Ok fee /\ net = amount - fee /\ 0 <= net /\
        minted s s1 mint recipient net /\
        dest e (c_pid c) s (p_kind w) (wee_payload ev) mint (wee_recipient ev) recipient st' /\
        (c_sg c mint = true \/ e_pda e (with_bump (sd_mint (token_hash e (wee_token ev))) mn) (c_pid c) = Some mint) /\
        c_wr c mint = true /\ c_wr c recipient = true /\
        released ts (wm_epoch (wl_data (p_meta w))) (epoch_of (now s)) net ts2 /\
        settled c c_wever s s1 s' tsk ts2 withdrawal (w_set_status w st') [enc c_ev_status (EvStatus withdrawal st')].

Lemma tp_approve_ever_ok e c s a s' : tp_approve_ever e c s = Ok (a, s') ->
  exists authority mint withdrawal recipient tsk settings x y rest w,
    c_keys c = authority :: mint :: withdrawal :: recipient :: tsk :: settings :: x :: y :: rest /\
    approve_ever_eff e c w authority mint withdrawal recipient tsk settings s s'.
Proof.
  unfold tp_approve_ever, approve_ever_eff. intros H. mkeys H. do 11 tstep H.
  match goal with X : ever_eqb _ _ = true |- _ => apply ever_eqb_eq in X; subst end.
  match goal with X : validate_pda _ _ _ _ _ = _ |- _ => apply validate_pda_ok in X as [_ PM] end.
  match goal with X : tmint_in s k0 ?x |- _ => rename x into md end.
  do 3 mstep H.
  match goal with X : get_withdrawal_amount _ _ _ = Ok ?x |- _ => rename x into amount; rename X into GA end.
  match goal with X : fee_of _ _ _ = Ok ?x |- _ => rename x into fee; rename X into HF end.
  match goal with X : csub amount fee = Ok ?x |- _ => rename x into net; apply csub_ok in X as [EN LN] end.
  apply bind_ok in H as (st' & s1 & HP & H). cbv beta in H. apply pay_ever_ok in HP as (P1 & P2 & P3 & P4 & P5); [|lia].
  apply bind_ok in H as (u2 & s2 & H2 & H). cbv beta in H. apply release_daily_ok in H2 as (ts2 & R1 & R2).
  apply bind_ok in H as (u3 & s3 & H3 & H). cbv beta in H. apply emit_ok in H3. apply pack_at_packed in H.
  do 9 eexists. exists w. split; [reflexivity|]. exists ts, mn, m, dec_, md, st, pn. mfacts.
  split; [assumption|]. split; [exact VS|]. split; [exact LV|]. split; [exact VA|]. split; [exact VW|]. split; [assumption|].
  split; [exact VT|]. split; [exact KT|]. split; [exact LT|]. split; [exact PM|]. split; [assumption|].
  exists amount, fee, net, st', s1, ts2. split; [exact GA|]. split; [exact HF|]. split; [exact EN|]. split; [lia|].
  split; [exact P1|]. split; [exact P2|]. split; [exact P3|]. split; [exact P4|]. split; [exact P5|]. split; [exact R1|].
  eapply settle; [eapply minted_step; exact P1|exact R2|exact H3|exact H| |eapply wever_in_len; exact VW|eapply token_len; exact VT].
  destruct VW as [U A]; eapply (request_ne_token e (c_pid c)); [| |exact U|exact A|exact VT]; typeclasses eauto.
Qed.

Definition approve_sol_eff (e : env) (c : ctx) (w : wsol) (authority vault withdrawal recipient tsk settings : key)
  (s s' : state) : Prop :=
  let ev := wl_data (p_event w) in
  exists ts vn svault st pn,
    c_sg c authority = true /\
    tp_settings_in e (c_pid c) s settings st pn /\ gs_emergency st = false /\
    entitled e (c_pid c) s (gs_wmanager st) authority /\
    wsol_in e (c_pid c) s withdrawal w /\ w_status w = WWaitApprove /\
    token_in e (c_pid c) s tsk ts vn /\ tk_kind ts = TKSol (wse_mint ev) svault /\ tk_emergency ts = false /\
    find_pda e (sd_vault (wse_mint ev)) (c_pid c) = Ok (vault, vn) /\
    exists fee net st' s1 ts2,
        fee_of u64max (tk_fee_wdr ts) (wrap64 (wse_amount ev)) = Ok fee /\ net = wrap64 (wse_amount ev) - fee /\ 0 <= net /\
        sol_paid e c w vault recipient (wse_mint ev) (wse_mint ev) vn net s s1 st' /\
        released ts (wm_epoch (wl_data (p_meta w))) (epoch_of (now s)) net ts2 /\
        settled c c_wsol s s1 s' tsk ts2 withdrawal (w_set_status w st') [].

Lemma st_eta s : s = St (accs s) (logs s ++ []) (now s).
Proof. rewrite app_nil_r. destruct s; reflexivity. Qed.

Lemma tp_approve_sol_ok e c s a s' : tp_approve_sol e c s = Ok (a, s') ->
  exists authority vault withdrawal recipient tsk settings x y rest w,
    c_keys c = authority :: vault :: withdrawal :: recipient :: tsk :: settings :: x :: y :: rest /\
    approve_sol_eff e c w authority vault withdrawal recipient tsk settings s s'.
Proof.
  unfold tp_approve_sol, approve_sol_eff. intros H. mkeys H. do 10 tstep H. cbv zeta in H.
  match goal with X : validate_pda _ _ _ _ _ = _ |- _ => apply validate_pda_ok in X as [_ PM] end.
  repeat match goal with X : keqb smint (wse_mint _) = true |- _ => apply keqb_eq in X; subst smint end.
  do 2 mstep H.
  match goal with X : fee_of _ _ _ = Ok ?x |- _ => rename x into fee; rename X into HF end.
  match goal with X : csub _ fee = Ok ?x |- _ => rename x into net; apply csub_ok in X as [EN LN] end.
  apply bind_ok in H as (st' & s1 & HP & H). cbv beta in H. apply pay_sol_ok in HP; [|lia].
  apply bind_ok in H as (u2 & s2 & H2 & H). cbv beta in H. apply release_daily_ok in H2 as (ts2 & R1 & R2).
  apply pack_at_packed in H.
  do 9 eexists. exists w. split; [reflexivity|]. exists ts, vn, svault, st, pn. mfacts.
  split; [assumption|]. split; [exact VS|]. split; [exact LV|]. split; [exact VA|]. split; [exact VW|]. split; [assumption|].
  split; [exact VT|]. split; [exact KT|]. split; [exact LT|]. split; [exact PM|].
  exists fee, net, st', s1, ts2. split; [exact HF|]. split; [exact EN|]. split; [lia|].
  split; [exact HP|]. split; [exact R1|].
  eapply settle; [eapply sol_paid_step; exact HP|exact R2|apply st_eta|exact H| |eapply wsol_in_len; exact VW|eapply token_len; exact VT].
  destruct VW as [U A]; eapply (request_ne_token e (c_pid c)); [| |exact U|exact A|exact VT]; typeclasses eauto.
Qed.
