(** Property C88: the payload of a paid withdrawal can be executed by anybody, if its calls succeed. *)

From Coq Require Import Strings.String ZifyBool ZifyNat ZifyN.
From Verif Require Import TpDemoLaws SysGo Selfless TpPending PropTpReq PropTpFlow PropTpPay PropTpMoney PropTpMisc PropTpOutcome PropTpAdmin PropTpDaily PropLive PropExec PropExits PropStuck PropBasics.
Open Scope Z_scope.
Open Scope list_scope.
Ltac Zify.zify_post_hook ::= Z.div_mod_to_equations.

(** * Vocabulary *)

(** The accounts [ms] of an instruction allow the call [i]: program and accounts are among them, writable where the
    call writes, and who has to sign has signed the instruction or is [proxy]. *)
Definition allows (ms : list meta) (proxy : key) (i : instr) : Prop :=
  In (i_pid i) (map m_key ms) /\ forall m, In m (i_metas i) ->
    In (m_key m) (map m_key ms) /\
    (m_sg m = true -> m_key m = proxy \/ exists m', In m' ms /\ m_key m' = m_key m /\ m_sg m' = true) /\
    (m_wr m = true -> exists m', In m' ms /\ m_key m' = m_key m /\ m_wr m' = true).
(** The calls [l], one after the other, turn [s] into [s']. *)
Inductive calls_run (ext : extern) : list instr -> state -> state -> Prop :=
| cr_nil s : calls_run ext [] s s
| cr_call i l s s1 s' : ext (ctx_of (i_pid i) (i_metas i)) (i_data i) s = Ok (tt, s1) -> calls_run ext l s1 s' -> calls_run ext (i :: l) s s'.
(** [payload] is the encoding of the calls [l]; what follows is not read. *)
Definition encodes (payload : bytes) (l : list instr) : Prop := exists rest, payload = enc (c_vec8 c_instr) l ++ rest /\ okb (c_vec8 c_instr) l = true.
(** The SPL token program, when it is asked for a transfer. *)
Definition spl_transfers (ext : extern) : Prop := forall c src dst auth n s, c_pid c = spl_id -> c_keys c = [src; dst; auth] -> 0 <= n < 2 ^ 64 ->
  ext c (x03 :: le 8 n) s = tok_transfer c src dst auth n s.
(** The payload that sends [n] tokens from the proxy account to [dst]. *)
Definition send_payload (proxy dst : key) (n : Z) : list instr :=
  [Instr spl_id [Meta proxy false true; Meta dst false true; Meta proxy true false] (x03 :: le 8 n)].
(** The account list of the web client (wasm/src/lib.rs:600-605, 632-637). *)
Definition payload_metas (k proxy dst : key) : list meta := [Meta k false true; Meta proxy false true; Meta dst false true; Meta spl_id false false].

(** * Lemmas *)

Lemma encodes_go p l : encodes p l -> payload_instrs p = Ok l.
Proof. intros (r & -> & O). unfold payload_instrs. rewrite rt by exact O. reflexivity. Qed.

Lemma sg_in pid ms m' k : In m' ms -> m_key m' = k -> m_sg m' = true -> c_sg (ctx_of pid ms) k = true.
Proof. intros I <- S. cbn [ctx_of c_sg]. apply existsb_exists. exists m'. rewrite keqb_refl, S. auto. Qed.
Lemma wr_in pid ms m' k : In m' ms -> m_key m' = k -> m_wr m' = true -> c_wr (ctx_of pid ms) k = true.
Proof. intros I <- S. cbn [ctx_of c_wr]. apply existsb_exists. exists m'. rewrite keqb_refl, S. auto. Qed.

Lemma invoke_all_go e ext ms proxy seeds l s s' : e_pda e seeds tp_id = Some proxy -> Forall (allows ms proxy) l -> calls_run ext l s s' ->
  invoke_all e ext (ctx_of tp_id ms) seeds l s = Ok (tt, s').
Proof.
  intros P F R. induction R as [s|i l s s1 s' X R IH]; [reflexivity|]. inversion F as [|? ? [A1 A2] F']; subst. cbn [invoke_all].
  eapply bind_go; [unfold pda_signer; apply lift_go; cbn [ctx_of c_pid]; rewrite P; reflexivity|]. cbv beta.
  apply (bind_go _ _ s tt s1); [|apply IH; exact F'].
  apply cpi_go; [exact A1| |exact X]. apply Forall_forall. intros m M. destruct (A2 m M) as (B1 & B2 & B3). split; [exact B1|]. split; [exact B1|]. split.
  - intros S. destruct (B2 S) as [E|(m' & I & K & S')]; [right; left; congruence|left; eapply sg_in; eassumption].
  - intros W. destruct (B3 W) as (m' & I & K & W'). eapply wr_in; eassumption.
Qed.

Lemma payload_go {E} (ce : codec E) e ext ms k (w : prop E (withlen wmeta)) mintk mint recipient payload proxy n pn l s s1 :
  Lawful (c_prop ce (c_withlen c_wmeta)) -> own (accs s k) = tp_id -> unpack (c_prop ce (c_withlen c_wmeta)) TP_LEN (@p_init _ _) (dat (accs s k)) = Ok w ->
  status_of w = WWaitExecute -> mintk = Ok mint -> p_kind w = KProposal n (Some pn) -> find_pda e (str "proxy" ++ kb mint ++ kb recipient) tp_id = Ok (proxy, pn) ->
  encodes payload l -> Forall (allows (Meta k false true :: ms) proxy) l -> calls_run ext l s s1 -> same_od s s1 k ->
  execute_payload e ext (ctx_of tp_id (Meta k false true :: ms)) (c_prop ce (c_withlen c_wmeta)) k w mintk recipient payload s =
    Ok (tt, written (c_prop ce (c_withlen c_wmeta)) s1 k (w_set_status w WProcessed)) /\
  unpack (c_prop ce (c_withlen c_wmeta)) TP_LEN (@p_init _ _) (dat (accs (written (c_prop ce (c_withlen c_wmeta)) s1 k (w_set_status w WProcessed)) k)) = Ok (w_set_status w WProcessed).
Proof.
  intros L O U ST MK KD FP EN AL CR [SO SD]. pose proof U as U0. eapply unpack_ok in U as (r & D & OW & LEN & I); [|exact L].
  assert (LW : blen (enc (c_prop ce (c_withlen c_wmeta)) (w_set_status w WProcessed)) <= TP_LEN).
  { rewrite status_size. rewrite D, blen_app in LEN. pose proof (blen_nonneg r). lia. }
  split.
  - unfold execute_payload. change (w_status w) with (status_of w). rewrite ST. cbn [wstatus_eqb]. cbv iota.
    eapply bind_go; [apply lift_go; exact MK|]. cbv beta. rewrite KD. eapply bind_go; [apply lift_go; reflexivity|]. cbv beta iota.
    eapply bind_go; [apply lift_go; apply encodes_go; exact EN|]. cbv beta. cbn [opt_or].
    apply (bind_go _ _ s tt s1).
    + eapply invoke_all_go; [|exact AL|exact CR]. apply find_pda_some in FP as [FP _]. exact FP.
    + apply pack_at_go; [cbn [ctx_of c_pid]; congruence| |congruence|exact LW]. cbn [ctx_of c_wr existsb m_key m_wr]. rewrite keqb_refl. reflexivity.
  - apply written_reads; [exact L|congruence|exact LW|exact (okb_set_status ce w WProcessed OW)|exact I].
Qed.

Lemma written_else {A} (cd : codec A) s k x j : j <> k -> accs (written cd s k x) j = accs s j.
Proof. intros N. destruct (written_only cd s k x) as [(_ & _ & H) _]. apply H. exact N. Qed.

(** * C88 The payload of a paid withdrawal can be executed by anybody, if its calls succeed *)

(** A withdrawal from a vault that waits for the execution of its payload: whoever names the accounts that the calls need, can have them
    executed with the signature of the recipient's proxy account.  No signature is needed for it.  The calls must not fail, and not touch
    the request itself.  The request is then processed. *)
Theorem C88_sol : forall e ext s s1 k ms w n pn proxy l, clock_ok s -> sol_filed e s k w -> status_of w = WWaitExecute -> p_kind w = KProposal n (Some pn) ->
  find_pda e (str "proxy" ++ kb (wse_mint (event_of w)) ++ kb (wse_recipient (event_of w))) tp_id = Ok (proxy, pn) ->
  encodes (wse_payload (event_of w)) l -> Forall (allows (Meta k false true :: ms) proxy) l -> calls_run ext l s s1 ->
  same_od s s1 k -> lam_sum (k :: map m_key ms) s1 = lam_sum (k :: map m_key ms) s ->
  exists s', tp_call e ext (ctx_of tp_id (Meta k false true :: ms)) TpExecutePayloadSol s s' /\ sol_filed e s' k (w_set_status w WProcessed) /\
    lam (accs s' k) = lam (accs s1 k) /\ forall j, j <> k -> accs s' j = accs s1 j.
Proof.
  intros e ext s s1 k ms w n pn proxy l CK (OK_ & UW & n' & pn' & KD' & FK) ST KD FP EN AL CR SO LS.
  destruct (payload_go (c_withlen c_wsol_event) e ext ms k w (Ok (wse_mint (event_of w))) (wse_mint (event_of w)) (wse_recipient (event_of w)) (wse_payload (event_of w)) proxy n pn l s s1
    ltac:(typeclasses eauto) OK_ UW ST eq_refl KD FP EN AL CR SO) as [X1 X2].
  change (c_prop (c_withlen c_wsol_event) (c_withlen c_wmeta)) with c_wsol in *.
  exists (written c_wsol s1 k (w_set_status w WProcessed)). split; [|split; [|split]].
  - apply call_go; [reflexivity|exact CK|reflexivity|]. apply sum_go.
    + cbn [tp_exec]. unfold tp_execute_payload_sol. change (c_keys (ctx_of tp_id (Meta k false true :: ms))) with (k :: map m_key ms). cbv beta iota.
      eapply bind_go; [unfold wsol_at; apply unpack_at_go; exact UW|]. cbv beta. exact X1.
    + rewrite lam_sum_written. exact LS.
  - split; [rewrite written_own; destruct SO as [SO _]; rewrite SO; exact OK_|]. split; [exact X2|]. exists n', pn'. split; [exact KD'|exact FK].
  - apply (lam_same_only k). apply written_only.
  - intros j J. apply written_else. exact J.
Qed.

(** The same for a withdrawal of an Everscale token; the mint is the one of the token. *)
Theorem C88_ever : forall e ext s s1 k ms w n pn proxy mint mn l, clock_ok s -> ever_filed e s k w -> status_of w = WWaitExecute -> p_kind w = KProposal n (Some pn) ->
  find_pda e (str "mint" ++ kb (token_hash e (wee_token (event_of w)))) tp_id = Ok (mint, mn) ->
  find_pda e (str "proxy" ++ kb mint ++ kb (wee_recipient (event_of w))) tp_id = Ok (proxy, pn) ->
  encodes (wee_payload (event_of w)) l -> Forall (allows (Meta k false true :: ms) proxy) l -> calls_run ext l s s1 ->
  same_od s s1 k -> lam_sum (k :: map m_key ms) s1 = lam_sum (k :: map m_key ms) s ->
  exists s', tp_call e ext (ctx_of tp_id (Meta k false true :: ms)) TpExecutePayloadEver s s' /\ ever_filed e s' k (w_set_status w WProcessed) /\
    lam (accs s' k) = lam (accs s1 k) /\ forall j, j <> k -> accs s' j = accs s1 j.
Proof.
  intros e ext s s1 k ms w n pn proxy mint mn l CK (OK_ & UW & n' & pn' & KD' & FK) ST KD FM FP EN AL CR SO LS.
  destruct (payload_go (c_withlen c_wever_event) e ext ms k w (rbind (find_pda e (sd_mint (token_hash e (wee_token (event_of w)))) tp_id) (fun '(k, _) => Ok k)) mint
    (wee_recipient (event_of w)) (wee_payload (event_of w)) proxy n pn l s s1
    ltac:(typeclasses eauto) OK_ UW ST ltac:(unfold sd_mint; rewrite FM; reflexivity) KD FP EN AL CR SO) as [X1 X2].
  change (c_prop (c_withlen c_wever_event) (c_withlen c_wmeta)) with c_wever in *.
  exists (written c_wever s1 k (w_set_status w WProcessed)). split; [|split; [|split]].
  - apply call_go; [reflexivity|exact CK|reflexivity|]. apply sum_go.
    + cbn [tp_exec]. unfold tp_execute_payload_ever. change (c_keys (ctx_of tp_id (Meta k false true :: ms))) with (k :: map m_key ms). cbv beta iota.
      eapply bind_go; [unfold wever_at; apply unpack_at_go; exact UW|]. cbv beta. exact X1.
    + rewrite lam_sum_written. exact LS.
  - split; [rewrite written_own; destruct SO as [SO _]; rewrite SO; exact OK_|]. split; [exact X2|]. exists n', pn'. split; [exact KD'|exact FK].
  - apply (lam_same_only k). apply written_only.
  - intros j J. apply written_else. exact J.
Qed.

Lemma send_payload_go ext k proxy dst mint n s : nonneg s -> spl_transfers ext -> own (accs s k) = tp_id -> 0 <= n < 2 ^ 64 -> proxy <> dst ->
  can_send s mint proxy proxy dst n -> accepts s mint dst n ->
  exists s1, calls_run ext (send_payload proxy dst n) s s1 /\ same_od s s1 k /\
    lam_sum (k :: map m_key [Meta proxy false true; Meta dst false true; Meta spl_id false false]) s1 = lam_sum (k :: map m_key [Meta proxy false true; Meta dst false true; Meta spl_id false false]) s /\
    Forall (allows (payload_metas k proxy dst) proxy) (send_payload proxy dst n) /\ k <> proxy /\ k <> dst /\
    balance s1 proxy = balance s proxy - n /\ balance s1 dst = balance s dst + n.
Proof.
  intros NN X OK_ NB NE (v & TV & FV & MV & OV & DV & AV & NV) (r & TR & FR & MR & UR).
  assert (FV' : ta_frozen v = false) by (unfold ta_frozen; destruct (ta_state v); congruence).
  assert (FR' : ta_frozen r = false) by (unfold ta_frozen; destruct (ta_state r); congruence).
  assert (KP : k <> proxy) by (intros ->; destruct TV as [TV _]; rewrite TV in OK_; discriminate OK_).
  assert (KD : k <> dst) by (intros ->; destruct TR as [TR _]; rewrite TR in OK_; discriminate OK_).
  set (c := ctx_of spl_id [Meta proxy false true; Meta dst false true; Meta proxy true false]).
  destruct (transfer_go c proxy dst proxy n s v r) as (s1 & T1 & O1 & D1); try assumption; try reflexivity; try lia; try congruence.
  - cbn [c ctx_of c_wr existsb m_key m_wr]. rewrite keqb_refl. reflexivity.
  - cbn [c ctx_of c_wr existsb m_key m_wr]. rewrite keqb_refl. cbn [andb]. apply orb_true_r.
  - cbn [c ctx_of c_sg existsb m_key m_sg]. rewrite keqb_refl, !andb_false_r. reflexivity.
  - exists s1. split; [|split; [|split; [|split; [|split; [exact KP|split; [exact KD|]]]]]].
    + unfold send_payload. apply (cr_call ext _ _ s s1 s1); [|constructor]. cbn [i_pid i_metas i_data]. fold c. rewrite (X c proxy dst proxy n s); [exact T1|reflexivity|reflexivity|exact NB].
    + destruct O1 as (_ & O1 & _). unfold same_od. rewrite O1 by congruence. auto.
    + cbn [map m_key]. unfold native_moves in D1. destruct (fst (ta_native v)).
      * eapply lam_sum_pay; [exact D1| |]; cbn [In]; auto.
      * apply lam_sum_same. intros j. rewrite D1. lia.
    + unfold send_payload. apply Forall_cons; [|constructor]. split; [cbn [i_pid payload_metas map m_key In]; auto|]. cbn [i_metas]. intros m M.
      destruct M as [<-|[<-|[<-|[]]]]; cbn [m_key m_sg m_wr]; (split; [cbn [payload_metas map m_key In]; auto|split; [intros Y; try discriminate Y; auto|intros Y; try discriminate Y]]).
      * exists (Meta proxy false true). split; [cbn [payload_metas In]; auto|auto].
      * exists (Meta dst false true). split; [cbn [payload_metas In]; auto|auto].
    + apply tok_transfer_ok in T1 as (a & b & dl & da & A1 & B1 & _ & _ & _ & _ & _ & _ & _ & T2 & _); [|reflexivity|lia].
      destruct (T2 NE) as (A2 & B2 & _). rewrite (balance_tok _ _ _ A1), (balance_tok _ _ _ B1), (balance_tok _ _ _ A2), (balance_tok _ _ _ B2). auto.
Qed.

(** What payloads are for: the payload sends tokens from the recipient's proxy account on to the account [dst].  Anybody can have this done with
    the account list of the web client, if the proxy account holds the tokens; [ext] is any world in which the SPL token program carries out transfers. *)
Theorem C88_send_sol : forall e ext s k w n pn proxy dst x, clock_ok s -> nonneg s -> spl_transfers ext -> sol_filed e s k w -> status_of w = WWaitExecute -> p_kind w = KProposal n (Some pn) ->
  find_pda e (str "proxy" ++ kb (wse_mint (event_of w)) ++ kb (wse_recipient (event_of w))) tp_id = Ok (proxy, pn) ->
  encodes (wse_payload (event_of w)) (send_payload proxy dst x) -> 0 <= x < 2 ^ 64 -> proxy <> dst ->
  can_send s (wse_mint (event_of w)) proxy proxy dst x -> accepts s (wse_mint (event_of w)) dst x ->
  exists s', tp_call e ext (ctx_of tp_id (payload_metas k proxy dst)) TpExecutePayloadSol s s' /\ sol_filed e s' k (w_set_status w WProcessed) /\
    balance s' proxy = balance s proxy - x /\ balance s' dst = balance s dst + x.
Proof.
  intros e ext s k w n pn proxy dst x CK NN X SF ST KD FP EN NB NE CS AC.
  destruct (send_payload_go ext k proxy dst _ x s NN X (proj1 SF) NB NE CS AC) as (s1 & CR & SO & LS & AL & KP & KQ & B1 & B2).
  destruct (C88_sol e ext s s1 k _ w n pn proxy _ CK SF ST KD FP EN AL CR SO LS) as (s' & C & SF' & _ & EA).
  exists s'. split; [exact C|]. split; [exact SF'|]. unfold balance in *. rewrite (EA proxy), (EA dst) by congruence. auto.
Qed.
Theorem C88_send_ever : forall e ext s k w n pn proxy mint mn dst x, clock_ok s -> nonneg s -> spl_transfers ext -> ever_filed e s k w -> status_of w = WWaitExecute -> p_kind w = KProposal n (Some pn) ->
  find_pda e (str "mint" ++ kb (token_hash e (wee_token (event_of w)))) tp_id = Ok (mint, mn) ->
  find_pda e (str "proxy" ++ kb mint ++ kb (wee_recipient (event_of w))) tp_id = Ok (proxy, pn) ->
  encodes (wee_payload (event_of w)) (send_payload proxy dst x) -> 0 <= x < 2 ^ 64 -> proxy <> dst ->
  can_send s mint proxy proxy dst x -> accepts s mint dst x ->
  exists s', tp_call e ext (ctx_of tp_id (payload_metas k proxy dst)) TpExecutePayloadEver s s' /\ ever_filed e s' k (w_set_status w WProcessed) /\
    balance s' proxy = balance s proxy - x /\ balance s' dst = balance s dst + x.
Proof.
  intros e ext s k w n pn proxy mint mn dst x CK NN X SF ST KD FM FP EN NB NE CS AC.
  destruct (send_payload_go ext k proxy dst _ x s NN X (proj1 SF) NB NE CS AC) as (s1 & CR & SO & LS & AL & KP & KQ & B1 & B2).
  destruct (C88_ever e ext s s1 k _ w n pn proxy mint mn _ CK SF ST KD FM FP EN AL CR SO LS) as (s' & C & SF' & _ & EA).
  exists s'. split; [exact C|]. split; [exact SF'|]. unfold balance in *. rewrite (EA proxy), (EA dst) by congruence. auto.
Qed.

(** ** A payload that cannot be read *)

(** A paid request with event [b] that waits for the execution of its payload, with lamports for the missing votes. *)
Definition unexecuted (e : env) (k : key) (b : bytes) (s : state) : Prop :=
  nonneg s /\ exists g m, request_at e s k g m /\ p_event g = b /\ wm_status m = WWaitExecute /\ funded s k g.

Lemma reads_encodes p l : payload_instrs p = Ok l -> encodes p l.
Proof.
  unfold payload_instrs. destruct (dec (c_vec8 c_instr) p) as [[l' r]|] eqn:D; [|discriminate]. intros X. injection X as <-.
  apply can in D as [D O]. exists r. auto.
Qed.

Lemma unexecuted_step e k b ext c i s s' : no_collision e k -> tp_call e ext c i s s' -> tp_ext e 0 ext -> payload_checked e c i s ->
  (forall ev, okb c_wsol_event ev = true -> enc c_wsol_event ev = b -> forall l, ~ encodes (wse_payload ev) l) ->
  (forall ev, okb c_wever_event ev = true -> enc c_wever_event ev = b -> forall l, ~ encodes (wee_payload ev) l) ->
  unexecuted e k b s -> unexecuted e k b s'.
Proof.
  intros NC C X PC NS NE (N & g & m & R & EB & ST & F).
  pose proof (req_call _ _ _ _ _ _ _ _ _ C (ext0_outside _ _ X) PC NC R) as CH.
  assert (NCL : not_closing k c i).
  { intros [-> HD]. destruct CH as [SO|? ? ? ? ? ? E|? ? ? E|st MV|E HD' [Y|Y] _]; try discriminate; try congruence.
    apply tp_call_exec in C as (_ & _ & _ & C). cbn [tp_exec] in C.
    apply tp_close_withdrawal_ok in C as (wk & a & rest & g0 & m0 & KS & _ & _ & _ & _ & _ & D). rewrite KS in HD. injection HD as ->.
    destruct D as (_ & O & _). destruct SO as [SO _]. destruct R as (O1 & _). rewrite SO, O1 in O. discriminate. }
  destruct (req_step _ _ _ _ _ _ _ _ _ C X PC NC R NCL N F) as (g' & m' & R' & EV & F' & N').
  split; [exact N'|]. exists g', m'. split; [exact R'|]. split; [rewrite (ev_event _ _ _ _ EV); exact EB|]. split; [|exact F'].
  destruct CH as [SO|v relay rrk rr j n Ei NV SG _ _ _ PO NO' LR DL SO R2|b' a ev Ei SG _ AU PST R2|st' MV WP QU R2|Ei HD Y _].
  - destruct (request_fun _ _ _ _ _ _ _ (request_same _ _ _ _ _ _ SO R) R') as [_ ->]. exact ST.
  - destruct (request_fun _ _ _ _ _ _ _ R2 R') as [_ ->]. exact ST.
  - congruence.
  - exfalso. rewrite ST in MV.
    assert (J : (i = TpExecutePayloadEver \/ i = TpExecutePayloadSol) /\ nth_error (c_keys c) 0 = Some k).
    { clear - MV WP. destruct i; cbn in MV; try discriminate MV; cbn [wpos] in WP; auto. }
    destruct J as (J & K0). clear MV WP QU R2.
    assert (HD : hd_error (c_keys c) = Some k) by (destruct (c_keys c); [discriminate K0|exact K0]). destruct (PC k HD) as [P1 P2].
    apply tp_call_exec in C as (Hp & _ & _ & C). destruct J as [-> | ->]; cbn [tp_exec] in C.
    + destruct (P1 eq_refl) as (_ & w & WI). destruct (wever_request _ _ _ _ _ _ NC R WI) as (EG & EM & _ & _).
      apply tp_execute_payload_ever_ok in C as (k' & r & w' & K & U & EF). rewrite K in HD. injection HD as ->.
      assert (w' = w) by (destruct WI as [U' _]; pose proof (eq_trans (eq_sym U) U') as Q; injection Q as Q; exact Q). subst w'.
      destruct EF as [[Q _]|(_ & mint & n & pn & l & s1 & _ & _ & PL & _)]; [apply Q; rewrite EM in ST; exact ST|].
      apply (NE (wl_data (p_event w))) with l; [eapply wever_event_ok; exact WI|rewrite <- EB, EG; reflexivity|apply reads_encodes; exact PL].
    + destruct (P2 eq_refl) as (_ & w & WI). destruct (wsol_request _ _ _ _ _ _ NC R WI) as (EG & EM & _ & _).
      apply tp_execute_payload_sol_ok in C as (k' & r & w' & K & U & EF). rewrite K in HD. injection HD as ->.
      assert (w' = w) by (destruct WI as [U' _]; pose proof (eq_trans (eq_sym U) U') as Q; injection Q as Q; exact Q). subst w'.
      destruct EF as [[Q _]|(_ & mint & n & pn & l & s1 & _ & _ & PL & _)]; [apply Q; rewrite EM in ST; exact ST|].
      apply (NS (wl_data (p_event w))) with l; [eapply wsol_event_ok; exact WI|rewrite <- EB, EG; reflexivity|apply reads_encodes; exact PL].
  - destruct Y as [Y|Y]; congruence.
Qed.

(** A paid withdrawal whose payload is not the encoding of calls (of neither kind, if the event can be read as both, see C06): whatever anybody
    does with the bridge, it waits for the execution for ever.  It is never processed or closed, and its lamports stay in it.
    (The tokens are on the proxy account of the recipient, who can take them from there, see C74.) *)
Theorem C88_stuck : forall e k s s' g m, no_collision e k -> req_hist e any_instr s s' -> nonneg s -> request_at e s k g m -> funded s k g ->
  wm_status m = WWaitExecute ->
  (forall ev, okb c_wsol_event ev = true -> enc c_wsol_event ev = p_event g -> forall l, ~ encodes (wse_payload ev) l) ->
  (forall ev, okb c_wever_event ev = true -> enc c_wever_event ev = p_event g -> forall l, ~ encodes (wee_payload ev) l) ->
  exists g' m', request_at e s' k g' m' /\ p_event g' = p_event g /\ wm_status m' = WWaitExecute /\ 0 < lam (accs s' k).
Proof.
  intros e k s s' g m NC H N R F ST NS NE.
  assert (W : unexecuted e k (p_event g) s').
  { assert (W : unexecuted e k (p_event g) s) by (split; [exact N|]; exists g, m; auto). clear m N R F ST. revert W.
    induction H as [s|s s1 s2 _ IH H|s s1 s2 _ IH H|s s1 s2 _ IH H]; intros W; [exact W| | |]; specialize (IH W).
    - destruct H as (c & ext & i & C & _ & X & PC & _). exact (unexecuted_step _ _ _ _ _ _ _ _ NC C X PC NS NE IH).
    - destruct IH as (N1 & g1 & m & R & EB & ST & F). split; [intros j; apply (H j); apply N1|]. exists g1, m.
      destruct (H k) as (_ & H2 & _). destruct (H2 (proj1 R)) as [SO LE].
      split; [eapply request_same; eassumption|]. split; [exact EB|]. split; [exact ST|]. exact (Z.le_trans _ _ _ F LE).
    - destruct IH as (N1 & g1 & m & R & EB & ST & F). split; [intros j; destruct (H j) as [->|[_ ->]]; [apply N1|apply Z.le_refl]|]. exists g1, m.
      assert (EA : accs s2 k = accs s1 k).
      { destruct (H k) as [E|[Z _]]; [exact E|]. exfalso. pose proof (funded_lam _ _ _ F). lia. }
      split; [unfold request_at; rewrite EA; exact R|]. split; [exact EB|]. split; [exact ST|]. unfold funded; rewrite EA; exact F. }
  destruct W as (_ & g' & m' & R' & E' & S' & F'). exists g', m'. split; [exact R'|]. split; [exact E'|]. split; [exact S'|]. eapply funded_lam; exact F'.
Qed.

(** * Examples *)

(** The demo ledger with three more requests with payloads: [tw_p] sends 19000 of the Solana token on, [tw_q] 900 of the Ever token, and the payload
    of [tw_g] is a text. *)
Definition tw_p := knum 262.
Definition tw_q := knum 263.
Definition tw_g := knum 264.
Definition tev_p : wsol_event := WSolEvent tmintS 20000 trecv (enc (c_vec8 c_instr) (send_payload tproxyS trecvS 19000)).
Definition tev_q : wever_event := WEverEvent tever (str "Ever Token") (str "EVT") 9 1000 trecv (enc (c_vec8 c_instr) (send_payload tproxyE trecvE 900)).
Definition tproxyG := knum 265.
Definition tev_g : wsol_event := WSolEvent tmintS 10000 tuser (str "invoice 4711").
Definition ttab3 : list (bytes * key * key) :=
  (with_bump (sd_proposal 10 93 8 tconf (knum 523)) 255, tp_id, tw_p) :: (with_bump (sd_proposal 10 94 8 tconf (knum 524)) 255, tp_id, tw_q) ::
  (with_bump (sd_proposal 10 95 8 tconf (knum 525)) 255, tp_id, tw_g) :: (with_bump (sd_proxy tmintS tuser) 255, tp_id, tproxyG) :: ttab.
Definition thash3 : list (bytes * key) := (enc c_wsol_event tev_p, knum 523) :: (enc c_wever_event tev_q, knum 524) :: (enc c_wsol_event tev_g, knum 525) :: thash.
Definition te3 : env := demo_env ttab3 thash3.
Definition tstp3 (s : state) (x : list meta * tp_ix) : res state := do_tp te3 no_ext (fst x) (snd x) s.
(** All three filed, confirmed and paid. *)
Definition tl_steps : list (list meta * tp_ix) :=
  treqS trecv tw_p tround 93 tev_p tproxyS3 :: treqS tuser tw_g tround 95 tev_g [ww tproxyG; ro tmintS; ro spl_id] ::
  treqE trecv tw_q tround 94 tev_q [ww tproxyE; ro tmintE; ro spl_id] ::
  tvotes tw_p tround ++ tvotes tw_g tround ++ tvotes tw_q tround ++
  [texecS tw_p tproxyS tmintS; texecS tw_g tproxyG tmintS; texecE tw_q tproxyE []].
Definition tl_run (s : state) (l : list (list meta * tp_ix)) : res state := fold_left (fun r x => rbind r (fun s => tstp3 s x)) l (Ok s).
Definition tl_changes : list (key * acct) := Eval vm_compute in
  let s := unres (tl_run ts8 tl_steps) in (tw_p, accs s tw_p) :: (tw_q, accs s tw_q) :: (tw_g, accs s tw_g) :: (tproxyG, accs s tproxyG) :: changes s.
Definition tl : state := frozen tl_changes [].
(** A world in which only the SPL token program answers, and only to transfers. *)
Definition spl_ext : extern := fun c d => match c_keys c, d with
  | [src; dst; auth], x03 :: r => if keqb (c_pid c) spl_id then tok_transfer c src dst auth (unle r) else fail CpiDenied
  | _, _ => fail CpiDenied end.
Lemma spl_ext_transfers : spl_transfers spl_ext.
Proof.
  intros c src dst auth n s P K B. unfold spl_ext. rewrite K, P. cbv iota. rewrite keqb_refl. f_equal. apply unle_le. change (2 ^ (8 * Z.of_nat 8)) with (2 ^ 64). exact B.
Qed.

Lemma tl_nonneg : nonneg tl.
Proof. apply frozen_nonneg. vm_compute. reflexivity. Qed.
(** What the payload of [tw_p] needs: executed by anybody, it moves 19000 from the proxy account of [trecv] to their token account. *)
Example C88_send_sol_ex : let w := the_wsol tl tw_p in clock_ok tl /\ nonneg tl /\ spl_transfers spl_ext /\ sol_filed te3 tl tw_p w /\ status_of w = WWaitExecute /\ p_kind w = KProposal 255 (Some 255) /\
  find_pda te3 (str "proxy" ++ kb (wse_mint (event_of w)) ++ kb (wse_recipient (event_of w))) tp_id = Ok (tproxyS, 255) /\
  encodes (wse_payload (event_of w)) (send_payload tproxyS trecvS 19000) /\ tproxyS <> trecvS /\
  can_send tl (wse_mint (event_of w)) tproxyS tproxyS trecvS 19000 /\ accepts tl (wse_mint (event_of w)) trecvS 19000 /\
  balance tl tproxyS = 19990 /\
  is_ok (do_tp te3 spl_ext (payload_metas tw_p tproxyS trecvS) TpExecutePayloadSol tl) = true.
Proof.
  split; [unfold clock_ok; change (now tl) with 1700000000; unfold i64max; lia|]. split; [exact tl_nonneg|]. split; [exact spl_ext_transfers|].
  split; [split; [ex_vm|]; split; [ex_vm|]; exists 255, (Some 255); split; ex_vm|]. split; [ex_vm|]. split; [ex_vm|]. split; [ex_vm|].
  split; [exists []; split; ex_vm|]. split; [ex_vm|]. split; [ex_send|]. split; [ex_accept|]. split; ex_vm.
Qed.
Example C88_send_ever_ex : let w := the_wever tl tw_q in ever_filed te3 tl tw_q w /\ status_of w = WWaitExecute /\ p_kind w = KProposal 255 (Some 255) /\
  find_pda te3 (str "mint" ++ kb (token_hash te3 (wee_token (event_of w)))) tp_id = Ok (tmintE, 255) /\
  find_pda te3 (str "proxy" ++ kb tmintE ++ kb (wee_recipient (event_of w))) tp_id = Ok (tproxyE, 255) /\
  encodes (wee_payload (event_of w)) (send_payload tproxyE trecvE 900) /\ tproxyE <> trecvE /\
  can_send tl tmintE tproxyE tproxyE trecvE 900 /\ accepts tl tmintE trecvE 900 /\ balance tl tproxyE = 999 /\
  is_ok (do_tp te3 spl_ext (payload_metas tw_q tproxyE trecvE) TpExecutePayloadEver tl) = true.
Proof.
  split; [split; [ex_vm|]; split; [ex_vm|]; exists 255, (Some 255); split; ex_vm|]. split; [ex_vm|]. split; [ex_vm|]. split; [ex_vm|]. split; [ex_vm|].
  split; [exists []; split; ex_vm|]. split; [ex_vm|]. split; [ex_send|]. split; [ex_accept|]. split; ex_vm.
Qed.
(** The calls of the two payloads, as in C88_sol and C88_ever. *)
Example C88_sol_ex : exists s1, Forall (allows (payload_metas tw_p tproxyS trecvS) tproxyS) (send_payload tproxyS trecvS 19000) /\
  calls_run spl_ext (send_payload tproxyS trecvS 19000) tl s1 /\ same_od tl s1 tw_p /\
  lam_sum [tw_p; tproxyS; trecvS; spl_id] s1 = lam_sum [tw_p; tproxyS; trecvS; spl_id] tl /\ balance s1 tproxyS = balance tl tproxyS - 19000.
Proof.
  destruct C88_send_sol_ex as (_ & N & X & F & _ & _ & _ & _ & NE & CS & AC & _).
  destruct (send_payload_go spl_ext tw_p tproxyS trecvS _ 19000 tl N X (proj1 F) ltac:(lia) NE CS AC) as (s1 & H1 & H2 & H3 & H4 & _ & _ & H5 & _).
  exists s1. auto.
Qed.
Example C88_ever_ex : exists s1, Forall (allows (payload_metas tw_q tproxyE trecvE) tproxyE) (send_payload tproxyE trecvE 900) /\
  calls_run spl_ext (send_payload tproxyE trecvE 900) tl s1 /\ same_od tl s1 tw_q /\
  lam_sum [tw_q; tproxyE; trecvE; spl_id] s1 = lam_sum [tw_q; tproxyE; trecvE; spl_id] tl /\ balance s1 tproxyE = balance tl tproxyE - 900.
Proof.
  destruct C88_send_ever_ex as (F & _ & _ & _ & _ & _ & NE & CS & AC & _).
  destruct (send_payload_go spl_ext tw_q tproxyE trecvE _ 900 tl tl_nonneg spl_ext_transfers (proj1 F) ltac:(lia) NE CS AC) as (s1 & H1 & H2 & H3 & H4 & _ & _ & H5 & _).
  exists s1. auto.
Qed.

Lemma is_req3_at s k g m : own (accs s k) = tp_id -> unpack c_gprop TP_LEN (@p_init _ _) (dat (accs s k)) = Ok g -> try_from_slice c_wmeta (p_meta g) = Some m ->
  (exists n pn, p_kind g = KProposal n pn /\ find_pda te3 (sd_proposal (p_round g) (pd_ts (p_pda g)) (pd_lt (p_pda g)) (pd_conf (p_pda g)) (e_hash te3 (p_event g))) tp_id = Ok (k, n)) ->
  request_at te3 s k g m.
Proof.
  intros O U M K. split; [exact O|]. split; [exact U|]. apply try_from_slice_can in M as [M1 M2]; [|typeclasses eauto]. split; [exact M1|]. split; [exact M2|exact K].
Qed.
Lemma tstp3_req s x : demo_plainb ttab3 (fst x) = true -> okb c_tp_ix (snd x) = true -> clock_ok s -> is_ok (tstp3 s x) = true -> is_payload (snd x) = false ->
  req_instr te3 any_instr s (unres (tstp3 s x)).
Proof.
  intros B O CK R NP. exists (ctx_of tp_id (fst x)), no_ext, (snd x).
  split; [apply do_tp_call; assumption|]. split; [intros k S P; destruct (demo_plain _ _ _ _ B _ S P)|].
  split; [apply no_ext_tp|]. split; [|exact Logic.I]. intros k _. split; intros E; rewrite E in NP; discriminate.
Qed.
(** The request [tw_g], paid: its payload is a text, which is not the encoding of calls.  Nobody can execute it, and after the upgrade authority has set a new manager
    it still waits. *)
Definition tl1 := unres (tstp3 tl (tadmS tauth (TpChangeManager tman))).
Example C88_stuck_ex : no_collision te3 tw_g /\ req_hist te3 any_instr tl tl1 /\ nonneg tl /\ request_at te3 tl tw_g (the_req tl tw_g) (the_meta tl tw_g) /\
  funded tl tw_g (the_req tl tw_g) /\ wm_status (the_meta tl tw_g) = WWaitExecute /\
  (forall ev, okb c_wsol_event ev = true -> enc c_wsol_event ev = p_event (the_req tl tw_g) -> forall l, ~ encodes (wse_payload ev) l) /\
  (forall ev, okb c_wever_event ev = true -> enc c_wever_event ev = p_event (the_req tl tw_g) -> forall l, ~ encodes (wee_payload ev) l) /\
  balance tl tproxyG = 9995 /\ is_ok (do_tp te3 spl_ext (payload_metas tw_g tproxyG tuserS) TpExecutePayloadSol tl) = false.
Proof.
  assert (EV : p_event (the_req tl tw_g) = enc c_wsol_event tev_g) by (vm_compute; reflexivity).
  assert (OV : okb c_wsol_event tev_g = true) by (vm_compute; reflexivity).
  split; [apply (demo_no_collision _ _ _ (enc c_wsol_event tev_g)); vm_compute; reflexivity|]. split.
  { apply (h_prog _ _ _ _ tl); [apply h_refl|]. unfold tl1. apply tstp3_req; [vm_compute; reflexivity|vm_compute; reflexivity| |vm_compute; reflexivity|reflexivity].
    unfold clock_ok; change (now tl) with 1700000000; unfold i64max; lia. }
  split; [exact tl_nonneg|]. split; [apply is_req3_at; [vm_compute; reflexivity|vm_compute; reflexivity|vm_compute; reflexivity|exists 255, (Some 255); split; vm_compute; reflexivity]|].
  split; [vm_compute; discriminate|]. split; [vm_compute; reflexivity|]. split.
  { intros ev O E l EN. rewrite EV in E. apply (enc_inj c_wsol_event _) in E; [|exact O|exact OV]. subst ev.
    apply encodes_go in EN. vm_compute in EN. discriminate EN. }
  split; [|split; vm_compute; reflexivity].
  intros v OK E. rewrite EV in E. destruct (C06_partial v tev_g OK OV E) as [_ X]. vm_compute in X. discriminate X.
Qed.

Print Assumptions C88_sol.
Print Assumptions C88_ever.
Print Assumptions C88_send_sol.
Print Assumptions C88_send_ever.
Print Assumptions C88_stuck.
