(** Properties C46, C51, C52 and C53: what payloads may sign for, requests that come into being or do
    not, proxy accounts, and deposits of native SOL. *)

From Coq Require Import Strings.String ZifyBool ZifyNat ZifyN.
From Verif Require Import TpDemoLaws TpFlow NativeProxy PropRoundLoader PropTpFlow PropTpPay.
Open Scope Z_scope.
Open Scope list_scope.
Ltac Zify.zify_post_hook ::= Z.div_mod_to_equations.

(** * C46 Whose payload signs with a proxy account *)

(** The event bytes name the token's mint, the recipient and the payload. *)
Definition names (e : env) (event : bytes) (mint recipient : key) (payload : bytes) : Prop :=
  (exists ev, event = enc c_wsol_event ev /\ wse_mint ev = mint /\ wse_recipient ev = recipient /\ wse_payload ev = payload) \/
  (exists ev, event = enc c_wever_event ev /\ tp_addr e (str "mint" ++ kb (token_hash e (wee_token ev))) mint /\
     wee_recipient ev = recipient /\ wee_payload ev = payload).

(** Nothing but payload execution calls a program chosen by somebody else. *)
Theorem C46_others : forall e ext ext' c i s s',
  is_payload i = false -> tp_call e ext c i s s' -> tp_call e ext' c i s s'.
Proof.
  intros e ext ext' c i s s' IP (Hp & CK & d & D & R). split; [exact Hp|]. split; [exact CK|]. exists d. split; [exact D|].
  rewrite <- R. unfold run. f_equal. unfold tp_process. rewrite D. cbn [ok_or]. unfold bind, lift. cbv iota beta.
  destruct i; try discriminate IP; reflexivity.
Qed.

(** In every history that starts without requests, and if payloads are executed only on checked
    requests: what a payload execution calls in the name of a proxy account are the instructions of the
    payload of a request of the token proxy which more than two thirds of the relays of its round
    confirmed; the proxy is the one of that request's token and recipient; afterwards the request is
    finished, so its payload is not executed again. *)
Theorem C46_partial : forall e ext c i s0 s s' k,
  req_hist e any_instr s0 s -> nonneg s0 -> no_request s0 k -> no_collision e k -> hd_error (c_keys c) = Some k ->
  payload_checked e c i s -> is_payload i = true -> tp_call e ext c i s s' ->
  s' = s \/
  exists g m mint recipient payload l s1,
    request_at e s k g m /\ wm_status m = WWaitExecute /\
    p_required g <= confirmed (p_signers g) /\ 2 * blen (p_signers g) < 3 * p_required g /\
    names e (p_event g) mint recipient payload /\ payload_instrs payload = Ok l /\
    (l = [] /\ s1 = s \/
     exists proxy b, e_pda e (str "proxy" ++ kb mint ++ kb recipient ++ [b]) tp_id = Some proxy /\ nested_run e ext c proxy l s s1) /\
    (forall j, j <> k -> accs s' j = accs s1 j) /\
    (own (accs s1 k) = tp_id -> request_at e s' k (g_meta g (m_status m WProcessed)) (m_status m WProcessed)).
Proof.
  intros e ext c i s0 s s' k HI NN NR NC HD PC IP CALL.
  destruct (requests_sound e k s0 s NC HI NN (or_introl NR)) as [_ RS].
  apply tp_call_exec in CALL as (Hp & _ & _ & H). destruct (PC k HD) as [PE PS].
  assert (SEED : forall mint r n, with_bump (sd_proxy mint r) n = str "proxy" ++ kb mint ++ kb r ++ [zb n])
    by (intros; unfold with_bump, sd_proxy; rewrite <- !app_assoc; reflexivity).
  assert (NOT : forall E (w : prop E (withlen wmeta)) h cw, Lawful cw -> own (accs s k) = tp_id ->
     kind_at (dat (accs s k)) = Some (p_kind w) -> request_addr e tp_id k w h -> unpack cw TP_LEN (@p_init _ _) (dat (accs s k)) = Ok w ->
     exists g m, request_at e s k g m /\ sound_request s k g m).
  { intros E w h cw _ O KA (n & pn & KW & _) _. destruct RS as [N|R]; [|exact R]. destruct (N O n pn). congruence. }
  destruct i; try discriminate IP; cbn [tp_exec] in H.
  - destruct (PE eq_refl) as (O & w0 & WI). apply tp_execute_payload_ever_ok in H as (wk & rest & w & K & U & [[_ ->]|B]); [left; reflexivity|right].
    rewrite K in HD. injection HD as ->. destruct B as (ST & mint & n & pn & l & s1 & MI & KW & PI & RUN & PK).
    assert (w0 = w) by (pose proof (eq_trans (eq_sym (proj1 WI)) U) as Q; injection Q as Q; exact Q). subst w0.
    destruct (NOT _ w _ c_wever _ O (kind_prop _ _ _ _ _ _ _ _ U) (proj2 WI) U) as (g & m & R & SO).
    destruct (wever_request _ _ _ _ _ _ NC R WI) as (-> & -> & TL1 & TL2).
    destruct (find_pda e (sd_mint _) (c_pid c)) as [[mk mn]|] eqn:FM; [|discriminate MI]. injection MI as ->.
    exists (gen_prop c_wever_event c_wmeta w), (wl_data (p_meta w)), mint, (wee_recipient (wl_data (p_event w))), (wee_payload (wl_data (p_event w))), l, s1.
    destruct SO as [S1 S2 S3]. split; [exact R|]. split; [exact ST|].
    split; [destruct S2 as [S2|S2]; [unfold w_status in ST; congruence|exact S2]|]. split; [exact S1|].
    split; [right; exists (wl_data (p_event w)); split; [reflexivity|]; split; [rewrite Hp in FM; exists mn; exact FM|split; reflexivity]|].
    split; [exact PI|]. split.
    + destruct RUN as [RUN|(px & PX & RUN)]; [left; exact RUN|right]. exists px. eexists. rewrite Hp in PX. rewrite SEED in PX. split; [exact PX|exact RUN].
    + split; [intros j NJ; exact (packed_other _ _ _ _ _ _ _ PK j NJ)|]. intros OW. eapply (packed_typed c_wever_event _); [exact OW|exact U|exact PK|exact R|reflexivity|exact TL1|exact TL2].
  - destruct (PS eq_refl) as (O & w0 & WI). apply tp_execute_payload_sol_ok in H as (wk & rest & w & K & U & [[_ ->]|B]); [left; reflexivity|right].
    rewrite K in HD. injection HD as ->. destruct B as (ST & mint & n & pn & l & s1 & MI & KW & PI & RUN & PK).
    assert (w0 = w) by (pose proof (eq_trans (eq_sym (proj1 WI)) U) as Q; injection Q as Q; exact Q). subst w0.
    destruct (NOT _ w _ c_wsol _ O (kind_prop _ _ _ _ _ _ _ _ U) (proj2 WI) U) as (g & m & R & SO).
    destruct (wsol_request _ _ _ _ _ _ NC R WI) as (-> & -> & TL1 & TL2). injection MI as MI.
    exists (gen_prop c_wsol_event c_wmeta w), (wl_data (p_meta w)), mint, (wse_recipient (wl_data (p_event w))), (wse_payload (wl_data (p_event w))), l, s1.
    destruct SO as [S1 S2 S3]. split; [exact R|]. split; [exact ST|].
    split; [destruct S2 as [S2|S2]; [unfold w_status in ST; congruence|exact S2]|]. split; [exact S1|].
    split; [left; exists (wl_data (p_event w)); split; [reflexivity|]; split; [exact MI|split; reflexivity]|].
    split; [exact PI|]. split.
    + destruct RUN as [RUN|(px & PX & RUN)]; [left; exact RUN|right]. exists px. eexists. rewrite Hp in PX. rewrite SEED in PX. split; [exact PX|exact RUN].
    + split; [intros j NJ; exact (packed_other _ _ _ _ _ _ _ PK j NJ)|]. intros OW. eapply (packed_typed c_wsol_event _); [exact OW|exact U|exact PK|exact R|reflexivity|exact TL1|exact TL2].
Qed.

(** Each nested call is made with the signatures of this instruction and the proxy's. *)
Lemma nested_signs e ext c proxy i l s s' : nested_run e ext c proxy (i :: l) s s' ->
  forall k, c_sg (ctx_of (i_pid i) (i_metas i)) k = true -> c_sg c k = true \/ k = proxy.
Proof.
  intros R k S. inversion R as [|i0 l0 a s1 b x CPI R1]; subst. apply cpi_inv in CPI as [_ [_ M]].
  apply ctx_of_sg in S as (m & Hm & <- & S). destruct (M m Hm) as (_ & Q & _). destruct (Q S) as [Q1|[Q1|[]]]; [left; exact Q1|right; symmetry; exact Q1].
Qed.

(** What the stranger's program [tevil] does when called: it writes "processed" into its own account.
    The SPL token program transfers (tokens other than wrapped SOL). *)
Definition tevil_ext : extern := fun c d =>
  if keqb (c_pid c) spl_id then
    match c_keys c, d with
    | src :: dst :: auth :: _, x03 :: r =>
        t <- tacc_at src ;; guard (negb (fst (ta_native t))) CpiDenied ;;; tok_transfer c src dst auth (unle r)
    | _, _ => fail CpiDenied
    end
  else if keqb (c_pid c) tevil then
    match c_keys c with k :: _ => set_data c k (tforgery WProcessed) | _ => fail CpiDenied end
  else fail CpiDenied.

Lemma foreign_own e sg pid s s' : pid <> tp_id -> pid <> sys_id -> now s' = now s ->
  (forall k, lam (accs s' k) = lam (accs s k) /\ own (accs s' k) = own (accs s k)) ->
  (forall k, own (accs s k) = pid \/ same_od s s' k) -> foreign_with e sg s s'.
Proof.
  intros P1 P2 N L D. split; [exact N|]. intros k. destruct (L k) as [L1 L2]. rewrite L1. split; [auto|]. split; [|split].
  - intros O. destruct (D k) as [X|X]; [congruence|]. split; [exact X|lia].
  - intros A B. congruence.
  - intros _ _ O. destruct (D k) as [X|X]; [congruence|exact X].
Qed.
Lemma tevil_rules e : tp_ext e 0 tevil_ext.
Proof.
  intros c d s a s' H. left. unfold tevil_ext in H. destruct (keqb (c_pid c) spl_id) eqn:P1.
  - apply keqb_eq in P1. split; [rewrite P1; discriminate|].
    destruct (c_keys c) as [|src [|dst [|auth r]]]; try discriminate H. destruct d as [|x d]; [discriminate H|]. destruct x; try discriminate H.
    apply bind_ok in H as (t & s1 & T & H). apply tacc_at_ok in T as [T ->]. cbv beta in H.
    apply bind_ok in H as (u & s1 & G & H). apply guard_ok in G as [G ->]. apply negb_true_iff in G.
    apply tok_transfer_ok in H as (t1 & t2 & dl & da & T1 & T2 & _ & AM & _ & _ & _ & _ & EQ & NE & OT & EN & L); [|exact P1|apply unle_range].
    rewrite (tacc_in_fun _ _ _ _ (proj2 T1) T) in L. rewrite G in L.
    pose proof (proj1 T1) as O1. pose proof (proj1 T2) as O2.
    apply (foreign_own _ _ spl_id); [discriminate|discriminate|apply EN| |].
    + intros k. split; [rewrite L; lia|]. destruct (key_dec src dst) as [->|N]; [rewrite (EQ eq_refl); reflexivity|].
      destruct (NE N) as ((O1' & _) & (O2' & _) & _). destruct (key_dec k src) as [->|N1]; [congruence|].
      destruct (key_dec k dst) as [->|N2]; [congruence|]. apply (OT k N1 N2).
    + intros k. destruct (key_dec k src) as [->|N1]; [left; exact O1|]. destruct (key_dec k dst) as [->|N2]; [left; exact O2|].
      right. apply (OT k N1 N2).
  - destruct (keqb (c_pid c) tevil) eqn:P2; [|discriminate H]. apply keqb_eq in P2. split; [rewrite P2; discriminate|].
    destruct (c_keys c) as [|k0 r]; [discriminate H|]. apply set_data_ok in H as [-> W].
    apply (foreign_own _ _ tevil); [discriminate|discriminate|reflexivity| |].
    + intros k. split; [apply lam_put_dat|apply own_put_dat].
    + intros k. destruct (key_dec k k0) as [->|N]; [|right; apply same_od_put_dat_other; exact N].
      destruct W as [W|[W _]]; [right|left; congruence]. rewrite <- W. apply same_od_put_dat_same.
Qed.

(** Without the check the proxy accounts are anybody's.  In a reachable state the proxy account of
    [trecv] holds 59970 tokens, for a confirmed withdrawal with payload.  The stranger executes the
    "payload" of an account which the token proxy does not own and nobody voted for.  Nobody signs, all
    tokens of the proxy account end up with the stranger, and the request still waits for its execution. *)
Definition tsteal : list meta * tp_ix :=
  ([ww tforged; ro tevil; ro spl_id; ww tproxyS; ww tstrS], TpExecutePayloadSol).
Definition ts43 := unres (do_tp te tevil_ext (fst tsteal) (snd tsteal) ts14).
Theorem C46_refuted : exists ext c s s' k w,
  reached s /\ tp_ext te 0 ext /\ tp_call te ext c TpExecutePayloadSol s s' /\
  hd_error (c_keys c) = Some k /\ own (accs s k) <> tp_id /\ (forall j, c_sg c j = false) /\
  tp_addr te (str "proxy" ++ kb tmintS ++ kb trecv) tproxyS /\
  balance s tproxyS = 59970 /\ balance s' tproxyS = 0 /\ balance s' tstrS = balance s tstrS + 59970 /\
  sol_request te s' tw3 w /\ status_of w = WWaitExecute.
Proof.
  exists tevil_ext, (ctx_of tp_id (fst tsteal)), ts14, ts43, tforged, (the_wsol ts14 tw3).
  split. { demo_ts14. unfold ts13. demo_votes. unfold ts12. demo_more. unfold ts2. demo_more. unfold ts1. demo_more. apply h_refl. }
  split; [apply tevil_rules|].
  split. { unfold ts43. apply do_tp_call; [reflexivity|vm_compute; repeat split; discriminate|vm_compute; reflexivity]. }
  split; [reflexivity|]. split; [vm_compute; discriminate|]. split.
  { intros j. unfold tsteal, ctx_of. cbn [fst c_sg existsb m_sg ww ro]. rewrite !andb_false_r. reflexivity. }
  split; [exists 255; vm_compute; reflexivity|].
  do 3 (split; [vm_compute; reflexivity|]). split; [|vm_compute; reflexivity].
  split; [vm_compute; reflexivity|]; split; [vm_compute; reflexivity|exists 255; vm_compute; reflexivity].
Qed.

(** A payload that calls back into the token proxy: the request at [tw13], of a round with four relays,
    is confirmed by three of them and paid; its payload is the vote of the fourth relay for the very
    request. *)
Definition self_ext : extern := fun c d =>
  if keqb (c_pid c) tp_id then fun s => rbind (run c (tp_process te no_ext c d) s) (fun s' => Ok (tt, s')) else fail CpiDenied.
Lemma self_rules : tp_ext te 1 self_ext.
Proof.
  intros c d s a s' H. right. unfold self_ext in H. destruct (keqb (c_pid c) tp_id) eqn:P; [|discriminate H]. apply keqb_eq in P.
  split; [exact P|]. exists no_ext. split; [apply no_ext_tp|]. destruct (run c _ s) as [x|] eqn:R; [|discriminate H]. cbn [rbind] in H. injection H as _ ->. reflexivity.
Qed.
Definition tw13_sole : no_collision te tw13.
Proof. apply (demo_no_collision _ _ _ (enc c_wsol_event tev11)). vm_compute. reflexivity. Qed.
Definition ts44 := unres (tstp ts2 (treqS trecv tw13 tround4 127 tev11 tproxyS3)).
Definition ts45 := unres (tstps ts44 (tvotes tw13 tround4)).
Definition ts46 := unres (tstp ts45 (texecS tw13 tproxyS tmintS)).
Definition trunself : list meta * tp_ix := ([ww tw13; ro tp_id; sw trelay4; ro tround4], TpExecutePayloadSol).
Definition ts47 := unres (do_tp te self_ext (fst trunself) (snd trunself) ts46).
Lemma reached46 : reached ts46.
Proof. unfold ts46. demo_more. unfold ts45. demo_votes. unfold ts44. demo_more. unfold ts2. demo_more. unfold ts1. demo_more. apply h_refl. Qed.
Lemma self_call : tp_call te self_ext (ctx_of tp_id (fst trunself)) TpExecutePayloadSol ts46 ts47.
Proof. unfold ts47. apply do_tp_call; [reflexivity|vm_compute; repeat split; discriminate|vm_compute; reflexivity]. Qed.
Lemma self_checked : payload_checked te (ctx_of tp_id (fst trunself)) TpExecutePayloadSol ts46.
Proof.
  intros k HD. cbn in HD. injection HD as <-. split; [discriminate|]. intros _. split; [vm_compute; reflexivity|].
  exists (the_wsol ts46 tw13). split; [vm_compute; reflexivity|]. exists 255, (Some 255). split; vm_compute; reflexivity.
Qed.

Example C46_ex : req_hist te any_instr ts0 ts46 /\ nonneg ts0 /\ no_request ts0 tw13 /\ no_collision te tw13 /\
  hd_error (c_keys (ctx_of tp_id (fst trunself))) = Some tw13 /\ payload_checked te (ctx_of tp_id (fst trunself)) TpExecutePayloadSol ts46 /\
  is_payload TpExecutePayloadSol = true /\ tp_call te self_ext (ctx_of tp_id (fst trunself)) TpExecutePayloadSol ts46 ts47 /\
  tws ts46 tw13 = Some WWaitExecute /\ tws ts47 tw13 = Some WProcessed /\ lam (accs ts47 trelay4) = lam (accs ts46 trelay4) + 20000.
Proof.
  split; [exact reached46|]. split; [apply demo_nonneg; vm_compute; reflexivity|]. split; [intros O; vm_compute in O; discriminate O|].
  split; [exact tw13_sole|]. split; [reflexivity|]. split; [exact self_checked|]. split; [reflexivity|]. split; [exact self_call|].
  split; [vm_compute; reflexivity|]. split; vm_compute; reflexivity.
Qed.

(** C27 fails once payloads call back: the fourth relay's vote is cast in the nested call, which pays the
    relay, and is gone when the outer call ends. *)
Theorem C27_refuted : exists ext c s s1 s' k g m relay,
  reached s /\ tp_ext te 1 ext /\ payload_checked te c TpExecutePayloadSol s /\
  (* the nested call *)
  run (ctx_of tp_id (fst (tvote relay k tround4)))
      (tp_process te no_ext (ctx_of tp_id (fst (tvote relay k tround4))) (enc c_tp_ix (TpVote VConfirm))) s = Ok s1 /\
  request_at te s k g m /\ nth_error (p_signers g) 3 = Some VNone /\
  request_at te s1 k (g_vote g 3 VConfirm) m /\
  lam (accs s1 relay) = lam (accs s relay) + RELAY_REPARATION /\
  (* the whole call *)
  tp_call te ext c TpExecutePayloadSol s s' /\
  lam (accs s' relay) = lam (accs s1 relay) /\
  request_at te s' k (g_meta g (m_status m WProcessed)) (m_status m WProcessed).
Proof.
  pose (s1 := unres (tstp ts46 (tvote trelay4 tw13 tround4))).
  exists self_ext, (ctx_of tp_id (fst trunself)), ts46, s1, ts47, tw13, (the_req ts46 tw13), (the_meta ts46 tw13), trelay4.
  split; [exact reached46|]. split; [exact self_rules|]. split; [exact self_checked|].
  split; [apply ok_unres; vm_compute; reflexivity|].
  split; [demo_req|]. split; [vm_compute; reflexivity|]. split.
  { assert (E : the_req s1 tw13 = g_vote (the_req ts46 tw13) 3 VConfirm) by (vm_compute; reflexivity).
    assert (E2 : the_meta s1 tw13 = the_meta ts46 tw13) by (vm_compute; reflexivity).
    rewrite <- E, <- E2. demo_req. }
  split; [vm_compute; reflexivity|]. split; [exact self_call|]. split; [vm_compute; reflexivity|].
  assert (E : the_req ts47 tw13 = g_meta (the_req ts46 tw13) (m_status (the_meta ts46 tw13) WProcessed)) by (vm_compute; reflexivity).
  assert (E2 : the_meta ts47 tw13 = m_status (the_meta ts46 tw13) WProcessed) by (vm_compute; reflexivity).
  rewrite <- E, <- E2. demo_req.
Qed.

(** * C51 Requests and proposals that come into being *)

(** After a request instruction the account at the derived address is the new request, if it had no
    lamports before (and is neither the funder nor a proxy account).  If it had lamports it is what it
    was. *)
Theorem C51_partial : forall e ext c i s s', tp_call e ext c i s s' -> is_request i = true ->
  exists k, nth_error (c_keys c) 2 = Some k /\
    (lam (accs s k) = 0 -> ~ is_proxy e k -> hd_error (c_keys c) <> Some k ->
       exists g m rls rr, born e c i s s' k g m rls rr /\ request_at e s' k g m /\ wm_status m = WNew) /\
    (lam (accs s k) <> 0 -> ~ is_proxy e k -> hd_error (c_keys c) <> Some k -> same_od s s' k).
Proof.
  intros e ext c i s s' CALL IR.
  assert (IP : is_payload i = false) by (destruct i; try discriminate IR; reflexivity).
  pose proof (C46_others e ext no_ext c i s s' IP CALL) as CALL0.
  assert (PC : payload_checked e c i s) by (intros k _; split; intros E; rewrite E in IP; discriminate IP).
  pose proof CALL as CALL1. apply tp_call_exec in CALL1 as (Hp & _ & _ & H).
  assert (PX : forall p mk r f att rest pn s1 k, proxy_eff e c p mk r f att rest pn s s1 -> ~ is_proxy e k -> f <> k ->
     same_od s s1 k /\ lam (accs s1 k) = lam (accs s k)).
  { intros p mk r f att rest pn s1 k [(_ & _ & ->)|(_ & px & mint & tk & rr & n & s2 & _ & _ & _ & F & _ & MK & LP)] NP NF; [split; [apply same_od_refl|reflexivity]|].
    assert (NK : k <> px). { intros ->. apply NP. rewrite Hp in F. apply find_pda_some in F as [F _]. exists mint, r, n. exact F. }
    destruct LP as (_ & _ & _ & LP1 & _ & LP2 & _). rewrite LP2, (at_other px), (at_other f) by congruence.
    destruct MK as [(_ & _ & _ & MK1 & _ & q & _ & MK2)|[_ ->]]; [|split; [apply LP1|lia]].
    rewrite MK2, (at_other px), (at_other f) by congruence. split; [|lia].
    eapply same_od_trans; [apply MK1; exact NK|apply LP1]. }
  assert (TL : forall E (ce : codec E) f a k rls rr ts lt conf ev evb pn ep tok rcp amt s1, (forall n, pn = Some n -> okb c_u8 n = true) -> same_od s s1 k -> lam (accs s1 k) = lam (accs s k) ->
     tail_eff e c ce f a k rls rr ts lt conf ev evb pn ep tok rcp amt s1 s' ->
     (lam (accs s k) = 0 -> unused s k /\ own (accs s' k) = tp_id /\ exists n pn', kind_at (dat (accs s' k)) = Some (KProposal n pn')) /\
     (lam (accs s k) <> 0 -> same_od s s' k)).
  { intros E ce f a k rls rr ts lt conf ev evb pn ep tok rcp amt s1 OP SO LE (wn & F & [[L ->]|(L & s2 & RE & LP)]).
    - split; [congruence|]. intros _. exact SO.
    - split; [intros _|congruence]. destruct RE as ((R1 & R2 & R3 & r & R4 & _) & _). destruct LP as (_ & _ & _ & LP & _).
      destruct SO as [SO1 SO2]. destruct (LP k) as [LP1 LP2].
      split; [split; congruence|]. split; [congruence|]. exists wn, pn. rewrite LP2, R4.
      unfold c_prop, c_iso. cbn [enc c_pair fst snd new_request p_init p_kind]. rewrite <- !app_assoc. apply kind_at_enc.
      apply ok_kind_p; [eapply bump_ok; exact F|exact OP]. }
  assert (FIN : forall k, nth_error (c_keys c) 2 = Some k -> 
     (unused s k /\ own (accs s' k) = tp_id /\ exists n pn', kind_at (dat (accs s' k)) = Some (KProposal n pn')) ->
     exists g m rls rr, born e c i s s' k g m rls rr /\ request_at e s' k g m /\ wm_status m = WNew).
  { intros k _ ([U1 U2] & O & n & pn & KA).
    assert (NR : no_request s k) by (intros O2; rewrite U1 in O2; discriminate O2).
    destruct (request_born e no_ext c i s s' k CALL0 (no_ext_tp _ _) PC NR) as [X|(g & m & rls & rr & B)]; [destruct (X O n pn KA)|].
    exists g, m, rls, rr. split; [exact B|]. split; [apply B|]. rewrite (bo_meta _ _ _ _ _ _ _ _ _ _ B). reflexivity. }
  destruct i; try discriminate IR; cbn [tp_exec] in H.
  - apply tp_withdraw_ever_request_ok in H as (f & a & wk & rlsk & rrk & x & y & z & rest & K & B).
    destruct B as (rls & rpn & rr & pn & s1 & S & _ & _ & VR & VO & LV & PF & T). exists wk.
    assert (NT : nth_error (c_keys c) 2 = Some wk) by (rewrite K; reflexivity). split; [exact NT|].
    split; intros L NP NF; (assert (NF' : f <> wk) by (intros ->; apply NF; rewrite K; reflexivity));
      destruct (PX _ _ _ _ _ _ _ _ _ PF NP NF') as [SO LE]; destruct (TL _ _ _ _ _ _ _ _ _ _ _ _ _ _ _ _ _ _ (proxy_eff_pn _ _ _ _ _ _ _ _ _ _ _ PF) SO LE T) as [T1 T2]; auto.
  - apply tp_withdraw_sol_request_ok in H as (f & a & wk & tsk & rlsk & rrk & x & y & z & rest & K & B).
    destruct B as (tks & vn & sv & mint & rls & rpn & rr & pn & s1 & S & V & KT & VR & VO & LV & PF & T). exists wk.
    assert (NT : nth_error (c_keys c) 2 = Some wk) by (rewrite K; reflexivity). split; [exact NT|].
    split; intros L NP NF; (assert (NF' : f <> wk) by (intros ->; apply NF; rewrite K; reflexivity));
      destruct (PX _ _ _ _ _ _ _ _ _ PF NP NF') as [SO LE]; destruct (TL _ _ _ _ _ _ _ _ _ _ _ _ _ _ _ _ _ _ (proxy_eff_pn _ _ _ _ _ _ _ _ _ _ _ PF) SO LE T) as [T1 T2]; auto.
Qed.

(** The same for proposals of the round loader. *)
Theorem C51_round_loader_partial : forall e c r ts lt conf h s s', rl_call e c (RlCreateProposal r ts lt conf h) s s' ->
  exists k author pn rest, nth_error (c_keys c) 2 = Some k /\ nth_error (c_keys c) 1 = Some author /\ c_sg c author = true /\
    find_pda e (sd_proposal r ts lt conf h) rl_id = Ok (k, pn) /\
    (lam (accs s k) = 0 -> own (accs s' k) = rl_id /\ blen (dat (accs s' k)) = RL_PROPOSAL_LEN /\
       dat (accs s' k) = enc c_rl_proposal (Prop_ false (KProposal pn None) author r 0 (Pda ts lt conf)
                            (WithLen 0 (RlEvent 0 [] 0)) (WithLen 1 PNew) []) ++ rest) /\
    (lam (accs s k) <> 0 -> s' = s).
Proof.
  intros e c r ts lt conf h s s' CALL. apply call_exec in CALL as (Hp & _ & H & _). cbn [rl_exec] in H.
  apply rl_create_proposal_ok in H as (f & a & k & x & rest & pn & K & S & F & B). rewrite Hp in *.
  destruct B as [[L ->]|(L & (_ & O & rr & D & _ & LE) & _)]; exists k, a, pn; [exists []|exists rr]; rewrite K; (split; [reflexivity|]); (split; [reflexivity|]); (split; [exact S|]); (split; [exact F|]); split; try congruence.
  intros _. auto.
Qed.

(** Nothing comes into being at an address that somebody sent a lamport to: the instruction succeeds and
    the account is what it was. *)
Definition ts49 := unres (tstp ts2 (treqS trecv tw11 tround 107 tev10 [])).
Theorem C51_refuted : exists c i s s' k,
  reached s /\ tp_call te no_ext c i s s' /\ is_request i = true /\ nth_error (c_keys c) 2 = Some k /\
  lam (accs s k) = 1 /\ own (accs s' k) = sys_id /\ dat (accs s' k) = [].
Proof.
  exists (ctx_of tp_id (fst (treqS trecv tw11 tround 107 tev10 []))), (snd (treqS trecv tw11 tround 107 tev10 [])), ts2, ts49, tw11.
  split. { unfold ts2. demo_more. unfold ts1. demo_more. apply h_refl. }
  split. { unfold ts49. demo_call. }
  split; [reflexivity|]. split; [reflexivity|]. split; [vm_compute; reflexivity|]. split; vm_compute; reflexivity.
Qed.
Definition ds20 := put_lam ds4 de_prop 1.
Definition ds21 := unres (stp ds20 de_create).
Theorem C51_round_loader_refuted : exists c i s s' k,
  rl_hist de ds0 s /\ rl_call de c i s s' /\ (exists r ts lt conf h, i = RlCreateProposal r ts lt conf h) /\
  nth_error (c_keys c) 2 = Some k /\ lam (accs s k) = 1 /\ own (accs s' k) = sys_id /\ dat (accs s' k) = [].
Proof.
  exists (ctx_of rl_id (fst de_create)), (snd de_create), ds20, ds21, de_prop. split.
  { eapply h_foreign; [exact ds4_hist|]. intros k. unfold ds20. 
    assert (SO : same_od ds4 (put_lam ds4 de_prop 1) k) by (split; [apply own_put_lam|apply dat_put_lam]).
    destruct (key_dec k de_prop) as [->|N].
    - rewrite lam_put_lam. split; [lia|]. split; [intros _; split; [exact SO|vm_compute; discriminate]|]. split; [|intros _ _; exact SO].
      intros A B. destruct SO as [SO _]. congruence.
    - rewrite lam_put_lam_other by exact N. split; [auto|]. split; [intros _; split; [exact SO|lia]|]. split; [|intros _ _; exact SO].
      intros A B. destruct SO as [SO _]. congruence. }
  split. { split; [reflexivity|]. exists (enc c_rl_ix (snd de_create)). split; [apply try_from_slice_rt; [typeclasses eauto|reflexivity]|].
    unfold ds21, stp, do_rl. apply ok_unres. vm_compute. reflexivity. }
  split; [repeat eexists|]. split; [reflexivity|]. split; [vm_compute; reflexivity|]. split; vm_compute; reflexivity.
Qed.

Example C51_ex : tp_call te no_ext (ctx_of tp_id (fst (treqS trecv tw1 tround 7 tev1 []))) (snd (treqS trecv tw1 tround 7 tev1 [])) ts2 ts3 /\
  lam (accs ts2 tw1) = 0 /\ ~ is_proxy te tw1 /\ tws ts3 tw1 = Some WNew.
Proof.
  split; [unfold ts3; demo_call|]. split; [vm_compute; reflexivity|]. split; [apply demo_not_proxy; vm_compute; reflexivity|vm_compute; reflexivity].
Qed.

(** * C52 Several payload withdrawals *)

(** The instruction asks for a withdrawal of token [mint] to [recipient] with a payload. *)
Definition asks_payload (e : env) (c : ctx) (i : tp_ix) (s : state) (mint recipient : key) : Prop :=
  match i with
  | TpWithdrawEverRequest _ _ _ token _ _ _ r _ payload _ =>
      payload <> [] /\ r = recipient /\ tp_addr e (str "mint" ++ kb (token_hash e token)) mint
  | TpWithdrawSolRequest _ _ _ r _ payload _ => payload <> [] /\ r = recipient /\ exists tsk ts vault,
      nth_error (c_keys c) 3 = Some tsk /\ token_at e s tsk ts /\ tk_kind ts = TKSol mint vault
  | _ => False
  end.

(** Such a request needs an address of the proxy account that belongs to the system program, and leaves
    one that belongs to the token program. *)
Theorem C52_blocked : forall e ext c i s s' mint recipient proxy,
  tp_call e ext c i s s' -> asks_payload e c i s mint recipient -> tp_addr e (str "proxy" ++ kb mint ++ kb recipient) proxy ->
  own (accs s proxy) = sys_id /\ (dat (accs s proxy) = [] -> own (accs s' proxy) = spl_id).
Proof.
  intros e ext c i s s' mint recipient proxy CALL AS PA. apply tp_call_exec in CALL as (Hp & _ & _ & H).
  assert (MAIN : forall E (ce : codec E) p f att rest pn a wk rls rr ts lt conf ev evb ep tok rcp amt s1 mint0,
    proxy_eff e c p (Ok mint0) recipient f att rest pn s s1 -> p <> [] -> mint0 = mint ->
    tail_eff e c ce f a wk rls rr ts lt conf ev evb pn ep tok rcp amt s1 s' ->
    own (accs s proxy) = sys_id /\ (dat (accs s proxy) = [] -> own (accs s' proxy) = spl_id)).
  { intros E ce p f att rest pn a wk rls rr ts lt conf ev evb ep tok rcp amt s1 mint0 [(E0 & _)|(_ & px & m & tk & r & n & s2 & _ & EM & _ & F & O & MK & LP)] NE -> T; [contradiction|].
    injection EM as <-. assert (px = proxy) by (apply (tp_addr_fun e (sd_proxy mint recipient)); [exact PA|rewrite Hp in F; exists n; exact F]). subst px.
    split; [exact O|]. intros D. destruct MK as [(_ & (t & [T1 _] & _) & _)|[X _]]; [|contradiction].
    destruct LP as (_ & _ & _ & LP & _). destruct (LP proxy) as [O1 _].
    destruct T as (wn & _ & [[_ ->]|(_ & s3 & RE & LP2)]); [congruence|]. destruct RE as ((R1 & _) & _ & SO & _).
    destruct LP2 as (_ & _ & _ & LP2 & _). destruct (LP2 proxy) as [O2 _].
    destruct (key_dec proxy wk) as [->|NK]; [exfalso|destruct (SO proxy NK) as [O3 _]; congruence].
    assert (spl_id = sys_id) by congruence. discriminate. }
  destruct i; try contradiction AS; cbn [tp_exec asks_payload] in *.
  - destruct AS as (NE & -> & AD). apply tp_withdraw_ever_request_ok in H as (f & a & wk & rlsk & rrk & x & y & z & rest & K & B).
    destruct B as (rls & rpn & rr & pn & s1 & S & _ & _ & VR & VO & LV & PF & T). cbn [wee_token wee_payload wee_recipient] in PF.
    destruct AD as (n & AD). rewrite Hp in PF. unfold sd_mint in PF at 1. rewrite AD in PF. cbn [rbind] in PF.
    eapply MAIN; [exact PF|exact NE|reflexivity|exact T].
  - destruct AS as (NE & -> & tsk' & ts' & v' & K3 & TA & TK). apply tp_withdraw_sol_request_ok in H as (f & a & wk & tsk & rlsk & rrk & x & y & z & rest & K & B).
    destruct B as (tks & vn & sv & mint0 & rls & rpn & rr & pn & s1 & S & V & KT & VR & VO & LV & PF & T).
    rewrite K in K3. injection K3 as <-. rewrite Hp in V. destruct (token_spec _ _ _ _ _ V) as [_ U]. destruct TA as [_ U'].
    pose proof (eq_trans (eq_sym U) U') as Q. injection Q as Q. subst ts'. rewrite KT in TK. injection TK as E1 E2.
    eapply MAIN; [exact PF|exact NE|exact E1|exact T].
Qed.

(** Once a payload withdrawal was requested there is no second one for the same recipient and token,
    whatever accounts and data are given. *)
Theorem C52_refuted : exists s mint recipient c i s0,
  reached s /\ tp_call te no_ext c i s0 s /\ asks_payload te c i s0 mint recipient /\
  forall ext c' i' s', asks_payload te c' i' s mint recipient -> ~ tp_call te ext c' i' s s'.
Proof.
  exists ts12, tmintS, trecv, (ctx_of tp_id (fst (treqS trecv tw3 tround 27 tev3 tproxyS3))), (snd (treqS trecv tw3 tround 27 tev3 tproxyS3)), ts2.
  split. { unfold ts12. demo_more. unfold ts2. demo_more. unfold ts1. demo_more. apply h_refl. }
  split. { unfold ts12. demo_call. }
  split. { split; [discriminate|]. split; [reflexivity|]. exists ttsS, (the_token ts2 ttsS), tvault. split; [reflexivity|].
    split; [split; [exists 255; vm_compute; reflexivity|vm_compute; reflexivity]|vm_compute; reflexivity]. }
  intros ext c' i' s' AS CALL. destruct (C52_blocked _ _ _ _ _ _ _ _ tproxyS CALL AS) as [O _]; [exists 255; vm_compute; reflexivity|].
  vm_compute in O. discriminate O.
Qed.

(** * C53 Deposits of native SOL *)

(** The native proxy, called in context [c] with data that decodes to [i], turns [s] into [s']. *)
Definition np_call (e : env) (ext : extern) (c : ctx) (i : np_ix) (s s' : state) : Prop :=
  clock_ok s /\ exists d, try_from_slice c_np_ix d = Some i /\ run c (np_process e ext c d) s = Ok s'.

(** The wrapped-SOL account [ata] of [wallet] was missing and is made, paid for by [funder]. *)
Definition wrapped_made (e : env) (s s1 : state) (funder wallet ata : key) : Prop :=
  own (accs s ata) = sys_id /\ dat (accs s ata) = [] /\
  (exists t, tok_in s1 ata t /\ ta_mint t = native_mint /\ ta_owner t = wallet) /\
  (forall k, k <> ata -> same_od s s1 k) /\ same_env s s1 /\
  exists p, 0 <= p /\ dlam s s1 (fun j => at_key ata p j - at_key funder p j).

Theorem C53 : forall e ext c seed amount recipient value evers payload s s',
  np_call e ext c (NpDeposit seed amount recipient value evers payload) s s' ->
  exists funder sender ata vault deposit mv tsk settings rest s1 s2 c' t,
    (exists x y, c_keys c = funder :: sender :: ata :: x :: y :: native_mint :: rest) /\
    c_sg c sender = true /\
    (exists n, find_pda e (kb sender ++ kb spl_id ++ kb native_mint) ata_id = Ok (ata, n)) /\
    (* the wrapped-SOL account of the sender exists, or is made *)
    (lam (accs s ata) <> 0 /\ s1 = s \/ lam (accs s ata) = 0 /\ wrapped_made e s s1 funder sender ata) /\
    (* exactly [amount] lamports go from the sender into it and are counted as tokens *)
    amount <= lam (accs s1 sender) /\
    (forall k, lam (accs s2 k) = lam (accs s1 k) + (if keqb k ata then amount else 0) - (if keqb k sender then amount else 0)) /\
    (forall k, k <> ata -> same_od s1 s2 k) /\
    tok_in s1 ata t /\ fst (ta_native t) = true /\ 
    tok_in s2 ata (ta_with t (wrap64 (lam (accs s2 ata) - snd (ta_native t))) (ta_delegate t) (ta_damount t)) /\
    (* then the token proxy performs the deposit of [amount] from that account into the vault of wrapped SOL *)
    c_keys c' = [funder; sender; ata; vault; deposit; native_mint; mv; tsk; settings; sys_id; spl_id; rent_id] /\
    tp_addr e (str "vault" ++ kb native_mint) vault /\ tp_addr e (str "settings" ++ kb native_mint) tsk /\
    tp_addr e (str "deposit" ++ le 16 seed) deposit /\
    tp_call e ext c' (TpDepositSol seed (str "Wrapped SOL") (str "wSOL") amount recipient value evers payload) s2 s'.
Proof.
  intros e ext c seed amount recipient value evers payload s s' (CK & d & D & R).
  unfold run in R. destruct (np_process e ext c d s) as [[u sx]|] eqn:H; [|discriminate R].
  destruct (_ =? _); [|discriminate R]. injection R as ->. destruct u.
  unfold np_process in H. rewrite D in H. cbn [ok_or] in H. apply bind_ok in H as (i & s0 & LI & H). apply lift_ok in LI as [E ->].
  injection E as <-. cbv beta iota in H.
  apply try_from_slice_can in D as [_ OI]; [|typeclasses eauto]. cbn [okb c_np_ix] in OI.
  unfold np_deposit in H. destruct (c_keys c) as [|funder [|sender [|ata0 [|x [|y [|mint rest]]]]]] eqn:K; try discriminate H.
  apply bind_ok in H as (u1 & s0 & G & H). apply guard_ok in G as [G ->]. apply keqb_eq in G. subst mint. cbv beta in H.
  apply bind_ok in H as ([ata n] & s0 & LF & H). apply lift_ok in LF as [F ->]. cbv beta iota in H.
  apply bind_ok in H as (u2 & s0 & G & H). apply guard_ok in G as [G ->]. apply keqb_eq in G. subst ata0. cbv beta in H.
  apply bind_ok in H as (a & s0 & GA & H). unfold get in GA. injection GA as <- <-. cbv beta in H.
  apply bind_ok in H as (u3 & s1 & MK & H). cbv beta in H.
  apply bind_ok in H as (u4 & s1b & TR & H). cbv beta in H.
  apply bind_ok in H as (u5 & s2 & SY & H). cbv beta in H.
  apply bind_ok in H as (ms & s0 & LM & H). apply lift_ok in LM as [LM ->]. cbv beta in H.
  apply cpi_inv in H as [H _]. unfold as_nested in H. destruct (run _ _ s2) as [s3|] eqn:R; [|discriminate H]. injection H as ->.
  apply invoke_transfer_ok in TR as (SG & _ & LE & SO & EN & DL & _).
  apply invoke_sync_native_ok in SY as (t & T & NA & SY). cbv zeta in SY. destruct SY as (T2 & _ & E2).
  unfold deposit_sol_metas in LM.
  destruct (find_pda e (sd_vault native_mint) tp_id) as [[vault vn]|] eqn:FV; [|discriminate LM]. cbn [fst_r rbind] in LM.
  destruct (find_pda e sd_settings tp_id) as [[settings sn]|] eqn:FS; [|discriminate LM]. cbn [fst_r rbind] in LM.
  destruct (find_pda e sd_multivault tp_id) as [[mv mn]|] eqn:FM; [|discriminate LM]. cbn [fst_r rbind] in LM.
  destruct (find_pda e (sd_ts_sol native_mint) tp_id) as [[tsk tn]|] eqn:FT; [|discriminate LM]. cbn [fst_r rbind] in LM.
  destruct (find_pda e (sd_deposit seed) tp_id) as [[deposit dn]|] eqn:FD; [|discriminate LM]. cbn [fst_r rbind] in LM.
  injection LM as <-.
  assert (L2 : forall k, lam (accs s2 k) = lam (accs s1b k)) by (intros k; rewrite E2; apply lam_put_dat).
  assert (MADE : (lam (accs s ata) <> 0 /\ s1 = s \/ lam (accs s ata) = 0 /\ wrapped_made e s s1 funder sender ata) /\ now s1 = now s).
  { destruct (Z.eqb_spec (lam (accs s ata)) 0) as [L|L].
    - apply invoke_ata_create_ok in MK as (ata' & n' & t' & F' & O & DD & TT & TM & TO & _ & OT & EN' & P & _).
      rewrite F in F'. injection F' as <- <-. split; [right|apply EN']. split; [exact L|]. split; [exact O|]. split; [exact DD|].
      split; [exists t'; auto|]. split; [exact OT|]. split; [exact EN'|]. destruct P as (p & P0 & P1 & _). exists p. auto.
    - injection MK as _ ->. split; [left; auto|reflexivity]. }
  destruct MADE as [MADE N1].
  exists funder, sender, ata, vault, deposit, mv, tsk, settings, rest, s1, s2, 
    (ctx_of tp_id [Meta funder true true; Meta sender true true; Meta ata false true; Meta vault false true; Meta deposit false true;
       Meta native_mint false true; Meta mv false true; Meta tsk false true; Meta settings false false; Meta sys_id false false; Meta spl_id false false; Meta rent_id false false]), t.
  split; [exists x, y; reflexivity|]. split; [exact SG|]. split; [exists n; exact F|]. split; [exact MADE|]. split; [exact LE|].
  split; [intros k; rewrite L2, DL; unfold at_key; lia|].
  split; [intros k NK; eapply same_od_trans; [apply SO|rewrite E2; apply same_od_put_dat_other; exact NK]|].
  split. { destruct (SO ata) as [SO1 SO2]. destruct T as [TO TD]. split; [congruence|]. unfold tacc_in in *. rewrite <- SO2. exact TD. }
  split; [exact NA|]. split; [rewrite L2; exact T2|]. split; [reflexivity|].
  split; [exists vn; exact FV|]. split; [exists tn; exact FT|]. split; [exists dn; exact FD|].
  split; [reflexivity|]. split.
  { unfold clock_ok in *. replace (now s2) with (now s); [exact CK|]. destruct EN as [EN1 EN2]. rewrite E2. cbn [put_dat put now]. congruence. }
  eexists. split; [|exact R]. apply try_from_slice_rt; [typeclasses eauto|].
  clear - OI. change (okb c_u128 seed && (okb c_u64 amount && (okb c_ever recipient && (okb c_u64 value && (true && okb c_bytes payload)))) = true) in OI.
  change (okb c_u128 seed && (true && (true && (okb c_u64 amount && (okb c_ever recipient && (okb c_u64 value && (true && okb c_bytes payload)))))) = true).
  rewrite !andb_true_iff in *. tauto.
Qed.

(** The user wraps and deposits 40000 lamports; their wrapped-SOL account, the vault and the token
    settings do not exist yet. *)
Definition tnative : list meta :=
  [sw tfunder; sw tuser; ww tuserN; ww tvaultN; ww td5; ww native_mint; ww tmv; ww ttsN; ro tset; ro sys_id; ro spl_id;
   ro rent_id; ro ata_id; ro tp_id].
Definition tnp : np_ix := NpDeposit 5 40000 teverX 1000 (knum 72) [].
Definition ts50 := unres (run (ctx_of np_id tnative) (np_process te no_ext (ctx_of np_id tnative) (enc c_np_ix tnp)) ts2).
Example C53_ex : np_call te no_ext (ctx_of np_id tnative) tnp ts2 ts50 /\
  lam (accs ts2 tuserN) = 0 /\ lam (accs ts50 tuser) = lam (accs ts2 tuser) - 40000 /\ balance ts50 tuserN = 0 /\ balance ts50 tvaultN = 40000.
Proof.
  split.
  { split; [vm_compute; repeat split; discriminate|]. exists (enc c_np_ix tnp). split; [apply try_from_slice_rt; [typeclasses eauto|reflexivity]|].
    apply ok_unres. vm_compute. reflexivity. }
  split; [vm_compute; reflexivity|]. split; [vm_compute; reflexivity|]. split; vm_compute; reflexivity.
Qed.

Print Assumptions C27_refuted.
Print Assumptions C46_others.
Print Assumptions C46_partial.
Print Assumptions C46_refuted.
Print Assumptions C51_partial.
Print Assumptions C51_round_loader_partial.
Print Assumptions C51_refuted.
Print Assumptions C51_round_loader_refuted.
Print Assumptions C52_blocked.
Print Assumptions C52_refuted.
Print Assumptions C53.
