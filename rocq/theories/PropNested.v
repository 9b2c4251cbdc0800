(** Properties C26, C28, C41 and C42 for instructions whose payloads call the token proxy again, to any
    depth, and for payload execution on any account. *)

From Coq Require Import Strings.String ZifyBool ZifyNat ZifyN.
From Verif Require Import TpDemoLaws TpFlow Nested PropTpFlow PropTpMisc.
Open Scope Z_scope.
Open Scope list_scope.
Ltac Zify.zify_post_hook ::= Z.div_mod_to_equations.

(** * C41 Who lowers the balance of a vault *)

(** What a called program may do: it cannot set the clock, and tokens move by the token program's rules. *)
Definition token_program (c : ctx) (s s' : state) : Prop := now s' = now s /\ token_rules c s s'.

Lemma flow_tokens e c i s s' : tp_flow e c i s s' -> exists f g, tokens s s' f g.
Proof. intros F. destruct F; eauto. Qed.

Lemma locked_tokens s s' f g v : tokens s s' f g -> locked s v -> locked s' v.
Proof.
  intros T (V1 & V2 & t & TI & OW & DE & CL). destruct (to_acc _ _ _ _ T _ _ TI) as (t' & TI' & (_ & O' & _ & _ & C') & D').
  split; [exact V1|]. split; [exact V2|]. exists t'. rewrite O', C'. auto.
Qed.

(** Whatever an instruction does, however deep it nests: a vault stays locked, and its balance does not
    go down except by the calls that may lower it. *)
Lemma vault_steps e l s s' v : steps e (fun k => k <> v) token_program l s s' -> ~ is_proxy e v -> locked s v ->
  locked s' v /\
  (balance s v <= balance s' v \/
   exists c i s1 s2, In (Call c i s1 s2) l /\ balance s2 v < balance s1 v /\ vault_out e c i s1 v).
Proof.
  intros H NP. induction H as [s|c s s' P S [_ R]|c ext i s s' S I C|l1 l2 s s1 s2 _ IH1 _ IH2|c i l s s1 s' Hp S I _ IH Q]; intros L.
  - split; [exact L|left; lia].
  - destruct L as (V1 & V2 & t & T & OW & DE & CL). destruct (R v) as [RT _].
    destruct (RT t T) as (t' & T' & OW' & DE' & CL' & LE); [|congruence|congruence|exact DE|exact CL|].
    { rewrite OW. destruct (c_sg c v) eqn:E; [|reflexivity]. exfalso. exact (S v E eq_refl). }
    split; [split; [exact V1|]; split; [exact V2|]; exists t'; rewrite OW', OW; auto|].
    left. rewrite (balance_tok _ _ _ T), (balance_tok _ _ _ T'). exact LE.
  - destruct (flow_tokens _ _ _ _ _ (flow_call _ _ _ _ _ _ C I)) as (f & g & T). split; [eapply locked_tokens; eassumption|].
    destruct (Z_lt_ge_dec (balance s' v) (balance s v)) as [B|B]; [right|left; lia].
    exists c, i, s, s'. split; [left; reflexivity|]. split; [exact B|]. eapply vault_call; [exact C|exact I|exact L| |exact NP|exact B].
    destruct (c_sg c v) eqn:E; [exfalso; exact (S v E eq_refl)|reflexivity].
  - destruct (IH1 L) as [L1 B1]. destruct (IH2 L1) as [L2 B2]. split; [exact L2|].
    destruct B1 as [B1|(c & i & a & b & IN & X)]; [|right; exists c, i, a, b; rewrite in_app_iff; auto].
    destruct B2 as [B2|(c & i & a & b & IN & X)]; [left; lia|right; exists c, i, a, b; rewrite in_app_iff; auto].
  - destruct (IH L) as [L1 B1]. apply payload_packs_nospl in Q; [|exact Hp]. apply tokens_none in Q.
    split; [eapply locked_tokens; eassumption|]. destruct B1 as [B1|B1]; [left|right; exact B1].
    destruct (to_bal _ _ _ _ Q v) as [E|(N & _)]; [unfold none in E; lia|].
    destruct L1 as (_ & _ & t & [O _] & _). contradiction.
Qed.

(** If an instruction - with its payload's nested calls, of other programs and of the token proxy itself
    to any depth [n] - lowers the balance of a vault, then one of its token-proxy calls lowers it, and that
    call is a withdrawal execution, an approval or a fee withdrawal under its own conditions. *)
Theorem C41 : forall e n s s' v, deep e (fun k => k <> v) token_program n s s' -> ~ is_proxy e v -> locked s v ->
  balance s' v < balance s v ->
  exists l c i s1 s2, steps e (fun k => k <> v) token_program l s s' /\ In (Call c i s1 s2) l /\
    balance s2 v < balance s1 v /\ vault_out e c i s1 v.
Proof.
  intros e n s s' v D NP L B. apply deep_steps in D as (l & H); [|intros k P ->; exact (NP P)|intros c a b [E _]; exact E].
  destruct (vault_steps _ _ _ _ _ H NP L) as [_ [B'|(c & i & s1 & s2 & IN & B1 & VO)]]; [lia|].
  exists l, c, i, s1, s2. auto.
Qed.
(** A vault stays a vault. *)
Theorem C41_locked : forall e n s s' v, deep e (fun k => k <> v) token_program n s s' -> ~ is_proxy e v -> locked s v -> locked s' v.
Proof.
  intros e n s s' v D NP L. apply deep_steps in D as (l & H); [|intros k P ->; exact (NP P)|intros c a b [E _]; exact E].
  apply (vault_steps _ _ _ _ _ H NP L).
Qed.

(** * C42 Who raises the supply of a bridge mint *)

(** What a called program may do: tokens move by the token program's rules, accounts of the token proxy
    and unused addresses derived for it (unless they sign) are left alone, and a token account at such an
    address stays a token account unless it is closed. *)
Definition other_program (e : env) (c : ctx) (s s' : state) : Prop :=
  token_program c s s' /\ foreign_with e (c_sg c) s s' /\
  forall k, is_pda e tp_id k -> c_sg c k = false -> (exists t, tok_in s k t) -> own (accs s' k) = sys_id \/ exists t, tok_in s' k t.

(** [m] is no mint, or one of which only [m] itself can mint. *)
Definition mint_safe (s : state) (m : key) : Prop :=
  plain (own (accs s m)) \/ (exists t, tok_in s m t) \/ exists x, mint_in s m x /\ tm_auth x = (true, m).
Lemma mint_safe_tokens s s' f g m : tokens s s' f g -> mint_safe s m -> mint_safe s' m.
Proof.
  intros T [P|[(t & TI)|(x & M & AU)]].
  - destruct (to_new _ _ _ _ T m (plain_ne _ P)) as [E|[Q|[Q|Q]]]; [left; rewrite E; exact P|left; exact Q|right; left; exact Q|right; right; exact Q].
  - destruct (to_acc _ _ _ _ T _ _ TI) as (t' & TI' & _). right. left. exists t'. exact TI'.
  - destruct (to_mint _ _ _ _ T _ _ M) as (x' & M' & E & _). right. right. exists x'. split; [exact M'|congruence].
Qed.
Lemma supply_plain s m : plain (own (accs s m)) -> supply s m = 0.
Proof. intros P. apply supply_other, plain_ne, P. Qed.

Lemma mint_steps e l s s' m : steps e (fun k => k <> m) (other_program e) l s s' -> is_pda e tp_id m -> mint_safe s m ->
  mint_safe s' m /\
  (supply s' m <= supply s m \/
   exists c i s1 s2, In (Call c i s1 s2) l /\ supply s1 m < supply s2 m /\ mint_out e c i s1 m).
Proof.
  intros H IP. induction H as [s|c s s' P S X|c ext i s s' S I C|l1 l2 s s1 s2 _ IH1 _ IH2|c i l s s1 s' Hp S I _ IH Q]; intros L.
  - split; [exact L|left; lia].
  - assert (SG : c_sg c m = false) by (destruct (c_sg c m) eqn:E; [exfalso; exact (S m E eq_refl)|reflexivity]).
    destruct X as ([_ R] & [_ F] & K). destruct (F m) as (_ & F1 & _ & F2). destruct L as [[O|O]|[T|(x & M & AU)]].
    + pose proof (F2 IP SG O) as SO. split; [left; left; rewrite (proj1 SO); exact O|]. left. rewrite (supply_same _ _ _ SO). lia.
    + destruct (F1 O) as [SO _]. split; [left; right; rewrite (proj1 SO); exact O|]. left. rewrite (supply_same _ _ _ SO). lia.
    + destruct T as (t & T). destruct (K m IP SG (ex_intro _ t T)) as [O|(t' & T')].
      * split; [left; left; exact O|]. left. rewrite (supply_plain s') by (left; exact O). apply supply_range.
      * split; [right; left; exists t'; exact T'|]. left. rewrite (supply_tok _ _ _ T'). apply supply_range.
    + destruct (R m) as [_ RU]. destruct (RU x M) as (x' & M' & A' & LE); [rewrite AU; exact SG|].
      split; [right; right; exists x'; split; [exact M'|congruence]|]. left. rewrite (supply_mint _ _ _ M), (supply_mint _ _ _ M'). exact LE.
  - destruct (flow_tokens _ _ _ _ _ (flow_call _ _ _ _ _ _ C I)) as (f & g & T). split; [eapply mint_safe_tokens; eassumption|].
    destruct (Z_lt_ge_dec (supply s m) (supply s' m)) as [B|B]; [right|left; lia].
    exists c, i, s, s'. split; [left; reflexivity|]. split; [exact B|]. eapply mint_call; eassumption.
  - destruct (IH1 L) as [L1 B1]. destruct (IH2 L1) as [L2 B2]. split; [exact L2|].
    destruct B1 as [B1|(c & i & a & b & IN & X)]; [|right; exists c, i, a, b; rewrite in_app_iff; auto].
    destruct B2 as [B2|(c & i & a & b & IN & X)]; [left; lia|right; exists c, i, a, b; rewrite in_app_iff; auto].
  - destruct (IH L) as [L1 B1]. apply payload_packs_nospl in Q; [|exact Hp]. apply tokens_none in Q.
    split; [eapply mint_safe_tokens; eassumption|]. destruct B1 as [B1|B1]; [left|right; exact B1].
    pose proof (to_sup _ _ _ _ Q m) as E. unfold none in E. lia.
Qed.

(** The same for the supply of a mint of the bridge, from the moment its address is unused. *)
Theorem C42 : forall e n s s' token m, deep e (fun k => k <> m) (other_program e) n s s' ->
  tp_addr e (str "mint" ++ kb (token_hash e token)) m -> ~ is_proxy e m -> own_mint s m ->
  supply s m < supply s' m ->
  exists l c i s1 s2, steps e (fun k => k <> m) (other_program e) l s s' /\ In (Call c i s1 s2) l /\
    supply s1 m < supply s2 m /\ mint_out e c i s1 m.
Proof.
  intros e n s s' token m D (mn & AD) NP OM B. pose proof (find_pda_some _ _ _ _ _ AD) as [PA _].
  apply deep_steps in D as (l & H); [|intros k P ->; exact (NP P)|intros c a b [[E _] _]; exact E].
  assert (MS : mint_safe s m) by (destruct OM as [O|X]; [left; left; exact O|right; right; exact X]).
  destruct (mint_steps _ _ _ _ _ H (ex_intro _ _ PA) MS) as [_ [B'|(c & i & s1 & s2 & IN & B1 & VO)]]; [lia|].
  exists l, c, i, s1, s2. auto.
Qed.

(** ** A payload that executes two other requests *)
(** [tev10] is requested and confirmed beside [tev7]; [tev12] is requested, confirmed and paid; its payload
    executes the other two. *)
Definition ts51 := unres (tstps ts25 (treqS trecv tw16 tround 157 tev10 [] :: tvotes tw16 tround)).
Definition ts52 := unres (tstps ts51 (treqS trecv tw14 tround 137 tev12 tproxyS3 :: tvotes tw14 tround ++ [texecS tw14 tproxyS tmintS])).
Definition trun2 : list meta * tp_ix :=
  (ww tw14 :: ro tp_id :: fst (texecS tw16 trecvS tmintS) ++ fst (texecE tw7 trecvE []), TpExecutePayloadSol).
Definition ts53 := unres (do_tp te self_ext (fst trun2) (snd trun2) ts52).
Lemma self_nest X : nest te X 1 self_ext.
Proof.
  intros c d s a s' H. right. unfold self_ext in H. destruct (keqb (c_pid c) tp_id) eqn:P; [|discriminate H]. apply keqb_eq in P.
  split; [exact P|]. exists no_ext. split; [intros c' d' b x b' H'; destruct (no_ext_never _ _ _ _ H')|].
  destruct (run c _ s) as [x|] eqn:R; [|discriminate H]. cbn [rbind] in H. injection H as _ ->. reflexivity.
Qed.
Lemma run_deep (A : key -> Prop) X : (forall k, c_sg (ctx_of tp_id (fst trun2)) k = false) -> deep te A X 1 ts52 ts53.
Proof.
  intros NS. exists (ctx_of tp_id (fst trun2)), self_ext, (enc c_tp_ix (snd trun2)). split; [reflexivity|]. split; [vm_compute; split; [discriminate|reflexivity]|].
  split; [intros k S; rewrite NS in S; discriminate S|]. split; [apply self_nest|]. unfold ts53. apply ok_unres. vm_compute. reflexivity.
Qed.
Lemma run2_signs k : c_sg (ctx_of tp_id (fst trun2)) k = false.
Proof. unfold ctx_of. cbn [c_sg trun2 fst texecS texecE app existsb m_sg ww ro]. rewrite !andb_false_r. reflexivity. Qed.

Example C41_ex2 : deep te (fun k => k <> tvault) token_program 1 ts52 ts53 /\ ~ is_proxy te tvault /\ locked ts52 tvault /\
  balance ts52 tvault = 30035 /\ balance ts53 tvault = 20040.
Proof.
  split; [apply run_deep, run2_signs|]. split; [apply demo_not_proxy; vm_compute; reflexivity|]. split.
  { split; [discriminate|]. split; [discriminate|]. exists (the_tok ts52 tvault). split; [split; vm_compute; reflexivity|vm_compute; repeat split; reflexivity]. }
  vm_compute. split; reflexivity.
Qed.
Example C42_ex2 : deep te (fun k => k <> tmintE) (other_program te) 1 ts52 ts53 /\
  tp_addr te (str "mint" ++ kb (token_hash te tever)) tmintE /\ ~ is_proxy te tmintE /\ own_mint ts52 tmintE /\
  supply ts52 tmintE = 79960 /\ supply ts53 tmintE = 149925.
Proof.
  split; [apply run_deep, run2_signs|]. split; [exists 255; vm_compute; reflexivity|].
  split; [apply demo_not_proxy; vm_compute; reflexivity|]. split.
  { right. exists (the_mint ts52 tmintE). split; [split; vm_compute; reflexivity|vm_compute; reflexivity]. }
  vm_compute. split; reflexivity.
Qed.

(** * C29 fails once payloads call back *)

(** [tev13], of 50000 tokens with a mint address that begins with a zero byte, is requested on a day whose
    number ends in the byte 5, in a round of ten relays, and confirmed by seven of them; then the request
    is given to the payload execution of Ever tokens. *)
Definition tz1 := unres (tstp ts1 (tdepX ttsZ tuser tuserZ tvaultZ td6 tmintZ 6 200000)).
Definition tz2 := St (accs tz1) (logs tz1) (86400 * 19717).
Definition treqZ : list meta * tp_ix :=
  ([sw tfunder; sw trecv; ww tw15; ro ttsZ; ro trls; ro tround10; ro sys_id; ro rent_id; ro clock_id; ww tproxyZ; ro tmintZ; ro spl_id],
   TpWithdrawSolRequest 147 8 tconf (wse_recipient tev13) (wse_amount tev13) (wse_payload tev13) 5000).
Definition tvotesZ := map (fun r => tvote r tw15 tround10) [trelay1; trelay2; trelay3; trelay4; trelay5; trelay6; trelay10].
Definition tz3 := unres (tstp tz2 treqZ).
Definition tz4 := unres (tstps tz3 tvotesZ).
Definition trunZ : list meta * tp_ix := (fst texecZ ++ [ro tp_id; ro tproxyP], TpExecutePayloadEver).
Definition tz4' := unres (tstp tz4 texecZ).                              (* inside the payload *)
Definition tz5 := unres (do_tp te self_ext (fst trunZ) (snd trunZ) tz4).   (* after the payload *)
Definition tz6 := unres (tstp tz5 texecZ).
Lemma self_runs c d s s' : c_pid c = tp_id -> run c (tp_process te no_ext c d) s = Ok s' -> self_ext c d s = Ok (tt, s').
Proof. intros P R. unfold self_ext. rewrite P, keqb_refl, R. reflexivity. Qed.
Lemma tz4_reached : req_hist te any_instr ts0 tz4.
Proof.
  unfold tz4. demo_votes. unfold tz3. demo_more. unfold tz2.
  apply (h_foreign _ _ _ _ tz1); [|intros k; cbn [accs]; split; [auto|]; split; [intros _; split; [split; reflexivity|lia]|]; split; [intros A B; contradiction|intros _ _; split; reflexivity]].
  unfold tz1. demo_more. unfold ts1. demo_more. apply h_refl.
Qed.

(** The full statement of C29 says that a request is paid at most once while it exists.  Witness: the
    record of a Solana withdrawal is read as one of an Ever token that waits for the execution of its
    payload.  The supposed payload executes the request, which is paid; then the record read before is
    written back, so that the request is new again, and it is paid once more.  An event of 50000 tokens
    is paid 2 * 49975. *)
Theorem C29_refuted : exists e k vault s0 s1 s1' s2 s3 c cr ext g m g' m',
  no_collision e k /\ nonneg s0 /\ no_request s0 k /\ req_hist e any_instr s0 s1 /\
  (* the request and its event *)
  request_at e s1 k g m /\ p_event g = enc c_wsol_event (WSolEvent tmintZ 50000 trecv tpayZ) /\
  (* the instruction that executes a payload, and what it calls: the token proxy *)
  tp_call e ext cr TpExecutePayloadEver s1 s2 /\ signs (ordinary e) cr /\ tp_ext e 1 ext /\
  (exists d, try_from_slice c_tp_ix d = Some TpWithdrawSol /\ ext c d s1 = Ok (tt, s1')) /\ tp_call e no_ext c TpWithdrawSol s1 s1' /\ pays c TpWithdrawSol s1 s1' k /\
  balance s2 vault = balance s1' vault /\
  (* the second payment *)
  request_at e s2 k g' m' /\ wm_status m' = WNew /\ p_event g' = p_event g /\
  tp_call e no_ext c TpWithdrawSol s2 s3 /\ pays c TpWithdrawSol s2 s3 k /\
  balance s1 vault - balance s3 vault = 2 * 49975.
Proof.
  exists te, tw15, tvaultZ, ts0, tz4, tz4', tz5, tz6, (ctx_of tp_id (fst texecZ)), (ctx_of tp_id (fst trunZ)), self_ext,
    (the_req tz4 tw15), (the_meta tz4 tw15), (the_req tz5 tw15), (the_meta tz5 tw15).
  split; [apply (demo_no_collision _ _ _ (enc c_wsol_event tev13)); vm_compute; reflexivity|].
  split; [apply demo_nonneg; vm_compute; reflexivity|]. split; [intros O; vm_compute in O; discriminate O|].
  split; [exact tz4_reached|]. split; [demo_req|]. split; [vm_compute; reflexivity|].
  split; [unfold tz5; apply do_tp_call; [reflexivity|vm_compute; split; [discriminate|reflexivity]|vm_compute; reflexivity]|].
  split. { intros k S. exfalso. revert S. unfold ctx_of. cbn [c_sg trunZ fst texecZ app existsb m_sg ww ro]. rewrite !andb_false_r. discriminate. }
  split; [exact self_rules|].
  assert (C1 : tp_call te no_ext (ctx_of tp_id (fst texecZ)) TpWithdrawSol tz4 tz4') by (unfold tz4'; apply (tstp_call tz4 texecZ); [reflexivity|vm_compute; split; [discriminate|reflexivity]|vm_compute; reflexivity]).
  split.
  { destruct C1 as (_ & _ & d & D & R). exists d. split; [exact D|]. apply self_runs; [reflexivity|exact R]. }
  split; [exact C1|]. split; [split; [reflexivity|]; exists tvaultZ; left; vm_compute; reflexivity|]. split; [vm_compute; reflexivity|].
  split; [demo_req|]. split; [vm_compute; reflexivity|]. split; [vm_compute; reflexivity|].
  split; [unfold tz6; apply (tstp_call tz5 texecZ); [reflexivity|vm_compute; split; [discriminate|reflexivity]|vm_compute; reflexivity]|].
  split; [split; [reflexivity|]; exists tvaultZ; left; vm_compute; reflexivity|]. vm_compute. reflexivity.
Qed.

Print Assumptions C41.
Print Assumptions C41_locked.
Print Assumptions C42.
Print Assumptions C29_refuted.
