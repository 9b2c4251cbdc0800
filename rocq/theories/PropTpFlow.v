(** Properties C26 (payments), C29, C41, C42 and C45: which instructions move tokens of the bridge. *)

From Coq Require Import Strings.String ZifyBool ZifyNat ZifyN.
From Verif Require Import TpDemoLaws TpFlow.
Open Scope Z_scope.
Open Scope list_scope.
Ltac Zify.zify_post_hook ::= Z.div_mod_to_equations.

(** Number of confirmations among the recorded votes. *)
Definition confirmed (l : list vote) : Z := Z.of_nat (List.length (filter (fun v => match v with VConfirm => true | _ => false end) l)).

(** * Vocabulary *)

(** [k] is the token proxy's request to mint, or to pay from a vault, as the event of [w] says, and its
    address is derived from that event. *)
Definition ever_request (e : env) (s : state) (k : key) (w : wever) : Prop :=
  own (accs s k) = tp_id /\ unpack c_wever TP_LEN (@p_init _ _) (dat (accs s k)) = Ok w /\
  tp_addr e (sd_proposal (p_round w) (pd_ts (p_pda w)) (pd_lt (p_pda w)) (pd_conf (p_pda w))
               (e_hash e (enc c_wever_event (wl_data (p_event w))))) k.
Definition sol_request (e : env) (s : state) (k : key) (w : wsol) : Prop :=
  own (accs s k) = tp_id /\ unpack c_wsol TP_LEN (@p_init _ _) (dat (accs s k)) = Ok w /\
  tp_addr e (sd_proposal (p_round w) (pd_ts (p_pda w)) (pd_lt (p_pda w)) (pd_conf (p_pda w))
               (e_hash e (enc c_wsol_event (wl_data (p_event w))))) k.
Definition event_of {E M_} (w : prop (withlen E) M_) : E := wl_data (p_event w).
Definition status_of {E} (w : prop E (withlen wmeta)) : wstatus := wm_status (wl_data (p_meta w)).

Lemma ever_request_is e s k w : tp_wever s k w -> request_addr e tp_id k w (wever_hash e w) -> ever_request e s k w.
Proof. intros [O U] (n & pn & _ & F). split; [exact O|]. split; [exact U|]. exists n. exact F. Qed.
Lemma sol_request_is e s k w : tp_wsol s k w -> request_addr e tp_id k w (wsol_hash e w) -> sol_request e s k w.
Proof. intros [O U] (n & pn & _ & F). split; [exact O|]. split; [exact U|]. exists n. exact F. Qed.
Lemma ever_confirmed (w : wever) s k : tp_wever s k w -> w_confirms w = confirmed (p_signers w).
Proof. intros [_ U]. rewrite (confirms_g w c_wever _ _ _ _ U); [reflexivity|apply signers_small]. Qed.
Lemma sol_confirmed (w : wsol) s k : tp_wsol s k w -> w_confirms w = confirmed (p_signers w).
Proof. intros [_ U]. rewrite (confirms_g w c_wsol _ _ _ _ U); [reflexivity|apply signers_small]. Qed.

(** The withdrawal manager, respectively the manager, of the settings account or the upgrade authority
    signed. *)
Definition wmanager_signed (e : env) (c : ctx) (s : state) : Prop :=
  exists sk st, settings_at e s sk st /\ signed_for e c s (gs_wmanager st).
Definition manager_signed (e : env) (c : ctx) (s : state) : Prop :=
  exists sk st, settings_at e s sk st /\ signed_for e c s (gs_manager st).
Lemma approver_signed e c s : approver e c s -> wmanager_signed e c s.
Proof.
  intros (a & st & SG & SO & EN). destruct (settings_of_spec _ _ _ SO) as [k K]. exists k, st. split; [exact K|].
  eapply entitled_spec; eassumption.
Qed.
Lemma fee_taker_signed e c s : fee_taker e c s -> manager_signed e c s.
Proof.
  intros (a & st & SG & SO & EN). destruct (settings_of_spec _ _ _ SO) as [k K]. exists k, st. split; [exact K|].
  eapply entitled_spec; eassumption.
Qed.

Lemma flow_call e ext c i s s' : tp_call e ext c i s s' -> is_payload i = false -> tp_flow e c i s s'.
Proof. intros C I. apply tp_call_exec in C as (Hp & Oi & _ & H). eapply tp_exec_flow; eassumption. Qed.
(** A new account for wrapped lamports cannot have lost tokens. *)
Lemma lost s s' f g j : tokens s s' f g -> balance s' j < balance s j -> f j < 0.
Proof.
  intros T L. destruct (to_bal _ _ _ _ T j) as [E|(N & _)]; [lia|]. rewrite (balance_other s j N) in L.
  pose proof (balance_range s' j). lia.
Qed.
Lemma grew s s' f g j : tokens s s' f g -> supply s j < supply s' j -> 0 < g j.
Proof. intros T L. rewrite (to_sup _ _ _ _ T j) in L. lia. Qed.
Lemma gain_neg k n j : 0 <= n -> gain k n j < 0 -> False.
Proof. unfold gain. destruct (keqb j k); lia. Qed.
Lemma gain_pos k n j : 0 < gain k n j -> j = k.
Proof. unfold gain. destruct (keqb j k) eqn:E; [intros _; apply keqb_eq; exact E|lia]. Qed.
Lemma shift_neg a b n j : 0 <= n -> shift a b n j < 0 -> j = a.
Proof. unfold shift, gain. destruct (keqb j a) eqn:E; [intros _ _; apply keqb_eq; exact E|]. destruct (keqb j b); lia. Qed.

(** * C26 Payments need the quorum *)

(** An execution instruction that lowers any token balance or raises any token supply: the request it
    names has the required number of confirmations. *)
Theorem C26_payment : forall e ext c i s s', tp_call e ext c i s s' -> i = TpWithdrawEver \/ i = TpWithdrawSol ->
  (exists j, balance s' j < balance s j \/ supply s j < supply s' j) ->
  exists k, hd_error (c_keys c) = Some k /\
    ((exists w, ever_request e s k w /\ p_required w <= confirmed (p_signers w)) \/
     (exists w, sol_request e s k w /\ p_required w <= confirmed (p_signers w))).
Proof.
  intros e ext c i s s' C I (j & M).
  assert (F : tp_flow e c i s s') by (eapply flow_call; [exact C|destruct I as [->| ->]; reflexivity]).
  assert (HD : forall k, wpos i c k -> hd_error (c_keys c) = Some k).
  { intros k W. destruct I as [->| ->]; cbn [wpos] in W; destruct (c_keys c); (discriminate || exact W). }
  destruct F as [T|k w mint mn dst n st H1 RA WP CA _ _ N0 _ _ T|k w vault vn pm dst n st H1 RA WP CA _ _ N0 _ _ T|? ? ? ? ? ? ? ? ? X|? ? ? ? ? ? ? ? X|? ? ? ? ? (? & ? & ? & ? & ? & X)|? ? [(? & ? & ? & ? & ? & ? & ? & ? & X)|(? & ? & ? & ? & ? & ? & X)]|? ? ? ? ? ? X];
    try (exfalso; destruct I as [I|I]; rewrite I in X; discriminate).
  - exfalso. destruct M as [M|M]; [apply (lost _ _ _ _ _ T) in M|apply (grew _ _ _ _ _ T) in M]; unfold none in M; lia.
  - exists k. split; [apply HD, WP|]. left. exists w. split; [apply ever_request_is; assumption|].
    rewrite <- (ever_confirmed _ _ _ H1). destruct CA as [(_ & _ & Q)|(E & _)]; [exact Q|]. destruct I as [I|I]; rewrite I in E; discriminate.
  - exists k. split; [apply HD, WP|]. right. exists w. split; [apply sol_request_is; assumption|].
    rewrite <- (sol_confirmed _ _ _ H1). destruct CA as [(_ & _ & Q)|(E & _)]; [exact Q|]. destruct I as [I|I]; rewrite I in E; discriminate.
Qed.

(** * C29 A request is paid at most once *)

(** Instruction [i] pays the amount of the request at [k] - from a vault or by minting, or from the
    tokens of somebody who fills it - or turns it back into a deposit. *)
Definition pays (c : ctx) (i : tp_ix) (s s' : state) (k : key) : Prop :=
  match i with
  | TpWithdrawEver | TpWithdrawSol =>
      nth_error (c_keys c) 0 = Some k /\ exists j, balance s' j < balance s j \/ supply s j < supply s' j
  | TpApproveEver | TpApproveSol =>
      nth_error (c_keys c) 2 = Some k /\ exists j, balance s' j < balance s j \/ supply s j < supply s' j
  | TpCancel _ _ _ _ _ => nth_error (c_keys c) 3 = Some k
  | TpFill _ _ _ _ _ _ => exists n recipient, nth_error (c_keys c) (11 + 2 * n) = Some k /\ nth_error (c_keys c) (12 + 2 * n) = Some recipient
  | _ => False
  end.
Definition unpaid (st : wstatus) : Prop := st = WNew \/ st = WPending \/ st = WWaitApprove.
Definition paid (st : wstatus) : Prop := st = WProcessed \/ st = WCancelled \/ st = WWaitExecute.

Lemma packed_moves {E} (ce : codec E) (Le : Lawful ce) c s s' wk (w : prop E (withlen wmeta)) st :
  c_pid c = tp_id -> packed c (c_prop ce (c_withlen c_wmeta)) TP_LEN s s' wk (w_set_status w st) ->
  unpack (c_prop ce (c_withlen c_wmeta)) TP_LEN (@p_init _ _) (dat (accs s wk)) = Ok w -> w_status w <> st ->
  held (c_prop ce (c_withlen c_wmeta)) (@p_init _ _) s wk w /\ held (c_prop ce (c_withlen c_wmeta)) (@p_init _ _) s' wk (w_set_status w st).
Proof.
  intros Hp PK U NS.
  assert (O : okb (c_prop ce (c_withlen c_wmeta)) w = true) by (eapply okb_unpack; [typeclasses eauto|exact U]).
  assert (I : p_init w = true) by (apply unpack_unchecked_init in U; apply U).
  destruct (packed_cases c (c_prop ce (c_withlen c_wmeta)) _ (@p_init _ _) s s' wk (w_set_status w st) w Hp PK U) as [X|X];
    [apply okb_set_status; exact O|exact I| |exact X].
  exfalso. apply NS. rewrite <- (w_set_status_eq w st). f_equal. destruct X as [_ X].
  apply unpack_unchecked_init in U as [U _].
  eapply (prop_bytes_eq (c_prop ce (c_withlen c_wmeta)) _ _ _ _ _ U); [apply okb_set_status; exact O|].
  apply packed_wrote in PK. destruct PK as (_ & W & _). rewrite <- X at 1. exact W.
Qed.

(** Every pair of a fill is filled. *)
Lemma fill_run_pays e c au at_ sm dk f fees nets l s fees' nets' l' s' : c_pid c = tp_id ->
  fill_run e c au at_ sm dk f fees nets l s fees' nets' l' s' ->
  forall n k rt, nth_error l (2 * n) = Some k -> nth_error l (S (2 * n)) = Some rt ->
  exists w, tp_wsol s k w /\ request_addr e tp_id k w (wsol_hash e w) /\ w_status w = WPending /\ tp_wsol s' k (w_set_status w WProcessed).
Proof.
  intros Hp R. induction R as [fees nets l s L|fees nets wd rt0 l s fee net s1 fees' nets' l' s' F R IH].
  - intros n wk rt A B. assert (S (2 * n) < List.length l)%nat by (apply nth_error_Some; congruence). lia.
  - assert (FW : exists w, tp_wsol s wd w /\ request_addr e tp_id wd w (wsol_hash e w) /\ w_status w = WPending /\ tp_wsol s1 wd (w_set_status w WProcessed)).
    { clear IH R. destruct F as (w & r & out & s2 & s3 & [U RA] & ST & _ & _ & _ & _ & _ & _ & _ & _ & _ & [MV _] & PK & ->). rewrite Hp in *.
      assert (SO : same_od s s2 wd) by (apply (moved_step _ _ _ _ _ _ MV); eapply unpack_len; [|exact U]; typeclasses eauto).
      exists w. destruct (packed_moves (c_withlen c_wsol_event) _ c _ _ _ w WProcessed Hp PK) as [H1 H2].
      - destruct SO as [_ SO]. cbn [accs put_log]. rewrite SO. exact U.
      - rewrite ST. discriminate.
      - split; [exact (held_same _ _ _ _ _ _ (same_od_sym _ _ _ SO) H1)|]. split; [exact RA|]. split; [exact ST|exact H2]. }
    intros n k rt A B. destruct (key_dec k wd) as [->|NE].
    + destruct FW as (w & W1 & RA & ST & W2). exists w. split; [exact W1|]. split; [exact RA|]. split; [exact ST|].
      destruct (fill_run_cases _ _ _ _ _ _ _ _ _ _ _ _ _ _ _ wd Hp R) as [[SO|[X _]]|(m & w' & _ & W1' & _ & ST' & _)].
      * exact (held_same _ _ _ _ _ _ SO W2).
      * destruct W2; contradiction.
      * exfalso. destruct W1' as [_ U1], W2 as [_ U2]. assert (w' = w_set_status w WProcessed) by congruence. subst w'. discriminate.
    + destruct n as [|n]; [cbn in A; congruence|].
      replace (2 * S n)%nat with (S (S (2 * n))) in A, B by lia. cbn [nth_error] in A, B.
      destruct (IH n k rt A B) as (w & W1 & RA & ST & W2). exists w. split; [|auto].
      destruct (fill_one_cases _ _ _ _ _ _ _ _ _ _ _ _ _ k Hp F) as [[SO|[_ X]]|(E & _)].
      * exact (held_same _ _ _ _ _ _ (same_od_sym _ _ _ SO) W1).
      * destruct W1; contradiction.
      * contradiction.
Qed.

Lemma paid_paid p st : paid_status p st -> paid st.
Proof. intros [[_ ->]|[_ ->]]; unfold paid; auto. Qed.

Lemma pays_typed e ext c i s s' k : tp_call e ext c i s s' -> pays c i s s' k ->
  exists st', paid st' /\
  ((exists w, tp_wever s k w /\ request_addr e tp_id k w (wever_hash e w) /\ unpaid (w_status w) /\ tp_wever s' k (w_set_status w st')) \/
   (exists w, tp_wsol s k w /\ request_addr e tp_id k w (wsol_hash e w) /\ unpaid (w_status w) /\ tp_wsol s' k (w_set_status w st'))).
Proof.
  intros C P.
  assert (FL : is_payload i = false -> (exists j, balance s' j < balance s j \/ supply s j < supply s' j) ->
    (forall k', wpos i c k' -> k' = k) ->
    match i with TpWithdrawEver | TpWithdrawSol | TpApproveEver | TpApproveSol => True | _ => False end ->
    exists st', paid st' /\
  ((exists w, tp_wever s k w /\ request_addr e tp_id k w (wever_hash e w) /\ unpaid (w_status w) /\ tp_wever s' k (w_set_status w st')) \/
   (exists w, tp_wsol s k w /\ request_addr e tp_id k w (wsol_hash e w) /\ unpaid (w_status w) /\ tp_wsol s' k (w_set_status w st')))).
  { intros I (j & M) PO W. pose proof (flow_call _ _ _ _ _ _ C I) as F.
    destruct F as [T|k0 w mint mn dst n st H1 RA WP CA _ _ N0 PS H2 T|k0 w vault vn pm dst n st H1 RA WP CA _ _ N0 PS H2 T|? ? ? ? ? ? ? ? ? X|? ? ? ? ? ? ? ? X|? ? ? ? ? (? & ? & ? & ? & ? & X)|? ? [(? & ? & ? & ? & ? & ? & ? & ? & X)|(? & ? & ? & ? & ? & ? & X)]|? ? ? ? ? ? X];
      try (exfalso; subst i; exact W).
    - exfalso. destruct M as [M|M]; [apply (lost _ _ _ _ _ T) in M|apply (grew _ _ _ _ _ T) in M]; unfold none in M; lia.
    - rewrite (PO _ WP) in *. exists st. split; [eapply paid_paid; exact PS|]. left. exists w. repeat (split; try assumption).
      unfold unpaid. destruct CA as [(_ & -> & _)|(_ & -> & _)]; auto.
    - rewrite (PO _ WP) in *. exists st. split; [eapply paid_paid; exact PS|]. right. exists w. repeat (split; try assumption).
      unfold unpaid. destruct CA as [(_ & [-> | ->] & _)|(_ & -> & _)]; auto. }
  destruct i; try contradiction; cbn [pays] in P.
  1-4: destruct P as [P1 P2]; apply FL; [reflexivity|exact P2|intros k' W; cbn [wpos] in W; congruence|exact Logic.I].
  - clear FL. exists WCancelled. split; [unfold paid; auto|]. right.
    apply tp_call_exec in C as (Hp & Oi & _ & H). cbn [tp_exec] in H.
    apply tp_cancel_ok in H as (f & a & mint & wk & dk & sk & tsk & x & y & mv & rest & K & B).
    rewrite K in P. cbn [nth_error] in P. injection P as ->.
    destruct B as (st & pn & w & ts & vn & sv & md & dn & fee & amt & s1 & s2 & S & VS & GE & [U RA] & AU & ST & V & KT & EM & VM & _ & _ & PD & _ & _ & _ & _ & LP & RE & PK).
    rewrite Hp in *.
    destruct (recorded_deposit (c_withlen c_dsol_event) e c dn a _ _ f dk _ s1 s2 Hp PD RE) as (UN & OD & LD & KD).
    assert (SL : forall j, same_od s s1 j) by (intros j; apply LP).
    assert (ND : k <> dk).
    { intros ->. destruct UN as [_ UN]. destruct (SL dk) as [_ SB]. rewrite SB in UN. apply unpack_len in U; [|typeclasses eauto]. rewrite UN in U. discriminate. }
    assert (SO2 : same_od s s2 k) by (apply (same_od_trans _ s1); [apply SL|apply RE; exact ND]).
    exists w. destruct (packed_moves (c_withlen c_wsol_event) _ c _ _ _ w WCancelled Hp PK) as [H1 H2].
    + destruct SO2 as [_ SO2]. cbn [accs put_log]. rewrite SO2. exact U.
    + rewrite ST. discriminate.
    + split; [exact (held_same _ _ _ _ _ _ (same_od_sym _ _ _ SO2) H1)|]. split; [exact RA|]. split; [unfold unpaid; auto|exact H2].
  - clear FL. exists WProcessed. split; [unfold paid; auto|]. right. destruct P as (n & rt & N1 & N2).
    pose proof C as C0. apply tp_call_exec in C as (Hp & Oi & _ & H). cbn [tp_exec] in H.
    pose proof H as H0.
    apply tp_fill_ok in H as (f & a & at_ & mint & dk & sk & x & tsk & y & z & mv & rest & K & B).
    destruct B as (st & pn & ts & vn & sm & sv & md & dn & fees & nets & vk & unread & vv & fee & amt & s1 & s2 & s3 & s4 & S & VS & GE & V & KT & EM & VM & _ & _ & PD & PV & LP & FR & (CR & _ & _ & _) & _ & _ & _ & _ & [MV _] & _ & _ & _ & PK).
    rewrite K in N1, N2.
    change (12 + 2 * n)%nat with (Datatypes.S (Datatypes.S (Datatypes.S (Datatypes.S (Datatypes.S (Datatypes.S (Datatypes.S (Datatypes.S (Datatypes.S (Datatypes.S (Datatypes.S (Datatypes.S (2 * n))))))))))))) in N2.
    change (11 + 2 * n)%nat with (Datatypes.S (Datatypes.S (Datatypes.S (Datatypes.S (Datatypes.S (Datatypes.S (Datatypes.S (Datatypes.S (Datatypes.S (Datatypes.S (Datatypes.S (2 * n)))))))))))) in N1.
    cbn [nth_error] in N1, N2.
    destruct (fill_run_pays _ _ _ _ _ _ _ _ _ _ _ _ _ _ _ Hp FR n k rt N1 N2) as (w & W1 & RA & ST & W2).
    assert (SL : same_od s s1 k) by apply LP.
    exists w. split; [exact (held_same _ _ _ _ _ _ (same_od_sym _ _ _ SL) W1)|]. split; [exact RA|].
    split; [unfold unpaid; auto|]. rewrite Hp in CR.
    assert (ND : k <> dk).
    { intros ->. destruct CR as (_ & D & _). destruct W2 as [_ W2]. apply unpack_len in W2; [|typeclasses eauto]. rewrite D in W2. discriminate. }
    assert (SO3 : same_od s2 s3 k) by (apply CR; exact ND).
    assert (L3 : blen (dat (accs s3 k)) = TP_LEN).
    { destruct SO3 as [_ ->]. destruct W2 as [_ W2]. apply unpack_len in W2; [exact W2|typeclasses eauto]. }
    pose proof (moved_step _ _ _ _ _ _ MV k L3) as SO4. cbv zeta in PK.
    pose proof (packed_od _ _ _ _ _ _ _ PK _ ND) as SP.
    apply (held_same _ _ s2 s' _ _); [|exact W2]. apply (same_od_trans _ s3); [exact SO3|]. exact (same_od_trans _ _ _ _ SO4 SP).
Qed.

(** One payment: the request was unpaid before and is paid afterwards. *)
Theorem C29_step : forall e ext c i s s' k g m, no_collision e k -> tp_call e ext c i s s' -> pays c i s s' k ->
  request_at e s k g m -> unpaid (wm_status m) /\ exists g' m', request_at e s' k g' m' /\ paid (wm_status m').
Proof.
  intros e ext c i s s' k g m NC C P R. destruct (pays_typed _ _ _ _ _ _ _ C P) as (st' & PD & [(w & W1 & RA & UP & W2)|(w & W1 & RA & UP & W2)]).
  - destruct (wever_request _ _ _ _ _ _ NC R (conj (proj2 W1) RA)) as (EG & EM & T1 & T2). split; [rewrite EM; exact UP|].
    exists (g_meta g (m_status m st')), (m_status m st'). split; [|exact PD].
    eapply (typed_meta c_wever_event _); [exact R|exact EG|exact T1|exact T2|]. rewrite EM. exact W2.
  - destruct (wsol_request _ _ _ _ _ _ NC R (conj (proj2 W1) RA)) as (EG & EM & T1 & T2). split; [rewrite EM; exact UP|].
    exists (g_meta g (m_status m st')), (m_status m st'). split; [|exact PD].
    eapply (typed_meta c_wsol_event _); [exact R|exact EG|exact T1|exact T2|]. rewrite EM. exact W2.
Qed.

Lemma paid_stays a b : status_path a b -> paid a -> paid b.
Proof.
  intros H. induction H as [|a b c H IH N]; [auto|]. intros P. specialize (IH P). unfold paid in *.
  destruct IH as [->|[->| ->]]; cbn [next_status] in N; [contradiction|contradiction|auto].
Qed.
Lemma paid_unpaid st : paid st -> unpaid st -> False.
Proof. unfold paid, unpaid. intros [->|[->| ->]] [X|[X|X]]; discriminate. Qed.
Lemma typed_no_request {E} (ce : codec E) (Le : Lawful ce) s k (w : prop E (withlen wmeta)) e h :
  held (c_prop ce (c_withlen c_wmeta)) (@p_init _ _) s k w -> request_addr e tp_id k w h -> no_request s k -> False.
Proof.
  intros [O U] (n & pn & K & _) NR. apply (NR O n pn). rewrite <- K. eapply kind_prop; [| |exact U]; typeclasses eauto.
Qed.

(** Over all histories: after a payment of the request at [k] there is no second one unless the request
    is closed in between.  Partial: what payloads call does not call back into the token proxy, and
    payload execution is applied to requests only (see [payload_checked]). *)
Theorem C29_history_partial : forall e k s0 s1 s2 s3 s4 ext c i ext' c' i', no_collision e k -> nonneg s0 -> no_request s0 k ->
  req_hist e any_instr s0 s1 ->
  tp_call e ext c i s1 s2 -> signs (ordinary e) c -> tp_ext e 0 ext -> pays c i s1 s2 k ->
  req_hist e (not_closing k) s2 s3 ->
  tp_call e ext' c' i' s3 s4 -> ~ pays c' i' s3 s4 k.
Proof.
  intros e k s0 s1 s2 s3 s4 ext c i ext' c' i' NC N0 NR H1 C SG X P H3 C' P'.
  destruct (requests_sound _ _ _ _ NC H1 N0 (or_introl NR)) as [N1 Q].
  assert (PC : payload_checked e c i s1) by (intros j _; destruct i; try contradiction P; split; discriminate).
  assert (NCL : not_closing k c i) by (intros [E _]; subst i; exact P).
  destruct Q as [Q|(g & m & R & SR)].
  { destruct (pays_typed _ _ _ _ _ _ _ C P) as (st' & _ & [(w & W1 & RA & _)|(w & W1 & RA & _)]);
      [exact (typed_no_request (c_withlen c_wever_event) _ _ _ _ _ _ W1 RA Q)|exact (typed_no_request (c_withlen c_wsol_event) _ _ _ _ _ _ W1 RA Q)]. }
  destruct (req_step _ _ _ _ _ _ _ _ _ C X PC NC R NCL N1 (sr_funded _ _ _ _ SR)) as (g2 & m2 & R2 & EV & F2 & N2).
  destruct (C29_step _ _ _ _ _ _ _ _ _ NC C P R) as (_ & g2' & m2' & R2' & PD).
  destruct (request_fun _ _ _ _ _ _ _ R2 R2') as [-> ->].
  destruct (req_evolves _ _ _ _ NC H3 _ _ R2 N2 F2) as (g3 & m3 & R3 & EV3 & _).
  destruct (C29_step _ _ _ _ _ _ _ _ _ NC C' P' R3) as (UP & _).
  exact (paid_unpaid _ (paid_stays _ _ (ev_status _ _ _ _ EV3) PD) UP).
Qed.

(** * C41 Who lowers the balance of a vault *)

(** The rules of the token program for what other programs do, signed by the signers of [c]: tokens leave
    an account only if its owner, its delegate or its close authority takes part, or if its owner is the
    system program or the incinerator; new tokens are minted only if the mint authority signs. *)
Definition token_rules (c : ctx) (s s' : state) : Prop := forall k,
  (forall t, tok_in s k t -> c_sg c (ta_owner t) = false -> ta_owner t <> sys_id -> ta_owner t <> incinerator_id ->
     fst (ta_delegate t) = false -> fst (ta_close t) = false ->
     exists t', tok_in s' k t' /\ ta_owner t' = ta_owner t /\ fst (ta_delegate t') = false /\ fst (ta_close t') = false /\
       ta_amount t <= ta_amount t') /\
  (forall m, mint_in s k m -> c_sg c (snd (tm_auth m)) = false ->
     exists m', mint_in s' k m' /\ tm_auth m' = tm_auth m /\ tm_supply m' <= tm_supply m).
Definition ext_tokens (ext : extern) : Prop := forall c d s a s', ext c d s = Ok (a, s') -> token_rules c s s'.

(** [v] holds tokens that only [v] itself can spend: the state in which the token proxy makes vaults. *)
Definition locked (s : state) (v : key) : Prop := v <> sys_id /\ v <> incinerator_id /\
  exists t, tok_in s v t /\ ta_owner t = v /\ fst (ta_delegate t) = false /\ fst (ta_close t) = false.
(** [m] is not in use, or a mint of which only [m] itself can mint. *)
Definition own_mint (s : state) (m : key) : Prop := own (accs s m) = sys_id \/ exists x, mint_in s m x /\ tm_auth x = (true, m).

Lemma nested_locked e ext c s s1 v : c_pid c = tp_id -> nested e ext c s s1 -> ext_tokens ext -> c_sg c v = false -> ~ is_proxy e v ->
  locked s v -> locked s1 v /\ balance s v <= balance s1 v.
Proof.
  intros Hp [->|(proxy & l & mint & r & b & PD & H)] X SG NP L; [split; [exact L|lia]|].
  induction H as [s|i l s s1 s2 x C R IH]; [split; [exact L|lia]|].
  apply cpi_inv in C as [C CO]. apply X in C. destruct (C v) as [RU _]. destruct L as (V1 & V2 & t & T & OW & DE & CL).
  destruct (RU t T) as (t' & T' & OW' & DE' & CL' & LE); [|congruence|congruence|exact DE|exact CL|].
  { rewrite OW. destruct (c_sg (ctx_of (i_pid i) (i_metas i)) v) eqn:E; [|reflexivity]. exfalso.
    assert (SS : signs (fun k => k <> v) (ctx_of (i_pid i) (i_metas i))).
    { eapply (nested_signs e (fun k => k <> v) c); [|intros k IP ->; exact (NP IP)|exact Hp|exact PD|exact CO].
      intros k SK ->. congruence. }
    exact (SS v E eq_refl). }
  destruct IH as [L2 LE2]; [split; [exact V1|]; split; [exact V2|]; exists t'; rewrite OW', OW; auto|].
  split; [exact L2|]. rewrite (balance_tok _ _ _ T). rewrite (balance_tok _ _ _ T') in LE2. lia.
Qed.
Lemma nested_mint e ext c s s1 m : c_pid c = tp_id -> nested e ext c s s1 -> tp_ext e 0 ext -> ext_tokens ext -> c_sg c m = false -> ~ is_proxy e m ->
  is_pda e tp_id m -> own_mint s m -> own_mint s1 m /\ supply s1 m <= supply s m.
Proof.
  intros Hp [->|(proxy & l & mint & r & b & PD & H)] X0 X SG NP IP L; [split; [exact L|lia]|].
  induction H as [s|i l s s1 s2 x C R IH]; [split; [exact L|lia]|].
  apply cpi_inv in C as [C CO]. pose proof C as C0. apply X in C. apply X0 in C0 as [[_ [_ FO]]|[]].
  assert (SF : c_sg (ctx_of (i_pid i) (i_metas i)) m = false).
  { destruct (c_sg (ctx_of (i_pid i) (i_metas i)) m) eqn:E; [|reflexivity]. exfalso.
    assert (SS : signs (fun k => k <> m) (ctx_of (i_pid i) (i_metas i))).
    { eapply (nested_signs e (fun k => k <> m) c); [|intros k IK ->; exact (NP IK)|exact Hp|exact PD|exact CO].
      intros k SK ->. congruence. }
    exact (SS m E eq_refl). }
  destruct L as [O|(y & M & A)].
  - destruct (FO m) as (_ & _ & _ & F). pose proof (F IP SF O) as SO.
    destruct IH as [L2 LE2]; [left; rewrite (proj1 SO); exact O|]. split; [exact L2|]. rewrite <- (supply_same _ _ _ SO). exact LE2.
  - destruct (C m) as [_ RU]. destruct (RU y M) as (y' & M' & A' & LE); [rewrite A; exact SF|].
    destruct IH as [L2 LE2]; [right; exists y'; split; [exact M'|congruence]|]. split; [exact L2|].
    rewrite (supply_mint _ _ _ M). rewrite (supply_mint _ _ _ M') in LE2. lia.
Qed.

Lemma payload_packs_nospl i c s s1 s' : c_pid c = tp_id -> payload_packs i c s s1 s' -> nospl s1 s'.
Proof.
  intros Hp (k & [(_ & _ & w & m & pn & _ & _ & _ & Q)|(_ & _ & w & m & pn & _ & _ & _ & Q)]); eapply nospl_packed; eassumption.
Qed.
Lemma payload_balance e ext c i s s' v : c_pid c = tp_id -> is_payload i = true -> tp_exec e ext c i s = Ok (tt, s') ->
  ext_tokens ext -> c_sg c v = false -> ~ is_proxy e v -> locked s v -> balance s v <= balance s' v.
Proof.
  intros Hp I H X SG NP L. destruct (payload_two _ _ _ _ _ _ I H) as (s1 & N & Q).
  destruct (nested_locked _ _ _ _ _ _ Hp N X SG NP L) as [(_ & _ & t & T & _) LE]. destruct Q as [->|Q]; [exact LE|].
  apply payload_packs_nospl in Q; [|exact Hp]. rewrite (balance_tok _ _ _ (nospl_tok _ _ _ _ Q T)). rewrite (balance_tok _ _ _ T) in LE. exact LE.
Qed.
Lemma payload_supply e ext c i s s' m : c_pid c = tp_id -> is_payload i = true -> tp_exec e ext c i s = Ok (tt, s') ->
  tp_ext e 0 ext -> ext_tokens ext -> c_sg c m = false -> ~ is_proxy e m -> is_pda e tp_id m -> own_mint s m -> supply s' m <= supply s m.
Proof.
  intros Hp I H X0 X SG NP IP L. destruct (payload_two _ _ _ _ _ _ I H) as (s1 & N & Q).
  destruct (nested_mint _ _ _ _ _ _ Hp N X0 X SG NP IP L) as [_ LE]. destruct Q as [->|Q]; [exact LE|].
  apply payload_packs_nospl in Q; [|exact Hp]. pose proof (to_sup _ _ _ _ (tokens_none _ _ Q) m) as E. unfold none in E. lia.
Qed.

(** An instruction that lowers the balance of a vault is one of these three, under these conditions. *)
Variant vault_out (e : env) (c : ctx) (i : tp_ix) (s : state) (v : key) : Prop :=
| VO_exec k w : i = TpWithdrawSol -> nth_error (c_keys c) 0 = Some k -> sol_request e s k w ->
    tp_addr e (str "vault" ++ kb (wse_mint (event_of w))) v ->
    status_of w = WNew \/ status_of w = WPending -> p_required w <= confirmed (p_signers w) -> vault_out e c i s v
| VO_approve k w : i = TpApproveSol -> nth_error (c_keys c) 2 = Some k -> sol_request e s k w ->
    tp_addr e (str "vault" ++ kb (wse_mint (event_of w))) v ->
    status_of w = WWaitApprove -> wmanager_signed e c s -> vault_out e c i s v
| VO_fee n tk ts mint v' : i = TpWithdrawSolFee n -> manager_signed e c s -> token_at e s tk ts -> tk_kind ts = TKSol mint v' ->
    tp_addr e (str "vault" ++ kb mint) v -> 0 <= n <= tk_fee_supply ts -> vault_out e c i s v.

Lemma vault_call e ext c i s s' v : tp_call e ext c i s s' -> is_payload i = false ->
  locked s v -> c_sg c v = false -> ~ is_proxy e v -> balance s' v < balance s v -> vault_out e c i s v.
Proof.
  intros C I L SG NP B. pose proof (flow_call _ _ _ _ _ _ C I) as F. destruct L as (V1 & V2 & tv & T & OW & DE & _).
  destruct F as [T0|k w mint mn dst n st H1 RA WP CA _ _ N0 PS H2 T0|k w vault vn pm dst n st H1 RA WP CA FV _ N0 PS H2 T0|tsk ts mint mn m tok d dst n X0 _ _ _ [N0 _] _ T0|tsk ts mint vn vault v' dst n X0 FT TI TK N0 FV T0|f g src mint n _ (t & a & TS & SP) N0 -> -> T0|src f _ SP NN T0|owner mint proxy pn dst n _ _ FP N0 T0];
    apply (lost _ _ _ _ _ T0) in B.
  - unfold none in B. lia.
  - exfalso. exact (gain_neg _ _ _ N0 B).
  - apply (shift_neg _ _ _ _ N0) in B. subst vault. destruct CA as [(-> & ST & Q)|(-> & ST & AP)].
    + eapply VO_exec; [reflexivity|exact WP|apply sol_request_is; eassumption|exists vn; exact FV|exact ST|].
      rewrite <- (sol_confirmed _ _ _ H1). exact Q.
    + eapply VO_approve; [reflexivity|exact WP|apply sol_request_is; eassumption|exists vn; exact FV|exact ST|apply approver_signed; exact AP].
  - exfalso. exact (gain_neg _ _ _ N0 B).
  - apply (shift_neg _ _ _ _ (proj1 N0)) in B. subst vault.
    eapply VO_fee; [exact X0|apply fee_taker_signed; exact FT|eapply token_spec; exact TI|exact TK|exists vn; exact FV|exact N0].
  - exfalso. unfold gain in B. destruct (keqb v src) eqn:E; [apply keqb_eq in E; subst src|lia].
    rewrite (tacc_in_fun _ _ _ _ (proj2 TS) (proj2 T)) in SP. rewrite OW in SP.
    destruct SP as [SP|[SP|(SA & [SP|SP])]]; [congruence|congruence|congruence|rewrite SP in DE; discriminate].
  - exfalso. destruct (key_dec v src) as [<-|NE]; [|specialize (NN v NE); lia].
    destruct SP as [(t & a & TS & SA & SP)|SP]; [|destruct T; contradiction].
    rewrite (tacc_in_fun _ _ _ _ (proj2 TS) (proj2 T)) in SP. 
    destruct SP as [SP|SP]; [congruence|rewrite SP in DE; discriminate].
  - exfalso. apply (shift_neg _ _ _ _ N0) in B. subst proxy. apply NP. apply find_pda_some in FP as [FP _]. exists mint, owner, pn. exact FP.
Qed.

Theorem C41_call : forall e ext c i s s' v, tp_call e ext c i s s' -> ext_tokens ext ->
  locked s v -> c_sg c v = false -> ~ is_proxy e v ->
  balance s' v < balance s v -> vault_out e c i s v.
Proof.
  intros e ext c i s s' v C X L SG NP B. destruct (is_payload i) eqn:I; [|eapply vault_call; eassumption].
  apply tp_call_exec in C as (Hp & _ & _ & H). pose proof (payload_balance _ _ _ _ _ _ _ Hp I H X SG NP L). lia.
Qed.

(** * C42 Who raises the supply of a bridge mint *)

Variant mint_out (e : env) (c : ctx) (i : tp_ix) (s : state) (m : key) : Prop :=
| MO_exec k w : i = TpWithdrawEver -> nth_error (c_keys c) 0 = Some k -> ever_request e s k w ->
    tp_addr e (str "mint" ++ kb (token_hash e (wee_token (event_of w)))) m ->
    status_of w = WNew -> p_required w <= confirmed (p_signers w) -> mint_out e c i s m
| MO_approve k w : i = TpApproveEver -> nth_error (c_keys c) 2 = Some k -> ever_request e s k w ->
    tp_addr e (str "mint" ++ kb (token_hash e (wee_token (event_of w)))) m ->
    status_of w = WWaitApprove -> wmanager_signed e c s -> mint_out e c i s m
| MO_fee n tk ts m' token d : i = TpWithdrawEverFee n -> manager_signed e c s -> token_at e s tk ts -> tk_kind ts = TKEver m' token d ->
    tp_addr e (str "mint" ++ kb (token_hash e token)) m -> 0 <= n <= tk_fee_supply ts -> mint_out e c i s m.

Lemma mint_call e ext c i s s' m : tp_call e ext c i s s' -> is_payload i = false ->
  supply s m < supply s' m -> mint_out e c i s m.
Proof.
  intros C I B. pose proof (flow_call _ _ _ _ _ _ C I) as F.
  destruct F as [T0|k w mint mn dst n st H1 RA WP CA FM _ N0 PS H2 T0|k w vault vn pm dst n st H1 RA WP CA FV _ N0 PS H2 T0|tsk ts mint mn m0 tok d dst n XI FT TI TK N0 FM T0|tsk ts mint vn vault v' dst n XI FT TI TK N0 FV T0|f g src mint n _ _ N0 -> -> T0|src f _ SP NN T0|owner mint proxy pn dst n _ _ FP N0 T0];
    apply (grew _ _ _ _ _ T0) in B; try (unfold none in B; lia).
  - apply gain_pos in B. subst mint. destruct CA as [(-> & ST & Q)|(-> & ST & AP)].
    + eapply MO_exec; [reflexivity|exact WP|apply ever_request_is; eassumption|exists mn; exact FM|exact ST|].
      rewrite <- (ever_confirmed _ _ _ H1). exact Q.
    + eapply MO_approve; [reflexivity|exact WP|apply ever_request_is; eassumption|exists mn; exact FM|exact ST|apply approver_signed; exact AP].
  - apply gain_pos in B. subst mint. eapply MO_fee; [exact XI|apply fee_taker_signed; exact FT|eapply token_spec; exact TI|exact TK|exists mn; exact FM|exact N0].
  - unfold gain in B. destruct (keqb m mint); lia.
Qed.

Theorem C42_call : forall e ext c i s s' token m, tp_call e ext c i s s' -> tp_ext e 0 ext -> ext_tokens ext ->
  tp_addr e (str "mint" ++ kb (token_hash e token)) m -> own_mint s m -> c_sg c m = false -> ~ is_proxy e m ->
  supply s m < supply s' m -> mint_out e c i s m.
Proof.
  intros e ext c i s s' token m C X0 X (mn0 & AD) OM SG NP B. destruct (is_payload i) eqn:I; [|eapply mint_call; eassumption].
  apply tp_call_exec in C as (Hp & _ & _ & H). pose proof (find_pda_some _ _ _ _ _ AD) as [PA _].
  pose proof (payload_supply _ _ _ _ _ _ _ Hp I H X0 X SG NP (ex_intro _ _ PA) OM). lia.
Qed.

(** * C45 Proxy withdrawals *)

(** A successful proxy withdrawal takes exactly the asked number of tokens out of the proxy account
    derived for a mint and a recipient who signed, gives them to the named account, and changes no other
    account's owner or data. *)
Theorem C45 : forall e ext c n s s', tp_call e ext c (TpWithdrawProxy n) s s' ->
  exists owner dst proxy mint,
    nth_error (c_keys c) 0 = Some owner /\ nth_error (c_keys c) 1 = Some dst /\
    nth_error (c_keys c) 2 = Some proxy /\ nth_error (c_keys c) 3 = Some mint /\
    c_sg c owner = true /\ tp_addr e (str "proxy" ++ kb mint ++ kb owner) proxy /\
    n <= balance s proxy /\
    (proxy <> dst -> balance s' proxy = balance s proxy - n /\ balance s' dst = balance s dst + n) /\
    (forall j, j <> proxy -> j <> dst -> own (accs s' j) = own (accs s j) /\ dat (accs s' j) = dat (accs s j)) /\
    (forall j, balance s' j < balance s j -> j = proxy).
Proof.
  intros e ext c n s s' C. apply tp_call_exec in C as (Hp & Oi & _ & H).
  assert (Hn : 0 <= n).
  { apply ix_amount_proxy in Oi. lia. }
  cbn [tp_exec] in H. apply tp_withdraw_proxy_ok in H as (owner & dst & proxy & mint & rest & pn & K & SG & F & M & _); [|exact Hn].
  rewrite Hp in F. exists owner, dst, proxy, mint. rewrite K. do 4 (split; [reflexivity|]). split; [exact SG|]. split; [exists pn; exact F|].
  pose proof (tokens_moved _ _ _ _ _ _ M) as T.
  destruct M as (a & b & dl & da & TA & TB & EM & LE & _ & SAME & DIFF & SO & _).
  split; [rewrite (balance_tok _ _ _ TA); exact LE|]. split.
  { intros N. destruct (DIFF N) as [TA' TB']. rewrite (balance_tok _ _ _ TA), (balance_tok _ _ _ TA'), (balance_tok _ _ _ TB), (balance_tok _ _ _ TB').
    split; reflexivity. }
  split; [intros j N1 N2; apply (SO j N1 N2)|]. intros j L. apply (lost _ _ _ _ _ T) in L. exact (shift_neg _ _ _ _ Hn L).
Qed.

(** * Examples *)

Lemma no_ext_tokens : ext_tokens no_ext.
Proof. intros c d s a s' H. destruct (no_ext_never _ _ _ _ H). Qed.

Example C26_payment_ex :
  let x := texecS tw1 trecvS tmintS in
  tp_call te no_ext (ctx_of tp_id (fst x)) (snd x) ts4 ts5 /\ balance ts5 tvault < balance ts4 tvault /\
  balance ts4 tvault = 100000 /\ balance ts5 tvault = 50025 /\ balance ts5 trecvS = 49975.
Proof. cbv zeta. split; [demo_call|]. vm_compute. repeat split; reflexivity. Qed.
Example C29_step_ex :
  let x := texecS tw1 trecvS tmintS in
  no_collision te tw1 /\ tp_call te no_ext (ctx_of tp_id (fst x)) (snd x) ts4 ts5 /\
  pays (ctx_of tp_id (fst x)) (snd x) ts4 ts5 tw1 /\ request_at te ts4 tw1 (the_req ts4 tw1) (the_meta ts4 tw1).
Proof.
  cbv zeta. split; [exact tw1_sole|]. split; [demo_call|]. split; [|demo_req].
  split; [reflexivity|]. exists tvault. left. vm_compute. reflexivity.
Qed.
Example C41_ex :
  let x := texecS tw1 trecvS tmintS in let c := ctx_of tp_id (fst x) in
  tp_call te no_ext c (snd x) ts4 ts5 /\ ext_tokens no_ext /\ locked ts4 tvault /\ c_sg c tvault = false /\
  ~ is_proxy te tvault /\ balance ts5 tvault < balance ts4 tvault.
Proof.
  cbv zeta. split; [demo_call|]. split; [exact no_ext_tokens|]. split.
  { split; [discriminate|]. split; [discriminate|]. exists (the_tok ts4 tvault). split; [split; vm_compute; reflexivity|vm_compute; repeat split; reflexivity]. }
  split; [reflexivity|]. split; [apply demo_not_proxy; vm_compute; reflexivity|vm_compute; reflexivity].
Qed.
Example C42_ex :
  let x := texecE tw5 trecvE tregE in let c := ctx_of tp_id (fst x) in
  tp_call te no_ext c (snd x) ts7 ts8 /\ tp_ext te 0 no_ext /\ ext_tokens no_ext /\
  tp_addr te (str "mint" ++ kb (token_hash te tever)) tmintE /\ own_mint ts7 tmintE /\ c_sg c tmintE = false /\
  ~ is_proxy te tmintE /\ supply ts7 tmintE = 0 /\ supply ts8 tmintE = 79960.
Proof.
  cbv zeta. split; [demo_call|]. split; [apply no_ext_tp|]. split; [exact no_ext_tokens|]. 
  split; [exists 255; vm_compute; reflexivity|]. split; [left; vm_compute; reflexivity|]. split; [reflexivity|].
  split; [apply demo_not_proxy; vm_compute; reflexivity|vm_compute; split; reflexivity].
Qed.
(** The recipient takes half of the proxy account's tokens; somebody else cannot. *)
Definition tproxyout (who : key) (n : Z) : list meta * tp_ix :=
  ([sw who; ww trecvS; ww tproxyS; ro tmintS; ro spl_id], TpWithdrawProxy n).
Example C45_ex :
  let x := tproxyout trecv 30000 in
  tp_call te no_ext (ctx_of tp_id (fst x)) (snd x) ts14 (unres (tstp ts14 x)) /\
  balance ts14 tproxyS = 59970 /\ balance (unres (tstp ts14 x)) tproxyS = 29970 /\ balance (unres (tstp ts14 x)) trecvS = 30000 /\
  is_ok (tstp ts14 (tproxyout tstranger 30000)) = false.
Proof. cbv zeta. split; [demo_call|]. vm_compute. repeat split; reflexivity. Qed.
(** [tw1] is paid between [ts4] and [ts5]; executing it again succeeds but pays nothing. *)
Example C29_history_ex :
  let x := texecS tw1 trecvS tmintS in let c := ctx_of tp_id (fst x) in
  no_collision te tw1 /\ nonneg ts0 /\ no_request ts0 tw1 /\ req_hist te any_instr ts0 ts4 /\
  tp_call te no_ext c (snd x) ts4 ts5 /\ signs (ordinary te) c /\ tp_ext te 0 no_ext /\ pays c (snd x) ts4 ts5 tw1 /\
  req_hist te (not_closing tw1) ts5 ts8 /\ tp_call te no_ext c (snd x) ts8 (unres (tstp ts8 x)) /\
  balance (unres (tstp ts8 x)) tvault = balance ts8 tvault.
Proof.
  cbv zeta. split; [exact tw1_sole|]. split; [apply demo_nonneg; vm_compute; reflexivity|].
  split; [intros O; vm_compute in O; discriminate O|]. split.
  { demo_ts4. unfold ts3. demo_more. unfold ts2. demo_more. unfold ts1. demo_more. apply h_refl. }
  split; [demo_call|]. split; [intros k S P; apply (demo_plain ttab thash _ tp_id) in S; [contradiction|vm_compute; reflexivity]|].
  split; [apply no_ext_tp|]. split; [split; [reflexivity|]; exists tvault; left; vm_compute; reflexivity|].
  split; [unfold ts8; demo_more; demo_ts7; unfold ts6; demo_more; apply h_refl|].
  split; [demo_call|]. vm_compute. reflexivity.
Qed.

Print Assumptions C26_payment.
Print Assumptions C29_step.
Print Assumptions C29_history_partial.
Print Assumptions C41_call.
Print Assumptions C42_call.
Print Assumptions C45.
