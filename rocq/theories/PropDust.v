(** Property C78: lamports sent to an unused address derived for one of the programs stay there forever, and no
    account of the program ever comes into being at it. *)

From Coq Require Import Strings.String ZifyBool ZifyNat ZifyN.
From Verif Require Import TpDemoLaws DemoLaws Dust PropRoundLoader PropTpFlow PropTpPay PropTpMoney PropDeposits PropRounds.
Open Scope Z_scope.
Open Scope list_scope.

(** * Vocabulary *)

(** What transactions of other programs do: they credit unused derived addresses at most, because nobody but the
    program signs for them. *)
Definition credits_only (e : env) (pid : key) (s s' : state) : Prop := forall k, is_pda e pid k -> own (accs s k) = sys_id -> dat (accs s k) = [] ->
  own (accs s' k) = sys_id /\ dat (accs s' k) = [] /\ lam (accs s k) <= lam (accs s' k).
(** The same for a program called by a payload, for the addresses that do not sign. *)
Definition called_program (e : env) (c : ctx) (s s' : state) : Prop := now s' = now s /\
  forall k, is_pda e tp_id k -> c_sg c k = false -> own (accs s k) = sys_id -> dat (accs s k) = [] ->
    own (accs s' k) = sys_id /\ dat (accs s' k) = [] /\ lam (accs s k) <= lam (accs s' k).

(** [s'] comes after [s]: any number of instructions of the token proxy, with payloads that call other programs and,
    up to any depth, the token proxy, of transactions of other programs, and of purges of empty accounts. *)
Inductive tp_later (e : env) : state -> state -> Prop :=
| tl_refl s : tp_later e s s
| tl_call n s s1 s2 : tp_later e s s1 -> deep e (ordinary e) (called_program e) n s1 s2 -> tp_later e s s2
| tl_other s s1 s2 : tp_later e s s1 -> credits_only e tp_id s1 s2 -> tp_later e s s2
| tl_purge s s1 s2 : tp_later e s s1 -> purge s1 s2 -> tp_later e s s2.
(** The same for the round loader. *)
Inductive rl_later (e : env) : state -> state -> Prop :=
| rll_refl s : rl_later e s s
| rll_call c i s s1 s2 : rl_later e s s1 -> (forall k, is_pda e rl_id k -> c_sg c k = false) -> rl_call e c i s1 s2 -> rl_later e s s2
| rll_other s s1 s2 : rl_later e s s1 -> credits_only e rl_id s1 s2 -> rl_later e s s2
| rll_purge s s1 s2 : rl_later e s s1 -> purge s1 s2 -> rl_later e s s2.

Lemma credits_dusty e pid s s' k z : credits_only e pid s s' -> is_pda e pid k -> dusty s k z -> dusty s' k z.
Proof. intros C P (O & D & L). destruct (C k P O D) as (O' & D' & L'). split; [exact O'|]. split; [exact D'|lia]. Qed.
Lemma purge_dusty s s' k z : purge s s' -> 0 < z -> dusty s k z -> dusty s' k z.
Proof. intros P Z0 D. destruct (P k) as [E|[L _]]; [unfold dusty; rewrite E; exact D|destruct D as (_ & _ & D); lia]. Qed.

Lemma unpack_empty {A} (cd : codec A) {L : Lawful cd} n p x : unpack cd n p [] = Ok x -> n <> 0 -> False.
Proof. intros U N. apply (unpack_ok cd L) in U as (r & _ & _ & B & _). apply N. rewrite <- B. reflexivity. Qed.

(** * C78 *)

(** An address [k] that is derived for the token proxy, but not for a proxy account, and that is no associated token
    account: with one lamport or more at it, it is never anything but a bearer of lamports, and never has fewer.  So
    no settings, token settings, vault, mint, deposit, request or multi-vault can ever be created at it. *)
Theorem C78_tp : forall e k s s', plain_address e k -> tp_later e s s' -> own (accs s k) = sys_id -> dat (accs s k) = [] -> 0 < lam (accs s k) ->
  own (accs s' k) = sys_id /\ dat (accs s' k) = [] /\ lam (accs s k) <= lam (accs s' k).
Proof.
  intros e k s s' PA H O D L. set (z := lam (accs s k)) in *. change (dusty s' k z). assert (D0 : dusty s k z) by (split; [exact O|split; [exact D|unfold z; lia]]).
  clearbody z. clear O D. induction H as [s|n s s1 s2 _ IH C|s s1 s2 _ IH C|s s1 s2 _ IH C].
  - exact D0.
  - destruct (deep_steps e (ordinary e) (called_program e)) with (n := n) (s := s1) (s' := s2) as (l & ST).
    { intros j J _. exact J. } { intros c a b [N _]. exact N. } { exact C. }
    eapply dust_steps; [exact L|exact PA| | |exact ST|exact (IH D0)].
    + intros A. destruct PA as (P1 & P2 & _). exact (P2 (A P1)).
    + intros c a b [_ X] NS (O & D & LZ). destruct (X k (proj1 PA) NS O D) as (O' & D' & L'). split; [exact O'|]. split; [exact D'|lia].
  - eapply credits_dusty; [exact C|exact (proj1 PA)|exact (IH D0)].
  - eapply purge_dusty; [exact C|exact L|exact (IH D0)].
Qed.
(** The same for the round loader: relay rounds, proposals and settings. *)
Theorem C78_rl : forall e k s s', is_pda e rl_id k -> rl_later e s s' -> own (accs s k) = sys_id -> dat (accs s k) = [] -> 0 < lam (accs s k) ->
  own (accs s' k) = sys_id /\ dat (accs s' k) = [] /\ lam (accs s k) <= lam (accs s' k).
Proof.
  intros e k s s' PA H O D L. set (z := lam (accs s k)) in *. change (dusty s' k z). assert (D0 : dusty s k z) by (split; [exact O|split; [exact D|unfold z; lia]]).
  clearbody z. clear O D. induction H as [s|c i s s1 s2 _ IH NS C|s s1 s2 _ IH C|s s1 s2 _ IH C].
  - exact D0.
  - apply call_exec in C as (P & _ & C & _). exact (dust_rl_exec e k z c i L P (NS k PA) _ _ _ C (IH D0)).
  - eapply credits_dusty; [exact C|exact PA|exact (IH D0)].
  - eapply purge_dusty; [exact C|exact L|exact (IH D0)].
Qed.

(** One lamport at the address of the settings of a Solana token that is not registered: no deposit of the token
    succeeds any more, whatever else happens. *)
Theorem C78_deposit : forall e tsk s s1 ext c seed name symbol amount recipient value evers payload s', plain_address e tsk ->
  own (accs s tsk) = sys_id -> dat (accs s tsk) = [] -> 0 < lam (accs s tsk) -> tp_later e s s1 -> nth_error (c_keys c) 7 = Some tsk ->
  ~ tp_call e ext c (TpDepositSol seed name symbol amount recipient value evers payload) s1 s'.
Proof.
  intros e tsk s s1 ext c seed name symbol amount recipient value evers payload s' PA O D L T KN.
  destruct (C78_tp e tsk s s1 PA T O D L) as (O1 & D1 & L1). apply (C76_blocked_settings _ _ _ _ _ _ _ _ _ _ _ _ _ tsk); [lia| |exact KN].
  intros ts (_ & U). rewrite D1 in U. apply unpack_empty in U; [exact U|typeclasses eauto|discriminate].
Qed.

(** One lamport at the address of the settings or of the mint of an Ever token that is not registered: no withdrawal of
    the token is ever executed or approved, whatever else happens.  A call that names one changes nothing. *)
Theorem C78_withdraw : forall e token tsk tn mint mn k s s1 ext c i w x s', find_pda e (str "settings" ++ kb (token_hash e token)) tp_id = Ok (tsk, tn) ->
  find_pda e (str "mint" ++ kb (token_hash e token)) tp_id = Ok (mint, mn) -> k = tsk \/ k = mint ->
  plain_address e k -> own (accs s k) = sys_id -> dat (accs s k) = [] -> 0 < lam (accs s k) -> tp_later e s s1 ->
  unpack c_wever TP_LEN (@p_init _ _) (dat (accs s1 w)) = Ok x -> wee_token (event_of x) = token ->
  i = TpWithdrawEver /\ nth_error (c_keys c) 0 = Some w \/ i = TpApproveEver /\ nth_error (c_keys c) 2 = Some w ->
  tp_call e ext c i s1 s' -> s' = s1.
Proof.
  intros e token tsk tn mint mn k s s1 ext c i w x s' FT FM KK PA O D L T UX TK I C.
  destruct (C78_tp e k s s1 PA T O D L) as (O1 & D1 & L1). assert (LK : 0 < lam (accs s1 k)) by lia. clear O D T PA L L1 s.
  assert (EX : forall ts tk d mn' tsk' mint' b1 m b2, ever_eqb tk (wee_token (event_of x)) = true -> valid_ts_ever e c tsk' s1 = Ok ((ts, tk, d, mn'), b1) ->
    c_pid c = tp_id -> validate_pda e (c_pid c) (sd_mint (token_hash e tk)) mn' mint' = Ok b2 -> tmint_in s1 mint' m -> False).
  { intros ts tk d mn' tsk' mint' b1 m b2 EQ V P VM M. apply valid_ts_ever_ok in V as (_ & (U & n & KA & V) & m0 & K). apply ever_eqb_eq in EQ.
    rewrite P, K in V. cbn [ts_seeds] in V. unfold sd_ts_ever in V. rewrite EQ, TK, FT in V. injection V as V _. rewrite <- V in U.
    apply validate_pda_ok in VM as [_ VM]. unfold sd_mint in VM. rewrite P, EQ, TK, FM in VM. injection VM as VM _. rewrite <- VM in M. unfold tmint_in in M.
    destruct KK as [->| ->]; [rewrite D1 in U; eapply unpack_empty; [|exact U|discriminate]; typeclasses eauto|rewrite D1 in M; eapply unpack_empty; [|exact M|discriminate]; typeclasses eauto]. }
  apply tp_call_exec in C as (P & _ & _ & H). destruct I as [[-> KN]|[-> KN]]; cbn [tp_exec] in H.
  - unfold tp_withdraw_ever in H. destruct (c_keys c) as [|w0 l0] eqn:EK; [discriminate H|]. cbn [nth_error] in KN. injection KN as ->. mkeys H.
    unfold check_rent, check_clock in H. apply bind_ok in H as (? & ? & G & H). apply guard_ok in G as [_ ->].
    apply bind_ok in H as (now_ & ? & G & H). apply bind_ok in G as (? & ? & G1 & G). apply guard_ok in G1 as [_ ->]. injection G as <- <-.
    apply bind_ok in H as (? & ? & G & H). apply tp_live_settings_ok in G as [-> _].
    apply bind_ok in H as ([x' wk] & ? & G & H). apply valid_wever_ok in G as (-> & _ & U & _). rewrite UX in U. injection U as <-. cbv beta iota in H.
    apply bind_ok in H as (a & ? & G & H). injection G as <- <-. cbv beta in H.
    assert (XE : forall now_ mint' r tsk' z, withdraw_ever_exec e c x wk w mint' r tsk' now_ s1 <> Ok (z, s')).
    { clear H. intros n0 mint' r tsk' z H. unfold withdraw_ever_exec in H. cbv zeta in H. apply bind_ok in H as ([[[ts tk] d] mn'] & b1 & V & H). cbv beta iota in H.
      pose proof V as V0. apply valid_ts_ever_ok in V0 as (-> & _). apply bind_ok in H as (? & ? & G & H). apply guard_ok in G as [_ ->].
      apply bind_ok in H as (b2 & ? & G & H). apply lift_ok in G as [VM ->]. apply bind_ok in H as (? & ? & G & H). apply guard_ok in G as [EQ ->].
      apply bind_ok in H as (m & ? & G & _). apply tmint_at_ok in G as [M _]. eapply EX; [exact EQ|exact V|exact P|exact VM|exact M]. }
    destruct (lam _ =? 0) eqn:LZ; [|destruct (XE _ _ _ _ _ H)].
    match type of H with (match ?l with _ => _ end) _ = _ => destruct l as [|funder l9] end; [injection H as <-; reflexivity|].
    exfalso. apply bind_ok in H as (? & ? & G & _). unfold register_ever in G. cbv zeta in G.
    apply bind_ok in G as ([mk mb] & ? & G1 & G). apply lift_ok in G1 as [F1 ->]. cbv beta iota in G. fold (event_of x) in F1. unfold sd_mint in F1. rewrite P, TK, FM in F1. injection F1 as <- <-.
    apply bind_ok in G as (? & ? & G1 & G). apply guard_ok in G1 as [G1 ->]. apply keqb_eq in G1.
    apply bind_ok in G as (? & s2 & G2 & G). apply invoke_create_ok in G2 as (CR & _). destruct CR as (CO & _ & CL & _).
    apply bind_ok in G as (? & s3 & _ & G). apply bind_ok in G as (? & s4 & _ & G). apply bind_ok in G as (? & s5 & _ & G).
    apply bind_ok in G as ([tk tb] & ? & G2 & G). apply lift_ok in G2 as [F2 _]. cbv beta iota in G. unfold sd_ts_ever in F2. fold (event_of x) in F2. rewrite P, TK, FT in F2. injection F2 as <- <-.
    apply bind_ok in G as (? & ? & G2 & _). apply guard_ok in G2 as [G2 _]. apply keqb_eq in G2.
    destruct KK as [->| ->]; [rewrite <- G2 in LZ; lia|rewrite <- G1 in CL; lia].
  - exfalso. unfold tp_approve_ever in H. destruct (c_keys c) as [|k0 [|k1 [|w0 l0]]] eqn:EK; try discriminate H. cbn [nth_error] in KN. injection KN as ->. mkeys H.
    unfold check_clock in H. apply bind_ok in H as (now_ & ? & G & H). apply bind_ok in G as (? & ? & G1 & G). apply guard_ok in G1 as [_ ->]. injection G as <- <-.
    apply bind_ok in H as (? & ? & G & H). apply guard_ok in G as [_ ->].
    apply bind_ok in H as ([st pn] & ? & G & H). apply tp_live_settings_ok in G as [-> _]. cbv beta iota in H.
    apply bind_ok in H as ([x' wk] & ? & G & H). apply valid_wever_ok in G as (-> & _ & U & _). rewrite UX in U. injection U as <-. cbv beta iota in H.
    apply bind_ok in H as (? & ? & G & H). apply guard_ok in G as [_ ->].
    apply bind_ok in H as ([[[ts tk] d] mn'] & b1 & V & H). cbv beta iota in H.
    pose proof V as V0. apply valid_ts_ever_ok in V0 as (-> & _). apply bind_ok in H as (? & ? & G & H). apply guard_ok in G as [_ ->].
    apply bind_ok in H as (b2 & ? & G & H). apply lift_ok in G as [VM ->]. cbv zeta in H. apply bind_ok in H as (? & ? & G & H). apply guard_ok in G as [EQ ->].
    apply bind_ok in H as (? & ? & G & H). apply check_authority_ok in G as [-> _].
    apply bind_ok in H as (m & ? & G & _). apply tmint_at_ok in G as [M _]. eapply EX; [exact EQ|exact V|exact P|exact VM|exact M].
Qed.

(** * Examples *)

Lemma demo_plain_address k : existsb (fun '(_, p, j) => keqb p tp_id && keqb j k) ttab = true ->
  forallb (fun '(sd, p, j) => negb (keqb j k) || negb (keqb p ata_id) && negb (beqb (firstn 5 sd) (str "proxy"))) ttab = true ->
  (exists sd, e_pda te sd tp_id = Some k) -> plain_address te k.
Proof.
  intros _ B P. split; [exact P|]. rewrite forallb_forall in B. split.
  - apply demo_not_proxy. apply forallb_forall. intros [[sd p] j] I. apply B in I. destruct (keqb j k); [|reflexivity]. cbn [negb orb] in *. apply andb_true_iff in I as [_ I]. exact I.
  - intros sd F. unfold te in F. cbn [demo_env e_pda] in F. apply pda_lookup_full, B in F. rewrite keqb_refl in F. discriminate F.
Qed.
Lemma later_tstp s0 s x : tp_later te s0 s -> demo_plainb ttab (fst x) = true -> clock_ok s -> is_ok (tstp s x) = true -> tp_later te s0 (unres (tstp s x)).
Proof.
  intros H B CK R. apply (tl_call _ 0 _ _ _ H). exists (ctx_of tp_id (fst x)), no_ext, (enc c_tp_ix (snd x)).
  split; [reflexivity|]. split; [exact CK|]. split; [intros k S P; destruct (demo_plain _ _ _ _ B _ S P)|].
  split; [intros c d a y b F; destruct (no_ext_never _ _ _ _ F)|exact (ok_unres _ R)].
Qed.
(** A stranger has sent one lamport to the address of the settings of an Ever token.  The bridge is initialised, a
    withdrawal of the token is requested and confirmed by all relays; the lamport is still there. *)
Definition tc0 := demo_state ((ttsE, Acct 1 sys_id []) :: taccs).
Definition tc1 := unres (tstp tc0 tinit).
Definition tc2 := unres (tstp tc1 (treqE trecv tw5 tround 47 tev5 [])).
Definition tc3 := unres (tstp tc2 (tvote trelay1 tw5 tround)).
Definition tc4 := unres (tstp tc3 (tvote trelay2 tw5 tround)).
Definition tc5 := unres (tstp tc4 (tvote trelay3 tw5 tround)).
Lemma ttsE_plain : plain_address te ttsE.
Proof. apply demo_plain_address; [vm_compute; reflexivity|vm_compute; reflexivity|]. eexists. instantiate (1 := with_bump (sd_ts_ever (token_hash te tever)) 255). vm_compute. reflexivity. Qed.
Ltac later_go := apply later_tstp; [|vm_compute; reflexivity|vm_compute; split; [discriminate|reflexivity]|vm_compute; reflexivity].
Lemma tc_later : tp_later te tc0 tc5.
Proof. unfold tc5. later_go. unfold tc4. later_go. unfold tc3. later_go. unfold tc2. later_go. unfold tc1. later_go. apply tl_refl. Qed.
Example C78_ex : plain_address te ttsE /\ tp_later te tc0 tc5 /\ accs tc0 ttsE = Acct 1 sys_id [] /\ accs tc5 ttsE = Acct 1 sys_id [] /\
  token_hash te tever = token_hash te (wee_token (event_of (the_wever tc5 tw5))) /\ status_of (the_wever tc5 tw5) = WNew /\
  is_ok (tstp tc5 (texecE tw5 trecvE tregE)) = false /\ is_ok (tstp ts7 (texecE tw5 trecvE tregE)) = true.
Proof. split; [exact ttsE_plain|]. split; [exact tc_later|]. vm_compute. repeat split; reflexivity. Qed.
(** The same for the address of a relay round. *)
Example C78_rl_ex : is_pda de rl_id de_r10 /\ rl_later de dsb0 dsb1 /\ accs dsb0 de_r10 = Acct 1 sys_id [] /\ accs dsb1 de_r10 = Acct 1 sys_id [] /\
  accs ds0 de_r10 = Acct 0 sys_id [].
Proof.
  split; [exists (with_bump (sd_relay_round 10) 255); vm_compute; reflexivity|].
  split; [|vm_compute; repeat split; reflexivity].
  apply (rll_call _ (ctx_of rl_id (fst de_init)) (snd de_init) _ dsb0); [apply rll_refl| |].
  - intros k P. destruct (c_sg (ctx_of rl_id (fst de_init)) k) eqn:S; [|reflexivity]. exfalso. apply ctx_of_sg in S as (m & Hm & <- & S). destruct P as [sd P]. unfold de in P. cbn [demo_env e_pda] in P. apply pda_lookup_full in P.
    assert (B : forallb (fun m => negb (m_sg m) || forallb (fun '(_, p, j) => negb (keqb p rl_id) || negb (keqb j (m_key m))) de_tab) (fst de_init) = true) by (vm_compute; reflexivity).
    rewrite forallb_forall in B. apply B in Hm. rewrite S in Hm. cbn [negb orb] in Hm. rewrite forallb_forall in Hm. apply Hm in P. rewrite !keqb_refl in P. discriminate P.
  - split; [reflexivity|]. exists (enc c_rl_ix (snd de_init)). split; [vm_compute; reflexivity|]. apply do_rl_step. vm_compute. reflexivity.
Qed.

Print Assumptions C78_tp.
Print Assumptions C78_rl.
Print Assumptions C78_deposit.
Print Assumptions C78_withdraw.
