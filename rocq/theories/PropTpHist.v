(** Properties C30, C49 and C59: one payout per event, registration of tokens, cover of the collected fees. *)

From Coq Require Import Strings.String ZifyBool ZifyNat ZifyN.
From Verif Require Import TpDemoLaws TpFlow Touch PropTpAdmin PropTpFlow PropTpPay PropTpMoney PropTpMisc PropFrames.
Open Scope Z_scope.
Open Scope list_scope.
Ltac Zify.zify_post_hook ::= Z.div_mod_to_equations.

(** * C30 One payout per event *)

(** Instruction [i] pays out the Everscale event with timestamp [ts], logical time [lt], configuration [conf]
    and data [b], through a request of round [r] at [k]. *)
Definition pays_event (e : env) (c : ctx) (i : tp_ix) (s s' : state) (k : key) (r ts lt : Z) (conf : key) (b : bytes) : Prop :=
  pays c i s s' k /\ exists g m, request_at e s k g m /\
    p_round g = r /\ p_pda g = Pda ts lt conf /\ p_event g = b.

(** One event is paid at most once through requests of one round, unless the request is closed in between
    (and under the conditions of [C29_history_partial]).
    Missing for the full C30: requests of different rounds and closed requests, see C30_rounds_refuted and
    C30_closed_refuted. *)
Theorem C30_partial : forall e r ts lt conf b k k' s0 s1 s2 s3 s4 ext c i ext' c' i',
  no_collision e k -> nonneg s0 -> no_request s0 k ->
  req_hist e any_instr s0 s1 ->
  tp_call e ext c i s1 s2 -> signs (ordinary e) c -> tp_ext e 0 ext -> pays_event e c i s1 s2 k r ts lt conf b ->
  req_hist e (not_closing k) s2 s3 ->
  tp_call e ext' c' i' s3 s4 -> ~ pays_event e c' i' s3 s4 k' r ts lt conf b.
Proof.
  intros e r ts lt conf b k k' s0 s1 s2 s3 s4 ext c i ext' c' i' NC N0 NR H1 C SG X (P & g & m & R & ER & EP & EB) H3 C' (P' & g' & m' & R' & ER' & EP' & EB').
  assert (k' = k).
  { destruct R as (_ & _ & _ & _ & wn & pn & _ & PD). destruct R' as (_ & _ & _ & _ & wn' & pn' & _ & PD').
    rewrite ER, EP, EB in PD. rewrite ER', EP', EB' in PD'. cbn [pd_ts pd_lt pd_conf] in *. rewrite PD in PD'. injection PD' as ->. reflexivity. }
  subst k'. exact (C29_history_partial e k s0 s1 s2 s3 s4 ext c i ext' c' i' NC N0 NR H1 C SG X P H3 C' P').
Qed.

(** Hypotheses of C30_partial: [tev1] is paid at ts4; [ts60] is reached without closing [tw1]. *)
Definition ts60 := unres (tstp ts5 (treqS trecv tw1b tround2 7 tev1 [])).
Example C30_ex :
  let x := texecS tw1 trecvS tmintS in let c := ctx_of tp_id (fst x) in
  no_collision te tw1 /\ nonneg ts0 /\ no_request ts0 tw1 /\ reached ts4 /\ tp_call te no_ext c (snd x) ts4 ts5 /\ signs (ordinary te) c /\ tp_ext te 0 no_ext /\
  pays_event te c (snd x) ts4 ts5 tw1 10 7 8 tconf (enc c_wsol_event tev1) /\ req_hist te (not_closing tw1) ts5 ts60.
Proof.
  cbv zeta. split; [exact tw1_sole|]. split; [apply demo_nonneg; vm_compute; reflexivity|].
  split; [intros O; vm_compute in O; discriminate O|].
  split; [unfold reached; demo_ts4; unfold ts3; demo_more; unfold ts2; demo_more; unfold ts1; demo_more; apply h_refl|].
  split; [unfold ts5; demo_call|]. split; [intros k S P; apply (demo_plain ttab thash _ tp_id) in S; [contradiction|vm_compute; reflexivity]|]. split; [apply no_ext_tp|].
  split; [|unfold ts60; demo_more; apply h_refl].
  split; [split; [reflexivity|exists tvault; left; vm_compute; reflexivity]|]. exists (the_req ts4 tw1), (the_meta ts4 tw1).
  split; [demo_req|]. split; [vm_compute; reflexivity|]. split; vm_compute; reflexivity.
Qed.

(** The event [tev1] of 50000 tokens, paid from a request of round 10 (at [ts5]), is requested in round 11,
    confirmed by its relays and paid again. *)
Definition ts61 := unres (tstps ts60 (tvotes tw1b tround2)).
Definition xagain := texecS tw1b trecvS tmintS.
Definition ts62 := unres (tstp ts61 xagain).

Theorem C30_rounds_refuted : exists c i s1 s2 c' i' s3 s4 k k' r r' ts lt conf ev,
  reached s1 /\ tp_call te no_ext c i s1 s2 /\ pays_event te c i s1 s2 k r ts lt conf (enc c_wsol_event ev) /\
  req_hist te (not_closing k) s2 s3 /\
  tp_call te no_ext c' i' s3 s4 /\ pays_event te c' i' s3 s4 k' r' ts lt conf (enc c_wsol_event ev) /\
  exists dst, balance s4 dst = balance s1 dst + 2 * (wse_amount ev - 25).
Proof.
  exists (ctx_of tp_id (fst (texecS tw1 trecvS tmintS))), TpWithdrawSol, ts4, ts5, (ctx_of tp_id (fst xagain)), TpWithdrawSol, ts61, ts62,
    tw1, tw1b, 10, 11, 7, 8, tconf, tev1.
  split; [unfold reached; demo_ts4; unfold ts3; demo_more; unfold ts2; demo_more; unfold ts1; demo_more; apply h_refl|].
  split; [unfold ts5; demo_call|]. split.
  { split; [split; [reflexivity|exists tvault; left; vm_compute; reflexivity]|]. exists (the_req ts4 tw1), (the_meta ts4 tw1).
    split; [demo_req|]. split; [vm_compute; reflexivity|]. split; vm_compute; reflexivity. }
  split; [unfold ts61; demo_votes; unfold ts60; demo_more; apply h_refl|]. split; [unfold ts62; demo_call|]. split.
  { split; [split; [reflexivity|exists tvault; left; vm_compute; reflexivity]|]. exists (the_req ts61 tw1b), (the_meta ts61 tw1b).
    split; [demo_req|]. split; [vm_compute; reflexivity|]. split; vm_compute; reflexivity. }
  exists trecvS. vm_compute. reflexivity.
Qed.

(** The paid request is closed, which takes no signature, the empty account is removed by the runtime, and
    the same event is requested in the same round, confirmed and paid again. *)
Definition xclose := tclose tw1 trecv.
Definition ts63 := unres (tstp ts5 xclose).
Definition ts64 := put ts63 tw1 acct0.
Definition ts65 := unres (tstp ts64 (treqS trecv tw1 tround 7 tev1 [])).
Definition ts66 := unres (tstps ts65 (tvotes tw1 tround)).
Definition ts67 := unres (tstp ts66 (texecS tw1 trecvS tmintS)).
Lemma ts64_purge : purge ts63 ts64.
Proof.
  intros k. unfold ts64. destruct (key_dec k tw1) as [->|N]; [right|left; apply accs_put_other; exact N].
  split; [vm_compute; reflexivity|apply accs_put_same].
Qed.
Theorem C30_closed_refuted : exists c i s1 s2 s3 s4 k r ts lt conf ev,
  reached s1 /\ tp_call te no_ext c i s1 s2 /\ pays_event te c i s1 s2 k r ts lt conf (enc c_wsol_event ev) /\
  req_hist te any_instr s2 s3 /\
  tp_call te no_ext c i s3 s4 /\ pays_event te c i s3 s4 k r ts lt conf (enc c_wsol_event ev) /\
  exists dst, balance s4 dst = balance s1 dst + 2 * (wse_amount ev - 25).
Proof.
  exists (ctx_of tp_id (fst (texecS tw1 trecvS tmintS))), TpWithdrawSol, ts4, ts5, ts66, ts67, tw1, 10, 7, 8, tconf, tev1.
  split; [unfold reached; demo_ts4; unfold ts3; demo_more; unfold ts2; demo_more; unfold ts1; demo_more; apply h_refl|].
  split; [unfold ts5; demo_call|]. split.
  { split; [split; [reflexivity|exists tvault; left; vm_compute; reflexivity]|]. exists (the_req ts4 tw1), (the_meta ts4 tw1).
    split; [demo_req|]. split; [vm_compute; reflexivity|]. split; vm_compute; reflexivity. }
  split.
  { unfold ts66; demo_votes; unfold ts65; demo_more. eapply h_purge; [|exact ts64_purge]. unfold ts63. demo_more. apply h_refl. }
  split; [unfold ts67; demo_call|]. split.
  { split; [split; [reflexivity|exists tvault; left; vm_compute; reflexivity]|]. exists (the_req ts66 tw1), (the_meta ts66 tw1).
    split; [demo_req|]. split; [vm_compute; reflexivity|]. split; vm_compute; reflexivity. }
  exists trecvS. vm_compute. reflexivity.
Qed.

(** * C49 Registration of Ever tokens *)

Lemma ever_exec_mint e c w k mint dst tsk t s s' m : c_pid c = tp_id -> wever_in e tp_id s k w -> ever_exec_eff e c w k mint dst tsk t s s' ->
  mint_in s mint m -> exists z, mint_in s' mint (tm_with_supply m z).
Proof.
  intros Hp WI E M. pose proof (wever_in_len _ _ _ _ _ WI) as LW.
  destruct E as (ts0 & mn & m0 & d & md & V & KT & EM & PM & TM & CASE). rewrite Hp in *.
  pose proof (token_len _ _ _ _ _ _ V) as LT.
  destruct CASE as [(-> & _)|(_ & _ & amount & fee & net & st & s1 & _ & F & NE & N0 & FS & SP & PAY & SE)].
  { exists (tm_supply m). destruct m; exact M. }
  assert (NM : mint <> k /\ mint <> tsk).
  { unfold tmint_in in TM. apply unpack_len in TM; [|typeclasses eauto]. split; intros ->; [rewrite LW in TM|rewrite LT in TM]; discriminate. }
  pose proof SE as (_ & _ & _ & _ & SO & _). specialize (SO mint (proj1 NM) (proj2 NM)).
  assert (M1 : exists z, mint_in s1 mint (tm_with_supply m z)).
  { destruct PAY as [(_ & _ & ->)|(_ & _ & (b & m1 & _ & M1 & _ & _ & _ & _ & M1' & _) & _)].
    - exists (tm_supply m). destruct m; exact M.
    - exists (tm_supply m1 + net). destruct M as [_ M], M1 as [_ M1]. unfold tmint_in in M, M1. rewrite M in M1. injection M1 as <-. exact M1'. }
  destruct M1 as (z & O1 & U1). exists z. destruct SO as [O2 D2]. split; [congruence|]. unfold tmint_in in *. rewrite D2. exact U1.
Qed.
Lemma token_cause_names e c s ts ts' : token_cause e c TpWithdrawEver s ts ts' -> tk_name ts' = tk_name ts /\ tk_symbol ts' = tk_symbol ts.
Proof.
  intros [a st _ _ _ []|a _ _ X _|am fee [(? & ? & ? & ? & ? & X)|(? & ? & ? & ? & ? & ? & ? & X)] _ _ _ _|fee net _ _ _ _ _ _ ->|a st net [X|X] _ _ _ _ _ _|a st am [X|X] _ _ _ _ _];
    try discriminate X; auto.
Qed.

(** Where settings of an Ever token come into being, the request named first in the account list - its account
    reads as a request and is at the address derived from its event - names the token, its name, symbol and
    decimals; the token's mint, at its derived address, was unused before and is made with at most 9 of
    those decimals, itself as authority and no power to freeze.
    Missing for the full C49: the request need not be confirmed, see C49_refuted. *)
Theorem C49_partial : forall e ext c i s s' tsk ts m token dec,
  tp_call e ext c i s s' -> is_payload i = false ->
  own (accs s tsk) <> tp_id -> own (accs s' tsk) = tp_id -> token_at e s' tsk ts ->
  (exists n mn, tk_akind ts = KTokenSettings n mn) -> tk_kind ts = TKEver m token dec ->
  i = TpWithdrawEver /\ exists k w md,
    (exists dst settings rest, c_keys c = k :: m :: dst :: tsk :: settings :: rest) /\
    unpack c_wever TP_LEN (@p_init _ _) (dat (accs s k)) = Ok w /\
    tp_addr e (sd_proposal (p_round w) (pd_ts (p_pda w)) (pd_lt (p_pda w)) (pd_conf (p_pda w)) (e_hash e (enc c_wever_event (event_of w)))) k /\
    wee_token (event_of w) = token /\ wee_name (event_of w) = tk_name ts /\ wee_symbol (event_of w) = tk_symbol ts /\
    wee_decimals (event_of w) = dec /\
    fresh s tsk /\ fresh s m /\ tp_addr e (str "mint" ++ kb (token_hash e token)) m /\
    mint_in s' m md /\ tm_decimals md = Z.min 9 dec /\ tm_auth md = (true, m) /\ fst (tm_freeze md) = false.
Proof.
  intros e ext c i s s' tsk ts m token dec CALL NP O O' [PA U] (an & amn & KA) KT. apply tp_call_exec in CALL as (Hp & Oi & CK & H).
  pose proof (tp_exec_effect e ext c i s s' tsk Hp Oi CK NP H) as EFF.
  pose proof (kind_token_settings _ _ _ _ U) as KD. rewrite KA in KD.
  assert (NEW : unused s tsk /\ i = TpWithdrawEver /\ exists k w tn mn mint, hd_error (c_keys c) = Some k /\ wever_in e tp_id s k w /\
      find_pda e (sd_mint (token_hash e (wee_token (wl_data (p_event w))))) tp_id = Ok (mint, mn) /\
      TKEver m token dec = TKEver mint (wee_token (wl_data (p_event w))) (wee_decimals (wl_data (p_event w))) /\
      tk_name ts = wee_name (wl_data (p_event w)) /\ tk_symbol ts = wee_symbol (wl_data (p_event w)) /\
      find_pda e (sd_ts_ever (token_hash e (wee_token (wl_data (p_event w))))) tp_id = Ok (tsk, tn)).
  { destruct EFF as [Q|? ? ? ? ? ? _ _ _ _ _ [_ X]|? ? ? ? _ _ _ [_ X]|? ? ? [X _] _ _ _|nt ts' UN [_ T'] OR CAUSE|? ? ? [X _] _ _ _|? ? ? ? ? ? ? ? ? ? ? ? ? ? ? ? ? ? ? _ _ _ _ (_ & [_ X] & _) _|
      ? ? ? ? ? ? ? ? ? ? ? ? ? ? ? ? ? ? ? ? _ _ _ _ _ _ (_ & [_ X] & _) _|seed dn _ _ _ _ X|? ? ? ? _ _ X _ _|? ? ? _ _ _ [X _] _ _ _|? ? [X _] _ _ _ _ _|? ? [X _] _ _ _ _ _|? _ X _];
      try (contradiction X || contradiction).
    - destruct Q as [[X _]|[_ X]]; [rewrite O' in X; congruence|contradiction].
    - apply kind_tp_settings in X. rewrite KD in X. discriminate X.
    - apply kind_multi_vault in X. rewrite KD in X. discriminate X.
    - rewrite U in T'. injection T' as <-. split; [exact UN|].
      destruct OR as [k w tn mn mint -> K WI P1 P2 EN|seed name symbol amount r v ev p tn vn mint vault -> P1 P2 EN].
      + split; [reflexivity|]. exists k, w, tn, mn, mint. split; [exact K|]. split; [exact WI|]. split; [exact P2|].
        assert (TT : tk_kind ts = tk_kind nt /\ tk_name ts = tk_name nt /\ tk_symbol ts = tk_symbol nt).
        { destruct CAUSE as [->|CA]; [auto|]. split; [apply (token_cause_core _ _ _ _ _ _ CA)|apply (token_cause_names _ _ _ _ _ CA)]. }
        destruct TT as (T1 & T2 & T3). rewrite T1, EN in KT. cbn [tk_kind new_token_settings] in KT. rewrite T2, T3, EN. split; [symmetry; exact KT|].
        split; [reflexivity|]. split; [reflexivity|exact P1].
      + exfalso. destruct CAUSE as [->|CA]; [|apply token_cause_core in CA as [_ CA]; rewrite CA in KT]; rewrite EN in KT; discriminate KT.
    - apply (kind_prop _ _ _ _) in X. rewrite KD in X. discriminate X.
    - apply (kind_prop _ _ _ _) in X. rewrite KD in X. discriminate X.
    - rewrite KD in X. discriminate X. }
  destruct NEW as (UN & -> & k & w & tn & mn & mint & K & WI & PM & KE & NA & SY & PT). injection KE as <- -> ->. cbn [tp_exec] in H. split; [reflexivity|].
  apply tp_withdraw_ever_ok in H as (k0 & mint & dst & tsk0 & sk & x & y & z & u & rest & w0 & t & KS & _ & WI0 & _ & CASE). rewrite Hp in *.
  rewrite KS in K. injection K as <-. assert (w0 = w) by (destruct WI as [A _], WI0 as [B _]; rewrite A in B; injection B as <-; reflexivity). subst w0.
  destruct WI as (UW & n & pn & KW & FP).
  assert (ADDR : exists s0 f, registered_ever e c f mint tsk0 (wl_data (p_event w)) s s0 /\ wever_in e tp_id s0 k0 w /\ ever_exec_eff e c w k0 mint dst tsk0 t s0 s').
  { destruct CASE as [(_ & _ & ->)|[(_ & E)|(_ & f & r' & s0 & _ & R & W0 & E)]]; [contradiction| |exists s0, f; auto].
    exfalso. destruct E as (ts0 & mn0 & m0 & d0 & md0 & V & KT0 & _). rewrite Hp in V. pose proof (token_len _ _ _ _ _ _ V) as LT.
    destruct V as (_ & n0 & _ & P0). rewrite KT0 in P0. change (find_pda e (sd_ts_ever (token_hash e (wee_token (wl_data (p_event w))))) tp_id = Ok (tsk0, n0)) in P0.
    rewrite PT in P0. injection P0 as -> _. destruct UN as [_ UN]. rewrite UN in LT. discriminate LT. }
  destruct ADDR as (s0 & f & R & W0 & E). pose proof R as (mn' & tn' & ata & an' & md & ta & P1 & P2 & P3 & N1 & N2 & N3 & O1 & D1 & M1 & M2 & M3 & M4 & M5 & _).
  rewrite Hp in P1, P2. rewrite PM in P1. injection P1 as -> _. rewrite PT in P2. injection P2 as -> _.
  destruct (ever_exec_mint e c w k0 mint dst tsk0 t s0 s' md Hp W0 E M1) as (zz & M1').
  exists k0, w, (tm_with_supply md zz). split; [exists dst, sk, (x :: y :: z :: u :: rest); exact KS|]. split; [exact UW|]. split; [exists n; exact FP|].
  split; [reflexivity|]. split; [symmetry; exact NA|]. split; [symmetry; exact SY|]. split; [reflexivity|]. split; [exact UN|]. split; [split; assumption|].
  split; [exists mn; exact PM|]. split; [exact M1'|]. split; [exact M3|]. split; [exact M4|exact M5].
Qed.

(** [tev5] is requested (ts6) and has no votes; executing the request registers the token and its mint with the
    metadata of the request (the check of the quorum, processor.rs:1710, comes after the registration,
    processor.rs:1544). Anybody may request anything. *)
Definition xreg := texecE tw5 trecvE tregE.
Definition ts68 := unres (tstp ts6 xreg).
Theorem C49_refuted : exists c k w s s' tsk ts m token dec md,
  reached s /\ tp_call te no_ext c TpWithdrawEver s s' /\ hd_error (c_keys c) = Some k /\ ever_request te s k w /\
  confirmed (p_signers w) = 0 /\ 0 < p_required w /\
  fresh s tsk /\ own (accs s' tsk) = tp_id /\ token_at te s' tsk ts /\ tk_kind ts = TKEver m token dec /\
  tk_name ts = wee_name (event_of w) /\ fresh s m /\ mint_in s' m md.
Proof.
  exists (ctx_of tp_id (fst xreg)), tw5, (the_wever ts6 tw5), ts6, ts68, ttsE, (the_token ts68 ttsE), tmintE, tever, 9, (the_mint ts68 tmintE).
  split; [unfold reached, ts6; demo_more; unfold ts5; demo_more; demo_ts4; unfold ts3; demo_more; unfold ts2; demo_more; unfold ts1; demo_more; apply h_refl|].
  split; [unfold ts68; demo_call|]. split; [vm_compute; reflexivity|].
  split; [split; [vm_compute; reflexivity|]; split; [vm_compute; reflexivity|exists 255; vm_compute; reflexivity]|].
  split; [vm_compute; reflexivity|]. split; [vm_compute; reflexivity|]. split; [split; vm_compute; reflexivity|].
  split; [vm_compute; reflexivity|]. split; [demo_token_at|]. split; [vm_compute; reflexivity|]. split; [vm_compute; reflexivity|].
  split; [split; vm_compute; reflexivity|]. split; vm_compute; reflexivity.
Qed.

(** C49_partial applies to a confirmed request as well: ts7 to ts8. *)
Example C49_ex : tp_call te no_ext (ctx_of tp_id (fst xreg)) TpWithdrawEver ts7 ts8 /\ fresh ts7 ttsE /\ own (accs ts8 ttsE) = tp_id /\
  exists ts m token dec, token_at te ts8 ttsE ts /\ tk_kind ts = TKEver m token dec /\ (exists n mn, tk_akind ts = KTokenSettings n mn).
Proof.
  split; [unfold ts8; demo_call|]. split; [split; vm_compute; reflexivity|]. split; [vm_compute; reflexivity|].
  exists (the_token ts8 ttsE), tmintE, tever, 9. split; [demo_token_at|]. split; [vm_compute; reflexivity|]. exists 255, 255. vm_compute. reflexivity.
Qed.

(** * C59 The vault covers the collected fees *)

(** Balances after tokens go from [vault] to [dst]. *)
Lemma paid_lower e s s' w vault dst n j : 0 <= n -> sol_paid_to e s s' w vault dst n -> j <> vault -> balance s j <= balance s' j.
Proof.
  intros N (_ & _ & BA & _ & RE) NJ. destruct (key_dec (own (accs s j)) spl_id) as [O|O]; [|rewrite balance_other by exact O; apply balance_range].
  destruct (key_dec vault dst) as [E|E].
  - rewrite (balance_same s s' j); [lia|]. apply RE; [exact O|]. intros [X _]. contradiction.
  - destruct (key_dec j dst) as [->|NJ2]; [destruct (BA E); lia|]. rewrite (balance_same s s' j); [lia|]. apply RE; [exact O|]. intros [_ [X|X]]; contradiction.
Qed.
Lemma paid_vault e s s' w vault dst n : 0 <= n -> sol_paid_to e s s' w vault dst n -> balance s vault - n <= balance s' vault.
Proof.
  intros N (_ & _ & BA & _ & RE). destruct (key_dec vault dst) as [E|E]; [|destruct (BA E); lia].
  destruct (key_dec (own (accs s vault)) spl_id) as [O|O].
  - rewrite (balance_same s s' vault); [lia|]. apply RE; [exact O|]. intros [X _]. contradiction.
  - rewrite balance_other by exact O. pose proof (balance_range s' vault). lia.
Qed.
Lemma fee_on_range f x : 0 <= fee_on f x.
Proof. pose proof (fee_on_pos f x). lia. Qed.

Lemma withdraw_sol_fees e c s s' : c_pid c = tp_id -> clock_ok s -> tp_withdraw_sol e c s = Ok (tt, s') ->
  exists k w vault tsk ts ts1 fee net, nth_error (c_keys c) 0 = Some k /\ wsol_in e tp_id s k w /\
    sol_token e s w vault tsk ts /\ 0 <= fee /\ 0 <= net /\ fee + net = wse_amount (event_of w) mod 2 ^ 64 /\
    token_at e s' tsk ts1 /\ tk_fee_supply ts1 <= tk_fee_supply ts + fee /\
    (forall j, j <> k -> j <> tsk -> own (accs s j) = tp_id -> same_od s s' j) /\
    (forall j, j <> vault -> balance s j <= balance s' j) /\ balance s vault - net <= balance s' vault /\
    (sol_request e s k w \/ fee = 0 /\ net = wse_amount (event_of w) mod 2 ^ 64 /\ (forall j, balance s' j = balance s j)).
Proof.
  intros Hp C H. pose proof (withdraw_sol_outcome e c s s' Hp C H) as (k2 & w2 & K2 & WI2 & OUT).
  apply tp_withdraw_sol_ok in H as (k & vault & dst & tsk & pm & sk & x & y & rest & w & gs & pn & K & WI & VS & GE & E).
  rewrite Hp in *. rewrite K in K2. injection K2 as <-.
  assert (w2 = w) by (destruct WI as [A _], WI2 as [B _]; rewrite A in B; injection B as <-; reflexivity). subst w2.
  destruct E as (ts & vn & sv & V & KT & EM & PV & CASE). rewrite Hp in *.
  assert (TOK : sol_token e s w vault tsk ts).
  { split; [exists vn; exact PV|]. split; [eapply token_spec; exact V|]. exists sv. exact KT. }
  assert (GR : 0 <= wse_amount (event_of w) mod 2 ^ 64) by (apply Z.mod_pos_bound; lia).
  assert (TSAME : forall ts', token_at e s tsk ts' -> ts' = ts) by (intros ts' T; eapply token_at_fun; [eapply token_spec; exact V|exact T]).
  assert (SAME : forall j, j <> k -> j <> tsk -> own (accs s j) = tp_id -> same_od s s' j).
  { intros j N1 N2 O. destruct CASE as [[-> _]|(QU & fee & net & st & s1 & F & NE & N0 & CASE)]; [apply same_od_refl|].
    assert (S1 : same_od s s1 j /\ exists ts2 l, settled c c_wsol s s1 s' tsk ts2 k (w_set_status w st) l).
    { destruct CASE as [(_ & _ & _ & CASE & SE)|[(ST & PAID & SE)|(S1 & S2 & -> & -> & SE)]].
      - split; [|eauto]. destruct CASE as [(_ & _ & ->)|(_ & _ & PAID)]; [apply same_od_refl|].
        pose proof (sol_paid_q _ _ _ _ _ _ _ _ _ _ _ _ j PAID) as [X|[X _]]; [exact X|contradiction].
      - split; [|eauto]. pose proof (sol_paid_q _ _ _ _ _ _ _ _ _ _ _ _ j PAID) as [X|[X _]]; [exact X|contradiction].
      - split; [apply same_od_refl|eauto]. }
    destruct S1 as ([S1a S1b] & ts2 & l & (_ & _ & _ & _ & SO & _)). destruct (SO j N1 N2) as [A B]. split; congruence. }
  assert (IDLE : spl_still s s' -> token_at e s' tsk ts -> exists k w vault tsk ts ts1 fee net, nth_error (c_keys c) 0 = Some k /\ wsol_in e tp_id s k w /\
    sol_token e s w vault tsk ts /\ 0 <= fee /\ 0 <= net /\ fee + net = wse_amount (event_of w) mod 2 ^ 64 /\
    token_at e s' tsk ts1 /\ tk_fee_supply ts1 <= tk_fee_supply ts + fee /\
    (forall j, j <> k -> j <> tsk -> own (accs s j) = tp_id -> same_od s s' j) /\
    (forall j, j <> vault -> balance s j <= balance s' j) /\ balance s vault - net <= balance s' vault /\
    (sol_request e s k w \/ fee = 0 /\ net = wse_amount (event_of w) mod 2 ^ 64 /\ (forall j, balance s' j = balance s j))).
  { intros (BA & _) TA. exists k, w, vault, tsk, ts, ts, 0, (wse_amount (event_of w) mod 2 ^ 64). rewrite K. split; [reflexivity|].
    split; [exact WI|]. split; [exact TOK|]. split; [lia|]. split; [exact GR|]. split; [lia|]. split; [exact TA|]. split; [lia|]. split; [exact SAME|].
    split; [intros j _; rewrite BA; lia|]. split; [rewrite BA; lia|]. right. auto. }
  assert (FACT : forall z, fee_on (tk_fee_wdr ts) z + (z - fee_on (tk_fee_wdr ts) z) = z) by (intros z; lia).
  pose proof (sol_confirms _ _ _ _ _ WI) as CF.
  destruct OUT as [ST ID|vault0 tsk0 ts0 fee net st dst0 R0 ST QU K1 K3 K2 TOK0 FE NE N0 TA R' PD PS|vault0 tsk0 ts0 fee net st dst0 R0 ST QU K1 K3 K2 TOK0 FE NE N0 TA R' CASE0].
  - apply IDLE; [exact ST|]. destruct CASE as [[-> _]|(QU & fee & net & st & s1 & F & NE & N0 & CASE)]; [eapply token_spec; exact V|].
    destruct CASE as [(S0 & _ & _ & _ & SE)|[(S0 & PAID & SE)|(S1 & S2 & -> & -> & SE)]].
    + exfalso. change (w_status w) with (status_of w) in S0. rewrite CF in QU. destruct ID as [[X _]|[X|X]]; [contradiction|lia|rewrite S0 in X; discriminate].
    + exact (settled_token c_wsol e c s s1 s' tsk ts vn None k _ _ V SE Logic.I).
    + exact (settled_token c_wsol e c s s s' tsk ts vn None k _ _ V SE Logic.I).
  - rewrite K in K1, K3. injection K1 as <-. injection K3 as <-. assert (ts0 = ts) by (apply TSAME; apply TOK0). subst ts0.
    exists k, w, vault, tsk, ts, ts, fee, net. rewrite K. split; [reflexivity|]. split; [exact WI|]. split; [exact TOK|].
    pose proof (fee_on_range (tk_fee_wdr ts) (wse_amount (event_of w) mod 2 ^ 64)) as FR. split; [lia|]. split; [exact N0|]. split; [lia|].
    split; [exact TA|]. split; [lia|]. split; [exact SAME|]. split; [intros j NJ; exact (paid_lower e s s' w vault dst0 net j N0 PD NJ)|].
    split; [exact (paid_vault e s s' w vault dst0 net N0 PD)|]. left. exact R0.
  - rewrite K in K1, K3. injection K1 as <-. injection K3 as <-. assert (ts0 = ts) by (apply TSAME; apply TOK0). subst ts0.
    exists k, w, vault, tsk, ts, (charge ts (day_of (now s)) fee net), fee, net. rewrite K. split; [reflexivity|]. split; [exact WI|]. split; [exact TOK|].
    pose proof (fee_on_range (tk_fee_wdr ts) (wse_amount (event_of w) mod 2 ^ 64)) as FR. split; [lia|]. split; [exact N0|]. split; [lia|].
    split; [exact TA|]. split; [cbn [tk_fee_supply charge tk_set_daily tk_set_fee_supply]; lia|]. split; [exact SAME|].
    assert (BAL : (forall j, j <> vault -> balance s j <= balance s' j) /\ balance s vault - net <= balance s' vault).
    { destruct CASE0 as [(_ & _ & BA & _)|(_ & _ & [(_ & (BA & _) & _)|(PD & _)])].
      - split; [intros j _; rewrite BA; lia|rewrite BA; lia].
      - split; [intros j _; rewrite BA; lia|rewrite BA; lia].
      - split; [intros j NJ; exact (paid_lower e s s' w vault dst0 net j N0 PD NJ)|exact (paid_vault e s s' w vault dst0 net N0 PD)]. }
    split; [apply BAL|]. split; [apply BAL|]. left. exact R0.
Qed.

(** Balances and recorded fees of the Solana token [m] with settings at [tsk] and vault [vault]: an instruction
    preserves [fees <= balance of the vault]
    - for deposits of this token, if the vault of the account list is the token's vault and not the source,
    - for executed and approved withdrawals of this token, if the vault holds the gross amount on top of the fees,
    - and otherwise always.
    Missing for the full C59: the two conditions, which the code does not check, see C59_refuted. *)
Definition fees_covered (e : env) (c : ctx) (i : tp_ix) (s : state) (tsk vault m : key) (fees : Z) : Prop :=
  match i with
  | TpDepositSol _ _ _ _ _ _ _ _ => nth_error (c_keys c) 7 = Some tsk -> nth_error (c_keys c) 3 = Some vault /\ nth_error (c_keys c) 2 <> Some vault
  | TpWithdrawSol | TpApproveSol => forall k w, nth_error (c_keys c) (request_pos i) = Some k ->
      unpack c_wsol TP_LEN (@p_init _ _) (dat (accs s k)) = Ok w -> wse_mint (event_of w) = m -> fees + wse_amount (event_of w) mod 2 ^ 64 <= balance s vault
  | _ => True
  end.
Theorem C59_partial : forall e ext c i s s' tsk ts ts' m v vault,
  tp_call e ext c i s s' -> ext_outside ext -> ext_tokens ext -> nonneg s ->
  live_token e s tsk ts -> lam (accs s tsk) <> 0 -> tk_kind ts = TKSol m v -> token_at e s' tsk ts' ->
  tp_addr e (str "vault" ++ kb m) vault -> (forall m', tp_addr e (str "vault" ++ kb m') vault -> m' = m) ->
  locked s vault -> c_sg c vault = false -> ~ is_proxy e vault ->
  fees_covered e c i s tsk vault m (tk_fee_supply ts) ->
  tk_fee_supply ts <= balance s vault -> tk_fee_supply ts' <= balance s' vault.
Proof.
  intros e ext c i s s' tsk ts ts' m v vault CALL XO XT NN LIVE LAM KT TA' PV SOLE LOCK SG NPX COV LE.
  assert (OUT : balance s' vault < balance s vault -> vault_out e c i s vault) by (intros L; eapply C41_call; eassumption).
  destruct (token_step e ext c i s s' tsk ts CALL XO LIVE) as (ts1 & LIVE' & STEP).
  assert (ts1 = ts') by (destruct LIVE' as (_ & [_ A] & _), TA' as [_ B]; congruence). subst ts1.
  pose proof LIVE as (OT & TA & n & vn & AK).
  assert (UNIQ : forall tsk0 ts0 v0, token_at e s tsk0 ts0 -> tk_kind ts0 = TKSol m v0 -> tsk0 = tsk /\ ts0 = ts).
  { intros tsk0 ts0 v0 T0 K0. assert (tsk0 = tsk); [|subst; split; [reflexivity|eapply token_at_fun; eassumption]].
    destruct T0 as [(n0 & T0) _], TA as [(n1 & T1) _]. rewrite K0 in T0. rewrite KT in T1. rewrite T0 in T1. injection T1 as ->. reflexivity. }
  assert (VSAME : forall m0 vault0, m0 = m -> tp_addr e (str "vault" ++ kb m0) vault0 -> vault0 = vault).
  { intros m0 vault0 -> (n0 & P0). destruct PV as (n1 & P1). rewrite P0 in P1. injection P1 as ->. reflexivity. }
  assert (KEEP : same_od s s' tsk -> ts' = ts).
  { intros [_ D]. destruct TA' as [_ U'], TA as [_ U]. rewrite D, U in U'. injection U' as <-. reflexivity. }
  assert (ROSE : tk_fee_supply ts < tk_fee_supply ts' ->
     (exists a b d f g h, i = TpDepositEver a b d f g h) \/ (exists a b d f g h j l, i = TpDepositSol a b d f g h j l) \/ i = TpWithdrawEver \/ i = TpWithdrawSol).
  { intros L. destruct STEP as [->|[a st _ _ _ TC|a _ _ _ ->|am fee [(? & ? & ? & ? & ? & X)|(? & ? & ? & ? & ? & ? & ? & X)] _ _ _ _|fee net X _ _ _ _ _ _|a st net _ _ _ _ _ _ ->|a st am _ _ _ _ B ->]];
      [exfalso; clear - L; lia| |exfalso; clear - L; cbn in L; lia|left; do 6 eexists; exact X|right; left; do 8 eexists; exact X|tauto|exfalso; clear - L; cbn in L; lia|exfalso; clear - L B; cbn in L; lia].
    exfalso. clear - L TC. destruct i; cbn [token_change] in TC; try contradiction TC; try (subst; cbn in L; lia).
    - destruct t; subst; cbn in L; lia.
    - destruct TC as [-> _]. cbn in L. lia. }
  assert (PLACE : is_payload i = false -> at_places (tp_place i) c tsk \/ same_od s s' tsk).
  { intros IP. apply tp_call_exec in CALL as (Hp & OI & _ & H). pose proof (touch_tp_exec e ext c i Hp OI IP s tt s' H NN) as [_ TR].
    destruct (proj1 (TR tsk) OT) as [X|(X1 & X2 & _)]; [left; exact X|right; split; congruence]. }
  assert (CASES : tk_fee_supply ts' <= tk_fee_supply ts /\ balance s vault <= balance s' vault \/ tk_fee_supply ts < tk_fee_supply ts' \/ balance s' vault < balance s vault) by (clear; lia).
  destruct CASES as [[X Y]|CASES]; [clear - X Y LE; lia|].
  assert (WHO : (exists a b d f g h, i = TpDepositEver a b d f g h) \/ (exists a b d f g h j l, i = TpDepositSol a b d f g h j l) \/ i = TpWithdrawEver \/
     i = TpWithdrawSol \/ i = TpApproveSol \/ exists a, i = TpWithdrawSolFee a).
  { destruct CASES as [X|X]; [destruct (ROSE X) as [A|[A|[A|A]]]; tauto|]. destruct (OUT X); eauto 8. }
  clear ROSE. destruct WHO as [(seed & amount & r & value & ev & p & ->)|[(seed & name & symbol & amount & r & value & ev & p & ->)|[->|[->|[->|(amount & ->)]]]]].
  - (* deposit of another token *) assert (ts' = ts).
    { apply KEEP. destruct (PLACE eq_refl) as [(q & Q & NQ)|X]; [|exact X]. exfalso.
      pose proof (C37_partial _ _ _ _ _ _ _ _ _ _ _ CALL) as (f & sd & src & dep & mint & mv & tsk0 & t & md & ts0 & ts0' & m0 & token & dec & amt & rent & (rest & K) & T0 & K0 & B).
      rewrite K in NQ. destruct Q as [->| ->]; injection NQ as <-.
      - destruct B as (_ & _ & _ & _ & _ & _ & _ & _ & _ & _ & _ & _ & _ & (FO & _) & _). rewrite OT in FO. discriminate FO.
      - rewrite (token_at_fun _ _ _ _ _ TA T0), KT in K0. discriminate K0. }
    subst ts'. destruct (Z.lt_ge_cases (balance s' vault) (balance s vault)) as [L|L]; [destruct (OUT L); discriminate|clear - L LE; lia].
  - pose proof (C38_partial _ _ _ _ _ _ _ _ _ _ _ _ _ CALL) as (f & sd & src & vault0 & dep & mint & mv & tsk0 & t & md & ts0' & m0 & v0 & (rest & K) & T0 & K0 & B).
    cbv zeta in B. destruct B as (_ & _ & _ & FEE & _ & BAL & _ & _ & _ & _ & OLD & _ & (FO & _) & _).
    destruct (key_dec tsk0 tsk) as [->|N].
    + cbn [fees_covered] in COV. rewrite K in COV. destruct (COV eq_refl) as [C1 C2]. injection C1 as ->.
      assert (NS : src <> vault) by (intros ->; apply C2; reflexivity). destruct (BAL NS) as (_ & _ & _ & BV). specialize (BV (or_introl LAM)).
      destruct (OLD LAM) as (ts1 & T1 & F1). rewrite (token_at_fun _ _ _ _ _ TA' T0) in *. rewrite (token_at_fun _ _ _ _ _ TA T1) in *. rewrite BV, F1. clear - FEE LE. lia.
    + assert (ts' = ts).
      { apply KEEP. destruct (PLACE eq_refl) as [(q & Q & NQ)|X]; [|exact X]. exfalso. rewrite K in NQ. destruct Q as [->| ->]; injection NQ as ->; [|apply N; reflexivity].
        rewrite OT in FO. discriminate FO. }
      subst ts'. destruct (Z.lt_ge_cases (balance s' vault) (balance s vault)) as [L|L]; [destruct (OUT L); discriminate|clear - L LE; lia].
  - assert (ts' = ts).
    { apply KEEP. destruct (PLACE eq_refl) as [(q & Q & NQ)|X]; [|exact X].
      apply tp_call_exec in CALL as (Hp & _ & _ & H). cbn [tp_exec] in H.
      apply tp_withdraw_ever_ok in H as (k & mint & dst & tsk0 & sk & x & y & z & u & rest & w & tt0 & K & _ & WI & _ & CASE). rewrite Hp in *.
      rewrite K in NQ. destruct Q as [->| ->]; injection NQ as ->.
      - exfalso. destruct WI as (UW & n0 & pn0 & KW & _). apply (kind_prop _ _ _ _) in UW. destruct TA as [_ UT]. apply kind_token_settings in UT. rewrite UT, AK, KW in UW. discriminate UW.
      - destruct CASE as [(_ & _ & ->)|[(_ & E)|(L0 & _)]]; [apply same_od_refl| |contradiction]. exfalso.
        destruct E as (ts0 & mn0 & m0 & d0 & md0 & V & KT0 & _). rewrite Hp in V. apply token_spec in V. rewrite (token_at_fun _ _ _ _ _ TA V), KT in KT0. discriminate KT0. }
    subst ts'. destruct (Z.lt_ge_cases (balance s' vault) (balance s vault)) as [L|L]; [destruct (OUT L); discriminate|clear - L LE; lia].
  - apply tp_call_exec in CALL as (Hp & _ & CK & H). cbn [tp_exec] in H.
    apply (withdraw_sol_fees e c s s' Hp CK) in H as (k & w & vault0 & tsk0 & ts0 & ts1 & fee & net & K & (UW & n0 & pn0 & KW & _) & (PV0 & T0 & v0 & K0) & F0 & N0 & SUM & T1 & F1 & SAME & BO & BV & _).
    destruct (key_dec (wse_mint (event_of w)) m) as [E|N].
    + pose proof (VSAME _ _ E PV0) as ->. rewrite E in K0. destruct (UNIQ _ _ _ T0 K0) as [-> ->]. rewrite (token_at_fun _ _ _ _ _ TA' T1) in *.
      specialize (COV k w K UW E). clear - COV SUM F1 BV. lia.
    + assert (V1 : vault <> vault0) by (intros <-; apply N, SOLE, PV0). specialize (BO _ V1).
      assert (ts' = ts).
      { apply KEEP, SAME; [| |exact OT].
        - intros ->. apply (kind_prop _ _ _ _) in UW. destruct TA as [_ UT]. apply kind_token_settings in UT. rewrite UT, AK, KW in UW. discriminate UW.
        - intros ->. rewrite (token_at_fun _ _ _ _ _ TA T0), KT in K0. injection K0 as K0 _. apply N. symmetry. exact K0. }
      subst ts'. clear - BO LE. lia.
  - assert (FS : tk_fee_supply ts' = tk_fee_supply ts).
    { destruct STEP as [->|[a st _ _ _ TC|a _ _ X _|am fee [(? & ? & ? & ? & ? & X)|(? & ? & ? & ? & ? & ? & ? & X)] _ _ _ _|fee net [X|X] _ _ _ _ _ _|a st net _ _ _ _ _ _ ->|a st am [X|X] _ _ _ _ _]];
        try discriminate X; try destruct TC; reflexivity. }
    apply tp_call_exec in CALL as (Hp & _ & CK & H). cbn [tp_exec] in H.
    apply (approve_sol_outcome e c s s' Hp) in H as (k & w & vault0 & tsk0 & ts0 & ts1 & dst & fee & net & st & K & (_ & UW & _) & _ & _ & (PV0 & T0 & v0 & K0) & FE & NE & N0 & _ & _ & _ & _ & _ & PAID).
    pose proof (fee_on_range (tk_fee_wdr ts0) (wse_amount (event_of w) mod 2 ^ 64)) as FR.
    assert (BB : (forall j, j <> vault0 -> balance s j <= balance s' j) /\ balance s vault0 - net <= balance s' vault0).
    { destruct PAID as [(_ & (BA & _) & _)|(PD & _)].
      - split; [intros j _; rewrite BA; clear; lia|rewrite BA; clear - N0; lia].
      - split; [intros j NJ; exact (paid_lower e s s' w vault0 dst net j N0 PD NJ)|exact (paid_vault e s s' w vault0 dst net N0 PD)]. }
    destruct BB as [BO BV]. rewrite FS. destruct (key_dec (wse_mint (event_of w)) m) as [E|N].
    + pose proof (VSAME _ _ E PV0) as ->. specialize (COV k w K UW E). clear - COV BV NE FE FR. lia.
    + assert (V1 : vault <> vault0) by (intros <-; apply N, SOLE, PV0). specialize (BO _ V1). clear - BO LE. lia.
  - pose proof (C40_sol _ _ _ _ _ _ CALL) as (au & vault0 & dst & tsk0 & sk & st & ts0 & ts1 & m0 & v0 & _ & _ & _ & T0 & K0 & PV0 & A1 & T1 & E1 & A2 & BD & _ & RE).
    destruct (key_dec m0 m) as [->|N].
    + pose proof (VSAME _ _ eq_refl PV0) as ->. destruct (UNIQ _ _ _ T0 K0) as [-> ->]. rewrite (token_at_fun _ _ _ _ _ TA' T1) in *. subst ts'.
      assert (A0 : 0 <= amount) by (apply tp_call_exec in CALL as (_ & OI & _); destruct (ix_u64 _ amount OI (or_intror (or_introl eq_refl))); assumption).
      destruct LOCK as (_ & _ & t0 & (LO & _) & _).
      assert (BV : balance s vault - amount <= balance s' vault).
      { destruct (key_dec vault dst) as [E|NE]; [|destruct (BD NE) as [X _]; clear - X; lia].
        rewrite (balance_same s s' vault); [clear - A0; lia|]. apply RE; [exact LO|]. intros [X _]. contradiction. }
      cbn [tk_fee_supply tk_set_fee_supply]. clear - BV LE. lia.
    + assert (V1 : vault <> vault0) by (intros <-; apply N, SOLE, PV0).
      assert (BV : balance s vault <= balance s' vault).
      { destruct LOCK as (_ & _ & t0 & (LO & _) & _).
        destruct (key_dec vault0 dst) as [E|NE].
        - rewrite (balance_same s s' vault); [clear; lia|]. apply RE; [exact LO|]. intros [X _]. contradiction.
        - assert (A0 : 0 <= amount) by (apply tp_call_exec in CALL as (_ & OI & _); destruct (ix_u64 _ amount OI (or_intror (or_introl eq_refl))); assumption).
          destruct (key_dec vault dst) as [->|ND]; [destruct (BD NE) as [_ X]; clear - X A0; lia|].
          rewrite (balance_same s s' vault); [clear; lia|]. apply RE; [exact LO|]. intros [_ [X|X]]; contradiction. }
      assert (FS : tk_fee_supply ts' <= tk_fee_supply ts).
      { destruct STEP as [->|[a st1 _ _ _ TC|a _ _ X _|am fee [(? & ? & ? & ? & ? & X)|(? & ? & ? & ? & ? & ? & ? & X)] _ _ _ _|fee net [X|X] _ _ _ _ _ _|a st1 net [X|X] _ _ _ _ _ _|a st1 am _ _ _ _ [X _] ->]];
          try discriminate X; try destruct TC; [clear; lia|cbn [tk_fee_supply tk_set_fee_supply]; clear - X; lia]. }
      clear - FS BV LE. lia.
Qed.

(** The pending withdrawal [tw2] of 700000 (ts11); a deposit makes the vault hold exactly its net amount of
    699650, and the withdrawal is executed again: the recorded fees remain, the vault is empty. *)
Definition xjust := tdep tuser tuserS tvault td2 tmintS 2 649625.
Definition ts69 := unres (tstp ts11 xjust).
Definition ts70 := unres (tstp ts69 (texecS tw2 trecvS tmintS)).
Theorem C59_refuted : exists s tsk ts m v vault, reached s /\ live_token te s tsk ts /\ tk_kind ts = TKSol m v /\
  tp_addr te (str "vault" ++ kb m) vault /\ locked s vault /\ balance s vault = 0 /\ 0 < tk_fee_supply ts.
Proof.
  exists ts70, ttsS, (the_token ts70 ttsS), tmintS, tvault, tvault.
  split; [unfold reached, ts70; demo_more; unfold ts69; demo_more; fold (reached ts11); reach11|].
  split; [split; [vm_compute; reflexivity|]; split; [demo_token_at|exists 255, 255; vm_compute; reflexivity]|].
  split; [vm_compute; reflexivity|]. split; [exists 255; vm_compute; reflexivity|].
  split; [|split; vm_compute; reflexivity].
  split; [discriminate|]. split; [discriminate|]. exists (the_tok ts70 tvault). split; [split; vm_compute; reflexivity|]. split; [vm_compute; reflexivity|]. split; vm_compute; reflexivity.
Qed.

Lemma tvault_sole m' : tp_addr te (str "vault" ++ kb m') tvault -> m' = tmintS.
Proof.
  intros (n & F). apply find_pda_some in F as [F _]. cbn [demo_env e_pda te] in F. apply pda_lookup_full in F.
  assert (B : forallb (fun '(sd, p, j) => negb (keqb p tp_id && keqb j tvault) || beqb (firstn 32 (skipn 5 sd)) (kb tmintS)) ttab = true) by (vm_compute; reflexivity).
  rewrite forallb_forall in B. apply B in F. rewrite !keqb_refl in F. cbn [andb negb orb] in F. apply beqb_eq in F.
  apply keqb_eq. unfold keqb. apply beqb_eq. rewrite <- F. unfold with_bump. rewrite <- app_assoc.
  change (kb m' = firstn 32 (kb m' ++ [zb n])). rewrite firstn_app, firstn_all2 by (rewrite kb_length; reflexivity). rewrite kb_length, Nat.sub_diag. cbn [firstn]. rewrite app_nil_r. reflexivity.
Qed.
Lemma no_ext_outside : ext_outside no_ext.
Proof. intros c d s a s' k H. discriminate H. Qed.
Lemma ts4_nonneg : nonneg ts4.
Proof. apply frozen_nonneg. vm_compute. reflexivity. Qed.
(** Paying 50000 of [tev1] from a vault of 100000. *)
Example C59_ex :
  let x := texecS tw1 trecvS tmintS in let c := ctx_of tp_id (fst x) in
  tp_call te no_ext c (snd x) ts4 ts5 /\ ext_outside no_ext /\ ext_tokens no_ext /\ nonneg ts4 /\
  live_token te ts4 ttsS (the_token ts4 ttsS) /\ lam (accs ts4 ttsS) <> 0 /\ tk_kind (the_token ts4 ttsS) = TKSol tmintS tvault /\
  token_at te ts5 ttsS (the_token ts5 ttsS) /\ tp_addr te (str "vault" ++ kb tmintS) tvault /\
  (forall m', tp_addr te (str "vault" ++ kb m') tvault -> m' = tmintS) /\ locked ts4 tvault /\ c_sg c tvault = false /\ ~ is_proxy te tvault /\
  fees_covered te c (snd x) ts4 ttsS tvault tmintS (tk_fee_supply (the_token ts4 ttsS)) /\
  tk_fee_supply (the_token ts4 ttsS) = 50 /\ balance ts4 tvault = 100000 /\ tk_fee_supply (the_token ts5 ttsS) = 75 /\ balance ts5 tvault = 50025.
Proof.
  cbv zeta. split; [demo_call|]. split; [exact no_ext_outside|]. split; [exact no_ext_tokens|]. split; [exact ts4_nonneg|].
  split; [split; [vm_compute; reflexivity|]; split; [demo_token_at|exists 255, 255; vm_compute; reflexivity]|].
  split; [vm_compute; discriminate|]. split; [vm_compute; reflexivity|]. split; [demo_token_at|]. split; [exists 255; vm_compute; reflexivity|].
  split; [exact tvault_sole|]. split.
  { split; [discriminate|]. split; [discriminate|]. exists (the_tok ts4 tvault). split; [split; vm_compute; reflexivity|vm_compute; repeat split; reflexivity]. }
  split; [reflexivity|]. split; [apply demo_not_proxy; vm_compute; reflexivity|]. split.
  { intros k w K U _. assert (E : k = tw1) by (vm_compute in K; injection K as <-; reflexivity). subst k.
    assert (UW : unpack c_wsol TP_LEN (@p_init _ _) (dat (accs ts4 tw1)) = Ok (the_wsol ts4 tw1)) by (vm_compute; reflexivity).
    rewrite UW in U. assert (EW : w = the_wsol ts4 tw1) by (apply (f_equal (fun r => match r with Ok x => x | Err _ => the_wsol ts4 tw1 end)) in U; exact (eq_sym U)).
    rewrite EW. vm_compute. discriminate. }
  split; [vm_compute; reflexivity|]. split; [vm_compute; reflexivity|]. split; vm_compute; reflexivity.
Qed.

Print Assumptions C30_partial.
Print Assumptions C30_rounds_refuted.
Print Assumptions C30_closed_refuted.
Print Assumptions C49_partial.
Print Assumptions C49_refuted.
Print Assumptions C59_partial.
Print Assumptions C59_refuted.
