(** Property C60: account kinds cannot be substituted for one another. *)

From Coq Require Import Strings.String ZifyBool ZifyNat ZifyN.
From Verif Require Import TpDemoLaws PropRoundLoader PropTpAdmin.
Open Scope Z_scope.
Open Scope list_scope.
Ltac Zify.zify_post_hook ::= Z.div_mod_to_equations.

(** * Vocabulary *)

(** The kind byte of a record: the second byte, after the initialised flag.  Settings 0, deposit 1, proposal or
    withdrawal request 2, relay round 3, multi-vault 4, token settings 5. *)
Definition tag (d : bytes) : option byte := nth_error d 1.

(** Which kind of record instruction [i], given [len] accounts, reads at place [n] (new records are not read).
    The withdrawal requests of a fill come in pairs with the accounts of their recipients. *)
Definition tp_expects (i : tp_ix) (len n : nat) : option byte :=
  match i, n with
  | TpVote _, 1 => Some x02 | TpVote _, 2 => Some x03
  | TpWithdrawEver, 0 => Some x02 | TpWithdrawEver, 3 => Some x05 | TpWithdrawEver, 4 => Some x00
  | TpWithdrawSol, 0 => Some x02 | TpWithdrawSol, 3 => Some x05 | TpWithdrawSol, 5 => Some x00
  | (TpExecutePayloadEver | TpExecutePayloadSol), 0 => Some x02
  | TpDepositEver _ _ _ _ _ _, 5 => Some x04 | TpDepositEver _ _ _ _ _ _, 6 => Some x05
  | TpDepositEver _ _ _ _ _ _, 7 => Some x00
  | TpDepositSol _ _ _ _ _ _ _ _, 6 => Some x04 | TpDepositSol _ _ _ _ _ _ _ _, 7 => Some x05
  | TpDepositSol _ _ _ _ _ _ _ _, 8 => Some x00
  | TpWithdrawEverRequest _ _ _ _ _ _ _ _ _ _ _, 3 => Some x00
  | TpWithdrawEverRequest _ _ _ _ _ _ _ _ _ _ _, 4 => Some x03
  | TpWithdrawSolRequest _ _ _ _ _ _ _, 3 => Some x05 | TpWithdrawSolRequest _ _ _ _ _ _ _, 4 => Some x00
  | TpWithdrawSolRequest _ _ _ _ _ _ _, 5 => Some x03
  | (TpChangeGuardian _ | TpChangeManager _ | TpChangeWithdrawalManager _ | TpEnableEmergency | TpDisableEmergency), 1 => Some x00
  | (TpChangeDepositLimit _ | TpChangeWithdrawalLimits _ _ | TpEnableTokenEmergency | TpDisableTokenEmergency
     | TpUpdateFee _ _ _ | TpUpdateTokenName _ _), 1 => Some x05
  | (TpChangeDepositLimit _ | TpChangeWithdrawalLimits _ _ | TpEnableTokenEmergency | TpDisableTokenEmergency
     | TpUpdateFee _ _ _ | TpUpdateTokenName _ _), 2 => Some x00
  | (TpApproveEver | TpApproveSol), 2 => Some x02 | (TpApproveEver | TpApproveSol), 4 => Some x05
  | (TpApproveEver | TpApproveSol), 5 => Some x00
  | TpWithdrawEverFee _, 3 => Some x05 | TpWithdrawEverFee _, 4 => Some x00
  | TpWithdrawSolFee _, 2 => Some x05 | TpWithdrawSolFee _, 4 => Some x00
  | TpChangeBounty _, 1 => Some x02
  | TpCancel _ _ _ _ _, 3 => Some x02 | TpCancel _ _ _ _ _, 5 => Some x00 | TpCancel _ _ _ _ _, 6 => Some x05
  | TpCancel _ _ _ _ _, 9 => Some x04
  | TpFill _ _ _ _ _ _, 5 => Some x00 | TpFill _ _ _ _ _ _, 7 => Some x05 | TpFill _ _ _ _ _ _, 10 => Some x04
  | TpFill _ _ _ _ _ _, S (S (S (S (S (S (S (S (S (S (S m)))))))))) =>
      if Nat.even m && Nat.ltb (S n) len then Some x02 else None
  | TpCloseDeposit, 1 => Some x01
  | TpCloseWithdrawal, 0 => Some x02
  | TpWithdrawMultiVault _, 2 => Some x04 | TpWithdrawMultiVault _, 3 => Some x00
  | _, _ => None
  end%nat.
(** Likewise for the round loader, except the account an upload writes to. *)
Definition rl_expects (i : rl_ix) (n : nat) : option byte :=
  match i, n with
  | RlVote _, 1 => Some x02 | RlVote _, 2 => Some x03
  | RlUpdateSettings _ _ _ _, 1 => Some x00
  | RlCreateRelayRound _ _ _, 2 => Some x00
  | RlFinalize, 1 => Some x02 | RlFinalize, 2 => Some x00 | RlFinalize, 3 => Some x03
  | RlExecute, 1 => Some x00 | RlExecute, 2 => Some x02
  | RlExecuteByAdmin, 2 => Some x00 | RlExecuteByAdmin, 3 => Some x02
  | _, _ => None
  end%nat.

(** * Lemmas *)

Definition kind_tag (kd : account_kind) : byte :=
  match kd with KSettings _ _ => x00 | KDeposit _ => x01 | KProposal _ _ => x02 | KRelayRound _ => x03
              | KMultiVault _ => x04 | KTokenSettings _ _ => x05 end.
Lemma tag_enc b k r : tag (enc c_bool b ++ enc c_kind k ++ r) = Some (kind_tag k).
Proof. destruct b, k; reflexivity. Qed.
Lemma kind_at_tag d kd : kind_at d = Some kd -> tag d = Some (kind_tag kd).
Proof.
  unfold kind_at. destruct (dec (c_bool ** c_kind) d) as [[[b x] r]|] eqn:E; [|discriminate]. intros [= ->].
  apply can in E as [-> _]. cbn [enc c_pair fst snd]. rewrite <- app_assoc. apply tag_enc.
Qed.

Lemma tag_settings e pid s k st pn : tp_settings_in e pid s k st pn -> tag (dat (accs s k)) = Some x00.
Proof. intros [U (n & K & _)]. apply kind_tp_settings, kind_at_tag in U. rewrite K in U. exact U. Qed.
Lemma tag_token e pid s k ts vn : token_in e pid s k ts vn -> tag (dat (accs s k)) = Some x05.
Proof. intros [U (n & K & _)]. apply kind_token_settings, kind_at_tag in U. rewrite K in U. exact U. Qed.
Lemma tag_mv e pid s k : multivault_in e pid s k -> tag (dat (accs s k)) = Some x04.
Proof. intros (mv & n & U & K & _). apply kind_multi_vault, kind_at_tag in U. rewrite K in U. exact U. Qed.
Lemma tag_prop {E M_} (ce : codec E) (cm : codec M_) (L1 : Lawful ce) (L2 : Lawful cm) LEN i d (w : prop E M_) n pn :
  unpack (c_prop ce cm) LEN i d = Ok w -> p_kind w = KProposal n pn -> tag d = Some x02.
Proof. intros U K. apply (kind_prop ce cm _ _), kind_at_tag in U. rewrite K in U. exact U. Qed.
Lemma tag_wever e pid s k w : wever_in e pid s k w -> tag (dat (accs s k)) = Some x02.
Proof. intros [U (n & pn & K & _)]. eapply tag_prop in U; [exact U| | |exact K]; typeclasses eauto. Qed.
Lemma tag_wsol e pid s k w : wsol_in e pid s k w -> tag (dat (accs s k)) = Some x02.
Proof. intros [U (n & pn & K & _)]. eapply tag_prop in U; [exact U| | |exact K]; typeclasses eauto. Qed.
Lemma tag_gprop {e pid} {k : key} d g h : unpack_from_slice c_gprop d = Ok g -> request_addr e pid k g h -> tag d = Some x02.
Proof. intros U (n & pn & K & _). apply kind_gprop, kind_at_tag in U. rewrite K in U. exact U. Qed.
Lemma tag_round_rec LEN i d rr n : unpack c_relay_round LEN i d = Ok rr -> rr_kind rr = KRelayRound n -> tag d = Some x03.
Proof.
  intros U K. apply unpack_unchecked_init in U as [U _]. apply unpack_unchecked_ok in U as (r & -> & O & _); [|typeclasses eauto].
  unfold c_relay_round, c_iso. cbn [enc c_pair fst snd]. rewrite <- !app_assoc, tag_enc, K. reflexivity.
Qed.
Lemma tag_round e pid s k rr : round_in e pid s k rr -> tag (dat (accs s k)) = Some x03.
Proof. intros [U (n & K & _)]. eapply tag_round_rec; eassumption. Qed.
Lemma tag_rl_rec LEN i d st a b : unpack c_rl_settings LEN i d = Ok st -> rs_kind st = KSettings a b -> tag d = Some x00.
Proof.
  intros U K. apply unpack_unchecked_init in U as [U _]. apply unpack_unchecked_ok in U as (r & -> & O & _); [|typeclasses eauto].
  unfold c_rl_settings, c_iso. cbn [enc c_pair fst snd]. rewrite <- !app_assoc, tag_enc, K. reflexivity.
Qed.
Lemma tag_rl e pid s k st pn : rl_settings_in e pid s k st pn -> tag (dat (accs s k)) = Some x00.
Proof. intros [U (n & K & _)]. eapply tag_rl_rec; eassumption. Qed.

(** ** Fill *)

Lemma fill_one_back e c au at_ smint dk f wk rt fee net s s' k : fill_one_eff e c au at_ smint dk f wk rt fee net s s' ->
  blen (dat (accs s' k)) = TP_LEN -> tag (dat (accs s k)) = tag (dat (accs s' k)) /\ blen (dat (accs s k)) = TP_LEN.
Proof.
  intros (w & r & out & s1 & s2 & W & _ & _ & _ & _ & _ & _ & _ & _ & _ & _ & [M _] & P & ->) L.
  cbn [accs put_log] in L |- *. destruct (key_dec k wk) as [->|N].
  - split; [|eapply wsol_in_len; exact W]. pose proof (tag_wsol _ _ _ _ _ W) as T. rewrite T. symmetry.
    destruct P as (-> & _). rewrite dat_put_dat. unfold c_wsol, c_prop, c_iso. cbn [enc c_pair fst snd]. rewrite <- !app_assoc, tag_enc.
    destruct W as [_ (n & pn & K & _)]. cbn [w_set_status p_with_meta p_kind p_init]. rewrite K. reflexivity.
  - pose proof (packed_od _ _ _ _ _ _ _ P _ N) as [_ D]. cbn [accs put_log] in D. rewrite D in L |- *. clear P D.
    destruct M as (a & b & dl & da & A & B & _ & _ & _ & SAME & DIFF & F & _).
    destruct (key_dec at_ rt) as [E|NE]; [rewrite (SAME E) in *; auto|]. destruct (DIFF NE) as [A' B'].
    destruct (key_dec k at_) as [->|N1]; [apply tok_len in A'; rewrite A' in L; discriminate|].
    destruct (key_dec k rt) as [->|N2]; [apply tok_len in B'; rewrite B' in L; discriminate|].
    destruct (F k N1 N2) as [_ <-]. auto.
Qed.

Lemma fill_run_tags e c au at_ smint dk f fees nets l s fees' nets' l' s' :
  fill_run e c au at_ smint dk f fees nets l s fees' nets' l' s' ->
  forall m k, nth_error l (2 * m) = Some k -> (S (2 * m) < List.length l)%nat ->
    tag (dat (accs s k)) = Some x02 /\ blen (dat (accs s k)) = TP_LEN.
Proof.
  induction 1 as [fees nets l s L|fees nets wk rt l s fee net s1 fees' nets' l' s' F R IH]; intros m k N LT; [lia|].
  destruct m as [|m].
  - injection N as <-. destruct F as (w & r & out & t1 & t2 & W & _). split; [eapply tag_wsol; exact W|eapply wsol_in_len; exact W].
  - replace (2 * S m)%nat with (S (S (2 * m))) in N, LT by lia. cbn [nth_error List.length] in N, LT.
    destruct (IH m k N) as [T L]; [lia|]. destruct (fill_one_back _ _ _ _ _ _ _ _ _ _ _ _ _ _ F L) as [-> B]. auto.
Qed.

(** * The token proxy reads records of the expected kind only *)

Ltac at_place KS N E := rewrite KS in N; cbn [nth_error] in N; injection N as <-; cbn [tp_expects rl_expects] in E; injection E as <-.
Ltac by_tag := first
  [ eapply tag_settings; eassumption | eapply tag_token; eassumption | eapply tag_mv; eassumption
  | eapply tag_wever; eassumption | eapply tag_wsol; eassumption | eapply tag_round; eassumption
  | eapply tag_rl; eassumption | eapply tag_gprop; eassumption ].

(** Unless it changes nothing, an instruction of the token proxy finds at each place where it reads a record one
    whose kind byte is the expected one - except that token settings may be missing (no data) in the two
    instructions that register a token.  Only two instructions can succeed although an account is of another kind,
    and then nothing changes: the execution of a payload, and the execution of an Everscale withdrawal without the
    accounts for the registration while the token settings account has no lamports. *)
Theorem C60_token_proxy : forall e ext c i s s' n k t, tp_call e ext c i s s' ->
  tp_expects i (List.length (c_keys c)) n = Some t -> nth_error (c_keys c) n = Some k ->
  tag (dat (accs s k)) = Some t \/
  (t = x05 /\ dat (accs s k) = [] /\ own (accs s k) = sys_id /\ lam (accs s k) = 0 /\
     (i = TpWithdrawEver \/ exists a b d f g h j l, i = TpDepositSol a b d f g h j l)) \/
  (s' = s /\ (is_payload i = true \/ i = TpWithdrawEver /\ lam (accs s k) = 0)).
Proof.
  intros e ext c i s s' n k t C E N. apply tp_call_exec in C as (Hp & O & _ & H).
  destruct i; cbn [tp_exec] in H.
  - (* Vote *) apply tp_vote_ok in H as (relay & w & rrk & rest & KS & g & rr & j & old & _ & _ & U & A & UR & (m & KR & _) & _).
    destruct n as [|[|[|n]]]; try discriminate E; at_place KS N E; left; [by_tag|eapply tag_round_rec; eassumption].
  - (* WithdrawEver *)
    apply tp_withdraw_ever_ok in H as (w & mint & rc & tsk & sk & x & y & z & u & rest & r & t0 & KS & -> & W & (st & pn & S & _) & D).
    destruct n as [|[|[|[|[|n]]]]]; try discriminate E; at_place KS N E; [left; by_tag| |left; by_tag].
    destruct D as [(L & _ & ->)|[(L & ts & mn & m & d & md & T & _)|(L & f & rest' & s0 & _ & R & _)]].
    + right. right. split; [reflexivity|]. right. auto.
    + left. by_tag.
    + right. left. destruct R as (mn & tn & ata & an & m & tk & _ & _ & _ & _ & _ & _ & _ & _ & _ & _ & _ & _ & _ & _ & _ & _ & _ & _ & _ & (O1 & D1 & _) & _).
      split; [reflexivity|]. repeat (split; [assumption|]). left; reflexivity.
  - (* WithdrawSol *)
    apply tp_withdraw_sol_ok in H as (w & v & rc & tsk & mint & sk & x & y & rest & r & st & pn & KS & W & S & _ & ts & vn & sv & T & _).
    destruct n as [|[|[|[|[|[|n]]]]]]; try discriminate E; at_place KS N E; left; by_tag.
  - (* ExecutePayloadEver *)
    apply tp_execute_payload_ever_ok in H as (w & rest & r & KS & U & [[_ ->]|(_ & m & a & pn & l & s1 & _ & K & _)]); [right; right; auto|].
    destruct n as [|n]; try discriminate E; at_place KS N E. left. eapply tag_prop in U; [exact U| | |exact K]; typeclasses eauto.
  - (* ExecutePayloadSol *)
    apply tp_execute_payload_sol_ok in H as (w & rest & r & KS & U & [[_ ->]|(_ & m & a & pn & l & s1 & _ & K & _)]); [right; right; auto|].
    destruct n as [|n]; try discriminate E; at_place KS N E. left. eapply tag_prop in U; [exact U| | |exact K]; typeclasses eauto.
  - destruct n; discriminate E.
  - (* DepositEver *)
    apply tp_deposit_ever_ok in H as (f & cr & ct & dp & mint & mv & tsk & sk & x & y & z & rest & KS & st & pn & ts & mn & m & token & d & md & dn & fee & pu & amt & s1 & s2 & s3 & _ & S & _ & T & _ & _ & _ & _ & V & _);
      [|eapply amount_dep_ever; exact O].
    destruct n as [|[|[|[|[|[|[|[|n]]]]]]]]; try discriminate E; at_place KS N E; left; by_tag.
  - (* DepositSol *)
    apply tp_deposit_sol_ok in H as (f & cr & ct & va & dp & mint & mv & tsk & sk & x & y & z & rest & st & pn & s0 & KS & _ & S & _ & _ & _ & R & D);
      [|eapply amount_dep_sol; exact O].
    destruct D as (ts & vn & sm & sv & md & v & dn & fee & amt & s1 & s2 & s3 & T & _ & _ & _ & _ & _ & _ & _ & _ & V & _).
    destruct n as [|[|[|[|[|[|[|[|[|n]]]]]]]]]; try discriminate E; at_place KS N E; [| |left; by_tag].
    + destruct R as [[_ ->]|[_ R]]; [left; by_tag|].
      destruct R as (vn' & tn & tk & _ & _ & NE & _ & _ & TO & _ & _ & _ & _ & _ & NR & F & _).
      destruct (key_dec mv va) as [->|N1].
      { apply tok_len in TO. destruct V as (x0 & n0 & V & _). apply unpack_unchecked_init in V as [V _].
        apply unpack_unchecked_ok in V as (r0 & _ & _ & B); [|typeclasses eauto]. rewrite B in TO. discriminate. }
      destruct (key_dec mv tsk) as [->|N2].
      { apply tag_mv in V. apply tag_token in T. congruence. }
      left. destruct (F mv N1 N2) as [_ <-]. by_tag.
    + destruct R as [[_ ->]|[L R]]; [left; by_tag|]. right. left.
      destruct R as (vn' & tn & tk & _ & _ & NE & _ & _ & TO & _ & _ & _ & _ & _ & (O1 & D1 & _) & _).
      split; [reflexivity|]. repeat (split; [assumption|]). right. repeat eexists.
  - (* WithdrawEverRequest *)
    apply tp_withdraw_ever_request_ok in H as (f & au & w & rlsk & rrk & x & y & z & rest & KS & rls & rpn & rr & pn & s1 & _ & _ & _ & RS & RR & _).
    destruct n as [|[|[|[|[|n]]]]]; try discriminate E; at_place KS N E; left; by_tag.
  - (* WithdrawSolRequest *)
    apply tp_withdraw_sol_request_ok in H as (f & au & w & tsk & rlsk & rrk & x & y & z & rest & KS & tks & vn & sv & mint & rls & rpn & rr & pn & s1 & _ & T & _ & RS & RR & _).
    destruct n as [|[|[|[|[|[|n]]]]]]; try discriminate E; at_place KS N E; left; by_tag.
  - apply admin_settings_ok in H as (a & sk & rest & st & pn & KS & _ & S & _).
    destruct n as [|[|n]]; try discriminate E; at_place KS N E; left; by_tag.
  - apply admin_settings_ok in H as (a & sk & rest & st & pn & KS & _ & S & _).
    destruct n as [|[|n]]; try discriminate E; at_place KS N E; left; by_tag.
  - apply admin_settings_ok in H as (a & sk & rest & st & pn & KS & _ & S & _).
    destruct n as [|[|n]]; try discriminate E; at_place KS N E; left; by_tag.
  - apply (token_admin_ok e ext c (TpChangeDepositLimit _)) in H as (a & tsk & sk & rest & st & pn & ts & vn & ts' & s1 & KS & _ & S & _ & T & _); [|exact Logic.I].
    destruct n as [|[|[|n]]]; try discriminate E; at_place KS N E; left; by_tag.
  - apply (token_admin_ok e ext c (TpChangeWithdrawalLimits _ _)) in H as (a & tsk & sk & rest & st & pn & ts & vn & ts' & s1 & KS & _ & S & _ & T & _); [|exact Logic.I].
    destruct n as [|[|[|n]]]; try discriminate E; at_place KS N E; left; by_tag.
  - apply tp_enable_emergency_ok in H as (a & sk & rest & st & pn & KS & _ & S & _).
    destruct n as [|[|n]]; try discriminate E; at_place KS N E; left; by_tag.
  - apply admin_settings_ok in H as (a & sk & rest & st & pn & KS & _ & S & _).
    destruct n as [|[|n]]; try discriminate E; at_place KS N E; left; by_tag.
  - apply (token_admin_ok e ext c TpEnableTokenEmergency) in H as (a & tsk & sk & rest & st & pn & ts & vn & ts' & s1 & KS & _ & S & _ & T & _); [|exact Logic.I].
    destruct n as [|[|[|n]]]; try discriminate E; at_place KS N E; left; by_tag.
  - apply tp_disable_token_emergency_ok in H as (a & tsk & sk & rest & st & pn & ts & vn & KS & _ & S & _ & T & _).
    destruct n as [|[|[|n]]]; try discriminate E; at_place KS N E; left; by_tag.
  - apply tp_approve_ever_ok in H as (a & mint & w & rc & tsk & sk & x & y & rest & r & KS & ts & mn & m & d & md & st & pn & _ & S & _ & _ & W & _ & T & _).
    destruct n as [|[|[|[|[|[|n]]]]]]; try discriminate E; at_place KS N E; left; by_tag.
  - apply tp_approve_sol_ok in H as (a & va & w & rc & tsk & sk & x & y & rest & r & KS & ts & vn & sv & st & pn & _ & S & _ & _ & W & _ & T & _).
    destruct n as [|[|[|[|[|[|n]]]]]]; try discriminate E; at_place KS N E; left; by_tag.
  - apply (token_admin_ok e ext c (TpUpdateFee _ _ _)) in H as (a & tsk & sk & rest & st & pn & ts & vn & ts' & s1 & KS & _ & S & _ & T & _); [|exact Logic.I].
    destruct n as [|[|[|n]]]; try discriminate E; at_place KS N E; left; by_tag.
  - apply (token_admin_ok e ext c (TpUpdateTokenName _ _)) in H as (a & tsk & sk & rest & st & pn & ts & vn & ts' & s1 & KS & _ & S & _ & T & _); [|exact Logic.I].
    destruct n as [|[|[|n]]]; try discriminate E; at_place KS N E; left; by_tag.
  - apply tp_withdraw_ever_fee_ok in H as (a & mint & rc & tsk & sk & x & rest & KS & st & pn & ts & mn & m & token & d & s1 & _ & S & _ & T & _);
      [|change (okb c_u64 amount = true) in O; apply okb_u64 in O; lia].
    destruct n as [|[|[|[|[|n]]]]]; try discriminate E; at_place KS N E; left; by_tag.
  - apply tp_withdraw_sol_fee_ok in H as (a & va & tsk & rc & sk & x & rest & KS & st & pn & ts & vn & sm & sv & s1 & _ & S & _ & T & _);
      [|change (okb c_u64 amount = true) in O; apply okb_u64 in O; lia].
    destruct n as [|[|[|[|[|n]]]]]; try discriminate E; at_place KS N E; left; by_tag.
  - apply tp_change_bounty_ok in H as (a & w & rest & r & KS & _ & W & _).
    destruct n as [|[|n]]; try discriminate E; at_place KS N E; left; by_tag.
  - apply tp_cancel_ok in H as (f & a & mint & w & dp & sk & tsk & x & y & mv & rest & KS & st & pn & r & ts & vn & sv & md & dn & fee & amt & s1 & s2 & _ & S & _ & W & _ & _ & T & _ & _ & V & _).
    destruct n as [|[|[|[|[|[|[|[|[|[|n]]]]]]]]]]; try discriminate E; at_place KS N E; left; by_tag.
  - apply tp_fill_ok in H as (f & a & at_ & mint & dp & sk & x & tsk & y & z & mv & rest & KS & FE).
    destruct FE as (st & pn & ts & vn & sm & sv & md & dn & fees & nets & va & unread & v & fee & amt & s1 & s2 & s3 & s4 & _ & S & _ & T & _ & _ & V & _ & _ & _ & _ & LP & R & _).
    destruct n as [|[|[|[|[|[|[|[|[|[|[|n]]]]]]]]]]]; try discriminate E; try (at_place KS N E; left; by_tag).
    rewrite KS in N, E. cbn [nth_error] in N. cbn [tp_expects List.length] in E.
    destruct (Nat.even n && _) eqn:G; [|discriminate E]. injection E as <-. apply andb_true_iff in G as [G1 G2].
    apply Nat.ltb_lt in G2. apply Nat.even_spec in G1 as [m ->]. left.
    destruct (fill_run_tags _ _ _ _ _ _ _ _ _ _ _ _ _ _ _ R m k N) as [TT _]; [lia|].
    destruct LP as (_ & _ & _ & SO & _). destruct (SO k) as [_ <-]. exact TT.
  - destruct n; discriminate E.
  - apply tp_close_deposit_ok in H as (a & dp & rest & g & seed & m & KS & _ & U & _ & K & _).
    destruct n as [|[|n]]; try discriminate E; at_place KS N E; left. apply kind_gdep, kind_at_tag in U. rewrite K in U. exact U.
  - apply tp_close_withdrawal_ok in H as (w & a & rest & g & m & KS & U & A & _).
    destruct n as [|n]; try discriminate E; at_place KS N E; left; by_tag.
  - apply tp_withdraw_multi_vault_ok in H as (a & rc & mv & sk & rest & st & pn & KS & _ & S & _ & V & _).
    destruct n as [|[|[|[|n]]]]; try discriminate E; at_place KS N E; left; by_tag.
Qed.

(** * Records of the token proxy keep their kind *)

Lemma wrote_prop_tag {E M_} (ce : codec E) (cm : codec M_) (x : prop E M_) r : tag (enc (c_prop ce cm) x ++ r) = Some (kind_tag (p_kind x)).
Proof. unfold c_prop, c_iso. cbn [enc c_pair fst snd]. rewrite <- !app_assoc. apply tag_enc. Qed.

(** A record of the token proxy keeps its owner and kind byte, or is a closed deposit or request, whose account
    goes back to the system program with zeroed data. *)
Theorem C60_kept : forall e ext c i s s' k, tp_call e ext c i s s' -> ext_outside ext -> own (accs s k) = tp_id ->
  own (accs s' k) = tp_id /\ tag (dat (accs s' k)) = tag (dat (accs s k)) \/
  own (accs s' k) = sys_id /\ all0 (dat (accs s' k)) = true /\
    (i = TpCloseDeposit /\ tag (dat (accs s k)) = Some x01 \/ i = TpCloseWithdrawal /\ tag (dat (accs s k)) = Some x02).
Proof.
  intros e ext c i s s' k C X O. assert (S : same_od s s' k -> own (accs s' k) = tp_id /\ tag (dat (accs s' k)) = tag (dat (accs s k))).
  { intros [O1 D1]. rewrite D1. split; [congruence|reflexivity]. }
  assert (NU : ~ unused s k) by (intros [U _]; rewrite O in U; discriminate U).
  destruct (is_payload i) eqn:P.
  - left. apply tp_call_exec in C as (Hp & _ & _ & H).
    destruct (payload_cases e ext c i s s' k Hp P H) as (s1 & NE & W). pose proof (nested_outside _ _ _ _ _ X NE k O) as N1.
    destruct W as [W|W]; [apply S; eapply same_od_trans; eassumption|]. clear S NE.
    destruct W as [[_ W]|[_ W]]; destruct W as (_ & O1 & w & n & pn & U & _ & K & PK).
    + split; [rewrite (packed_own _ _ _ _ _ _ _ PK); exact O1|]. eapply tag_prop in U; [|typeclasses eauto|typeclasses eauto|exact K]. rewrite U.
      destruct PK as (-> & _). rewrite dat_put_dat. unfold c_wever. rewrite wrote_prop_tag. cbn [w_set_status p_with_meta p_kind]. rewrite K. reflexivity.
    + split; [rewrite (packed_own _ _ _ _ _ _ _ PK); exact O1|]. eapply tag_prop in U; [|typeclasses eauto|typeclasses eauto|exact K]. rewrite U.
      destruct PK as (-> & _). rewrite dat_put_dat. unfold c_wsol. rewrite wrote_prop_tag. cbn [w_set_status p_with_meta p_kind]. rewrite K. reflexivity.
  - pose proof C as C0. apply tp_call_exec in C0 as (Hp & _ & _ & _).
    pose proof (tp_call_effect _ _ _ _ _ _ k C P) as EF. destruct EF.
    + left. destruct H as [H|[H _]]; [apply S; exact H|contradiction].
    + contradiction.
    + contradiction.
    + left. destruct H as [_ U], H0 as [O' U']. split; [exact O'|]. apply kind_tp_settings, kind_at_tag in U, U'. rewrite U, U'.
      rewrite (settings_cause_kind _ _ _ _ _ _ H2). reflexivity.
    + contradiction.
    + left. destruct H as [_ U], H0 as [O' U']. split; [exact O'|]. apply kind_token_settings, kind_at_tag in U, U'. rewrite U, U'.
      destruct (token_cause_core _ _ _ _ _ _ H2) as [-> _]. reflexivity.
    + contradiction.
    + contradiction.
    + contradiction.
    + left. destruct H3 as (g & rr & j & old & _ & _ & U & A & _ & _ & _ & _ & [[_ ->]|(_ & d' & PK & D & _)]); [split; [exact O|reflexivity]|].
      split; [exact H2|]. apply (tag_gprop _ _ _ U) in A as T. rewrite T, D. apply pack_into_slice_ok in PK as [-> _].
      refine (eq_trans (wrote_prop_tag c_bytes c_bytes _ _) _). destruct A as (a & b & K & _). cbn [p_with_signers p_kind]. rewrite K. reflexivity.
    + left. destruct H2 as [_ U], H5 as [O' U']. split; [exact O'|]. destruct H3 as (a0 & b0 & K & _).
      eapply tag_prop in U; [|typeclasses eauto|typeclasses eauto|exact K]. rewrite U.
      eapply tag_prop in U'; [exact U'|typeclasses eauto|typeclasses eauto|exact K].
    + left. destruct H as [_ U], H4 as [O' U']. split; [exact O'|]. destruct H0 as (a0 & b0 & K & _).
      eapply tag_prop in U; [|typeclasses eauto|typeclasses eauto|exact K]. rewrite U.
      eapply tag_prop in U'; [exact U'|typeclasses eauto|typeclasses eauto|exact K].
    + left. destruct H as [_ U], H4 as [O' U']. split; [exact O'|]. destruct H0 as (a0 & b0 & K & _).
      eapply tag_prop in U; [|typeclasses eauto|typeclasses eauto|exact K]. rewrite U.
      eapply tag_prop in U'; [exact U'|typeclasses eauto|typeclasses eauto|exact K].
    + right. destruct H1 as (_ & O' & D & _). split; [exact O'|]. split.
      { rewrite D. clear. induction (List.length (dat (accs s k))) as [|n IH]; [reflexivity|exact IH]. }
      destruct H as [(-> & _ & g & seed & n & U & _ & K & _)|(-> & g & m & U & A & _)].
      * left. split; [reflexivity|]. apply kind_gdep, kind_at_tag in U. rewrite K in U. exact U.
      * right. split; [reflexivity|]. eapply tag_gprop; eassumption.
Qed.

(** * The round loader *)

(** An initialised account of the round loader has the length and kind of one of its three kinds of records. *)
Definition rl_tagged (s : state) : Prop := forall k, own (accs s k) = rl_id ->
  hd x00 (dat (accs s k)) = x00 \/
  exists t, tag (dat (accs s k)) = Some t /\
    (blen (dat (accs s k)) = RL_SETTINGS_LEN /\ t = x00 \/ blen (dat (accs s k)) = RELAY_ROUND_LEN /\ t = x03 \/
     blen (dat (accs s k)) = RL_PROPOSAL_LEN /\ t = x02).

Lemma tagged_foreign e s s' : rl_tagged s -> foreign e rl_id s s' -> rl_tagged s'.
Proof.
  intros T F k O. destruct (F k) as (_ & A & B & _). destruct (key_dec (own (accs s k)) rl_id) as [E|E].
  - destruct (A E) as [[_ ->] _]. exact (T k E).
  - left. apply all0_hd. exact (B E O).
Qed.
Lemma tagged_purge s s' : rl_tagged s -> purge s s' -> rl_tagged s'.
Proof. intros T P k O. destruct (P k) as [E|[_ E]]; rewrite E in *; [exact (T k O)|discriminate O]. Qed.

Lemma firstn_tag (d d' : bytes) : firstn 88 d' = firstn 88 d -> tag d' = tag d.
Proof. intros H. apply (f_equal (fun l => nth_error l 1)) in H. destruct d as [|? [|? ?]], d' as [|? [|? ?]]; try discriminate H; exact H. Qed.
Lemma enc_rl_tag st r : tag (enc c_rl_settings st ++ r) = Some (kind_tag (rs_kind st)).
Proof. unfold c_rl_settings, c_iso. cbn [enc c_pair fst snd]. rewrite <- !app_assoc. apply tag_enc. Qed.
Lemma enc_round_tag st r : tag (enc c_relay_round st ++ r) = Some (kind_tag (rr_kind st)).
Proof. unfold c_relay_round, c_iso. cbn [enc c_pair fst snd]. rewrite <- !app_assoc. apply tag_enc. Qed.

Lemma wrote_same_tag {E M_} (ce : codec E) (cm : codec M_) (L1 : Lawful ce) (L2 : Lawful cm) LEN s s' k (p p' : prop E M_) :
  unpack_unchecked (c_prop ce cm) LEN (dat (accs s k)) = Ok p -> wrote (c_prop ce cm) s s' k p' -> p_kind p' = p_kind p ->
  tag (dat (accs s' k)) = tag (dat (accs s k)) /\ blen (dat (accs s' k)) = blen (dat (accs s k)).
Proof.
  intros U W K. split; [|eapply RlLaws.wrote_blen; exact W]. destruct W as (_ & -> & _).
  apply unpack_unchecked_ok in U as (r & -> & _ & _); [|typeclasses eauto]. rewrite !wrote_prop_tag, K. reflexivity.
Qed.

Lemma tagged_exec e c i s s' : c_pid c = rl_id -> okb c_rl_ix i = true -> rl_tagged s -> rl_exec e c i s = Ok (tt, s') -> rl_tagged s'.
Proof.
  intros Hp OI T H k O. pose proof (rl_exec_effect _ _ _ _ _ H k) as EF. rewrite <- Hp in *. specialize (T k). rewrite <- Hp in T. destruct EF.
  - destruct H0 as [O1 D1]. rewrite D1. apply T. congruence.
  - right. destruct H4 as (_ & _ & r & D & _ & B). exists x00. rewrite D at 1. rewrite enc_rl_tag. split; [reflexivity|]. left. auto.
  - right. pose proof (sin_len _ _ _ _ _ _ H3) as LL. destruct H3 as [U (n & K & _)]. exists x00. split.
    + destruct H5 as (_ & -> & _). rewrite enc_rl_tag. cbn [rs_kind]. rewrite K. reflexivity.
    + left. split; [|reflexivity]. rewrite (RlLaws.wrote_blen _ _ _ _ _ H5). exact LL.
  - right. pose proof (sin_len _ _ _ _ _ _ H0) as LL. destruct H0 as [U (m & K & Q)]. exists x00. split.
    + destruct H2 as (_ & -> & _). rewrite enc_rl_tag. cbn [rs_kind rs_with_current]. rewrite K. reflexivity.
    + left. split; [|reflexivity]. rewrite (RlLaws.wrote_blen _ _ _ _ _ H2). exact LL.
  - right. destruct H3 as (_ & _ & r & D & _ & B). exists x03. rewrite D at 1. rewrite enc_round_tag. split; [reflexivity|]. right. left. auto.
  - right. destruct H3 as (_ & _ & r0 & D & _ & B). exists x02. split; [rewrite D; refine (eq_trans (wrote_prop_tag _ _ _ _) _); reflexivity|]. right. right. auto.
  - subst i s'. apply okb_ix_write in OI. destruct (write_data_len _ _ _ _ OI H3) as [L1 L2]. rewrite dat_put_dat.
    rewrite (firstn_tag _ _ L2), (hd_firstn _ _ 87 L2). unfold blen. rewrite L1. apply T. assumption.
  - right. destruct (wrote_same_tag _ _ _ _ _ _ _ _ _ _ H2 H7 eq_refl) as [E1 E2]. exists x02. rewrite E1, E2. split.
    + destruct H4 as (a0 & b0 & K & _). apply unpack_unchecked_ok in H2 as (r & -> & _ & _); [|typeclasses eauto].
      refine (eq_trans (wrote_prop_tag _ _ _ _) _). rewrite K. reflexivity.
    + right. right. split; [|reflexivity]. apply unpack_unchecked_ok in H2 as (r & _ & _ & B); [exact B|typeclasses eauto].
  - destruct H0 as (_ & _ & O1 & U & (a & b & K & _) & _ & W & _). apply unpack_unchecked_init in U as [U _]. right.
    destruct (wrote_same_tag _ _ _ _ _ _ _ _ _ _ U W eq_refl) as [E1 E2]. exists x02. rewrite E1, E2. split.
    + apply unpack_unchecked_ok in U as (r & -> & _ & _); [|typeclasses eauto]. refine (eq_trans (wrote_prop_tag _ _ _ _) _). rewrite K. reflexivity.
    + right. right. split; [|reflexivity]. apply unpack_unchecked_ok in U as (r & _ & _ & B); [exact B|typeclasses eauto].
  - apply unpack_unchecked_init in H1 as [U I]. destruct (T H0) as [T1|T1].
    + exfalso. apply unpack_unchecked_ok in U as (r & E & _ & _); [|typeclasses eauto]. rewrite E in T1. rewrite hd_init, I in T1. discriminate T1.
    + right. destruct (wrote_same_tag _ _ _ _ _ _ _ _ _ _ U H5 eq_refl) as [E1 E2]. rewrite E1, E2. exact T1.
Qed.
Lemma tagged_hist e s0 s : genesis e rl_id s0 -> rl_hist e s0 s -> rl_tagged s.
Proof.
  intros G H. assert (T : rl_tagged s0) by (intros k O; destruct (G k) as (_ & N & _); contradiction). revert T.
  apply (hist_inv e rl_id (rl_instr e) rl_tagged); [| | |exact H].
  - intros s1 s2 T (c & d & Hp & R). apply rl_process_ok in R as (i & _ & OI & R). eapply tagged_exec; eassumption.
  - intros s1 s2 T F. eapply tagged_foreign; eassumption.
  - intros s1 s2 T P. eapply tagged_purge; eassumption.
Qed.

(** In every history of the round loader, an instruction other than an upload finds a record of the expected
    kind at each place where it reads one; for the execution by the submitter, which does not validate the proposal
    account, as far as this account is the round loader's. *)
Theorem C60_round_loader_partial : forall e s0 s c i s' n k t, genesis e rl_id s0 -> rl_hist e s0 s -> rl_call e c i s s' ->
  rl_expects i n = Some t -> nth_error (c_keys c) n = Some k ->
  (i = RlExecuteByAdmin -> n = 3%nat -> own (accs s k) = rl_id) -> tag (dat (accs s k)) = Some t.
Proof.
  intros e s0 s c i s' n k t G H0 C E N OW. apply call_exec in C as (Hp & O & H & _).
  assert (PT : forall k p, unpack c_rl_proposal RL_PROPOSAL_LEN (@p_init _ _) (dat (accs s k)) = Ok p -> proposal_addr e (c_pid c) k p ->
    tag (dat (accs s k)) = Some x02).
  { intros j p U (a & b & K & _). eapply tag_prop in U; [exact U| | |exact K]; typeclasses eauto. }
  destruct i; cbn [rl_exec] in H.
  - apply rl_vote_ok in H as (vt & pk & rrk & rest & p & rr & j & old & KS & _ & _ & U & A & R & _).
    destruct n as [|[|[|n]]]; try discriminate E; at_place KS N E; [eapply PT; eassumption|by_tag].
  - destruct n; discriminate E.
  - apply rl_update_settings_ok in H as (a & sk & pd & rest & st & pn & KS & _ & S & _).
    destruct n as [|[|n]]; try discriminate E; at_place KS N E; by_tag.
  - apply rl_create_relay_round_ok in H as (f & cr & sk & rrk & sy & rest & st & pn & KS & _ & S & _).
    destruct n as [|[|[|n]]]; try discriminate E; at_place KS N E; by_tag.
  - destruct n; discriminate E.
  - destruct n; discriminate E.
  - apply rl_finalize_ok in H as (f & pk & sk & rrk & sy & rest & st & pn & p & rr & KS & S & U & _ & A & R & _).
    destruct n as [|[|[|[|n]]]]; try discriminate E; at_place KS N E; try by_tag.
    destruct A as (a & b & K & _). apply unpack_unchecked_ok in U as (r & -> & _ & _); [|typeclasses eauto]. refine (eq_trans (wrote_prop_tag _ _ _ _) _). rewrite K. reflexivity.
  - apply rl_execute_ok in H as (f & sk & pk & rrk & sy & rest & st & pn & p & KS & S & U & A & _).
    destruct n as [|[|[|n]]]; try discriminate E; at_place KS N E; [by_tag|eapply PT; eassumption].
  - apply rl_execute_by_admin_ok in H as (f & cr & sk & pk & rrk & sy & rest & st & pn & p & KS & _ & S & _ & U & _).
    destruct n as [|[|[|[|n]]]]; try discriminate E; at_place KS N E; [by_tag|].
    specialize (OW eq_refl eq_refl). apply unpack_unchecked_init in U as [U I]. apply unpack_unchecked_ok in U as (r & D & _ & B); [|typeclasses eauto].
    destruct (tagged_hist _ _ _ G H0 pk OW) as [T|(t & T & [[L _]|[[L _]|[_ ->]]])]; [|rewrite L in B; discriminate B|rewrite L in B; discriminate B|exact T].
    rewrite D, hd_init, I in T. discriminate T.
Qed.
(** Nothing the round loader does changes the kind or the length of its accounts. *)
Theorem C60_rl_kept : forall e c i s s' k, rl_call e c i s s' -> own (accs s k) = rl_id ->
  own (accs s' k) = rl_id /\ tag (dat (accs s' k)) = tag (dat (accs s k)) /\ blen (dat (accs s' k)) = blen (dat (accs s k)).
Proof.
  intros e c i s s' k C O. apply call_exec in C as (Hp & OI & H & _). pose proof (rl_exec_effect _ _ _ _ _ H k) as EF.
  assert (NF : forall A (cd : codec A) L x o, ~ fresh_record cd L x o s s' k).
  { intros A cd L x o ((U & _) & _). rewrite O in U. discriminate U. }
  assert (SET : forall st st' pn, rl_settings_in e (c_pid c) s k st pn -> wrote c_rl_settings s s' k st' -> rs_kind st' = rs_kind st ->
    own (accs s' k) = rl_id /\ tag (dat (accs s' k)) = tag (dat (accs s k)) /\ blen (dat (accs s' k)) = blen (dat (accs s k))).
  { intros st st' pn V W K. split; [destruct W as (-> & _); exact O|]. split; [|eapply RlLaws.wrote_blen; exact W].
    rewrite (tag_rl _ _ _ _ _ _ V). destruct V as [_ (n & KK & _)]. destruct W as (_ & -> & _). rewrite enc_rl_tag, K, KK. reflexivity. }
  destruct EF; try (exfalso; eapply NF; eassumption).
  - destruct H0 as [O1 D1]. rewrite D1. split; [congruence|auto].
  - eapply SET; [eassumption|eassumption|reflexivity].
  - eapply SET; [eassumption|eassumption|reflexivity].
  - subst i s'. apply okb_ix_write in OI. destruct (write_data_len _ _ _ _ OI H3) as [L1 L2]. rewrite dat_put_dat, own_put_dat.
    split; [exact O|]. split; [apply firstn_tag; exact L2|unfold blen; rewrite L1; reflexivity].
  - split; [destruct H7 as (-> & _); exact O|]. eapply (wrote_same_tag _ _ _ _ _ _ _ _ _ _ H2 H7). reflexivity.
  - destruct H0 as (_ & _ & _ & U & _ & _ & W & _). apply unpack_unchecked_init in U as [U _].
    split; [destruct W as (-> & _); exact O|]. eapply (wrote_same_tag _ _ _ _ _ _ _ _ _ _ U W). reflexivity.
  - apply unpack_unchecked_init in H1 as [U _].
    split; [destruct H5 as (-> & _); exact O|]. eapply (wrote_same_tag _ _ _ _ _ _ _ _ _ _ U H5). reflexivity.
Qed.

(** The upload of a proposal event writes into an account that is a relay round: the kind is not checked. *)
Theorem C60_refuted : exists e s0 s s' ms o b k,
  genesis e rl_id s0 /\ rl_hist e s0 s /\ rl_call e (ctx_of rl_id ms) (RlWriteProposal o b) s s' /\
  nth_error (map m_key ms) 0 = Some k /\ own (accs s k) = rl_id /\
  tag (dat (accs s k)) = Some x03 /\ dat (accs s' k) <> dat (accs s k).
Proof.
  exists de, ds0, ds4, ds4x, (fst de_attack), 23, (flat_map kb (map knum [71; 72; 73; 74; 75; 76; 77; 78; 79])), de_r12.
  split; [exact ds0_genesis|]. split; [exact ds4_hist|]. split.
  { split; [reflexivity|]. exists (enc c_rl_ix (snd de_attack)). split; [vm_compute; reflexivity|].
    apply do_rl_step. vm_compute. reflexivity. }
  split; [reflexivity|]. split; [vm_compute; reflexivity|]. split; [vm_compute; reflexivity|].
  intros E. apply (f_equal (fun d => firstn 4 (skipn 111 d))) in E. vm_compute in E. discriminate E.
Qed.

(** * Examples *)

(** A Solana withdrawal is executed: request, token settings and settings are read by kind; with the token
    settings and the request, or the settings and the multi-vault, exchanged it fails. *)
Example C60_ex :
  let c := ctx_of tp_id (fst (texecS tw1 trecvS tmintS)) in
  tp_call te no_ext c TpWithdrawSol ts4 ts5 /\ tp_expects TpWithdrawSol (List.length (c_keys c)) 3 = Some x05 /\
  nth_error (c_keys c) 3 = Some ttsS /\ tag (dat (accs ts4 ttsS)) = Some x05 /\ own (accs ts4 ttsS) = tp_id /\ ext_outside no_ext /\
  is_ok (tstp ts4 (map (fun m => if keqb (m_key m) ttsS then Meta tw1 (m_sg m) (m_wr m) else m) (fst (texecS tw1 trecvS tmintS)), TpWithdrawSol)) = false /\
  is_ok (tstp ts4 (map (fun m => if keqb (m_key m) tset then Meta tmv (m_sg m) (m_wr m) else m) (fst (texecS tw1 trecvS tmintS)), TpWithdrawSol)) = false.
Proof.
  intros c. split; [unfold ts5; demo_call|]. split; [vm_compute; reflexivity|]. split; [vm_compute; reflexivity|]. split; [vm_compute; reflexivity|].
  split; [vm_compute; reflexivity|]. split; [intros x d s a s' k H; discriminate H|]. split; vm_compute; reflexivity.
Qed.

(** A relay round is created: the settings are read by kind, the earlier relay round keeps its own. *)
Example C60_rl_ex :
  let x := de_round de_r11 11 [knum 30; knum 21; knum 31] 1950 in let c := ctx_of rl_id (fst x) in
  genesis de rl_id ds0 /\ rl_hist de ds0 ds2 /\ rl_call de c (snd x) ds2 ds3 /\
  rl_expects (snd x) 2 = Some x00 /\ option_map (fun k => tag (dat (accs ds2 k))) (nth_error (c_keys c) 2) = Some (Some x00) /\
  own (accs ds2 de_r10) = rl_id /\ tag (dat (accs ds3 de_r10)) = Some x03.
Proof.
  intros x c. split; [exact ds0_genesis|]. split; [unfold rl_hist; repeat (apply do_rl_hist; [|vm_compute; reflexivity]); apply h_refl|].
  split; [split; [reflexivity|]; exists (enc c_rl_ix (snd x)); split; [vm_compute; reflexivity|apply do_rl_step; vm_compute; reflexivity]|].
  split; [reflexivity|]. split; [vm_compute; reflexivity|]. split; vm_compute; reflexivity.
Qed.

Print Assumptions C60_token_proxy.
Print Assumptions C60_kept.
Print Assumptions C60_round_loader_partial.
Print Assumptions C60_rl_kept.
Print Assumptions C60_refuted.
