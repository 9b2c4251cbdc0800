(** Property C54: the generic client builders (solana-bridge/src/instructions.rs). *)

From Coq Require Import ZifyBool ZifyNat ZifyN.
From Verif Require Export CodecLaws PropCodec Bindings RlWorld Frames Demo DemoLaws.
Ltac Zify.zify_post_hook ::= Z.div_mod_to_equations.

(** * C54 Generic client builders produce instructions the programs understand *)

(** The instructions without arguments, by instruction number. *)
Definition rl_plain (n : Z) : option rl_ix :=
  if n =? 6 then Some RlFinalize else if n =? 7 then Some RlExecute else if n =? 8 then Some RlExecuteByAdmin else None.
Definition tp_plain (n : Z) : option tp_ix :=
  if n =? 1 then Some TpWithdrawEver else if n =? 2 then Some TpWithdrawSol
  else if n =? 3 then Some TpExecutePayloadEver else if n =? 4 then Some TpExecutePayloadSol
  else if n =? 15 then Some TpEnableEmergency else if n =? 16 then Some TpDisableEmergency
  else if n =? 17 then Some TpEnableTokenEmergency else if n =? 18 then Some TpDisableTokenEmergency
  else if n =? 19 then Some TpApproveEver else if n =? 20 then Some TpApproveSol
  else if n =? 29 then Some TpCloseDeposit else if n =? 30 then Some TpCloseWithdrawal else None.

Lemma ok_inj {A} (a b : A) : @Ok A a = Ok b -> a = b. Proof. intros [= ->]. reflexivity. Qed.
Lemma byte_of_u8 n : 0 <= n < 256 -> exists t, zb n = t /\ bz t = n.
Proof. intros H. exists (zb n). split; [reflexivity|]. rewrite bz_zb. apply Z.mod_small. lia. Qed.

Theorem C54_data :
  (* votes: instruction number 0 in both programs, the vote is not confused; any other number is not a vote *)
  (forall v, try_from_slice c_rl_ix (g_vote_data 0 v) = Some (RlVote v) /\
             try_from_slice c_tp_ix (g_vote_data 0 v) = Some (TpVote v)) /\
  (forall n v, 0 <= n < 256 -> n <> 0 -> try_from_slice c_rl_ix (g_vote_data n v) = None /\
                                         try_from_slice c_tp_ix (g_vote_data n v) = None) /\
  (* executions: the instruction with this number, if it has no arguments *)
  (forall n, 0 <= n < 256 -> try_from_slice c_rl_ix (g_execute_data n) = rl_plain n /\
                             try_from_slice c_tp_ix (g_execute_data n) = tp_plain n) /\
  (* requests: exactly the arguments given *)
  (forall e pid creator w round ts lt conf ev att b,
     okb c_tp_ix (TpWithdrawEverRequest ts lt conf (wee_token ev) (wee_name ev) (wee_symbol ev) (wee_decimals ev)
                    (wee_recipient ev) (wee_amount ev) (wee_payload ev) att) = true ->
     g_withdrawal_ever_request_ix e pid creator w round ts lt conf ev att = Ok b ->
     i_pid b = pid /\ try_from_slice c_tp_ix (i_data b) = Some (TpWithdrawEverRequest ts lt conf (wee_token ev)
       (wee_name ev) (wee_symbol ev) (wee_decimals ev) (wee_recipient ev) (wee_amount ev) (wee_payload ev) att)) /\
  (forall e pid creator w round ts lt conf ev att b,
     okb c_tp_ix (TpWithdrawSolRequest ts lt conf (wse_recipient ev) (wse_amount ev) (wse_payload ev) att) = true ->
     g_withdrawal_sol_request_ix e pid creator w round ts lt conf ev att = Ok b ->
     i_pid b = pid /\ try_from_slice c_tp_ix (i_data b) =
       Some (TpWithdrawSolRequest ts lt conf (wse_recipient ev) (wse_amount ev) (wse_payload ev) att)).
Proof.
  split; [intros []; split; reflexivity|]. split; [|split; [|split]].
  - intros n v H N. unfold g_vote_data. 
    assert (E : enc (c_u8 ** c_vote) (n, v) = zb n :: enc c_vote v) by reflexivity. rewrite E.
    destruct (byte_of_u8 n H) as (t & -> & <-). clear E.
    destruct t; try (exfalso; apply N; reflexivity); destruct v; split; reflexivity.
  - intros n H. unfold g_execute_data. change (enc c_u8 n) with [zb n].
    destruct (byte_of_u8 n H) as (t & -> & <-). destruct t; split; reflexivity.
  - intros e pid creator w round ts lt conf ev att b O H. unfold g_withdrawal_ever_request_ix in H.
    repeat match type of H with rbind ?r _ = _ => destruct r; cbn [rbind] in H; [|discriminate] end.
    apply ok_inj in H as <-. cbn [i_pid i_data]. split; [reflexivity|]. apply C03_instructions. exact O.
  - intros e pid creator w round ts lt conf ev att b O H. unfold g_withdrawal_sol_request_ix in H.
    repeat match type of H with rbind ?r _ = _ => destruct r; cbn [rbind] in H; [|discriminate] end.
    apply ok_inj in H as <-. cbn [i_pid i_data]. split; [reflexivity|]. apply C03_instructions. exact O.
Qed.

(** The generic builders yield the same instructions as the builders of the programs themselves. *)
Theorem C54_same : forall e,
  (forall voter k round v, g_vote_ix e rl_id 0 voter k round v = rl_vote_for_proposal_ix e voter k round v) /\
  (forall voter k round v, g_vote_ix e tp_id 0 voter k round v = vote_for_withdrawal_request_ix e voter k round v) /\
  (forall creator w round ts lt conf ev att, tp_withdrawal_ever_addr e round ts lt conf ev = Ok w ->
     g_withdrawal_ever_request_ix e tp_id creator w round ts lt conf ev att =
     withdrawal_multi_token_ever_request_ix e creator creator round ts lt conf (wee_token ev) (wee_name ev)
       (wee_symbol ev) (wee_decimals ev) (wee_recipient ev) (wee_amount ev) (wee_payload ev) att) /\
  (forall creator w round ts lt conf ev att, tp_withdrawal_sol_addr e round ts lt conf ev = Ok w ->
     g_withdrawal_sol_request_ix e tp_id creator w round ts lt conf ev att =
     withdrawal_multi_token_sol_request_ix e creator creator ts lt conf (wse_mint ev) round (wse_recipient ev)
       (wse_amount ev) (wse_payload ev) att) /\
  (forall w mint ts settings rt,
     g_execute_ix e tp_id 1 w [(mint, false, false); (rt, false, false); (ts, false, false); (settings, true, false);
       (sys_id, true, false); (spl_id, true, false); (rent_id, true, false); (clock_id, true, false)] =
     Ok (Instr tp_id [mw w false; mw mint false; mw rt false; mw ts false; mr settings false; mr sys_id false;
       mr spl_id false; mr rent_id false; mr clock_id false] (enc c_tp_ix TpWithdrawEver))).
Proof.
  intros e. split; [|split; [|split; [|split]]].
  - intros voter k round v. unfold g_vote_ix, rl_vote_for_proposal_ix, rl_build.
    destruct (rl_round_addr e round); [|reflexivity]. cbn [rbind]. destruct v; reflexivity.
  - intros voter k round v. unfold g_vote_ix, vote_for_withdrawal_request_ix, tp_build.
    destruct (rl_round_addr e round); [|reflexivity]. cbn [rbind]. destruct v; reflexivity.
  - intros creator w round ts lt conf [a b c d f g h] att H. unfold withdrawal_multi_token_ever_request_ix.
    cbn [wee_token wee_name wee_symbol wee_decimals wee_recipient wee_amount wee_payload]. rewrite H. reflexivity.
  - intros creator w round ts lt conf [a b c d] att H. unfold withdrawal_multi_token_sol_request_ix.
    cbn [wse_mint wse_recipient wse_amount wse_payload]. rewrite H. reflexivity.
  - reflexivity.
Qed.

(** The generic execution lists the proposal first; the round loader's ExecuteProposal takes the first account as the
    funder of the new round, who must sign.  So whatever accounts are passed along, as long as the proposal itself does
    not sign (it is an address derived from the program, no key exists for it), the instruction changes nothing: it
    fails or finds nothing to do.  A relay round cannot be created with this builder. *)
Theorem C54_execute_idle : forall e proposal accounts b s s',
  g_execute_ix e rl_id 7 proposal accounts = Ok b ->
  (forall ro, ~ In (proposal, ro, true) accounts) ->
  run (ctx_of rl_id (i_metas b)) (rl_process e (ctx_of rl_id (i_metas b)) (i_data b)) s = Ok s' ->
  forall k, accs s' k = accs s k.
Proof.
  intros e pk acc b s s' G N H. apply ok_inj in G as <-. cbn [i_metas i_data] in H.
  set (ms := map g_meta ((pk, false, false) :: acc)) in *.
  assert (SG : c_sg (ctx_of rl_id ms) pk = false).
  { cbn [ctx_of c_sg]. apply not_true_is_false. intros X. apply existsb_exists in X as (m & I & X).
    apply andb_true_iff in X as [K X]. apply keqb_eq in K. unfold ms in I. apply in_map_iff in I as (((k & ro) & sg) & <- & I).
    assert (sg = true /\ k = pk) as [-> ->]. { unfold g_meta in X, K. destruct ro; cbn [negb mw mr m_sg m_key] in X, K; auto. }
    destruct I as [I|I]; [discriminate|]. exact (N _ I). }
  assert (KS : exists r, c_keys (ctx_of rl_id ms) = pk :: r) by (exists (map m_key (map g_meta acc)); reflexivity).
  assert (PI : c_pid (ctx_of rl_id ms) = rl_id) by reflexivity.
  unfold run in H. destruct (rl_process _ _ _ _) as [[u s1]|] eqn:P; [|discriminate].
  destruct (_ =? _); [|discriminate]. apply ok_inj in H as <-. revert P SG KS PI. generalize (ctx_of rl_id ms). clear - pk.
  intros c P SG (r & KS) PI. unfold rl_process in P.
  change (try_from_slice c_rl_ix (g_execute_data 7)) with (Some RlExecute) in P. cbn [ok_or] in P.
  apply bind_ok in P as (i & s2 & L & P). apply lift_ok in L as [L ->]. apply ok_inj in L as <-. cbn [rl_exec] in P.
  apply rl_execute_ok in P as (f & st & pr & rr & sy & re & x & pn & p & K & _ & _ & _ & [(_ & ->)|(_ & _ & _ & _ & _ & _ & _ & s3 & P & _)]).
  - intros k. cbn [put_dat put accs]. unfold upd. destruct (keqb k pr) eqn:E; [|reflexivity].
    apply keqb_eq in E as ->. apply acct_eta.
  - exfalso. rewrite KS in K. injection K as <- _. clear KS. unfold rl_new_round in P.
    apply bind_ok in P as ([rk rn] & s4 & L & P). apply lift_ok in L as [F ->].
    apply bind_ok in P as (u1 & s4 & L & P). apply guard_ok in L as [G ->]. apply keqb_eq in G as ->.
    apply bind_ok in P as (u2 & s4 & L & _). 
    apply invoke_create_ok in L as (C & _ & _ & B & (q & Q & [S1|S1] & _) & _); [congruence|].
    destruct C as (_ & _ & C & _). apply find_pda_some in F as (F & _). unfold with_bump in Q.
    rewrite F in Q. injection Q as <-. subst pk. clear - B C. lia.
Qed.

(** A confirmed proposal: the round loader's own builder executes it, the generic one does not, although the funder
    signs. *)
Example C54_example :
  (exists b, rl_execute_proposal_ix de (knum 2) de_prop 5 = Ok b /\ b = Instr rl_id (fst de_exec) (enc c_rl_ix RlExecute)) /\
  is_ok (stp ds10 de_exec) = true /\
  (exists b, g_execute_ix de rl_id 7 de_prop [(de_settings, false, false); (de_prop, false, false); (de_r5, false, false);
      (sys_id, true, false); (rent_id, true, false); (knum 2, false, true)] = Ok b /\
    is_ok (run (ctx_of rl_id (i_metas b)) (rl_process de (ctx_of rl_id (i_metas b)) (i_data b)) ds10) = false) /\
  (exists b, g_vote_ix de rl_id 0 (knum 21) de_prop 10 VConfirm = Ok b /\
     run (ctx_of rl_id (i_metas b)) (rl_process de (ctx_of rl_id (i_metas b)) (i_data b)) ds7 = Ok ds8).
Proof.
  split; [eexists; split; vm_compute; reflexivity|]. split; [vm_compute; reflexivity|].
  split; [eexists; split; [reflexivity|]; vm_compute; reflexivity|].
  exists (Instr rl_id (fst (de_vote de_r10 (knum 21))) (enc c_rl_ix (RlVote VConfirm))).
  split; [vm_compute; reflexivity|]. apply (ok_unres (stp ds7 (de_vote de_r10 (knum 21)))). vm_compute. reflexivity.
Qed.

Print Assumptions C54_data.
Print Assumptions C54_same.
Print Assumptions C54_execute_idle.
