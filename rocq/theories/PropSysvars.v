(** Property C77: rent and time come from the genuine sysvar accounts. *)

From Coq Require Import Strings.String ZifyBool ZifyNat ZifyN.
From Verif Require Import TpDemoLaws DemoLaws TpEffects PropRoundLoader PropTpMoney.
Open Scope Z_scope.
Open Scope list_scope.

(** * Vocabulary *)

(** Where the account list of an instruction has the rent and the clock sysvar (token-proxy/src/bindings.rs:81-1301,
    round-loader/src/bindings.rs:81-297). *)
Definition rent_place (i : tp_ix) : option nat := match i with
  | TpInitialize _ _ _ => Some 6 | TpDepositEver _ _ _ _ _ _ => Some 10 | TpDepositSol _ _ _ _ _ _ _ _ => Some 11
  | TpWithdrawEverRequest _ _ _ _ _ _ _ _ _ _ _ => Some 6 | TpWithdrawSolRequest _ _ _ _ _ _ _ => Some 7
  | TpWithdrawEver => Some 7 | TpCancel _ _ _ _ _ => Some 8 | TpFill _ _ _ _ _ _ => Some 9 | _ => None end%nat.
Definition clock_place (i : tp_ix) : option nat := match i with
  | TpWithdrawEverRequest _ _ _ _ _ _ _ _ _ _ _ => Some 7 | TpWithdrawSolRequest _ _ _ _ _ _ _ => Some 8
  | TpWithdrawEver => Some 8 | TpWithdrawSol => Some 7 | TpApproveEver => Some 7 | TpApproveSol => Some 7 | _ => None end%nat.
Definition rl_rent_place (i : rl_ix) : option nat := match i with
  | RlInitialize _ _ _ _ => Some 5 | RlCreateRelayRound _ _ _ => Some 5 | RlCreateProposal _ _ _ _ _ => Some 4
  | RlExecute => Some 5 | RlExecuteByAdmin => Some 6 | _ => None end%nat.

(** * C77 *)

(** No call of the token proxy with another account in the place of the rent or clock sysvar succeeds. *)
Theorem C77_tp : forall e ext c i s s', tp_call e ext c i s s' ->
  (forall n, rent_place i = Some n -> nth_error (c_keys c) n = Some rent_id) /\
  (forall n, clock_place i = Some n -> nth_error (c_keys c) n = Some clock_id).
Proof.
  intros e ext c i s s' H. apply tp_call_exec in H as (_ & _ & _ & H).
  destruct i; cbn [rent_place clock_place]; (split; intros n N; [try discriminate N|try discriminate N]); injection N as <-; cbn [tp_exec] in H;
  unfold tp_initialize, tp_deposit_ever, tp_deposit_sol, tp_withdraw_ever_request, tp_withdraw_sol_request, tp_withdraw_ever, tp_withdraw_sol, tp_approve_ever, tp_approve_sol, tp_cancel, tp_fill in H;
  (destruct (c_keys c) as [|? ?] eqn:EK; [discriminate H|]); mkeys H; unfold check_rent, check_clock in H;
  repeat lazymatch type of H with
  | _ => apply bind_ok in H as (? & ? & G & H); first [apply guard_ok in G as [G _] | apply bind_ok in G as (? & ? & G & _); apply guard_ok in G as [G _]];
      apply keqb_eq in G; first [rewrite <- G; reflexivity | clear G]
  end.
Qed.
(** The same for the round loader. *)
Theorem C77_rl : forall e c i s s', rl_call e c i s s' -> forall n, rl_rent_place i = Some n -> nth_error (c_keys c) n = Some rent_id.
Proof.
  intros e c i s s' H n N. apply call_exec in H as (_ & _ & H & _).
  destruct i; cbn [rl_rent_place] in N; try discriminate N; injection N as <-; cbn [rl_exec] in H;
  unfold rl_initialize, rl_create_relay_round, rl_create_proposal, rl_execute, rl_execute_by_admin in H;
  (destruct (c_keys c) as [|? ?] eqn:EK; [discriminate H|]); mkeys H; unfold check_rent in H; apply bind_ok in H as (? & ? & G & H); apply guard_ok in G as [G _]; apply keqb_eq in G; rewrite <- G; reflexivity.
Qed.

(** Each of these calls succeeds and names the genuine accounts; with the rent or clock account replaced it fails.
    [swapped] puts another account in the place of one. *)
Definition swapped (from to : key) (x : list meta * tp_ix) : list meta * tp_ix :=
  (map (fun m => if keqb (m_key m) from then Meta to (m_sg m) (m_wr m) else m) (fst x), snd x).
Definition rl_swapped (from to : key) (x : list meta * rl_ix) : list meta * rl_ix :=
  (map (fun m => if keqb (m_key m) from then Meta to (m_sg m) (m_wr m) else m) (fst x), snd x).
Example C77_ex :
  tp_call te no_ext (ctx_of tp_id (fst (treqS trecv tw1 tround 7 tev1 []))) (snd (treqS trecv tw1 tround 7 tev1 [])) ts2 ts3 /\
  rent_place (snd (treqS trecv tw1 tround 7 tev1 [])) = Some 7%nat /\ clock_place (snd (treqS trecv tw1 tround 7 tev1 [])) = Some 8%nat /\
  is_ok (tstp ts2 (swapped rent_id clock_id (treqS trecv tw1 tround 7 tev1 []))) = false /\
  is_ok (tstp ts2 (swapped clock_id rent_id (treqS trecv tw1 tround 7 tev1 []))) = false /\
  is_ok (tstp ts5 xdep) = true /\ is_ok (tstp ts5 (swapped rent_id (knum 5) xdep)) = false /\
  is_ok (tstp ts8 (tdepE 3 20000)) = true /\ is_ok (tstp ts8 (swapped rent_id (knum 5) (tdepE 3 20000))) = false.
Proof. split; [unfold ts3; demo_call|]. vm_compute. repeat split; reflexivity. Qed.
Example C77_rl_ex : is_ok (stp ds0 de_init) = true /\ rl_rent_place (snd de_init) = Some 5%nat /\ is_ok (stp ds0 (rl_swapped rent_id (knum 5) de_init)) = false.
Proof. vm_compute. repeat split; reflexivity. Qed.

Print Assumptions C77_tp.
Print Assumptions C77_rl.
