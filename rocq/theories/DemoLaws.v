(** Facts about the concrete deployments of Demo.v. *)

From Coq Require Import ZifyBool ZifyNat ZifyN.
From Verif Require Export Demo RlOrigin.
Ltac Zify.zify_post_hook ::= Z.div_mod_to_equations.

Lemma acct_lookup_in l k : acct_lookup l k = acct0 \/ exists k', In (k', acct_lookup l k) l.
Proof.
  induction l as [|[k' a] l IH]; [left; reflexivity|]. cbn [acct_lookup].
  destruct (keqb k k'); [right; exists k'; left; reflexivity|].
  destruct IH as [IH|[k2 IH]]; [left; exact IH|right; exists k2; right; exact IH].
Qed.

Lemma pda_lookup_in t sd pid k : pda_lookup t sd pid = Some k -> exists sd' pid', In (sd', pid', k) t /\ keqb pid pid' = true.
Proof.
  induction t as [|[[sd' pid'] k'] t IH]; [discriminate|]. cbn [pda_lookup].
  destruct (beqb sd sd' && keqb pid pid') eqn:E.
  - intros H. injection H as ->. apply andb_true_iff in E as [_ E]. exists sd', pid'. split; [left; reflexivity|exact E].
  - intros H. destruct (IH H) as (a & b & I & J). exists a, b. split; [right; exact I|exact J].
Qed.

Lemma demo_genesis t h pid l : demo_genesisb t pid l = true -> genesis (demo_env t h) pid (demo_state l).
Proof.
  unfold demo_genesisb. rewrite !andb_true_iff. intros [[N A] B] k. rewrite forallb_forall in A, B.
  cbn [demo_state accs]. apply negb_true_iff in N.
  assert (X : 0 <= lam (acct_lookup l k) /\ own (acct_lookup l k) <> pid).
  { destruct (acct_lookup_in l k) as [E|[k' E]].
    - rewrite E. cbn [acct0 lam own]. split; [lia|]. intros <-. rewrite keqb_refl in N. discriminate.
    - apply A in E. cbn in E. apply andb_true_iff in E as [E1 E2]. split; [lia|]. apply negb_true_iff in E2.
      intros E. rewrite E, keqb_refl in E2. discriminate. }
  destruct X as [X1 X2]. split; [exact X1|]. split; [exact X2|]. intros [sd P]. cbn [demo_env e_pda] in P.
  apply pda_lookup_in in P as (sd' & pid' & P & Q). apply B in P. cbn in P.
  apply keqb_eq in Q. subst pid'. rewrite keqb_refl in P. cbn [negb orb] in P.
  apply andb_true_iff in P as [P1 P2]. apply keqb_eq in P1. split; [exact P1|apply blen0_nil; exact P2].
Qed.

Lemma do_rl_step e ms i s : is_ok (do_rl e ms i s) = true ->
  run (ctx_of rl_id ms) (rl_process e (ctx_of rl_id ms) (enc c_rl_ix i)) s = Ok (unres (do_rl e ms i s)).
Proof. intros H. exact (ok_unres _ H). Qed.

Lemma do_rl_hist e ms i s0 s : hist e rl_id (rl_instr e) s0 s -> is_ok (do_rl e ms i s) = true ->
  hist e rl_id (rl_instr e) s0 (unres (do_rl e ms i s)).
Proof.
  intros H R. apply (h_prog _ _ _ _ s); [exact H|]. exists (ctx_of rl_id ms), (enc c_rl_ix i).
  split; [reflexivity|]. apply do_rl_step. exact R.
Qed.

(** ** A round loader in use *)

Definition de_ev : rl_event := RlEvent 5 [knum 21; knum 22; knum 23; knum 24] 2000.
Definition de_settings := knum 100.
Definition de_pd := knum 101.
Definition de_r10 := knum 110.
Definition de_r11 := knum 111.
Definition de_r12 := knum 112.
Definition de_r13 := knum 113.
Definition de_r5 := knum 105.
Definition de_prop := knum 120.
Definition de_tab : list (bytes * key * key) :=
  [(with_bump sd_settings 255, rl_id, de_settings);
   (with_bump (sd_programdata rl_id) 254, loader_id, de_pd);
   (with_bump (sd_relay_round 10) 255, rl_id, de_r10);
   (with_bump (sd_relay_round 11) 253, rl_id, de_r11);
   (with_bump (sd_relay_round 12) 255, rl_id, de_r12);
   (with_bump (sd_relay_round 13) 255, rl_id, de_r13);
   (with_bump (sd_relay_round 5) 255, rl_id, de_r5);
   (with_bump (sd_proposal 10 7 8 (knum 9) (knum 500)) 255, rl_id, de_prop);
   (with_bump (sd_proposal 11 7 8 (knum 9) (knum 500)) 255, rl_id, knum 121)].
Definition de : env := demo_env de_tab [(enc c_rl_event de_ev, knum 500)].

Definition wallet : acct := Acct 1000000000 sys_id [].
Definition de_accs : list (key * acct) :=
  [(knum 1, wallet); (knum 10, wallet); (knum 11, wallet); (knum 2, wallet);
   (de_pd, demo_programdata (knum 10))].
Definition ds0 := demo_state de_accs.

Definition de_init : list meta * rl_ix :=
  ([sw (knum 1); sw (knum 10); ww de_settings; ro de_pd; ro sys_id; ro rent_id],
   RlInitialize 9 (knum 11) 3 1000).
Definition de_round (k : key) (n : Z) (l : list key) (t : Z) : list meta * rl_ix :=
  ([sw (knum 1); sw (knum 11); ww de_settings; ww k; ro sys_id; ro rent_id], RlCreateRelayRound n l t).
Definition de_relays12 : list key := map knum [21; 22; 23; 24; 25; 26; 27; 28; 29; 30; 31; 32].
(** the upload: event with its length, the rest of the window stays zero *)
Definition de_upload : bytes :=
  enc (c_withlen c_rl_event) (WithLen (blen (enc c_rl_event de_ev)) de_ev).

Definition stp (s : state) (x : list meta * rl_ix) : res state := do_rl de (fst x) (snd x) s.

Definition ds1 := unres (stp ds0 de_init).
Definition ds2 := unres (stp ds1 (de_round de_r10 10 [knum 21; knum 22; knum 23] 1900)).
Definition ds3 := unres (stp ds2 (de_round de_r11 11 [knum 30; knum 21; knum 31] 1950)).
Definition ds4 := unres (stp ds3 (de_round de_r12 12 de_relays12 1990)).
Definition de_create : list meta * rl_ix :=
  ([sw (knum 2); sw (knum 2); ww de_prop; ro sys_id; ro rent_id], RlCreateProposal 10 7 8 (knum 9) (knum 500)).
Definition ds5 := unres (stp ds4 de_create).
Definition ds6 := unres (stp ds5 ([ww de_prop], RlWriteProposal 0 de_upload)).
Definition de_final (r : key) : list meta * rl_ix :=
  ([sw (knum 2); ww de_prop; ro de_settings; ro r; ro sys_id], RlFinalize).
Definition ds7 := unres (stp ds6 (de_final de_r10)).
Definition de_vote (r v : key) : list meta * rl_ix := ([sw v; ww de_prop; ro r], RlVote VConfirm).
Definition ds8 := unres (stp ds7 (de_vote de_r10 (knum 21))).
Definition ds9 := unres (stp ds8 (de_vote de_r11 (knum 21))).
Definition ds10 := unres (stp ds9 (de_vote de_r11 (knum 31))).
Definition de_exec : list meta * rl_ix :=
  ([sw (knum 2); ww de_settings; ww de_prop; ww de_r5; ro sys_id; ro rent_id], RlExecute).
Definition ds11 := unres (stp ds10 de_exec).

(** The runs succeed.  All of them are evaluated together. *)
Definition de_runs : list bool := [
  is_ok (stp ds0 de_init);
  is_ok (stp ds1 (de_round de_r10 10 [knum 21; knum 22; knum 23] 1900));
  is_ok (stp ds2 (de_round de_r11 11 [knum 30; knum 21; knum 31] 1950));
  is_ok (stp ds3 (de_round de_r12 12 de_relays12 1990));
  is_ok (stp ds4 de_create);
  is_ok (stp ds5 ([ww de_prop], RlWriteProposal 0 de_upload));
  is_ok (stp ds6 (de_final de_r10));
  is_ok (stp ds7 (de_vote de_r10 (knum 21)));
  is_ok (stp ds8 (de_vote de_r11 (knum 21)));
  is_ok (stp ds9 (de_vote de_r11 (knum 31)));
  is_ok (stp ds10 de_exec)].
Lemma de_runs_ok : forallb (fun b => b) de_runs = true.
Proof. vm_compute. reflexivity. Qed.
Lemma de_run n b : nth_error de_runs n = Some b -> b = true.
Proof. intros H. apply nth_error_In in H. exact (proj1 (forallb_forall _ _) de_runs_ok _ H). Qed.
Lemma stp_hist s0 s x : hist de rl_id (rl_instr de) s0 s -> is_ok (stp s x) = true -> hist de rl_id (rl_instr de) s0 (unres (stp s x)).
Proof. apply do_rl_hist. Qed.
Lemma ds1_past : hist de rl_id (rl_instr de) ds0 ds1.
Proof. exact (stp_hist ds0 ds0 de_init (h_refl _ _ _ _) (de_run 0 _ eq_refl)). Qed.
Lemma ds2_past : hist de rl_id (rl_instr de) ds0 ds2.
Proof. exact (stp_hist ds0 ds1 (de_round de_r10 10 [knum 21; knum 22; knum 23] 1900) ds1_past (de_run 1 _ eq_refl)). Qed.
Lemma ds3_past : hist de rl_id (rl_instr de) ds0 ds3.
Proof. exact (stp_hist ds0 ds2 (de_round de_r11 11 [knum 30; knum 21; knum 31] 1950) ds2_past (de_run 2 _ eq_refl)). Qed.
Lemma ds4_past : hist de rl_id (rl_instr de) ds0 ds4.
Proof. exact (stp_hist ds0 ds3 (de_round de_r12 12 de_relays12 1990) ds3_past (de_run 3 _ eq_refl)). Qed.
Lemma ds5_past : hist de rl_id (rl_instr de) ds0 ds5.
Proof. exact (stp_hist ds0 ds4 de_create ds4_past (de_run 4 _ eq_refl)). Qed.
Lemma ds6_past : hist de rl_id (rl_instr de) ds0 ds6.
Proof. exact (stp_hist ds0 ds5 ([ww de_prop], RlWriteProposal 0 de_upload) ds5_past (de_run 5 _ eq_refl)). Qed.
Lemma ds7_past : hist de rl_id (rl_instr de) ds0 ds7.
Proof. exact (stp_hist ds0 ds6 (de_final de_r10) ds6_past (de_run 6 _ eq_refl)). Qed.
Lemma ds8_past : hist de rl_id (rl_instr de) ds0 ds8.
Proof. exact (stp_hist ds0 ds7 (de_vote de_r10 (knum 21)) ds7_past (de_run 7 _ eq_refl)). Qed.
Lemma ds9_past : hist de rl_id (rl_instr de) ds0 ds9.
Proof. exact (stp_hist ds0 ds8 (de_vote de_r11 (knum 21)) ds8_past (de_run 8 _ eq_refl)). Qed.
Lemma ds10_past : hist de rl_id (rl_instr de) ds0 ds10.
Proof. exact (stp_hist ds0 ds9 (de_vote de_r11 (knum 31)) ds9_past (de_run 9 _ eq_refl)). Qed.
Lemma ds11_past : hist de rl_id (rl_instr de) ds0 ds11.
Proof. exact (stp_hist ds0 ds10 de_exec ds10_past (de_run 10 _ eq_refl)). Qed.
