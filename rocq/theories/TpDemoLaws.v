(** Connects the runs of TpDemo.v with the vocabulary of the statements (no code of /repo is modelled
    here). *)

From Coq Require Import Strings.String ZifyBool ZifyNat ZifyN.
From Verif Require Frames.
From Verif Require Export TpDemo TpReq.
Open Scope Z_scope.
Open Scope list_scope.
Ltac Zify.zify_post_hook ::= Z.div_mod_to_equations.

Lemma do_tp_call e ext ms i s : okb c_tp_ix i = true -> clock_ok s -> is_ok (do_tp e ext ms i s) = true ->
  tp_call e ext (ctx_of tp_id ms) i s (unres (do_tp e ext ms i s)).
Proof.
  intros O CK R. split; [reflexivity|]. split; [exact CK|]. exists (enc c_tp_ix i). split.
  - apply try_from_slice_rt; [typeclasses eauto|exact O].
  - exact (ok_unres _ R).
Qed.
Lemma tstp_call s x : okb c_tp_ix (snd x) = true -> clock_ok s -> is_ok (tstp s x) = true ->
  tp_call te no_ext (ctx_of tp_id (fst x)) (snd x) s (unres (tstp s x)).
Proof. apply do_tp_call. Qed.

Lemma no_ext_never c d s r : no_ext c d s <> Ok r.
Proof. discriminate. Qed.
Lemma no_ext_tp e n : tp_ext e n no_ext.
Proof. destruct n; intros c d s a s' H; destruct (no_ext_never _ _ _ _ H). Qed.

Lemma demo_nonneg l : forallb (fun '(_, a) => 0 <=? lam a) l = true -> nonneg (demo_state l).
Proof.
  intros H k. cbn [demo_state accs]. destruct (acct_lookup_in l k) as [->|[k' I]]; [cbn; lia|].
  rewrite forallb_forall in H. apply H in I. cbn in I. lia.
Qed.

Definition demo_plainb (t : list (bytes * key * key)) (ms : list meta) : bool :=
  forallb (fun m => negb (m_sg m) || negb (existsb (fun '(_, p, k) => keqb tp_id p && keqb (m_key m) k) t)) ms.
Lemma demo_plain t h ms pid : demo_plainb t ms = true -> forall k, c_sg (ctx_of pid ms) k = true -> ~ is_pda (demo_env t h) tp_id k.
Proof.
  intros B k S [sd P]. apply ctx_of_sg in S as (m & Hm & <- & S). unfold demo_plainb in B. rewrite forallb_forall in B.
  apply B in Hm. rewrite S in Hm. cbn [negb orb] in Hm. apply negb_true_iff in Hm.
  cbn [demo_env e_pda] in P. apply pda_lookup_in in P as (sd' & pid' & P & Q).
  rewrite <- not_true_iff_false in Hm. apply Hm. apply existsb_exists. exists (sd', pid', m_key m). split; [exact P|].
  rewrite Q, keqb_refl. reflexivity.
Qed.
Lemma tstp_instr n s x : demo_plainb ttab (fst x) = true -> clock_ok s -> is_ok (tstp s x) = true ->
  tp_instr te n s (unres (tstp s x)).
Proof.
  intros B CK R. exists (ctx_of tp_id (fst x)), no_ext, (enc c_tp_ix (snd x)).
  split; [reflexivity|]. split; [exact CK|]. split.
  - intros k S P. destruct (demo_plain _ _ _ _ B _ S P).
  - split; [apply no_ext_tp|exact (ok_unres _ R)].
Qed.
Lemma tstp_hist n s0 s x : tp_hist te n s0 s -> demo_plainb ttab (fst x) = true -> clock_ok s -> is_ok (tstp s x) = true ->
  tp_hist te n s0 (unres (tstp s x)).
Proof. intros H B CK R. eapply h_prog; [exact H|]. apply tstp_instr; assumption. Qed.
Lemma tstps_hist n s0 l : forall s, tp_hist te n s0 s -> forallb (fun x => demo_plainb ttab (fst x)) l = true -> clock_ok s ->
  is_ok (tstps s l) = true -> tp_hist te n s0 (unres (tstps s l)).
Proof.
  induction l as [|x l IH]; intros s H B CK R; [exact H|]. cbn [tstps] in *. cbn [forallb] in B. apply andb_true_iff in B as [B1 B2].
  destruct (tstp s x) as [s1|] eqn:E; [|discriminate]. cbn [rbind] in *.
  pose proof (tstp_hist n s0 s x H B1 CK) as H1. rewrite E in H1. cbn [unres is_ok] in H1.
  apply IH; [apply H1; reflexivity|exact B2| |exact R].
  pose proof (tstp_instr n s x B1 CK) as I1. rewrite E in I1. cbn [unres is_ok] in I1.
  destruct (I1 eq_refl) as (c & ext & d & Hp & _ & S & X & R0).
  assert (N : now s1 = now s).
  { apply (induct_run te (ordinary te)) with (P := fun _ _ => True) (n := n) (ext := ext) (c := c) (d := d); try assumption; auto.
    intros k K _. exact K. }
  unfold clock_ok in *. rewrite N. exact CK.
Qed.

(** Records read from the demo ledger, for witnesses. *)
Definition the_tok (s : state) (k : key) : tacc :=
  match unpack c_tacc TACC_LEN ta_init (dat (accs s k)) with Ok t => t
  | Err _ => TAcc key0 key0 0 (false, key0) TInit (false, 0) 0 (false, key0) end.
Definition the_mint (s : state) (k : key) : tmint :=
  match unpack c_tmint TMINT_LEN tm_init (dat (accs s k)) with Ok t => t
  | Err _ => TMint (true, key0) 0 0 true (false, key0) end.
Definition the_token (s : state) (k : key) : token_settings :=
  match unpack c_token_settings TP_LEN tk_init (dat (accs s k)) with Ok t => t
  | Err _ => new_token_settings (KTokenSettings 0 0) (TKSol key0 key0) [] [] end.
Definition the_wreq {E} (cd : codec (prop E (withlen wmeta))) (ev : E) (s : state) (k : key) : prop E (withlen wmeta) :=
  match unpack cd TP_LEN (@p_init _ _) (dat (accs s k)) with Ok t => t
  | Err _ => Prop_ false (KProposal 0 None) key0 0 0 (Pda 0 0 key0) ev (WithLen 0 (WMeta WNew 0 0)) [] end.
Definition the_wsol := the_wreq c_wsol (wsol_event_new tev1).
Definition the_wever := the_wreq c_wever (wever_event_new tev5).
(** The runs of TpDemo.v succeed, the clock does not move, and the states written out have the accounts of the
    states they stand for.  All of this is evaluated together. *)
Definition frozenb (s : state) (l : list (key * acct)) : bool := forallb (fun k => acct_eqb (accs s k) (acct_lookup (l ++ taccs) k)) demo_keys &&
  forallb (fun '(k, _) => existsb (keqb k) demo_keys) l.
Definition demo_runs : list bool := [
  is_ok (tstp ts0 tinit);
  is_ok (tstp ts1 (tdep tuser tuserS tvault td1 tmintS 1 100000));
  is_ok (tstp ts2 (treqS trecv tw1 tround 7 tev1 []));
  is_ok (tstps ts3 (tvotes tw1 tround));
  is_ok (tstp ts4 (texecS tw1 trecvS tmintS));
  is_ok (tstp ts5 (treqE trecv tw5 tround 47 tev5 []));
  is_ok (tstps ts6 (tvotes tw5 tround));
  is_ok (tstp ts7 (texecE tw5 trecvE tregE));
  is_ok (tstp ts8 (treqS trecv tw2 tround 17 tev2 []));
  is_ok (tstps ts9 (tvotes tw2 tround));
  is_ok (tstp ts10 (texecS tw2 trecvS tmintS));
  is_ok (tstp ts2 (treqS trecv tw3 tround 27 tev3 tproxyS3));
  is_ok (tstps ts12 (tvotes tw3 tround));
  is_ok (tstp ts13 (texecS tw3 tproxyS tmintS));
  is_ok (tstp ts4 (tadmT tman ttsS (TpChangeWithdrawalLimits (Some 10000) (Some 90000))));
  is_ok (tstp ts15 (texecS tw1 trecvS tmintS));
  is_ok (tstp ts11 (tadmT tman ttsS (TpUpdateFee FWithdrawal 1 100)));
  is_ok (tstp ts17 (tadmT tman ttsS (TpChangeWithdrawalLimits (Some 10000) (Some 90000))));
  is_ok (tstp ts18 (tdep tuser tuserS tvault td2 tmintS 2 900000));
  is_ok (tstp ts19 (texecS tw2 trecvS tmintS));
  is_ok (tstp ts2 (treqS trecv tw4 tround 37 tev4 []));
  is_ok (tstps ts21 (tvotes tw4 tround));
  is_ok (tstp ts22 (texecS tw4 trecvS tmintS));
  is_ok (tstp ts8 (treqE trecv tw7 tround 67 tev7 []));
  is_ok (tstps ts24 (tvotes tw7 tround));
  is_ok (tstp ts25 (texecE tw7 trecvE []));
  is_ok (tstp ts2 (treqE trecv tw8 tround 77 tev8 []));
  is_ok (tstps ts30 (tvotes tw8 tround));
  is_ok (tstp ts31 texecX);
  is_ok (tstp ts2 (tadmT tman ttsS (TpUpdateFee FWithdrawal 0 1)));
  is_ok (tstps ts33 (treqS trecv tw9 tround 87 tev9 [] :: tvotes tw9 tround ++ [texecS tw9 trecvS tmintS]));
  is_ok (tstps ts34 (treqS trecv tw10 tround 97 tev9 [] :: tvotes tw10 tround ++ [texecS tw10 trecvS tmintS]));
  is_ok (tstps ts35 [tbounty tw9; tbounty tw10]);
  frozenb ts4r ts4_changes; frozenb ts7r ts7_changes; frozenb ts11r ts11_changes; frozenb ts14r ts14_changes; frozenb ts19r ts19_changes; frozenb ts22r ts22_changes; frozenb ts25r ts25_changes; frozenb ts31r ts31_changes; frozenb ts36r ts36_changes;
  now ts0 =? 1700000000; now ts1 =? 1700000000; now ts2 =? 1700000000; now ts3 =? 1700000000; now ts4r =? 1700000000; now ts5 =? 1700000000; now ts6 =? 1700000000; now ts7r =? 1700000000; now ts8 =? 1700000000; now ts9 =? 1700000000; now ts10 =? 1700000000; now ts11r =? 1700000000; now ts12 =? 1700000000; now ts13 =? 1700000000; now ts14r =? 1700000000; now ts15 =? 1700000000; now ts16 =? 1700000000; now ts17 =? 1700000000; now ts18 =? 1700000000; now ts19r =? 1700000000; now ts20 =? 1700000000; now ts21 =? 1700000000; now ts22r =? 1700000000; now ts23 =? 1700000000; now ts24 =? 1700000000; now ts25r =? 1700000000; now ts26 =? 1700000000; now ts30 =? 1700000000; now ts31r =? 1700000000; now ts32 =? 1700000000; now ts33 =? 1700000000; now ts34 =? 1700000000; now ts35 =? 1700000000; now ts36r =? 1700000000; now ts4 =? 1700000000; now ts7 =? 1700000000; now ts11 =? 1700000000; now ts14 =? 1700000000; now ts19 =? 1700000000; now ts22 =? 1700000000; now ts25 =? 1700000000; now ts31 =? 1700000000; now ts36 =? 1700000000].
Lemma demo_runs_ok : forallb (fun b => b) demo_runs = true.
Proof. vm_compute. reflexivity. Qed.
Lemma demo_run n b : nth_error demo_runs n = Some b -> b = true.
Proof. intros H. apply nth_error_In in H. exact (proj1 (forallb_forall _ _) demo_runs_ok _ H). Qed.
Lemma demo_clock n s : nth_error demo_runs n = Some (now s =? 1700000000) -> clock_ok s.
Proof. intros H. apply demo_run, Z.eqb_eq in H. unfold clock_ok. rewrite H. split; [discriminate|reflexivity]. Qed.
Ltac demo_known := match goal with
  | |- is_ok (tstp ts0 tinit) = true => exact (demo_run 0 _ eq_refl)
  | |- is_ok (tstp ts1 (tdep tuser tuserS tvault td1 tmintS 1 100000)) = true => exact (demo_run 1 _ eq_refl)
  | |- is_ok (tstp ts2 (treqS trecv tw1 tround 7 tev1 [])) = true => exact (demo_run 2 _ eq_refl)
  | |- is_ok (tstps ts3 (tvotes tw1 tround)) = true => exact (demo_run 3 _ eq_refl)
  | |- is_ok (tstp ts4 (texecS tw1 trecvS tmintS)) = true => exact (demo_run 4 _ eq_refl)
  | |- is_ok (tstp ts5 (treqE trecv tw5 tround 47 tev5 [])) = true => exact (demo_run 5 _ eq_refl)
  | |- is_ok (tstps ts6 (tvotes tw5 tround)) = true => exact (demo_run 6 _ eq_refl)
  | |- is_ok (tstp ts7 (texecE tw5 trecvE tregE)) = true => exact (demo_run 7 _ eq_refl)
  | |- is_ok (tstp ts8 (treqS trecv tw2 tround 17 tev2 [])) = true => exact (demo_run 8 _ eq_refl)
  | |- is_ok (tstps ts9 (tvotes tw2 tround)) = true => exact (demo_run 9 _ eq_refl)
  | |- is_ok (tstp ts10 (texecS tw2 trecvS tmintS)) = true => exact (demo_run 10 _ eq_refl)
  | |- is_ok (tstp ts2 (treqS trecv tw3 tround 27 tev3 tproxyS3)) = true => exact (demo_run 11 _ eq_refl)
  | |- is_ok (tstps ts12 (tvotes tw3 tround)) = true => exact (demo_run 12 _ eq_refl)
  | |- is_ok (tstp ts13 (texecS tw3 tproxyS tmintS)) = true => exact (demo_run 13 _ eq_refl)
  | |- is_ok (tstp ts4 (tadmT tman ttsS (TpChangeWithdrawalLimits (Some 10000) (Some 90000)))) = true => exact (demo_run 14 _ eq_refl)
  | |- is_ok (tstp ts15 (texecS tw1 trecvS tmintS)) = true => exact (demo_run 15 _ eq_refl)
  | |- is_ok (tstp ts11 (tadmT tman ttsS (TpUpdateFee FWithdrawal 1 100))) = true => exact (demo_run 16 _ eq_refl)
  | |- is_ok (tstp ts17 (tadmT tman ttsS (TpChangeWithdrawalLimits (Some 10000) (Some 90000)))) = true => exact (demo_run 17 _ eq_refl)
  | |- is_ok (tstp ts18 (tdep tuser tuserS tvault td2 tmintS 2 900000)) = true => exact (demo_run 18 _ eq_refl)
  | |- is_ok (tstp ts19 (texecS tw2 trecvS tmintS)) = true => exact (demo_run 19 _ eq_refl)
  | |- is_ok (tstp ts2 (treqS trecv tw4 tround 37 tev4 [])) = true => exact (demo_run 20 _ eq_refl)
  | |- is_ok (tstps ts21 (tvotes tw4 tround)) = true => exact (demo_run 21 _ eq_refl)
  | |- is_ok (tstp ts22 (texecS tw4 trecvS tmintS)) = true => exact (demo_run 22 _ eq_refl)
  | |- is_ok (tstp ts8 (treqE trecv tw7 tround 67 tev7 [])) = true => exact (demo_run 23 _ eq_refl)
  | |- is_ok (tstps ts24 (tvotes tw7 tround)) = true => exact (demo_run 24 _ eq_refl)
  | |- is_ok (tstp ts25 (texecE tw7 trecvE [])) = true => exact (demo_run 25 _ eq_refl)
  | |- is_ok (tstp ts2 (treqE trecv tw8 tround 77 tev8 [])) = true => exact (demo_run 26 _ eq_refl)
  | |- is_ok (tstps ts30 (tvotes tw8 tround)) = true => exact (demo_run 27 _ eq_refl)
  | |- is_ok (tstp ts31 texecX) = true => exact (demo_run 28 _ eq_refl)
  | |- is_ok (tstp ts2 (tadmT tman ttsS (TpUpdateFee FWithdrawal 0 1))) = true => exact (demo_run 29 _ eq_refl)
  | |- is_ok (tstps ts33 (treqS trecv tw9 tround 87 tev9 [] :: tvotes tw9 tround ++ [texecS tw9 trecvS tmintS])) = true => exact (demo_run 30 _ eq_refl)
  | |- is_ok (tstps ts34 (treqS trecv tw10 tround 97 tev9 [] :: tvotes tw10 tround ++ [texecS tw10 trecvS tmintS])) = true => exact (demo_run 31 _ eq_refl)
  | |- is_ok (tstps ts35 [tbounty tw9; tbounty tw10]) = true => exact (demo_run 32 _ eq_refl)
  | |- clock_ok ts0 => exact (demo_clock 42 _ eq_refl)
  | |- clock_ok ts1 => exact (demo_clock 43 _ eq_refl)
  | |- clock_ok ts2 => exact (demo_clock 44 _ eq_refl)
  | |- clock_ok ts3 => exact (demo_clock 45 _ eq_refl)
  | |- clock_ok ts4r => exact (demo_clock 46 _ eq_refl)
  | |- clock_ok ts5 => exact (demo_clock 47 _ eq_refl)
  | |- clock_ok ts6 => exact (demo_clock 48 _ eq_refl)
  | |- clock_ok ts7r => exact (demo_clock 49 _ eq_refl)
  | |- clock_ok ts8 => exact (demo_clock 50 _ eq_refl)
  | |- clock_ok ts9 => exact (demo_clock 51 _ eq_refl)
  | |- clock_ok ts10 => exact (demo_clock 52 _ eq_refl)
  | |- clock_ok ts11r => exact (demo_clock 53 _ eq_refl)
  | |- clock_ok ts12 => exact (demo_clock 54 _ eq_refl)
  | |- clock_ok ts13 => exact (demo_clock 55 _ eq_refl)
  | |- clock_ok ts14r => exact (demo_clock 56 _ eq_refl)
  | |- clock_ok ts15 => exact (demo_clock 57 _ eq_refl)
  | |- clock_ok ts16 => exact (demo_clock 58 _ eq_refl)
  | |- clock_ok ts17 => exact (demo_clock 59 _ eq_refl)
  | |- clock_ok ts18 => exact (demo_clock 60 _ eq_refl)
  | |- clock_ok ts19r => exact (demo_clock 61 _ eq_refl)
  | |- clock_ok ts20 => exact (demo_clock 62 _ eq_refl)
  | |- clock_ok ts21 => exact (demo_clock 63 _ eq_refl)
  | |- clock_ok ts22r => exact (demo_clock 64 _ eq_refl)
  | |- clock_ok ts23 => exact (demo_clock 65 _ eq_refl)
  | |- clock_ok ts24 => exact (demo_clock 66 _ eq_refl)
  | |- clock_ok ts25r => exact (demo_clock 67 _ eq_refl)
  | |- clock_ok ts26 => exact (demo_clock 68 _ eq_refl)
  | |- clock_ok ts30 => exact (demo_clock 69 _ eq_refl)
  | |- clock_ok ts31r => exact (demo_clock 70 _ eq_refl)
  | |- clock_ok ts32 => exact (demo_clock 71 _ eq_refl)
  | |- clock_ok ts33 => exact (demo_clock 72 _ eq_refl)
  | |- clock_ok ts34 => exact (demo_clock 73 _ eq_refl)
  | |- clock_ok ts35 => exact (demo_clock 74 _ eq_refl)
  | |- clock_ok ts36r => exact (demo_clock 75 _ eq_refl)
  | |- clock_ok ts4 => exact (demo_clock 76 _ eq_refl)
  | |- clock_ok ts7 => exact (demo_clock 77 _ eq_refl)
  | |- clock_ok ts11 => exact (demo_clock 78 _ eq_refl)
  | |- clock_ok ts14 => exact (demo_clock 79 _ eq_refl)
  | |- clock_ok ts19 => exact (demo_clock 80 _ eq_refl)
  | |- clock_ok ts22 => exact (demo_clock 81 _ eq_refl)
  | |- clock_ok ts25 => exact (demo_clock 82 _ eq_refl)
  | |- clock_ok ts31 => exact (demo_clock 83 _ eq_refl)
  | |- clock_ok ts36 => exact (demo_clock 84 _ eq_refl)
  end.
Ltac demo_ok := first [demo_known | vm_compute; reflexivity].
Ltac demo_now := first [demo_known | vm_compute; repeat split; discriminate].

(** Accounts that are not listed do not exist. *)
Definition unlisted (s : state) : Prop := forall k, existsb (keqb k) demo_keys = false -> accs s k = acct0.
Definition writes_listed (x : list meta * tp_ix) : bool := forallb (fun m => negb (m_wr m) || existsb (keqb (m_key m)) demo_keys) (fst x).
Lemma unlisted_tstp s x : unlisted s -> writes_listed x = true -> is_ok (tstp s x) = true -> unlisted (unres (tstp s x)).
Proof.
  intros U W R k K. rewrite <- (U k K). apply ok_unres in R. unfold tstp in *. unfold do_tp in R at 1. apply run_ok in R as [R _].
  refine (Frames.ro_tp_process (c_wr (ctx_of tp_id (fst x))) te no_ext _ _ _ (fun j J => J) _ _ _ R k _).
  - intros c d s1 a s2 H. destruct (no_ext_never _ _ _ _ H).
  - destruct (c_wr (ctx_of tp_id (fst x)) k) eqn:E; [|reflexivity]. apply ctx_of_wr in E as (m & I & <- & M).
    unfold writes_listed in W. rewrite forallb_forall in W. apply W in I. rewrite M, K in I. discriminate I.
Qed.
Lemma unlisted_tstps l : forall s, unlisted s -> forallb writes_listed l = true -> is_ok (tstps s l) = true -> unlisted (unres (tstps s l)).
Proof.
  induction l as [|x l IH]; intros s U W R; [exact U|]. cbn [tstps] in *. cbn [forallb] in W. apply andb_true_iff in W as [W1 W2].
  destruct (tstp s x) as [s1|] eqn:E; [|discriminate R]. cbn [rbind] in *. apply IH; [|exact W2|exact R].
  pose proof (unlisted_tstp s x U W1) as Q. rewrite E in Q. apply Q. reflexivity.
Qed.
Lemma lookup_none (l : list (key * acct)) k : existsb (fun '(j, _) => keqb k j) l = false -> acct_lookup l k = acct0.
Proof. induction l as [|[j a] l IH]; intros H; [reflexivity|]. cbn [existsb acct_lookup] in *. apply orb_false_iff in H as [-> H]. apply IH. exact H. Qed.
Lemma listed_none (l : list (key * acct)) k : forallb (fun '(j, _) => existsb (keqb j) demo_keys) l = true -> existsb (keqb k) demo_keys = false -> existsb (fun '(j, _) => keqb k j) l = false.
Proof.
  intros F K. destruct (existsb _ l) eqn:E; [|reflexivity]. exfalso. apply existsb_exists in E as ([j a] & I & E). apply keqb_eq in E as <-.
  rewrite forallb_forall in F. apply F in I. cbv beta iota in I. rewrite K in I. discriminate I.
Qed.
Lemma unlisted_frozen l b : forallb (fun '(j, _) => existsb (keqb j) demo_keys) (l ++ taccs) = true -> unlisted (frozen l b).
Proof. intros F k K. cbn [frozen accs]. apply lookup_none, listed_none; assumption. Qed.
Lemma taccs_listed : forallb (fun '(j, _) => existsb (keqb j) demo_keys) taccs = true.
Proof. vm_compute. reflexivity. Qed.
Lemma unlisted0 : unlisted ts0.
Proof. intros k K. cbn [ts0 demo_state accs]. apply lookup_none, listed_none; [exact taccs_listed|exact K]. Qed.
Lemma acct_eqb_eq a b : acct_eqb a b = true -> a = b.
Proof.
  unfold acct_eqb. intros H. apply andb_true_iff in H as [H H3]. apply andb_true_iff in H as [H1 H2]. apply Z.eqb_eq in H1. apply keqb_eq in H2. apply beqb_eq in H3.
  destruct a as [la oa da], b as [lb ob db]. cbn in H1, H2, H3. subst. reflexivity.
Qed.
Lemma frozen_same s l b : unlisted s -> frozenb s l = true -> unlisted (frozen l b) /\ forall k, accs (frozen l b) k = accs s k.
Proof.
  intros U F. apply andb_true_iff in F as [F L]. assert (U' : unlisted (frozen l b)) by (apply unlisted_frozen; rewrite forallb_app, L, taccs_listed; reflexivity).
  split; [exact U'|]. intros k. destruct (existsb (keqb k) demo_keys) eqn:K; [|rewrite (U k K); exact (U' k K)].
  apply existsb_exists in K as (j & I & K). apply keqb_eq in K as <-. rewrite forallb_forall in F. apply F in I. symmetry. apply acct_eqb_eq. exact I.
Qed.
Lemma frozen_nonneg l b : forallb (fun '(_, a) => 0 <=? lam a) (l ++ taccs) = true -> nonneg (frozen l b).
Proof. exact (demo_nonneg (l ++ taccs)). Qed.
Lemma same_hist e pid prog s0 s s' : hist e pid prog s0 s -> (forall k, accs s' k = accs s k) -> hist e pid prog s0 s'.
Proof.
  intros H E. eapply h_foreign; [exact H|]. intros k. unfold same_od. rewrite E. split; [auto|]. split; [intros _; split; [split; reflexivity|apply Z.le_refl]|].
  split; [intros A B; contradiction|intros _ _; split; reflexivity].
Qed.
Ltac demo_unlisted := lazymatch goal with
  | |- unlisted (unres (tstp ?s ?x)) => apply (unlisted_tstp s x)
  | |- unlisted (unres (tstps ?s ?l)) => apply (unlisted_tstps l s)
  end; [|vm_compute; reflexivity|demo_ok].

Lemma ts1_unlisted : unlisted ts1. Proof. unfold ts1. demo_unlisted. exact unlisted0. Qed.
Lemma ts2_unlisted : unlisted ts2. Proof. unfold ts2. demo_unlisted. exact ts1_unlisted. Qed.
Lemma ts3_unlisted : unlisted ts3. Proof. unfold ts3. demo_unlisted. exact ts2_unlisted. Qed.
Lemma ts4r_unlisted : unlisted ts4r. Proof. unfold ts4r. demo_unlisted. exact ts3_unlisted. Qed.
Lemma ts4_same : unlisted ts4 /\ forall k, accs ts4 k = accs ts4r k.
Proof. apply frozen_same; [exact ts4r_unlisted|exact (demo_run 33 _ eq_refl)]. Qed.
Lemma ts4_unlisted : unlisted ts4. Proof. apply ts4_same. Qed.
Lemma ts4_hist ok s0 : req_hist te ok s0 ts4r -> req_hist te ok s0 ts4. Proof. intros H. eapply same_hist; [exact H|apply ts4_same]. Qed.
Lemma ts5_unlisted : unlisted ts5. Proof. unfold ts5. demo_unlisted. exact ts4_unlisted. Qed.
Lemma ts6_unlisted : unlisted ts6. Proof. unfold ts6. demo_unlisted. exact ts5_unlisted. Qed.
Lemma ts7r_unlisted : unlisted ts7r. Proof. unfold ts7r. demo_unlisted. exact ts6_unlisted. Qed.
Lemma ts7_same : unlisted ts7 /\ forall k, accs ts7 k = accs ts7r k.
Proof. apply frozen_same; [exact ts7r_unlisted|exact (demo_run 34 _ eq_refl)]. Qed.
Lemma ts7_unlisted : unlisted ts7. Proof. apply ts7_same. Qed.
Lemma ts7_hist ok s0 : req_hist te ok s0 ts7r -> req_hist te ok s0 ts7. Proof. intros H. eapply same_hist; [exact H|apply ts7_same]. Qed.
Lemma ts8_unlisted : unlisted ts8. Proof. unfold ts8. demo_unlisted. exact ts7_unlisted. Qed.
Lemma ts9_unlisted : unlisted ts9. Proof. unfold ts9. demo_unlisted. exact ts8_unlisted. Qed.
Lemma ts10_unlisted : unlisted ts10. Proof. unfold ts10. demo_unlisted. exact ts9_unlisted. Qed.
Lemma ts11r_unlisted : unlisted ts11r. Proof. unfold ts11r. demo_unlisted. exact ts10_unlisted. Qed.
Lemma ts11_same : unlisted ts11 /\ forall k, accs ts11 k = accs ts11r k.
Proof. apply frozen_same; [exact ts11r_unlisted|exact (demo_run 35 _ eq_refl)]. Qed.
Lemma ts11_unlisted : unlisted ts11. Proof. apply ts11_same. Qed.
Lemma ts11_hist ok s0 : req_hist te ok s0 ts11r -> req_hist te ok s0 ts11. Proof. intros H. eapply same_hist; [exact H|apply ts11_same]. Qed.
Lemma ts12_unlisted : unlisted ts12. Proof. unfold ts12. demo_unlisted. exact ts2_unlisted. Qed.
Lemma ts13_unlisted : unlisted ts13. Proof. unfold ts13. demo_unlisted. exact ts12_unlisted. Qed.
Lemma ts14r_unlisted : unlisted ts14r. Proof. unfold ts14r. demo_unlisted. exact ts13_unlisted. Qed.
Lemma ts14_same : unlisted ts14 /\ forall k, accs ts14 k = accs ts14r k.
Proof. apply frozen_same; [exact ts14r_unlisted|exact (demo_run 36 _ eq_refl)]. Qed.
Lemma ts14_unlisted : unlisted ts14. Proof. apply ts14_same. Qed.
Lemma ts14_hist ok s0 : req_hist te ok s0 ts14r -> req_hist te ok s0 ts14. Proof. intros H. eapply same_hist; [exact H|apply ts14_same]. Qed.
Lemma ts17_unlisted : unlisted ts17. Proof. unfold ts17. demo_unlisted. exact ts11_unlisted. Qed.
Lemma ts18_unlisted : unlisted ts18. Proof. unfold ts18. demo_unlisted. exact ts17_unlisted. Qed.
Lemma ts19r_unlisted : unlisted ts19r. Proof. unfold ts19r. demo_unlisted. exact ts18_unlisted. Qed.
Lemma ts19_same : unlisted ts19 /\ forall k, accs ts19 k = accs ts19r k.
Proof. apply frozen_same; [exact ts19r_unlisted|exact (demo_run 37 _ eq_refl)]. Qed.
Lemma ts19_unlisted : unlisted ts19. Proof. apply ts19_same. Qed.
Lemma ts19_hist ok s0 : req_hist te ok s0 ts19r -> req_hist te ok s0 ts19. Proof. intros H. eapply same_hist; [exact H|apply ts19_same]. Qed.
Lemma ts21_unlisted : unlisted ts21. Proof. unfold ts21. demo_unlisted. exact ts2_unlisted. Qed.
Lemma ts22r_unlisted : unlisted ts22r. Proof. unfold ts22r. demo_unlisted. exact ts21_unlisted. Qed.
Lemma ts22_same : unlisted ts22 /\ forall k, accs ts22 k = accs ts22r k.
Proof. apply frozen_same; [exact ts22r_unlisted|exact (demo_run 38 _ eq_refl)]. Qed.
Lemma ts22_unlisted : unlisted ts22. Proof. apply ts22_same. Qed.
Lemma ts22_hist ok s0 : req_hist te ok s0 ts22r -> req_hist te ok s0 ts22. Proof. intros H. eapply same_hist; [exact H|apply ts22_same]. Qed.
Lemma ts24_unlisted : unlisted ts24. Proof. unfold ts24. demo_unlisted. exact ts8_unlisted. Qed.
Lemma ts25r_unlisted : unlisted ts25r. Proof. unfold ts25r. demo_unlisted. exact ts24_unlisted. Qed.
Lemma ts25_same : unlisted ts25 /\ forall k, accs ts25 k = accs ts25r k.
Proof. apply frozen_same; [exact ts25r_unlisted|exact (demo_run 39 _ eq_refl)]. Qed.
Lemma ts25_unlisted : unlisted ts25. Proof. apply ts25_same. Qed.
Lemma ts25_hist ok s0 : req_hist te ok s0 ts25r -> req_hist te ok s0 ts25. Proof. intros H. eapply same_hist; [exact H|apply ts25_same]. Qed.
Lemma ts30_unlisted : unlisted ts30. Proof. unfold ts30. demo_unlisted. exact ts2_unlisted. Qed.
Lemma ts31r_unlisted : unlisted ts31r. Proof. unfold ts31r. demo_unlisted. exact ts30_unlisted. Qed.
Lemma ts31_same : unlisted ts31 /\ forall k, accs ts31 k = accs ts31r k.
Proof. apply frozen_same; [exact ts31r_unlisted|exact (demo_run 40 _ eq_refl)]. Qed.
Lemma ts31_unlisted : unlisted ts31. Proof. apply ts31_same. Qed.
Lemma ts31_hist ok s0 : req_hist te ok s0 ts31r -> req_hist te ok s0 ts31. Proof. intros H. eapply same_hist; [exact H|apply ts31_same]. Qed.
Lemma ts33_unlisted : unlisted ts33. Proof. unfold ts33. demo_unlisted. exact ts2_unlisted. Qed.
Lemma ts34_unlisted : unlisted ts34. Proof. unfold ts34. demo_unlisted. exact ts33_unlisted. Qed.
Lemma ts35_unlisted : unlisted ts35. Proof. unfold ts35. demo_unlisted. exact ts34_unlisted. Qed.
Lemma ts36r_unlisted : unlisted ts36r. Proof. unfold ts36r. demo_unlisted. exact ts35_unlisted. Qed.
Lemma ts36_same : unlisted ts36 /\ forall k, accs ts36 k = accs ts36r k.
Proof. apply frozen_same; [exact ts36r_unlisted|exact (demo_run 41 _ eq_refl)]. Qed.
Lemma ts36_unlisted : unlisted ts36. Proof. apply ts36_same. Qed.
Lemma ts36_hist ok s0 : req_hist te ok s0 ts36r -> req_hist te ok s0 ts36. Proof. intros H. eapply same_hist; [exact H|apply ts36_same]. Qed.
Ltac demo_call := apply tstp_call; [vm_compute; reflexivity|demo_now|demo_ok].

(** ** Requests on the demo ledger *)

(** The addresses of the demo requests come from one event each. *)
Definition demo_soleb (t : list (bytes * key * key)) (h : list (bytes * key)) (k : key) (b0 : bytes) : bool :=
  let h0 := hash_lookup h b0 in
  forallb (fun '(sd, p, j) => negb (keqb p tp_id && keqb j k) || beqb (firstn 32 (skipn 56 sd)) (kb h0)) t &&
  forallb (fun '(b, h') => negb (keqb h' h0) || beqb b b0) h && negb (keqb h0 key0).
Lemma pda_lookup_full t sd pid k : pda_lookup t sd pid = Some k -> In (sd, pid, k) t.
Proof.
  induction t as [|[[sd' pid'] k'] t IH]; [discriminate|]. cbn [pda_lookup]. destruct (beqb sd sd' && keqb pid pid') eqn:E.
  - intros H. injection H as ->. apply andb_true_iff in E as [E1 E2]. apply beqb_eq in E1. apply keqb_eq in E2. subst. left. reflexivity.
  - intros H. right. apply IH. exact H.
Qed.
Lemma hash_lookup_in h b : hash_lookup h b = key0 \/ In (b, hash_lookup h b) h.
Proof.
  induction h as [|[b' k] h IH]; [left; reflexivity|]. cbn [hash_lookup]. destruct (beqb b b') eqn:E.
  - apply beqb_eq in E. subst b'. right. left. reflexivity.
  - destruct IH as [IH|IH]; [left; exact IH|right; right; exact IH].
Qed.
Lemma seed_hash r ts lt conf x n : firstn 32 (skipn 56 (sd_proposal r ts lt conf x ++ [n])) = kb x.
Proof.
  assert (L : (str "proposal" ++ le 4 r ++ le 4 ts ++ le 8 lt ++ kb conf ++ kb x) ++ [n]
            = (str "proposal" ++ le 4 r ++ le 4 ts ++ le 8 lt ++ kb conf) ++ (kb x ++ [n])) by (rewrite <- !app_assoc; reflexivity).
  unfold sd_proposal. rewrite L.
  set (a := str "proposal" ++ le 4 r ++ le 4 ts ++ le 8 lt ++ kb conf).
  assert (La : List.length a = 56%nat) by (unfold a; rewrite !app_length, !le_length, kb_length; reflexivity).
  rewrite skipn_app, skipn_all2 by (rewrite La; reflexivity). rewrite La, Nat.sub_diag. cbn [app skipn].
  rewrite firstn_app, firstn_all2 by (rewrite kb_length; reflexivity). rewrite kb_length, Nat.sub_diag. cbn [firstn]. apply app_nil_r.
Qed.
Lemma demo_no_collision t h k b0 : demo_soleb t h k b0 = true -> no_collision (demo_env t h) k.
Proof.
  unfold demo_soleb. intros B. apply andb_true_iff in B as [B B3]. apply andb_true_iff in B as [B1 B2].
  assert (ONE : forall r ts lt conf b n, find_pda (demo_env t h) (sd_proposal r ts lt conf (e_hash (demo_env t h) b)) tp_id = Ok (k, n) -> b = b0).
  { intros r ts lt conf b n F. apply find_pda_some in F as [F _]. cbn [demo_env e_pda e_hash] in F. apply pda_lookup_full in F.
    rewrite forallb_forall in B1. apply B1 in F. rewrite !keqb_refl in F. cbn [andb negb orb] in F. apply beqb_eq in F.
    rewrite seed_hash in F. assert (HH : hash_lookup h b = hash_lookup h b0) by (apply keqb_eq; unfold keqb; apply beqb_eq; exact F).
    destruct (hash_lookup_in h b) as [Z|I].
    - rewrite <- HH, Z, keqb_refl in B3. discriminate.
    - rewrite HH in I. rewrite forallb_forall in B2. apply B2 in I. rewrite keqb_refl in I. cbn [negb orb] in I. apply beqb_eq in I. exact I. }
  intros r ts lt conf b n r' ts' lt' conf' b' n' F F'. apply ONE in F, F'. congruence.
Qed.
Lemma tw1_sole : no_collision te tw1. Proof. apply (demo_no_collision _ _ _ (enc c_wsol_event tev1)). vm_compute. reflexivity. Qed.
Lemma tw1b_sole : no_collision te tw1b. Proof. apply (demo_no_collision _ _ _ (enc c_wsol_event tev1)). vm_compute. reflexivity. Qed.
Lemma tw2_sole : no_collision te tw2. Proof. apply (demo_no_collision _ _ _ (enc c_wsol_event tev2)). vm_compute. reflexivity. Qed.
Lemma tw3_sole : no_collision te tw3. Proof. apply (demo_no_collision _ _ _ (enc c_wsol_event tev3)). vm_compute. reflexivity. Qed.
Lemma tw5_sole : no_collision te tw5. Proof. apply (demo_no_collision _ _ _ (enc c_wever_event tev5)). vm_compute. reflexivity. Qed.

Definition the_req (s : state) (k : key) : gprop :=
  match unpack c_gprop TP_LEN (@p_init _ _) (dat (accs s k)) with Ok t => t
  | Err _ => Prop_ false (KProposal 0 None) key0 0 0 (Pda 0 0 key0) [] [] [] end.
Definition the_meta (s : state) (k : key) : wmeta := match try_from_slice c_wmeta (p_meta (the_req s k)) with Some m => m | None => WMeta WNew 0 0 end.
Definition is_req (s : state) (k : key) : bool :=
  keqb (own (accs s k)) tp_id && is_ok (unpack c_gprop TP_LEN (@p_init _ _) (dat (accs s k))) &&
  match try_from_slice c_wmeta (p_meta (the_req s k)) with Some _ => true | None => false end &&
  match p_kind (the_req s k) with KProposal wn _ =>
    match find_pda te (let g := the_req s k in sd_proposal (p_round g) (pd_ts (p_pda g)) (pd_lt (p_pda g)) (pd_conf (p_pda g)) (e_hash te (p_event g))) tp_id with
    | Ok (k', n) => keqb k' k && (n =? wn) | Err _ => false end | _ => false end.
Lemma is_req_at s k : is_req s k = true -> request_at te s k (the_req s k) (the_meta s k).
Proof.
  unfold is_req. intros H. rewrite !andb_true_iff in H. destruct H as [[[H1 H2] H3] H4]. apply keqb_eq in H1.
  split; [exact H1|]. unfold the_meta. unfold the_req in *. destruct (unpack c_gprop TP_LEN (@p_init _ _) (dat (accs s k))) as [g|] eqn:U; [|discriminate H2].
  split; [reflexivity|]. destruct (try_from_slice c_wmeta (p_meta g)) as [m|] eqn:M; [|discriminate].
  apply try_from_slice_can in M as [M1 M2]; [|typeclasses eauto]. split; [exact M1|]. split; [exact M2|].
  destruct (p_kind g) as [ | |wn pn| | | ] eqn:KG; try discriminate. destruct (find_pda te _ tp_id) as [[k' n]|] eqn:F; [|discriminate].
  apply andb_true_iff in H4 as [H4 H5]. apply keqb_eq in H4. apply Z.eqb_eq in H5. subst. exists wn, pn. split; [reflexivity|first [exact F|reflexivity]].
Qed.
Ltac demo_req := apply is_req_at; vm_compute; reflexivity.

(** Histories for requests. *)
Lemma tstp_req (ok : ctx -> tp_ix -> Prop) s x : demo_plainb ttab (fst x) = true -> okb c_tp_ix (snd x) = true -> clock_ok s -> is_ok (tstp s x) = true ->
  is_payload (snd x) = false -> ok (ctx_of tp_id (fst x)) (snd x) -> req_instr te ok s (unres (tstp s x)).
Proof.
  intros B O CK R NP OK. exists (ctx_of tp_id (fst x)), no_ext, (snd x).
  split; [apply tstp_call; assumption|]. split; [intros k S P; destruct (demo_plain _ _ _ _ B _ S P)|].
  split; [apply no_ext_tp|]. split; [|exact OK]. intros k _. split; intros E; rewrite E in NP; discriminate.
Qed.
Lemma tstps_req (ok : ctx -> tp_ix -> Prop) (okb' : list meta * tp_ix -> bool) s0 l :
  (forall x, okb' x = true -> ok (ctx_of tp_id (fst x)) (snd x)) ->
  forall s, req_hist te ok s0 s ->
  forallb (fun x => demo_plainb ttab (fst x) && okb c_tp_ix (snd x) && negb (is_payload (snd x)) && okb' x) l = true -> clock_ok s ->
  is_ok (tstps s l) = true -> req_hist te ok s0 (unres (tstps s l)).
Proof.
  intros OK. induction l as [|x l IH]; intros s H B CK R; [exact H|]. cbn [tstps] in *. cbn [forallb] in B. apply andb_true_iff in B as [B1 B2].
  rewrite !andb_true_iff in B1. destruct B1 as [[[B1 B3] B4] B5]. apply negb_true_iff in B4.
  destruct (tstp s x) as [s1|] eqn:E; [|discriminate]. cbn [rbind] in *.
  pose proof (tstp_instr 0 s x B1 CK) as I1. rewrite E in I1. cbn [unres is_ok] in I1.
  apply IH; [|exact B2| |exact R].
  - eapply h_prog; [exact H|]. pose proof (tstp_req ok s x B1 B3 CK) as Q. rewrite E in Q. apply Q; auto.
  - destruct (I1 eq_refl) as (c & ext & d & Hp & _ & S & X & R0).
    assert (N : now s1 = now s).
    { apply (induct_run te (ordinary te)) with (P := fun _ _ => True) (n := O) (ext := ext) (c := c) (d := d); try assumption; auto.
      intros k K _. exact K. }
    unfold clock_ok in *. rewrite N. exact CK.
Qed.
Lemma tstp_more (ok : ctx -> tp_ix -> Prop) s0 s x : req_hist te ok s0 s -> demo_plainb ttab (fst x) = true -> okb c_tp_ix (snd x) = true ->
  clock_ok s -> is_ok (tstp s x) = true -> is_payload (snd x) = false -> ok (ctx_of tp_id (fst x)) (snd x) ->
  req_hist te ok s0 (unres (tstp s x)).
Proof. intros H B O CK R NP OK. eapply h_prog; [exact H|]. apply tstp_req; assumption. Qed.
Ltac demo_more := apply tstp_more; [|vm_compute; reflexivity|vm_compute; reflexivity|demo_now|demo_ok|reflexivity|first [exact Logic.I|intros [X _]; discriminate X]].
Ltac demo_votes := apply (tstps_req _ (fun x => match snd x with TpCloseWithdrawal => false | _ => true end));
  [first [intros; exact Logic.I|intros x X [Y _]; rewrite Y in X; discriminate X]| |vm_compute; reflexivity|demo_now|demo_ok].

(** To the states that are written out. *)
Ltac demo_ts4 := apply ts4_hist; unfold ts4r; demo_votes.
Ltac demo_ts7 := apply ts7_hist; unfold ts7r; demo_votes.
Ltac demo_ts11 := apply ts11_hist; unfold ts11r; demo_more.
Ltac demo_ts14 := apply ts14_hist; unfold ts14r; demo_more.
Ltac demo_ts19 := apply ts19_hist; unfold ts19r; demo_more.
Ltac demo_ts22 := apply ts22_hist; unfold ts22r; demo_votes.
Ltac demo_ts25 := apply ts25_hist; unfold ts25r; demo_votes.
Ltac demo_ts31 := apply ts31_hist; unfold ts31r; demo_votes.
Ltac demo_ts36 := apply ts36_hist; unfold ts36r; demo_votes.

Lemma demo_not_proxy t h k :
  forallb (fun '(sd, p, j) => negb (keqb j k) || negb (beqb (firstn 5 sd) (str "proxy"))) t = true -> ~ is_proxy (demo_env t h) k.
Proof.
  intros B (mint & r & b & P). cbn [demo_env e_pda] in P. apply pda_lookup_full in P. rewrite forallb_forall in B. apply B in P.
  rewrite keqb_refl in P. discriminate P.
Qed.
