(** What the withdrawal request instructions do when they succeed. *)

From Coq Require Import ZifyBool ZifyNat ZifyN.
From Verif Require Export TpDeposit.
Ltac Zify.zify_post_hook ::= Z.div_mod_to_equations.

Lemma record_ok2 {A} e c (cd : codec A) x funder k sd l s a s1 s2 s' :
  invoke_create e c funder k (Z.max 1 (rent_min e TP_LEN)) TP_LEN (c_pid c) sd s = Ok (a, s1) ->
  packed c cd TP_LEN s1 s2 k x -> s' = put_log s2 l ->
  recorded e c cd x funder k [l] s s'.
Proof.
  intros C P E2. apply invoke_create_ok in C as (C & E & D & _ & _ & _ & W & _).
  assert (A2 : accs s' = accs s2) by (rewrite E2; reflexivity).
  split.
  { eapply new_record_same_od; [apply same_od_refl|exact (created_packed _ _ _ _ _ _ _ _ _ _ C (same_od_refl _ _) P)|].
    split; rewrite A2; reflexivity. }
  destruct C as (C1 & C2 & C3 & C4 & C5 & C6).
  split; [exact C3|]. split; [|split; [|split; [|split; [|exact W]]]].
  - intros j N. eapply same_od_trans; [apply C6; exact N|]. eapply same_od_trans; [eapply packed_od; [exact P|exact N]|].
    split; rewrite A2; reflexivity.
  - intros j. rewrite A2, (packed_lam _ _ _ _ _ _ _ P). apply D.
  - rewrite E2. cbn [put_log logs]. destruct (packed_env _ _ _ _ _ _ _ P) as [-> _]. destruct E as [-> _]. reflexivity.
  - rewrite E2. cbn [put_log now]. destruct (packed_env _ _ _ _ _ _ _ P) as [_ ->]. destruct E as [_ ->]. reflexivity.
Qed.

(** A new token account [proxy] of [mint] that belongs to itself, paid for by [funder]. *)
Definition proxy_made (s s' : state) (funder proxy mint : key) : Prop :=
  dat (accs s proxy) = [] /\
  (exists t, tok_in s' proxy t /\ ta_mint t = mint /\ ta_owner t = proxy /\ fst (ta_delegate t) = false /\
     (mint <> native_mint -> ta_amount t = 0)) /\
  (mint <> native_mint -> mint <> proxy -> exists m, mint_in s mint m) /\
  (forall k, k <> proxy -> same_od s s' k) /\ same_env s s' /\
  exists p, 0 <= p /\ dlam s s' (fun j => at_key proxy p j - at_key funder p j).
Definition proxy_eff (e : env) (c : ctx) (payload : bytes) (mintk : res key) (recipient funder : key) (attached : Z)
  (rest : list key) (pn : option Z) (s s' : state) : Prop :=
  (payload = [] /\ pn = None /\ s' = s) \/
  (payload <> [] /\ exists proxy mint tokk r n s1,
     rest = proxy :: mint :: tokk :: r /\ mintk = Ok mint /\ pn = Some n /\
     find_pda e (sd_proxy mint recipient) (c_pid c) = Ok (proxy, n) /\
     own (accs s proxy) = sys_id /\
     (proxy_made s s1 funder proxy mint \/ dat (accs s proxy) <> [] /\ s1 = s) /\
     lpaid c s1 s' funder proxy attached).

Lemma create_proxy_account_ok e c recipient funder proxy mint sysk tokk s n s' :
  create_proxy_account e c recipient funder proxy mint sysk tokk s = Ok (n, s') ->
  find_pda e (sd_proxy mint recipient) (c_pid c) = Ok (proxy, n) /\ own (accs s proxy) = sys_id /\
  (proxy_made s s' funder proxy mint \/ dat (accs s proxy) <> [] /\ s' = s).
Proof.
  unfold create_proxy_account. intros H.
  apply bind_ok in H as ([pk n'] & s0 & B1 & H). apply lift_ok in B1 as [PV ->]. cbv beta iota in H.
  apply bind_ok in H as (u0 & s0 & B1 & H). apply guard_ok in B1 as [G1 ->]. apply keqb_eq in G1. rewrite G1 in *. clear G1 pk.
  apply bind_ok in H as (a & s0 & B1 & H). apply get_ok in B1 as [-> ->]. cbv beta in H.
  apply bind_ok in H as (u1 & s0 & B1 & H). apply guard_ok in B1 as [G1 ->]. apply keqb_eq in G1. cbv beta in H.
  destruct (nil_b (dat (accs s proxy))) eqn:NB.
  - apply nil_b_true in NB.
    apply bind_ok in H as (u2 & s1 & C1 & H). apply create_pda_account_ok in C1 as (C1 & E1 & (p & P0 & P1 & _) & _).
    apply bind_ok in H as (u3 & s2 & B2 & H). apply guard_ok in B2 as [G2 ->].
    apply bind_ok in H as (u4 & s2 & B2 & H). apply invoke_init_immutable_ok in B2 as ->.
    apply bind_ok in H as (u5 & s2 & B2 & H). apply invoke_init_account3_ok in B2 as (t0 & U0 & _ & MM & T2). cbv zeta in T2.
    destruct T2 as (E2 & T2 & O2). apply ret_ok in H as [-> ->]. split; [exact PV|]. split; [exact G1|]. left.
    destruct C1 as (C1 & C2 & C3 & C4 & C5).
    split; [exact C2|]. split.
    { eexists. split; [exact T2|]. split; [reflexivity|]. split; [reflexivity|]. split; [reflexivity|].
      intros N. cbn [ta_new ta_amount]. rewrite keqb_ne by exact N. reflexivity. }
    split.
    { intros N1 N2. destruct (MM N1) as (m & M1). exists m. eapply same_od_mint; [|exact M1]. 
      destruct (C5 mint N2) as [X Y]. split; symmetry; assumption. }
    split.
    { intros k K. eapply same_od_trans; [apply C5; exact K|]. rewrite E2. apply same_od_put_dat_other. exact K. }
    split; [eapply same_env_trans; [exact E1|]; rewrite E2; split; reflexivity|].
    exists p. split; [exact P0|]. intros j. rewrite E2, lam_put_dat. apply P1.
  - apply ret_ok in H as [-> ->]. split; [exact PV|]. split; [exact G1|]. right. split; [apply nil_b_false; exact NB|reflexivity].
Qed.

Lemma request_proxy_ok e c payload mintk recipient funder sysk attached rest s pn s' :
  request_proxy e c payload mintk recipient funder sysk attached rest s = Ok (pn, s') ->
  proxy_eff e c payload mintk recipient funder attached rest pn s s'.
Proof.
  unfold request_proxy, proxy_eff. intros H. destruct (nil_b payload) eqn:NB.
  - apply ret_ok in H as [-> ->]. left. apply nil_b_true in NB. auto.
  - right. apply nil_b_false in NB. split; [exact NB|]. destruct rest as [|proxy [|mint [|tokk r]]]; try discriminate H.
    apply bind_ok in H as (mk & s0 & B1 & H). apply lift_ok in B1 as [MK ->].
    apply bind_ok in H as (u0 & s0 & B1 & H). apply guard_ok in B1 as [G1 ->]. apply keqb_eq in G1. rewrite G1 in *. clear G1 mk.
    apply bind_ok in H as (n & s1 & B1 & H). apply create_proxy_account_ok in B1 as (P1 & P2 & P3).
    apply bind_ok in H as (u2 & s2 & B2 & H). apply invoke_transfer_lpaid in B2. apply ret_ok in H as [-> ->].
    exists proxy, mint, tokk, r, n, s1. split; [reflexivity|]. split; [exact MK|]. split; [reflexivity|]. split; [exact P1|].
    split; [exact P2|]. split; [exact P3|exact B2].
Qed.

(** The record of a new request. *)
Definition new_request {E} (wn : Z) (pn : option Z) (author : key) (rls : rl_settings) (rr : relay_round) (ts lt : Z) (conf : key)
  (ev : E) (epoch : Z) : prop E (withlen wmeta) :=
  Prop_ true (KProposal wn pn) author (rr_number rr) (required_votes rls rr) (Pda ts lt conf)
    ev (wmeta_new 0 epoch) (repeat VNone (length (rr_relays rr))).

Definition tail_eff {E} (e : env) (c : ctx) (ce : codec E) (funder author withdrawal : key)
  (rls : rl_settings) (rr : relay_round) (ts lt : Z) (conf : key) (ev : E) (evb : bytes)
  (pn : option Z) (epoch : Z) (token : bytes) (recipient : key) (amount : Z) (s s' : state) : Prop :=
  exists wn, find_pda e (sd_proposal (rr_number rr) ts lt conf (e_hash e evb)) (c_pid c) = Ok (withdrawal, wn) /\
  ((lam (accs s withdrawal) <> 0 /\ s' = s) \/
   (lam (accs s withdrawal) = 0 /\ exists s1,
    recorded e c (c_prop ce (c_withlen c_wmeta)) (new_request wn pn author rls rr ts lt conf ev epoch) funder withdrawal
      [enc c_ev_request (EvRequest withdrawal token recipient amount ts lt conf (kb (e_hash e evb)) 0)] s s1 /\
    lpaid c s1 s' funder withdrawal (wrap64 (RELAY_REPARATION * blen (rr_relays rr))))).

Lemma request_tail_ok {E} e c (ce : codec E) funder author withdrawal rls rr ts lt conf ev evb pn epoch token recipient amount s a s' :
  request_tail e c ce funder author withdrawal rls rr ts lt conf ev evb pn epoch token recipient amount s = Ok (a, s') ->
  tail_eff e c ce funder author withdrawal rls rr ts lt conf ev evb pn epoch token recipient amount s s'.
Proof.
  unfold request_tail, tail_eff. intros H. cbv zeta in H.
  apply bind_ok in H as ([wk wn] & s0 & B1 & H). apply lift_ok in B1 as [PV ->]. cbv beta iota in H.
  apply bind_ok in H as (u0 & s0 & B1 & H). apply guard_ok in B1 as [G1 ->]. apply keqb_eq in G1. rewrite G1 in *. clear G1 wk.
  apply bind_ok in H as (x & s0 & B1 & H). apply get_ok in B1 as [-> ->]. cbv beta in H.
  exists wn. split; [exact PV|]. destruct (lam (accs s withdrawal) =? 0) eqn:L.
  - right. split; [lia|].
    apply bind_ok in H as (u1 & s1 & C1 & H). cbv beta in H.
    apply bind_ok in H as (u2 & s2 & B2 & H). cbv beta in H. apply pack_at_packed in B2.
    apply bind_ok in H as (u3 & s3 & B3 & H). cbv beta in H. apply emit_ok in B3. apply invoke_transfer_lpaid in H.
    exists s3. split; [|exact H]. eapply record_ok2; [exact C1|exact B2|exact B3].
  - left. split; [lia|]. apply ret_ok in H. apply H.
Qed.

Definition ever_request_eff (e : env) (c : ctx) (ts lt : Z) (conf : key) (ev : wever_event) (attached : Z)
  (funder author withdrawal rlsk rrk : key) (rest : list key) (s s' : state) : Prop :=
  exists rls rpn rr pn s1,
    c_sg c author = true /\ blen (wee_name ev) <= 32 /\ blen (wee_symbol ev) <= 32 /\
    rl_settings_in e rl_id s rlsk rls rpn /\ round_in e rl_id s rrk rr /\ wrap32 (now s) < rr_end rr /\
    proxy_eff e c (wee_payload ev)
      (rbind (find_pda e (sd_mint (token_hash e (wee_token ev))) (c_pid c)) (fun '(k, _) => Ok k))
      (wee_recipient ev) funder attached rest pn s s1 /\
    tail_eff e c (c_withlen c_wever_event) funder author withdrawal rls rr ts lt conf (wever_event_new ev)
      (enc c_wever_event ev) pn (epoch_of (now s)) (ever_to_string (wee_token ev)) (wee_recipient ev) (wee_amount ev) s1 s'.

Lemma tp_withdraw_ever_request_ok e c ts lt conf token name symbol decimals recipient amount payload attached s a s' :
  tp_withdraw_ever_request e c ts lt conf token name symbol decimals recipient amount payload attached s = Ok (a, s') ->
  exists funder author withdrawal rlsk rrk x y z rest,
    c_keys c = funder :: author :: withdrawal :: rlsk :: rrk :: x :: y :: z :: rest /\
    ever_request_eff e c ts lt conf (WEverEvent token name symbol decimals amount recipient payload) attached
      funder author withdrawal rlsk rrk rest s s'.
Proof.
  unfold tp_withdraw_ever_request, ever_request_eff. intros H. mkeys H. do 8 tstep H.
  apply bind_ok in H as (pn & s1 & B1 & H). cbv beta zeta in H. apply request_proxy_ok in B1. apply request_tail_ok in H.
  do 9 eexists. split; [reflexivity|]. cbn [wee_name wee_symbol wee_payload wee_token wee_recipient wee_amount].
  do 4 eexists. exists s1. split; [assumption|]. split; [unfold MAX_NAME_LEN in *; lia|]. split; [unfold MAX_SYMBOL_LEN in *; lia|].
  split; [exact VL|]. split; [exact VR|]. split; [|split; [exact B1|exact H]].
  match goal with X : (wrap32 _ <? _) = true |- _ => apply Z.ltb_lt in X; exact X end.
Qed.

Definition sol_request_eff (e : env) (c : ctx) (ts lt : Z) (conf : key) (recipient : key) (amount : Z) (payload : bytes) (attached : Z)
  (funder author withdrawal tsk rlsk rrk : key) (rest : list key) (s s' : state) : Prop :=
  exists tks vn svault mint rls rpn rr pn s1,
    c_sg c author = true /\
    token_in e (c_pid c) s tsk tks vn /\ tk_kind tks = TKSol mint svault /\
    rl_settings_in e rl_id s rlsk rls rpn /\ round_in e rl_id s rrk rr /\ wrap32 (now s) < rr_end rr /\
    proxy_eff e c payload (Ok mint) recipient funder attached rest pn s s1 /\
    let ev := WSolEvent mint amount recipient payload in
    tail_eff e c (c_withlen c_wsol_event) funder author withdrawal rls rr ts lt conf (wsol_event_new ev)
      (enc c_wsol_event ev) pn (epoch_of (now s)) (e_b58 e mint) recipient amount s1 s'.

Lemma tp_withdraw_sol_request_ok e c ts lt conf recipient amount payload attached s a s' :
  tp_withdraw_sol_request e c ts lt conf recipient amount payload attached s = Ok (a, s') ->
  exists funder author withdrawal tsk rlsk rrk x y z rest,
    c_keys c = funder :: author :: withdrawal :: tsk :: rlsk :: rrk :: x :: y :: z :: rest /\
    sol_request_eff e c ts lt conf recipient amount payload attached funder author withdrawal tsk rlsk rrk rest s s'.
Proof.
  unfold tp_withdraw_sol_request, sol_request_eff. intros H. mkeys H. do 7 tstep H.
  apply bind_ok in H as (pn & s1 & B1 & H). cbv beta zeta in H. apply request_proxy_ok in B1. apply request_tail_ok in H.
  do 10 eexists. split; [reflexivity|].
  exists ts0, vn, svault, smint. do 4 eexists. exists s1. split; [assumption|]. split; [exact VT|]. split; [exact KT|].
  split; [exact VL|]. split; [exact VR|]. split; [|split; [exact B1|exact H]].
  match goal with X : (wrap32 _ <? _) = true |- _ => apply Z.ltb_lt in X; exact X end.
Qed.
