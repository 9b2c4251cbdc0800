(** What the fee, proxy, multi-vault, bounty, vote and closing instructions do when they succeed. *)

From Coq Require Import ZifyBool ZifyNat ZifyN.
From Verif Require Export TpPay.
Ltac Zify.zify_post_hook ::= Z.div_mod_to_equations.

(** ** Fees *)

Definition ever_fee_eff (e : env) (c : ctx) (amount : Z) (authority mint recipient tsk settings : key) (s s' : state) : Prop :=
  exists st pn ts mn m token dec_ s1,
    c_sg c authority = true /\
    tp_settings_in e (c_pid c) s settings st pn /\ entitled e (c_pid c) s (gs_manager st) authority /\
    token_in e (c_pid c) s tsk ts mn /\ tk_kind ts = TKEver m token dec_ /\
    find_pda e (sd_mint (token_hash e token)) (c_pid c) = Ok (mint, mn) /\
    own (accs s mint) = spl_id /\ own (accs s recipient) = spl_id /\
    amount <= tk_fee_supply ts /\
    minted s s1 mint recipient amount /\
    (c_sg c mint = true \/ e_pda e (with_bump (sd_mint (token_hash e token)) mn) (c_pid c) = Some mint) /\
    c_wr c mint = true /\ c_wr c recipient = true /\
    packed c c_token_settings TP_LEN s1 s' tsk (tk_set_fee_supply ts (tk_fee_supply ts - amount)).
Lemma tp_withdraw_ever_fee_ok e c amount s a s' : 0 <= amount -> tp_withdraw_ever_fee e c amount s = Ok (a, s') ->
  exists authority mint recipient tsk settings x rest,
    c_keys c = authority :: mint :: recipient :: tsk :: settings :: x :: rest /\
    ever_fee_eff e c amount authority mint recipient tsk settings s s'.
Proof.
  unfold tp_withdraw_ever_fee, ever_fee_eff. intros Ha H. mkeys H. do 10 tstep H.
  apply bind_ok in H as (u1 & s1 & B1 & H). apply make_ever_transfer_ok in B1 as (M1 & M2 & M3 & M4); [|exact Ha].
  apply bind_ok in H as (fs & s2 & B2 & H). apply lift_ok in B2 as [B2 ->]. apply csub_ok in B2 as [-> _]. apply pack_at_packed in H.
  match goal with X : validate_pda _ _ _ _ _ = _ |- _ => apply validate_pda_ok in X as [_ PM] end. mfacts.
  do 7 eexists. split; [reflexivity|]. exists st, pn, ts, mn, m, token, dec_, s1.
  split; [assumption|]. split; [exact VS|]. split; [exact VA|]. split; [exact VT|]. split; [exact KT|]. split; [exact PM|].
  split; [assumption|]. split; [assumption|]. split; [lia|]. split; [exact M1|]. split; [exact M2|]. split; [exact M3|]. split; [exact M4|exact H].
Qed.

Definition sol_fee_eff (e : env) (c : ctx) (amount : Z) (authority vault tsk recipient settings : key) (s s' : state) : Prop :=
  exists st pn ts vn smint svault s1,
    c_sg c authority = true /\
    tp_settings_in e (c_pid c) s settings st pn /\ entitled e (c_pid c) s (gs_manager st) authority /\
    token_in e (c_pid c) s tsk ts vn /\ tk_kind ts = TKSol smint svault /\
    find_pda e (sd_vault smint) (c_pid c) = Ok (vault, vn) /\
    amount <= tk_fee_supply ts /\
    moved s s1 vault recipient vault amount /\
    (c_sg c vault = true \/ e_pda e (with_bump (sd_vault smint) vn) (c_pid c) = Some vault) /\
    c_wr c vault = true /\ c_wr c recipient = true /\
    packed c c_token_settings TP_LEN s1 s' tsk (tk_set_fee_supply ts (tk_fee_supply ts - amount)).
Lemma tp_withdraw_sol_fee_ok e c amount s a s' : 0 <= amount -> tp_withdraw_sol_fee e c amount s = Ok (a, s') ->
  exists authority vault tsk recipient settings x rest,
    c_keys c = authority :: vault :: tsk :: recipient :: settings :: x :: rest /\
    sol_fee_eff e c amount authority vault tsk recipient settings s s'.
Proof.
  unfold tp_withdraw_sol_fee, sol_fee_eff. intros Ha H. mkeys H. do 12 tstep H.
  apply bind_ok in H as (u1 & s1 & B1 & H). apply make_sol_transfer_ok in B1 as (M1 & M2 & M3 & M4); [|exact Ha].
  apply bind_ok in H as (fs & s2 & B2 & H). apply lift_ok in B2 as [B2 ->]. apply csub_ok in B2 as [-> _]. apply pack_at_packed in H.
  match goal with X : validate_pda _ _ _ _ _ = _ |- _ => apply validate_pda_ok in X as [_ PM] end. mfacts.
  do 7 eexists. split; [reflexivity|]. exists st, pn, ts, vn, smint, svault, s1.
  split; [assumption|]. split; [exact VS|]. split; [exact VA|]. split; [exact VT|]. split; [exact KT|]. split; [exact PM|].
  split; [lia|]. split; [exact M1|]. split; [exact M2|]. split; [exact M3|]. split; [exact M4|exact H].
Qed.

(** ** Proxy *)
Lemma tp_withdraw_proxy_ok e c amount s a s' : 0 <= amount -> tp_withdraw_proxy e c amount s = Ok (a, s') ->
  exists creator recipient proxy mint rest n,
    c_keys c = creator :: recipient :: proxy :: mint :: rest /\ c_sg c creator = true /\
    find_pda e (sd_proxy mint creator) (c_pid c) = Ok (proxy, n) /\
    moved s s' proxy recipient proxy amount /\ c_wr c proxy = true /\ c_wr c recipient = true.
Proof.
  unfold tp_withdraw_proxy. intros Ha H. mkeys H. do 5 mstep H. mfacts. subst.
  apply invoke_tok_transfer_ok in H as (x & b & dl & da & T1 & T2 & T3 & T4 & T5 & T6 & T7 & T8 & T9 & T10 & T11 & T12 & T13 & _); [|exact Ha].
  do 6 eexists. split; [reflexivity|]. split; [assumption|]. split; [pdaok|]. split; [|auto].
  exists x, b, dl, da. repeat (split; [assumption|]). assumption.
Qed.

(** ** Multi-vault *)
Lemma tp_withdraw_multi_vault_ok e c amount s a s' : tp_withdraw_multi_vault e c amount s = Ok (a, s') ->
  exists authority recipient multivault settings rest st pn,
    c_keys c = authority :: recipient :: multivault :: settings :: rest /\ c_sg c authority = true /\
    tp_settings_in e (c_pid c) s settings st pn /\ entitled e (c_pid c) s (gs_manager st) authority /\
    multivault_in e (c_pid c) s multivault /\ amount <= lam (accs s multivault) /\
    sod s s' /\ same_env s s' /\
    dlam s s' (fun k => at_key recipient amount k - at_key multivault amount k) /\
    (amount <= 0 \/ own (accs s multivault) = c_pid c /\ c_wr c multivault = true /\ c_wr c recipient = true).
Proof.
  unfold tp_withdraw_multi_vault. intros H. mkeys H. do 4 tstep H. apply move_lam_ok in H as (M1 & M2 & M3 & M4 & M5).
  do 5 eexists. exists st, pn. split; [reflexivity|]. split; [assumption|]. split; [exact VS|]. split; [exact VA|].
  split; [exact VM|]. auto.
Qed.

(** ** Bounty *)
Lemma tp_change_bounty_ok e c b s a s' : tp_change_bounty e c b s = Ok (a, s') ->
  exists author withdrawal rest w,
    c_keys c = author :: withdrawal :: rest /\ c_sg c author = true /\
    wsol_in e (c_pid c) s withdrawal w /\ w_status w = WPending /\
    (author = p_author w \/ author = wse_recipient (wl_data (p_event w))) /\
    packed c c_wsol TP_LEN s s' withdrawal (w_set_bounty w b).
Proof.
  unfold tp_change_bounty. intros H. mkeys H. do 4 tstep H. apply pack_at_packed in H.
  match goal with X : _ || _ = true |- _ => apply orb_true_iff in X; rewrite !keqb_eq in X end. mfacts.
  do 3 eexists. exists w. split; [reflexivity|]. split; [assumption|]. split; [exact VW|]. split; [assumption|].
  split; [|exact H]. match goal with X : _ \/ _ |- _ => destruct X as [X|X]; [left|right]; symmetry; exact X end.
Qed.

(** ** Votes *)
Definition vote_eff (e : env) (c : ctx) (v : vote) (relay withdrawal rrk : key) (s s' : state) : Prop :=
  exists g rr i old,
    c_sg c relay = true /\ v <> VNone /\
    unpack_from_slice c_gprop (dat (accs s withdrawal)) = Ok g /\
    request_addr e (c_pid c) withdrawal g (e_hash e (p_event g)) /\
    unpack c_relay_round RELAY_ROUND_LEN rr_init (dat (accs s rrk)) = Ok rr /\
    (exists n, rr_kind rr = KRelayRound n /\ find_pda e (sd_relay_round (p_round g)) rl_id = Ok (rrk, n)) /\
    position relay (rr_relays rr) = Some i /\ nth_error (p_signers g) i = Some old /\
    ((old <> VNone /\ s' = s) \/
     (old = VNone /\
      exists d', pack_into_slice c_gprop (p_with_signers g (set_nth i v (p_signers g))) (dat (accs s withdrawal)) = Ok d' /\
        dat (accs s' withdrawal) = d' /\ own (accs s' withdrawal) = own (accs s withdrawal) /\
        (dat (accs s withdrawal) = d' \/ own (accs s withdrawal) = c_pid c /\ c_wr c withdrawal = true) /\
        (forall k, k <> withdrawal -> same_od s s' k) /\ same_env s s' /\
        RELAY_REPARATION <= lam (accs s withdrawal) /\
        dlam s s' (fun k => at_key relay RELAY_REPARATION k - at_key withdrawal RELAY_REPARATION k) /\
        own (accs s withdrawal) = c_pid c /\ c_wr c withdrawal = true /\ c_wr c relay = true)).

Lemma tp_vote_ok e c v s a s' : tp_vote e c v s = Ok (a, s') ->
  exists relay withdrawal rrk rest, c_keys c = relay :: withdrawal :: rrk :: rest /\ vote_eff e c v relay withdrawal rrk s s'.
Proof.
  unfold tp_vote, vote_eff, relay_round_at. intros H. mkeys H. do 10 tstep H.
  do 4 eexists. split; [reflexivity|].
  match goal with X : into_relay_round _ = _ |- _ => apply into_relay_round_ok in X; rename X into KR end.
  match goal with X : validate_pda _ _ _ _ _ = _ |- _ => apply validate_pda_ok in X as [_ PM] end.
  repeat match goal with X : ok_or _ _ = Ok _ |- _ => apply ok_or_ok in X end.
  match goal with X : position _ _ = Some ?x |- _ => rename x into i; rename X into PO end.
  match goal with X : nth_error _ i = Some ?x |- _ => rename x into old; rename X into NT end.
  match goal with X : unpack_from_slice c_gprop _ = Ok ?x |- _ => rename x into g; rename X into UG end.
  match goal with X : negb (vote_eqb v VNone) = true |- _ => apply negb_true_iff, vote_eqb_neq in X; rename X into NV end.
  assert (UR : exists rr n, unpack c_relay_round RELAY_ROUND_LEN rr_init (dat (accs s k1)) = Ok rr /\ rr_kind rr = KRelayRound n /\
    find_pda e (sd_relay_round (p_round g)) rl_id = Ok (k1, n) /\ position k (rr_relays rr) = Some i).
  { do 2 eexists. split; [eassumption|]. split; [exact KR|]. split; [exact PM|exact PO]. }
  destruct UR as (rr & n & R1 & R2 & R3 & R4). exists g, rr, i, old.
  split; [assumption|]. split; [exact NV|]. split; [exact UG|]. split; [exact VP|]. split; [exact R1|].
  split; [eauto|]. split; [exact R4|]. split; [exact NT|].
  destruct (vote_eqb old VNone) eqn:EV.
  - right. apply vote_eqb_eq in EV. split; [exact EV|].
    apply bind_ok in H as (d' & s1 & B1 & H). apply lift_ok in B1 as [B1 ->].
    apply bind_ok in H as (u2 & s2 & B2 & H). apply set_data_ok in B2 as [-> W].
    apply move_lam_ok in H as (M1 & M2 & M3 & M4 & M5). exists d'. split; [exact B1|].
    destruct (M1 k0) as [O1 D1]. rewrite own_put_dat in O1. rewrite dat_put_dat in D1.
    split; [exact D1|]. split; [exact O1|]. split.
    { destruct W as [W|W]; [left; exact W|right; exact W]. }
    split.
    { intros j N. eapply same_od_trans; [|apply M1]. apply same_od_put_dat_other. exact N. }
    split; [destruct M2 as [M21 M22]; split; assumption|]. rewrite lam_put_dat in M3. split; [exact M3|]. split.
    { intros j. rewrite (M4 j), lam_put_dat. reflexivity. }
    rewrite own_put_dat in M5. destruct M5 as [M5|M5]; [discriminate M5 || (exfalso; revert M5; unfold RELAY_REPARATION; lia)|exact M5].
  - left. msimple H. apply vote_eqb_neq in EV. auto.
Qed.

(** ** Closing *)
Definition deleted (c : ctx) (s s' : state) (k author : key) : Prop :=
  same_env s s' /\ own (accs s' k) = sys_id /\ dat (accs s' k) = repeat x00 (length (dat (accs s k))) /\
  (forall j, j <> k -> same_od s s' j) /\ lam (accs s' k) = 0 /\
  (author <> k -> lam (accs s' author) = lam (accs s author) + lam (accs s k)) /\
  (forall j, j <> k -> j <> author -> lam (accs s' j) = lam (accs s j)) /\
  (own (accs s k) = c_pid c /\ c_wr c k = true \/ dat (accs s k) = repeat x00 (length (dat (accs s k)))).

Lemma tp_close_deposit_ok e c s a s' : tp_close_deposit e c s = Ok (a, s') ->
  exists author deposit rest g seed n,
    c_keys c = author :: deposit :: rest /\ c_sg c author = true /\
    unpack_from_slice c_gdep (dat (accs s deposit)) = Ok g /\
    try_from_slice c_u128 (d_meta g) = Some seed /\ d_kind g = KDeposit n /\
    find_pda e (sd_deposit seed) (c_pid c) = Ok (deposit, n) /\ author = d_author g /\
    deleted c s s' deposit author.
Proof.
  unfold tp_close_deposit. intros H. mkeys H. do 7 tstep H. apply delete_account_ok in H.
  match goal with X : into_deposit _ = _ |- _ => apply into_deposit_ok in X end.
  match goal with X : validate_pda _ _ _ _ _ = _ |- _ => apply validate_pda_ok in X as [_ PM] end. mfacts.
  do 6 eexists. split; [reflexivity|]. split; [assumption|]. split; [eassumption|]. split; [eassumption|].
  split; [eassumption|]. split; [exact PM|]. split; [eassumption|exact H].
Qed.

Lemma tp_close_withdrawal_ok e c s a s' : tp_close_withdrawal e c s = Ok (a, s') ->
  exists withdrawal author rest g m,
    c_keys c = withdrawal :: author :: rest /\
    unpack_from_slice c_gprop (dat (accs s withdrawal)) = Ok g /\
    request_addr e (c_pid c) withdrawal g (e_hash e (p_event g)) /\ author = p_author g /\
    try_from_slice c_wmeta (p_meta g) = Some m /\ (wm_status m = WProcessed \/ wm_status m = WCancelled) /\
    deleted c s s' withdrawal author.
Proof.
  unfold tp_close_withdrawal. intros H. mkeys H. do 6 tstep H. apply delete_account_ok in H.
  match goal with X : _ || _ = true |- _ => apply orb_true_iff in X; rewrite !wstatus_eqb_eq in X end. mfacts.
  do 5 eexists. split; [reflexivity|]. split; [eassumption|]. split; [exact VP|]. split; [eassumption|].
  split; [eassumption|]. split; [eassumption|exact H].
Qed.
