(** The records the token proxy writes are in the range of their Rust types. *)

From Coq Require Import ZifyBool ZifyNat ZifyN.
From Verif Require Export TpPending RlWorld.
Ltac Zify.zify_post_hook ::= Z.div_mod_to_equations.

(** The clock sysvar holds an i64. *)
Definition i64max : Z := 2 ^ 63.
Definition clock_ok (s : state) : Prop := - i64max <= now s < i64max.

Lemma okb_i64 z : okb c_i64 z = true <-> - i64max <= z < i64max.
Proof.
  unfold c_i64, c_int, okb. change (256 ^ Z.of_nat 8 / 2) with i64max. rewrite andb_true_iff, Z.leb_le, Z.ltb_lt. tauto.
Qed.
Lemma okb_u128 z : okb c_u128 z = true <-> 0 <= z < u128max.
Proof.
  unfold c_u128, c_uint, okb. change (256 ^ Z.of_nat 16) with u128max. rewrite andb_true_iff, Z.leb_le, Z.ltb_lt. tauto.
Qed.
Lemma epoch_ok s : clock_ok s -> - i64max <= epoch_of (now s) < i64max.
Proof. unfold clock_ok, epoch_of, i64max. intros H. pose proof (Z.quot_lt (now s) 86400). 
  destruct (Z_le_gt_dec 0 (now s)).
  - pose proof (Z.quot_pos (now s) 86400). pose proof (Z.quot_le_upper_bound (now s) 86400 (now s)). lia.
  - pose proof (Z.quot_opp_l (now s) 86400). pose proof (Z.quot_pos (- now s) 86400).
    pose proof (Z.quot_le_upper_bound (- now s) 86400 (- now s)). lia.
Qed.

Lemma okb_ts t : okb c_token_settings t = true <->
  okb c_kind (tk_akind t) = true /\ okb c_token_kind (tk_kind t) = true /\
  okb c_string (tk_name t) = true /\ okb c_string (tk_symbol t) = true /\
  0 <= tk_dlimit t < u64max /\ 0 <= tk_wlimit t < u64max /\ 0 <= tk_wdlimit t < u64max /\
  0 <= tk_wdamount t < u64max /\ - i64max <= tk_wepoch t < i64max /\ 0 <= tk_fee_supply t < u64max /\
  okb c_fee_info (tk_fee_dep t) = true /\ okb c_fee_info (tk_fee_wdr t) = true.
Proof.
  rewrite <- !okb_u64, <- okb_i64.
  change (okb c_token_settings t) with
   (true && (okb c_kind (tk_akind t) && (okb c_token_kind (tk_kind t) && (okb c_string (tk_name t) &&
    (okb c_string (tk_symbol t) && (okb c_u64 (tk_dlimit t) && (okb c_u64 (tk_wlimit t) && (okb c_u64 (tk_wdlimit t) &&
    (okb c_u64 (tk_wdamount t) && (okb c_i64 (tk_wepoch t) && (true && (okb c_u64 (tk_fee_supply t) &&
    (okb c_fee_info (tk_fee_dep t) && okb c_fee_info (tk_fee_wdr t)))))))))))))).
  rewrite !andb_true_iff. tauto.
Qed.
Lemma okb_gs st : okb c_tp_settings st = true <-> okb c_kind (gs_kind st) = true.
Proof.
  change (okb c_tp_settings st) with (true && (okb c_kind (gs_kind st) && (true && (true && (true && true))))).
  rewrite !andb_true_iff. tauto.
Qed.
Lemma okb_mv st : okb c_multi_vault st = true <-> okb c_kind (mv_kind st) = true.
Proof. change (okb c_multi_vault st) with (true && okb c_kind (mv_kind st)). rewrite !andb_true_iff. tauto. Qed.

Lemma okb_unpack {A} (cd : codec A) (L : Lawful cd) LEN i d x : unpack cd LEN i d = Ok x -> okb cd x = true.
Proof. intros U. apply unpack_unchecked_init in U as [U _]. apply unpack_unchecked_ok in U as (r & _ & O & _); [exact O|exact L]. Qed.

(** Bumps are bytes. *)
Lemma bump_ok e sd pid k n : find_pda e sd pid = Ok (k, n) -> okb c_u8 n = true.
Proof. intros H. apply find_pda_some in H as [_ H]. apply okb_u8. lia. Qed.
Lemma ok_kind_2 a b : okb c_u8 a = true -> okb c_u8 b = true ->
  okb c_kind (KSettings a b) = true /\ okb c_kind (KTokenSettings a b) = true.
Proof. intros A B. cbn [okb c_kind c_pair fst snd]. rewrite A, B. auto. Qed.
Lemma ok_kind_1 a : okb c_u8 a = true -> okb c_kind (KDeposit a) = true /\ okb c_kind (KMultiVault a) = true.
Proof. intros A. cbn [okb c_kind]. auto. Qed.
Lemma ok_kind_p a p : okb c_u8 a = true -> (forall n, p = Some n -> okb c_u8 n = true) -> okb c_kind (KProposal a p) = true.
Proof. intros A B. destruct p as [n|]; cbn [okb c_kind c_pair fst snd c_option]; rewrite A; auto. cbn. apply B. reflexivity. Qed.

(** ** Decoded records *)
Lemma token_ok e pid s k ts vn : token_in e pid s k ts vn -> okb c_token_settings ts = true.
Proof. intros [U _]. eapply okb_unpack; [typeclasses eauto|exact U]. Qed.
Lemma settings_ok e pid s k ts vn : tp_settings_in e pid s k ts vn -> okb c_tp_settings ts = true.
Proof. intros [U _]. eapply okb_unpack; [typeclasses eauto|exact U]. Qed.

Lemma charge_ok ts ep fee net : okb c_token_settings ts = true -> - i64max <= ep < i64max ->
  0 <= fee -> 0 <= net -> tk_fee_supply ts + fee < u64max -> spent ts ep + net < u64max ->
  okb c_token_settings (charge ts ep fee net) = true.
Proof.
  intros O E F N H1 H2. apply okb_ts in O. apply okb_ts. unfold charge, tk_set_daily, tk_set_fee_supply.
  cbn [tk_akind tk_kind tk_name tk_symbol tk_dlimit tk_wlimit tk_wdlimit tk_wdamount tk_wepoch tk_fee_supply tk_fee_dep tk_fee_wdr].
  unfold spent in *. destruct (tk_wepoch ts =? ep); intuition lia.
Qed.
Lemma fee_supply_ok ts f : okb c_token_settings ts = true -> 0 <= f < u64max ->
  okb c_token_settings (tk_set_fee_supply ts f) = true.
Proof.
  intros O E. apply okb_ts in O. apply okb_ts. unfold tk_set_fee_supply.
  cbn [tk_akind tk_kind tk_name tk_symbol tk_dlimit tk_wlimit tk_wdlimit tk_wdamount tk_wepoch tk_fee_supply tk_fee_dep tk_fee_wdr].
  intuition lia.
Qed.
Lemma daily_ok ts ep d : okb c_token_settings ts = true -> - i64max <= ep < i64max -> 0 <= d < u64max ->
  okb c_token_settings (tk_set_daily ts ep d) = true.
Proof.
  intros O E D. apply okb_ts in O. apply okb_ts. unfold tk_set_daily.
  cbn [tk_akind tk_kind tk_name tk_symbol tk_dlimit tk_wlimit tk_wdlimit tk_wdamount tk_wepoch tk_fee_supply tk_fee_dep tk_fee_wdr].
  intuition lia.
Qed.
Lemma fee_pos b f x z : fee_of b f x = Ok z -> 1 <= z.
Proof. intros H. apply fee_of_ok in H as (_ & -> & _). lia. Qed.
Lemma fee_info_ok a b : 0 <= a < u64max -> 0 <= b < u64max -> okb c_fee_info (FeeInfo a b) = true.
Proof.
  intros A B. change (okb c_fee_info (FeeInfo a b)) with (okb c_u64 a && okb c_u64 b).
  apply andb_true_iff. split; apply okb_u64; assumption.
Qed.
Lemma token_change_ok i ts ts' : okb c_tp_ix i = true -> token_change i ts ts' -> okb c_token_settings ts = true ->
  okb c_token_settings ts' = true.
Proof.
  intros Oi TC O. apply okb_ts in O. apply okb_ts. destruct i; cbn [token_change] in TC; try contradiction;
    cbn [okb c_tp_ix] in Oi.
  - subst ts'. apply okb_u64 in Oi. unfold tk_set_limits.
    cbn [tk_akind tk_kind tk_name tk_symbol tk_dlimit tk_wlimit tk_wdlimit tk_wdamount tk_wepoch tk_fee_supply tk_fee_dep tk_fee_wdr]. tauto.
  - subst ts'. unfold c_tp_14 in Oi. cbn [okb c_pair fst snd c_option] in Oi. apply andb_true_iff in Oi as [O1 O2].
    unfold tk_set_limits.
    cbn [tk_akind tk_kind tk_name tk_symbol tk_dlimit tk_wlimit tk_wdlimit tk_wdamount tk_wepoch tk_fee_supply tk_fee_dep tk_fee_wdr].
    destruct limit as [l|], daily as [d|]; cbn [opt_or]; try apply okb_u64 in O1; try apply okb_u64 in O2; tauto.
  - subst ts'. exact O.
  - unfold c_tp_21 in Oi. cbn [okb c_pair fst snd] in Oi. rewrite !andb_true_iff in Oi. destruct Oi as (_ & O1 & O2).
    apply okb_u64 in O1, O2. pose proof (fee_info_ok mul div O1 O2) as F.
    destruct t; subst ts'; unfold tk_set_fees;
    cbn [tk_akind tk_kind tk_name tk_symbol tk_dlimit tk_wlimit tk_wdlimit tk_wdamount tk_wepoch tk_fee_supply tk_fee_dep tk_fee_wdr]; tauto.
  - destruct TC as [-> _]. unfold c_tp_22 in Oi. 
    change (okb c_string symbol && okb c_string name = true) in Oi. apply andb_true_iff in Oi as [O1 O2].
    unfold tk_set_names.
    cbn [tk_akind tk_kind tk_name tk_symbol tk_dlimit tk_wlimit tk_wdlimit tk_wdamount tk_wepoch tk_fee_supply tk_fee_dep tk_fee_wdr]. tauto.
Qed.
Lemma new_token_ok tn vn kd name symbol : okb c_u8 tn = true -> okb c_u8 vn = true -> okb c_token_kind kd = true ->
  okb c_string name = true -> okb c_string symbol = true ->
  okb c_token_settings (new_token_settings (KTokenSettings tn vn) kd name symbol) = true.
Proof.
  intros A B C D E. apply okb_ts. unfold new_token_settings.
  cbn [tk_akind tk_kind tk_name tk_symbol tk_dlimit tk_wlimit tk_wdlimit tk_wdamount tk_wepoch tk_fee_supply tk_fee_dep tk_fee_wdr].
  pose proof (ok_kind_2 _ _ A B) as [_ K]. unfold u64max, i64max. repeat split; try assumption; try lia; reflexivity.
Qed.

(** ** Requests *)
Lemma okb_wmeta m : okb c_wmeta m = true <-> 0 <= wm_bounty m < u64max /\ - i64max <= wm_epoch m < i64max.
Proof.
  change (okb c_wmeta m) with (true && (okb c_u64 (wm_bounty m) && okb c_i64 (wm_epoch m))).
  rewrite !andb_true_iff, okb_u64, okb_i64. tauto.
Qed.
Lemma okb_set_status {E} (ce : codec E) (w : prop E (withlen wmeta)) st :
  okb (c_prop ce (c_withlen c_wmeta)) w = true -> okb (c_prop ce (c_withlen c_wmeta)) (w_set_status w st) = true.
Proof.
  intros O. unfold w_set_status. apply okb_with_meta; [exact O|].
  rewrite (okb_prop ce (c_withlen c_wmeta)) in O. rewrite !andb_true_iff in O.
  destruct O as (_ & _ & _ & _ & _ & M & _). rewrite okb_withlen in *. cbn [wl_len wl_data].
  rewrite !andb_true_iff in *. destruct M as [M1 M2]. split; [exact M1|]. apply okb_wmeta in M2. apply okb_wmeta. exact M2.
Qed.
Lemma okb_set_bounty {E} (ce : codec E) (w : prop E (withlen wmeta)) b : 0 <= b < u64max ->
  okb (c_prop ce (c_withlen c_wmeta)) w = true -> okb (c_prop ce (c_withlen c_wmeta)) (w_set_bounty w b) = true.
Proof.
  intros B O. unfold w_set_bounty. apply okb_with_meta; [exact O|].
  rewrite (okb_prop ce (c_withlen c_wmeta)) in O. rewrite !andb_true_iff in O.
  destruct O as (_ & _ & _ & _ & _ & M & _). rewrite okb_withlen in *. cbn [wl_len wl_data].
  rewrite !andb_true_iff in *. destruct M as [M1 M2]. split; [exact M1|]. apply okb_wmeta in M2. apply okb_wmeta.
  cbn [wm_bounty wm_epoch]. tauto.
Qed.
