(** Property C87: whoever has lamports can deposit them in one call of the native proxy - unless somebody has sent a
    lamport to the address of their wrapped-SOL account before it exists. *)

From Coq Require Import Strings.String ZifyBool ZifyNat ZifyN.
From Verif Require Import TpDemoLaws SysGo TpDeposit BindLaws PropTpReq PropTpFlow PropTpPay PropTpMoney PropTpMisc PropTpOutcome PropTpAdmin PropTpDaily PropFrames PropLive PropExec PropExits PropDeposits AtaGo.
Open Scope Z_scope.
Open Scope list_scope.
Ltac Zify.zify_post_hook ::= Z.div_mod_to_equations.

(** * Vocabulary *)

(** The account list of the Rust bindings (native-proxy/src/bindings.rs:43-58). *)
Definition np_metas (funder sender ata vault dep mv tsk sk : key) : list meta :=
  [Meta funder true true; Meta sender true true; Meta ata false true; Meta vault false true; Meta dep false true; Meta native_mint false true;
   Meta mv false true; Meta tsk false true; Meta sk false false; Meta sys_id false false; Meta spl_id false false; Meta rent_id false false;
   Meta tp_id false false; Meta ata_id false false].
Definition np_accounts (funder sender ata vault dep mv tsk sk : key) : ctx := ctx_of np_id (np_metas funder sender ata vault dep mv tsk sk).
(** [ata] is the wrapped-SOL account of [sender], in working order or still to be made for [cost] lamports, and has
    room for [amount] more. *)
Definition wraps (e : env) (s : state) (sender ata : key) (amount cost : Z) : Prop :=
  (exists n, find_pda e (kb sender ++ kb spl_id ++ kb native_mint) ata_id = Ok (ata, n)) /\ lam (accs s ata) + cost + amount < 2 ^ 64 /\
  (cost = 0 /\ lam (accs s ata) <> 0 /\
     (exists t, tok_in s ata t /\ ta_state t <> TFrozen /\ ta_mint t = native_mint /\ ta_owner t = sender /\ fst (ta_delegate t) = false /\
        fst (ta_native t) = true /\ 0 <= snd (ta_native t) <= lam (accs s ata) /\ ta_amount t <= lam (accs s ata) - snd (ta_native t)) \/
   cost = token_price e /\ vacant s ata).
(** [funder] pays the fees and [cost], [sender] the amount. *)
Definition pays (e : env) (s : state) (funder sender : key) (value amount cost : Z) : Prop :=
  has_lamports s funder (value + record_price e + cost + (if keqb funder sender then amount else 0)) /\ has_lamports s sender amount.

(** * Lemmas *)

Lemma sync_go c k s t : c_pid c = spl_id -> c_wr c k = true -> tok_in s k t -> fst (ta_native t) = true -> snd (ta_native t) <= lam (accs s k) ->
  ta_amount t <= lam (accs s k) - snd (ta_native t) ->
  tok_sync_native c k s = Ok (tt, written c_tacc s k (ta_with t (lam (accs s k) - snd (ta_native t)) (ta_delegate t) (ta_damount t))).
Proof.
  intros P W [O U] NA R A. unfold tok_sync_native. eapply bind_go; [apply check_owner_go; exact O|]. 
  eapply bind_go; [apply tacc_go; exact U|]. cbv beta. eapply bind_go; [apply guard_go; exact NA|].
  eapply bind_go; [reflexivity|]. cbv beta. eapply bind_go; [apply guard_go; apply Z.leb_le; exact R|].
  eapply bind_go; [apply guard_go; apply Z.leb_le; exact A|].
  apply pack_at_go; [rewrite P; exact O|exact W|eapply tacc_len; exact U|rewrite size_tacc; unfold TACC_LEN; lia].
Qed.

(** Lamports moved into a wrapped-SOL account and counted. *)
Lemma wrap_go c sender ata amount s t : In sender (c_keys c) -> In ata (c_keys c) -> In sys_id (c_keys c) -> In spl_id (c_keys c) ->
  c_sg c sender = true -> c_wr c sender = true -> c_wr c ata = true -> nonneg s -> has_lamports s sender amount -> 0 <= amount -> lam (accs s ata) + amount < 2 ^ 64 ->
  tok_in s ata t -> fst (ta_native t) = true -> 0 <= snd (ta_native t) <= lam (accs s ata) -> ta_amount t <= lam (accs s ata) - snd (ta_native t) ->
  exists s2, (invoke_transfer c sender ata amount ;;; invoke_sync_native c ata) s = Ok (tt, s2) /\ lam_sum (c_keys c) s2 = lam_sum (c_keys c) s /\ nonneg s2 /\
    tok_in s2 ata (ta_with t (lam (accs s ata) + amount - snd (ta_native t)) (ta_delegate t) (ta_damount t)) /\ lam (accs s2 ata) = lam (accs s ata) + amount /\
    accs s2 sender = Acct (lam (accs s sender) - amount) sys_id [] /\ (forall j, j <> sender -> j <> ata -> accs s2 j = accs s j) /\ now s2 = now s.
Proof.
  intros I1 I2 I3 I4 SG W1 W2 NN HL A0 LB [O U] NA RE AM. pose proof HL as (HL1 & HL2 & HL3).
  assert (NE : sender <> ata) by (intros E; rewrite E, O in HL2; discriminate).
  destruct (pay_go c sender ata amount s) as (s1 & R1 & B1 & B2 & B3 & B4 & B5); try assumption; try apply NN.
  assert (T1 : tok_in s1 ata t) by (split; unfold tacc_in; rewrite B1; assumption).
  assert (L1 : lam (accs s1 ata) = lam (accs s ata) + amount) by (rewrite B1; reflexivity).
  set (t2 := ta_with t (lam (accs s ata) + amount - snd (ta_native t)) (ta_delegate t) (ta_damount t)). set (s2 := written c_tacc s1 ata t2).
  assert (R2 : invoke_sync_native c ata s1 = Ok (tt, s2)).
  { unfold invoke_sync_native. apply cpi_go; [exact I4| |].
    - apply Forall_cons; [|apply Forall_nil]. cbn [m_key m_sg m_wr]. split; [exact I2|]. split; [exact I2|]. split; [discriminate|auto].
    - unfold s2, t2. rewrite <- L1. apply sync_go; try assumption; try reflexivity; try lia.
      cbn [ctx_of c_wr existsb m_key m_wr]. rewrite keqb_refl. reflexivity. }
  assert (LA : forall j, lam (accs s2 j) = lam (accs s1 j)) by (intros j; unfold s2, written; apply lam_put_dat).
  exists s2. split; [eapply bind_go; [exact R1|exact R2]|]. split; [|split; [|split; [|split; [|split; [|split]]]]].
  - rewrite (lam_sum_same _ s1 s2) by exact LA. apply (two_sum _ s s1 ata sender amount); try assumption; try congruence; [rewrite B2; reflexivity|].
    intros j J1 J2. rewrite B3 by assumption. reflexivity.
  - intros j. rewrite LA. destruct (key_dec j sender) as [->|J1]; [rewrite B2; cbn [lam]; lia|]. destruct (key_dec j ata) as [->|J2]; [rewrite L1; specialize (NN ata); lia|].
    rewrite B3 by assumption. apply NN.
  - split; [unfold s2; rewrite written_own, B1; exact O|]. unfold tacc_in, s2.
    apply written_reads; try typeclasses eauto; [eapply tacc_len; exact (proj2 T1)|unfold TACC_LEN; rewrite size_tacc; lia| |].
    + pose proof U as UU. apply okb_unpack in UU; [|typeclasses eauto]. apply okb_tacc in UU. apply okb_tacc. unfold t2. cbn [ta_with ta_amount ta_native ta_damount]. unfold u64max in *. lia.
    + pose proof U as UU. apply unpack_ok in UU as (r & _ & _ & _ & I); [exact I|typeclasses eauto].
  - rewrite LA. exact L1.
  - unfold s2, written. rewrite accs_put_dat_other by exact NE. exact B2.
  - intros j J1 J2. unfold s2, written. rewrite accs_put_dat_other by exact J2. apply B3; assumption.
  - unfold s2, written. cbn [put_dat put now]. exact B5.
Qed.

(** The wrapped-SOL account is made if it is missing, and filled. *)
Lemma prepared e funder sender ata vault dep mv tsk sk amount cost value md s : let c := np_accounts funder sender ata vault dep mv tsk sk in
  nonneg s -> mint_in s native_mint md -> wraps e s sender ata amount cost -> pays e s funder sender value amount cost -> 0 <= value -> 1 <= amount ->
  exists s1 s2, (if lam (accs s ata) =? 0 then invoke_ata_create e c funder sender native_mint else ret tt) s = Ok (tt, s1) /\
    (invoke_transfer c sender ata amount ;;; invoke_sync_native c ata) s1 = Ok (tt, s2) /\ lam_sum (c_keys c) s2 = lam_sum (c_keys c) s /\ nonneg s2 /\ now s2 = now s /\
    (forall j, j <> funder -> j <> sender -> j <> ata -> accs s2 j = accs s j) /\ has_lamports s2 funder (value + record_price e) /\
    exists t, tok_in s2 ata t /\ ta_state t <> TFrozen /\ ta_mint t = native_mint /\ ta_owner t = sender /\ fst (ta_delegate t) = false /\
      fst (ta_native t) = true /\ amount <= ta_amount t /\ amount <= lam (accs s2 ata).
Proof.
  intros c NN MI ((n & FA) & LB & W) ((F1 & F2 & F3) & (S1 & S2 & S3)) V0 A1.
  assert (KY : c_keys c = [funder; sender; ata; vault; dep; native_mint; mv; tsk; sk; sys_id; spl_id; rent_id; tp_id; ata_id]) by reflexivity.
  assert (FL : c_sg c funder = true /\ c_wr c funder = true /\ c_sg c sender = true /\ c_wr c sender = true /\ c_wr c ata = true)
    by (unfold c, np_accounts, np_metas; repeat split; metas).
  destruct FL as (SF & WF & SS & WS & WA).
  assert (PR : 0 < record_price e < u64max /\ 0 < token_price e < u64max) by (unfold record_price, token_price, u64max; lia). destruct PR as [PR PT].
  assert (MADE : exists s1 t, (if lam (accs s ata) =? 0 then invoke_ata_create e c funder sender native_mint else ret tt) s = Ok (tt, s1) /\
    lam_sum (c_keys c) s1 = lam_sum (c_keys c) s /\ nonneg s1 /\ now s1 = now s /\ (forall j, j <> funder -> j <> ata -> accs s1 j = accs s j) /\
    has_lamports s1 funder (value + record_price e + (if keqb funder sender then amount else 0)) /\ has_lamports s1 sender amount /\ lam (accs s1 ata) <= lam (accs s ata) + cost /\
    tok_in s1 ata t /\ ta_state t <> TFrozen /\ ta_mint t = native_mint /\ ta_owner t = sender /\ fst (ta_delegate t) = false /\
    fst (ta_native t) = true /\ 0 <= snd (ta_native t) <= lam (accs s1 ata) /\ ta_amount t <= lam (accs s1 ata) - snd (ta_native t)).
  { destruct W as [(C0 & L0 & t & T)|(CT & VA)].
    - exists s, t. replace (lam (accs s ata) =? 0) with false by lia. split; [reflexivity|]. split; [reflexivity|]. split; [exact NN|]. split; [reflexivity|]. split; [reflexivity|].
      split; [split; [lia|auto]|]. split; [split; [lia|auto]|]. split; [lia|]. exact T.
    - pose proof VA as (VA1 & VA2 & VA3). assert (NF : funder <> ata) by (intros E; rewrite E in F1; destruct (keqb ata sender); lia).
      assert (NS : sender <> ata) by (intros E; rewrite E in S1; lia).
      destruct (ata_made e c funder sender native_mint ata n s md) as (s1 & p & t & R & PB & TI & TM & TO & TST & TD & TA & TN & TR & LA & AF & AO & _ & NW);
        try assumption; try (rewrite KY; cbn [In]; tauto).
      { rewrite KY. discriminate. } { split; [lia|auto]. } { rewrite VA1. unfold u64max. lia. } { split; [|auto]. destruct (keqb funder sender); lia. }
      { destruct MI as [_ MI]. unfold tmint_in in MI. apply unpack_ok in MI as (r & _ & _ & _ & I); [exact I|typeclasses eauto]. }
      rewrite keqb_refl in TA, TN. exists s1, t. replace (lam (accs s ata) =? 0) with true by lia. split; [exact R|].
      assert (PA : forall j, lam (accs s1 j) = lam (accs s j) + (if keqb j ata then p else if keqb j funder then - p else 0)).
      { intros j. destruct (key_dec j ata) as [->|J]; [rewrite keqb_refl; exact LA|]. rewrite (keqb_ne j ata) by exact J.
        destruct (key_dec j funder) as [->|J2]; [rewrite keqb_refl, AF; cbn [lam]; lia|]. rewrite keqb_ne, AO by assumption. lia. }
      assert (HF : has_lamports s1 funder (value + record_price e + (if keqb funder sender then amount else 0))).
      { split; [|split; rewrite AF; reflexivity]. rewrite AF. cbn [lam]. destruct (keqb funder sender); lia. }
      split; [apply (two_sum _ s s1 ata funder p); try (rewrite KY; cbn [In]; tauto); try congruence; [rewrite AF; reflexivity|intros j J1 J2; rewrite AO by assumption; reflexivity]|].
      split. { intros j. destruct (key_dec j funder) as [->|J]; [destruct HF as [HF _]; destruct (keqb funder sender); lia|]. rewrite PA, (keqb_ne j funder) by exact J. specialize (NN j). destruct (keqb j ata); lia. }
      split; [exact NW|]. split; [exact AO|]. split; [exact HF|]. split.
      { destruct (key_dec sender funder) as [E|E].
        - rewrite E in *. rewrite keqb_refl in HF. destruct HF as (HF & HF2). split; [lia|exact HF2].
        - unfold has_lamports. rewrite AO by assumption. auto. }
      split; [rewrite LA; lia|]. split; [exact TI|]. split; [congruence|]. split; [exact TM|]. split; [exact TO|]. split; [exact TD|]. rewrite TN. cbn [fst snd].
      split; [reflexivity|]. split; [lia|]. rewrite TA. lia. }
  destruct MADE as (s1 & t & R1 & LS1 & NN1 & NW1 & AO1 & HF1 & HS1 & LB1 & TI & TST & TM & TO & TD & TN & TR & TA).
  destruct (wrap_go c sender ata amount s1 t) as (s2 & R2 & LS2 & NN2 & TI2 & LA2 & AS2 & AO2 & NW2); try assumption; try (rewrite KY; cbn [In]; tauto); try lia.
  exists s1, s2. split; [exact R1|]. split; [exact R2|]. split; [congruence|]. split; [exact NN2|]. split; [congruence|].
  split; [intros j J1 J2 J3; rewrite AO2, AO1 by assumption; reflexivity|]. split.
  { destruct (key_dec funder sender) as [E|E].
    - rewrite E in *. rewrite keqb_refl in HF1. unfold has_lamports. rewrite AS2. cbn [lam own dat]. destruct HF1 as [HF1 _]. split; [lia|auto].
    - rewrite keqb_ne in HF1 by exact E. destruct HF1 as (H1 & H2 & H3). unfold has_lamports. rewrite AO2; [split; [lia|auto]|exact E|].
      intros E'. rewrite E' in H2. destruct TI as [TI _]. rewrite TI in H2. discriminate. }
  exists (ta_with t (lam (accs s1 ata) + amount - snd (ta_native t)) (ta_delegate t) (ta_damount t)). cbn [ta_with ta_state ta_mint ta_owner ta_delegate ta_native ta_amount].
  specialize (NN1 ata). repeat (split; [assumption|]). lia.
Qed.

(** The nested call of the token proxy, seen from the native proxy. *)
Lemma np_go e ext funder sender ata vault dep mv tsk sk n s s1 s2 s' seed amount recipient value evers payload :
  let c := np_accounts funder sender ata vault dep mv tsk sk in
  clock_ok s -> find_pda e (kb sender ++ kb spl_id ++ kb native_mint) ata_id = Ok (ata, n) ->
  (exists a, find_pda e (str "vault" ++ kb native_mint) tp_id = Ok (vault, a)) -> (exists a, find_pda e (str "settings") tp_id = Ok (sk, a)) ->
  (exists a, find_pda e (str "multivault") tp_id = Ok (mv, a)) -> (exists a, find_pda e (str "settings" ++ kb native_mint) tp_id = Ok (tsk, a)) ->
  (exists a, find_pda e (str "deposit" ++ le 16 seed) tp_id = Ok (dep, a)) ->
  okb c_np_ix (NpDeposit seed amount recipient value evers payload) = true ->
  (if lam (accs s ata) =? 0 then invoke_ata_create e c funder sender native_mint else ret tt) s = Ok (tt, s1) ->
  (invoke_transfer c sender ata amount ;;; invoke_sync_native c ata) s1 = Ok (tt, s2) -> lam_sum (c_keys c) s2 = lam_sum (c_keys c) s ->
  tp_call e no_ext (dsol_accounts funder sender ata vault dep native_mint mv tsk sk)
    (TpDepositSol seed (str "Wrapped SOL") (str "wSOL") amount recipient value evers payload) s2 s' ->
  np_call e ext c (NpDeposit seed amount recipient value evers payload) s s'.
Proof.
  intros c CK FA (va & FV) (sa & FS) (ma & FM) (ta & FT) (da & FD) OI R1 R2 LS R.
  assert (KY : c_keys c = [funder; sender; ata; vault; dep; native_mint; mv; tsk; sk; sys_id; spl_id; rent_id; tp_id; ata_id]) by reflexivity.
  set (c' := dsol_accounts funder sender ata vault dep native_mint mv tsk sk) in *. set (i := TpDepositSol seed (str "Wrapped SOL") (str "wSOL") amount recipient value evers payload) in *.
  assert (LS' : lam_sum (c_keys c) s' = lam_sum (c_keys c) s2).
  { destruct R as (_ & _ & d & _ & R). apply run_ok in R as [R L]. eapply (ro_tp_process (c_wr c')) in R; [|intros ? ? ? ? ? X; discriminate X|intros k K; exact K].
    pose proof (lam_sum_ksum (c_keys c') s2 s') as A. pose proof (lam_sum_ksum (c_keys c) s2 s') as B.
    rewrite (ksum_support _ (dedup (c_keys c')) (dedup (c_keys c))) in A; [lia|apply dedup_NoDup|apply dedup_NoDup|].
    intros k N. rewrite !dedup_In. assert (I : In k (c_keys c')).
    { apply (ctx_wr_in tp_id). change (c_wr c' k = true). destruct (c_wr c' k) eqn:F; [reflexivity|]. rewrite (R _ F) in N. lia. }
    split; [exact I|]. rewrite KY. change (c_keys c') with [funder; sender; ata; vault; dep; native_mint; mv; tsk; sk; sys_id; spl_id; rent_id] in I. cbn [In] in *. tauto. }
  pose proof (C46_others e no_ext ext c' i s2 s' eq_refl R) as (_ & _ & d & D & RN).
  split; [exact CK|]. exists (enc c_np_ix (NpDeposit seed amount recipient value evers payload)). split; [apply try_from_slice_rt; [typeclasses eauto|exact OI]|].
  assert (BODY : np_process e ext c (enc c_np_ix (NpDeposit seed amount recipient value evers payload)) s = Ok (tt, s')).
  { unfold np_process. rewrite try_from_slice_rt; [|typeclasses eauto|exact OI]. eapply bind_go; [apply lift_go; reflexivity|]. cbv beta iota.
    unfold np_deposit. rewrite KY. cbv beta iota. eapply bind_go; [apply guard_go; apply keqb_refl|].
    eapply bind_go; [apply lift_go; exact FA|]. cbv beta iota. eapply bind_go; [apply guard_go; apply keqb_refl|]. eapply bind_go; [reflexivity|]. cbv beta.
    eapply bind_go; [exact R1|]. apply bind_ok in R2 as (u & s1' & R2 & R3). destruct u. eapply bind_go; [exact R2|]. eapply bind_go; [exact R3|].
    eapply bind_go; [apply lift_go; unfold deposit_sol_metas, sd_vault, sd_settings, sd_multivault, sd_ts_sol, sd_deposit; rewrite FV, FS, FM, FT, FD; reflexivity|]. cbv beta.
    apply cpi_go; [rewrite KY; cbn [In]; tauto| |].
    - repeat (apply Forall_cons; [cbn [m_key m_sg m_wr]; split; [cbn [In]; tauto|split; [rewrite KY; cbn [In]; tauto|
        split; intros X; try discriminate X; try left; unfold c, np_accounts, np_metas; metas]]|]). apply Forall_nil.
    - unfold as_nested. change (ctx_of tp_id _) with c'.
      replace (run c' (tp_process e ext c' _) s2) with (run c' (tp_process e ext c' d) s2); [rewrite RN; reflexivity|].
      apply try_from_slice_can in D as [-> _]; [reflexivity|typeclasses eauto]. }
  unfold run. rewrite BODY, LS', LS, Z.eqb_refl. reflexivity.
Qed.

Lemma np_ix_parts seed amount recipient value evers payload : okb c_np_ix (NpDeposit seed amount recipient value evers payload) = true ->
  okb c_tp_ix (TpDepositSol seed (str "Wrapped SOL") (str "wSOL") amount recipient value evers payload) = true /\ 0 <= value < 2 ^ 64.
Proof.
  intros OI. change (okb c_u128 seed && (okb c_u64 amount && (okb c_ever recipient && (okb c_u64 value && (true && okb c_bytes payload)))) = true) in OI.
  change (okb c_u128 seed && (true && (true && (okb c_u64 amount && (okb c_ever recipient && (okb c_u64 value && (true && okb c_bytes payload)))))) = true /\ 0 <= value < 2 ^ 64).
  change (2 ^ 64) with u64max. rewrite <- okb_u64. rewrite !andb_true_iff in *. tauto.
Qed.

Ltac wsol_names := lazymatch goal with |- blen (str _) <= 32 => vm_compute; discriminate end.

(** * C87 *)

(** Wrapped SOL is known to the bridge: whoever has [amount] lamports can deposit them.  MISSING for the full C87:
    lamports at the address of the wrapped-SOL account stop it while the account does not exist, see C87_refuted. *)
Theorem C87_deposit_partial : forall e ext s funder sender ata vault dep mv tsk sk ts md seed amount recipient value evers payload cost,
  let fee := fee_on (tk_fee_dep ts) amount in
  clock_ok s -> nonneg s -> sol_listed e s native_mint vault tsk ts -> lam (accs s tsk) <> 0 -> running e s sk ts -> mint_in s native_mint md ->
  wraps e s sender ata amount cost -> pays e s funder sender value amount cost -> dep <> ata -> ata <> vault ->
  multivault_stands e s mv -> lam (accs s mv) + value < 2 ^ 64 -> vacant s dep -> (exists n, find_pda e (str "deposit" ++ le 16 seed) tp_id = Ok (dep, n)) ->
  accepts s native_mint vault amount -> lam (accs s vault) + amount < 2 ^ 64 -> balance s vault + amount <= tk_dlimit ts ->
  1 <= amount -> fee_fits (tk_fee_dep ts) amount -> tk_fee_supply ts + fee < 2 ^ 64 ->
  okb c_np_ix (NpDeposit seed amount recipient value evers payload) = true -> blen (tk_name ts) + blen (tk_symbol ts) + blen payload <= 806 ->
  exists s', np_call e ext (np_accounts funder sender ata vault dep mv tsk sk) (NpDeposit seed amount recipient value evers payload) s s' /\
    balance s' vault = balance s vault + amount /\ lam (accs s' mv) = lam (accs s mv) + value /\
    sol_listed e s' native_mint vault tsk (tk_set_fee_supply ts (tk_fee_supply ts + fee)) /\
    sol_deposit e s' dep sender seed (DSolEvent native_mint (tk_name ts) (tk_symbol ts) (tm_decimals md) (amount - fee) recipient value evers payload).
Proof.
  intros e ext s funder sender ata vault dep mv tsk sk ts md seed amount recipient value evers payload cost fee
    CK NN LI LT ((st & BS & GE) & TE) MI WR PA NDA NAV MV MU VD FD AC LV DL A1 FF FU OI SZ.
  destruct (np_ix_parts _ _ _ _ _ _ OI) as (OT & V0).
  destruct (prepared e funder sender ata vault dep mv tsk sk amount cost value md s NN MI WR PA) as (s1 & s2 & R1 & R2 & LS & NN2 & NW & AO & HF & t & TI & TST & TM & TO & TD & TN & TA & TL); [lia|lia|].
  destruct PA as ((PF1 & PF & _) & (PS1 & PS & _)). assert (PR : 0 < record_price e) by (unfold record_price; lia).
  assert (C0 : 0 <= cost) by (destruct WR as (_ & _ & [(X & _)|(X & _)]); rewrite X; [lia|unfold token_price; lia]).
  assert (NAT : forall k, own (accs s k) = tp_id -> k <> ata).
  { intros k K E. rewrite E in K. destruct WR as (_ & _ & [(_ & _ & x & [X _] & _)|(_ & _ & X & _)]); rewrite X in K; discriminate. }
  assert (OLD : forall k, own (accs s k) = tp_id -> accs s2 k = accs s k).
  { intros k K. apply AO; [intros E; rewrite E, PF in K; discriminate|intros E; rewrite E, PS in K; discriminate|apply NAT; exact K]. }
  assert (OLS : forall k, own (accs s k) = spl_id -> k <> ata -> accs s2 k = accs s k).
  { intros k K J. apply AO; [intros E; rewrite E, PF in K; discriminate|intros E; rewrite E, PS in K; discriminate|exact J]. }
  assert (OLV : forall k, lam (accs s k) = 0 -> k <> ata -> accs s2 k = accs s k).
  { intros k K J. apply AO; [intros E; rewrite E in K; destruct (keqb funder sender); lia|intros E; rewrite E in K; lia|exact J]. }
  assert (NMA : native_mint <> ata).
  { intros E. destruct MI as [MI1 MI2]. destruct WR as (_ & _ & [(_ & _ & x & X & _)|(_ & _ & X & _)]); [|rewrite E, X in MI1; discriminate].
    rewrite E in MI2. apply tmint_len in MI2. destruct X as [_ X]. apply tacc_len in X. rewrite X in MI2. discriminate. }
  assert (E5 : accs s2 native_mint = accs s native_mint) by (apply OLS; [apply MI|exact NMA]).
  assert (E6 : accs s2 dep = accs s dep) by (apply OLV; [apply VD|exact NDA]).
  pose proof BS as (BS1 & BS2 & bn & bpd & bpn & BS3 & BS4 & BS5). pose proof MV as (MV1 & mvr & mvn & MV2 & MV3 & MV4).
  assert (E2 : accs s2 sk = accs s sk) by (apply OLD; exact BS1). assert (E3 : accs s2 mv = accs s mv) by (apply OLD; exact MV1).
  pose proof LI as ((LI1 & LI2 & ln & lvn & LA & LFT) & (lv & LK) & ln' & lvn' & LA' & LFV). pose proof AC as (r & [AC1 AC2] & AC3 & AC4 & AC5). rewrite LK in LFT.
  assert (E1 : accs s2 tsk = accs s tsk) by (apply OLD; exact LI1). assert (E4 : accs s2 vault = accs s vault) by (apply OLS; [exact AC1|apply not_eq_sym; exact NAV]).
  destruct (C76_sol e no_ext s2 funder sender ata vault dep native_mint mv tsk sk ts md seed (str "Wrapped SOL") (str "wSOL") amount recipient value evers payload)
    as (s' & R & _ & B1 & B2 & B3 & B4); try assumption; try wsol_names.
  { unfold clock_ok in *. rewrite NW. exact CK. }
  { split; [split; [rewrite E1; exact LI1|split; [rewrite E1; exact LI2|exists ln, lvn; rewrite LK; auto]]|split; [exists lv; exact LK|exists ln', lvn'; auto]]. }
  { rewrite E1. exact LT. }
  { split; [|exact TE]. exists st. split; [|exact GE]. split; [rewrite E2; exact BS1|split; [rewrite E2; exact BS2|exists bn, bpd, bpn; auto]]. }
  { unfold tmint_in. rewrite E5. apply MI. }
  { split; [split; [rewrite E3; exact MV1|exists mvr, mvn; rewrite E3; auto]|]. rewrite E3. split; [exact MU|]. rewrite Z.add_0_r. split; [exact HF|].
    split; [unfold vacant; rewrite E6; exact VD|exact FD]. }
  { exists t. do 6 (split; [assumption|]). intros _. rewrite E4. auto. }
  { exists r. unfold tok_in, tacc_in. rewrite E4. auto. }
  { unfold balance. rewrite E4. exact DL. }
  exists s'. split.
  { destruct WR as ((n & FA) & _). exact (np_go e ext funder sender ata vault dep mv tsk sk n s s1 s2 s' seed amount recipient value evers payload CK FA (ex_intro _ _ LFV) (ex_intro _ _ BS3) (ex_intro _ _ MV4) (ex_intro _ _ LFT) FD OI R1 R2 LS R). }
  unfold balance in B1 at 2. rewrite E4 in B1. fold (balance s vault) in B1. rewrite E3 in B2. auto.
Qed.

(** Wrapped SOL is not known to the bridge yet: whoever has [amount] lamports can register it and deposit them. *)
Theorem C87_first_partial : forall e ext s funder sender ata vault vn dep mv tsk tn sk st md seed amount recipient value evers payload cost,
  let fee := fee_on (FeeInfo 5 10000) amount in
  clock_ok s -> nonneg s -> find_pda e (str "vault" ++ kb native_mint) tp_id = Ok (vault, vn) -> find_pda e (str "settings" ++ kb native_mint) tp_id = Ok (tsk, tn) ->
  vacant s vault -> vacant s tsk -> NoDup [ata; vault; tsk; dep] -> bridge_settings e s sk st -> gs_emergency st = false -> mint_in s native_mint md ->
  wraps e s sender ata amount cost -> pays e s funder sender (value + token_price e + record_price e) amount cost ->
  multivault_stands e s mv -> lam (accs s mv) + value < 2 ^ 64 -> vacant s dep -> (exists n, find_pda e (str "deposit" ++ le 16 seed) tp_id = Ok (dep, n)) ->
  1 <= amount -> amount + token_price e < 2 ^ 64 ->
  okb c_np_ix (NpDeposit seed amount recipient value evers payload) = true -> blen payload <= 791 ->
  exists s' ts', np_call e ext (np_accounts funder sender ata vault dep mv tsk sk) (NpDeposit seed amount recipient value evers payload) s s' /\
    lam (accs s' mv) = lam (accs s mv) + value /\
    sol_listed e s' native_mint vault tsk ts' /\ tk_kind ts' = TKSol native_mint vault /\ tk_name ts' = str "Wrapped SOL" /\ tk_symbol ts' = str "wSOL" /\ tk_fee_supply ts' = fee /\
    sol_deposit e s' dep sender seed (DSolEvent native_mint (str "Wrapped SOL") (str "wSOL") (tm_decimals md) (amount - fee) recipient value evers payload).
Proof.
  intros e ext s funder sender ata vault vn dep mv tsk tn sk st md seed amount recipient value evers payload cost fee
    CK NN FV FT VV VT ND BS GE MI WR PA MV MU VD FD A1 AB OI SZ.
  assert (DIF : ata <> vault /\ ata <> tsk /\ dep <> ata /\ vault <> tsk /\ dep <> vault /\ dep <> tsk).
  { clear - ND. inversion_clear ND as [|? ? D1 ND1]. inversion_clear ND1 as [|? ? D2 ND2]. inversion_clear ND2 as [|? ? D3 _]. cbn [In] in *. intuition congruence. }
  destruct DIF as (NAV & NAT0 & NDA & NVT & NDV & NDT).
  destruct (np_ix_parts _ _ _ _ _ _ OI) as (OT & V0).
  assert (PT : 0 < token_price e) by (unfold token_price; lia). assert (PR0 : 0 < record_price e) by (unfold record_price; lia).
  destruct (prepared e funder sender ata vault dep mv tsk sk amount cost (value + token_price e + record_price e) md s NN MI WR PA) as (s1 & s2 & R1 & R2 & LS & NN2 & NW & AO & HF & t & TI & TST & TM & TO & TD & TN & TA & TL); [lia|lia|].
  destruct PA as ((PF1 & PF & _) & (PS1 & PS & _)). assert (PR : 0 < record_price e) by (unfold record_price; lia).
  assert (C0 : 0 <= cost) by (destruct WR as (_ & _ & [(X & _)|(X & _)]); rewrite X; [lia|unfold token_price; lia]).
  assert (NAT : forall k, own (accs s k) = tp_id -> k <> ata).
  { intros k K E. rewrite E in K. destruct WR as (_ & _ & [(_ & _ & x & [X _] & _)|(_ & _ & X & _)]); rewrite X in K; discriminate. }
  assert (OLD : forall k, own (accs s k) = tp_id -> accs s2 k = accs s k).
  { intros k K. apply AO; [intros E; rewrite E, PF in K; discriminate|intros E; rewrite E, PS in K; discriminate|apply NAT; exact K]. }
  assert (OLS : forall k, own (accs s k) = spl_id -> k <> ata -> accs s2 k = accs s k).
  { intros k K J. apply AO; [intros E; rewrite E, PF in K; discriminate|intros E; rewrite E, PS in K; discriminate|exact J]. }
  assert (OLV : forall k, lam (accs s k) = 0 -> k <> ata -> accs s2 k = accs s k).
  { intros k K J. apply AO; [intros E; rewrite E in K; destruct (keqb funder sender); lia|intros E; rewrite E in K; lia|exact J]. }
  assert (NMA : native_mint <> ata).
  { intros E. destruct MI as [MI1 MI2]. destruct WR as (_ & _ & [(_ & _ & x & X & _)|(_ & _ & X & _)]); [|rewrite E, X in MI1; discriminate].
    rewrite E in MI2. apply tmint_len in MI2. destruct X as [_ X]. apply tacc_len in X. rewrite X in MI2. discriminate. }
  assert (E5 : accs s2 native_mint = accs s native_mint) by (apply OLS; [apply MI|exact NMA]).
  assert (E6 : accs s2 dep = accs s dep) by (apply OLV; [apply VD|exact NDA]).
  pose proof BS as (BS1 & BS2 & bn & bpd & bpn & BS3 & BS4 & BS5). pose proof MV as (MV1 & mvr & mvn & MV2 & MV3 & MV4).
  assert (E2 : accs s2 sk = accs s sk) by (apply OLD; exact BS1). assert (E3 : accs s2 mv = accs s mv) by (apply OLD; exact MV1).
  assert (E1 : accs s2 tsk = accs s tsk) by (apply OLV; [apply VT|apply not_eq_sym; exact NAT0]). assert (E4 : accs s2 vault = accs s vault) by (apply OLV; [apply VV|apply not_eq_sym; exact NAV]).
  destruct (C76_first_partial e no_ext s2 funder sender ata vault vn dep native_mint mv tsk tn sk st md seed (str "Wrapped SOL") (str "wSOL") amount recipient value evers payload)
    as (s' & ts' & R & _ & _ & B2 & B3 & B4 & B5 & B6 & B7 & B8); try assumption; try wsol_names.
  { unfold clock_ok in *. rewrite NW. exact CK. } { unfold vacant. rewrite E4. exact VV. } { unfold vacant. rewrite E1. exact VT. }
  { split; [rewrite E2; exact BS1|split; [rewrite E2; exact BS2|exists bn, bpd, bpn; auto]]. }
  { split; [rewrite E5; apply MI|unfold tmint_in; rewrite E5; apply MI]. }
  { split; [split; [rewrite E3; exact MV1|exists mvr, mvn; rewrite E3; auto]|]. rewrite E3. split; [exact MU|]. split; [destruct HF as (H1 & H2); split; [lia|exact H2]|].
    split; [unfold vacant; rewrite E6; exact VD|exact FD]. }
  { exists t. do 6 (split; [assumption|]). intros _. rewrite E4. destruct VV as (-> & _). split; [exact TL|]. lia. }
  { change (blen (str "Wrapped SOL")) with 11. change (blen (str "wSOL")) with 4. lia. }
  exists s', ts'. split.
  { destruct WR as ((n & FA) & _). exact (np_go e ext funder sender ata vault dep mv tsk sk n s s1 s2 s' seed amount recipient value evers payload CK FA (ex_intro _ _ FV) (ex_intro _ _ BS3) (ex_intro _ _ MV4) (ex_intro _ _ FT) FD OI R1 R2 LS R). }
  rewrite E3 in B2. auto 10.
Qed.

(** The address of the wrapped-SOL account of [sender] holds lamports but no account: no deposit of theirs goes through. *)
Theorem C87_blocked : forall e ext c seed amount recipient value evers payload s s' sender ata n,
  find_pda e (kb sender ++ kb spl_id ++ kb native_mint) ata_id = Ok (ata, n) -> lam (accs s ata) <> 0 -> own (accs s ata) <> spl_id -> nth_error (c_keys c) 1 = Some sender ->
  ~ np_call e ext c (NpDeposit seed amount recipient value evers payload) s s'.
Proof.
  intros e ext c seed amount recipient value evers payload s s' sender ata n FA L O K R.
  apply C53 in R as (f & se & a & v & d & mv & tsk & sk & rest & s1 & s2 & c' & t & (x & y & KY) & _ & (n' & FA') & M & _ & _ & _ & [TO _] & _).
  rewrite KY in K. cbn [nth_error] in K. injection K as ->. rewrite FA in FA'. injection FA' as <- <-. destruct M as [[_ ->]|[M _]]; [exact (O TO)|exact (L M)].
Qed.

(** FALSE of the code: that whoever has lamports can deposit them in one call.  After somebody has sent one lamport to the
    address of the wrapped-SOL account of the user, which does not exist, no call of the native proxy for this user
    succeeds, with whatever accounts, signatures, funder and amount; everything else is as in C87_first_partial. *)
Definition tc0 := demo_state ((tuserN, Acct 1 sys_id []) :: taccs).
Definition tc1 := unres (tstp tc0 tinit).
Definition yk : list key := [tset; native_mint; tuserN; tmv; tfunder; tvaultN; ttsN; td5; td2; tuser].
Definition yc1 : list acct := Eval vm_compute in map (accs tc1) yk.
Lemma yc1_is : map (accs tc1) yk = yc1.
Proof. vm_compute. reflexivity. Qed.
Lemma atc1 n k : nth_error yk n = Some k -> accs tc1 k = nth n yc1 no_acct.
Proof. intros H. pose proof (map_nth_error (accs tc1) n yk H) as M. rewrite yc1_is in M. symmetry. apply nth_error_nth. exact M. Qed.
Ltac in_wrap a := cbv zeta; unfold wraps, pays, the_token, the_tok, the_mint, sol_listed, running, bridge_settings, token_settings_of,
  accepts, multivault_stands, tok_in, mint_in, tacc_in, tmint_in, balance, vacant, has_lamports;
  rewrite ?(a 0%nat tset eq_refl), ?(a 1%nat native_mint eq_refl), ?(a 2%nat tuserN eq_refl), ?(a 3%nat tmv eq_refl), ?(a 4%nat tfunder eq_refl),
    ?(a 5%nat tvaultN eq_refl), ?(a 6%nat ttsN eq_refl), ?(a 7%nat td5 eq_refl), ?(a 8%nat td2 eq_refl), ?(a 9%nat tuser eq_refl).

Theorem C87_refuted : exists e s0 s st md vault vn tsk tn sender ata n funder mv dep,
  genesis e tp_id s0 /\ tp_hist e 0 s0 s /\ bridge_settings e s tset st /\ gs_emergency st = false /\ mint_in s native_mint md /\
  find_pda e (str "vault" ++ kb native_mint) tp_id = Ok (vault, vn) /\ find_pda e (str "settings" ++ kb native_mint) tp_id = Ok (tsk, tn) /\ vacant s vault /\ vacant s tsk /\
  find_pda e (kb sender ++ kb spl_id ++ kb native_mint) ata_id = Ok (ata, n) /\ accs s ata = Acct 1 sys_id [] /\
  pays e s funder sender (1000 + token_price e + record_price e) 40000 (token_price e) /\ multivault_stands e s mv /\
  vacant s dep /\ find_pda e (str "deposit" ++ le 16 5) tp_id = Ok (dep, 255) /\
  forall ext c seed amount recipient value evers payload s', nth_error (c_keys c) 1 = Some sender ->
    ~ np_call e ext c (NpDeposit seed amount recipient value evers payload) s s'.
Proof.
  exists te, tc0, tc1, (TpSettings true (KSettings 255 254) false tguard tman twman), (TMint (false, key0) 0 9 true (false, key0)), tvaultN, 255, ttsN, 255, tuser, tuserN, 255, tfunder, tmv, td5.
  split; [apply demo_genesis; vm_compute; reflexivity|].
  split; [apply tstp_hist; [apply h_refl|vm_compute; reflexivity|vm_compute; split; [discriminate|reflexivity]|vm_compute; reflexivity]|].
  assert (LA : accs tc1 tuserN = Acct 1 sys_id []) by (in_wrap atc1; reflexivity).
  assert (FA : find_pda te (kb tuser ++ kb spl_id ++ kb native_mint) ata_id = Ok (tuserN, 255)) by (vm_compute; reflexivity).
  in_wrap atc1. split; [ex_bridge|]. split; [reflexivity|]. split; [split; ex_vm|]. split; [ex_vm|]. split; [ex_vm|]. do 2 (split; [split; [ex_vm|split; ex_vm]|]).
  split; [exact FA|]. split; [reflexivity|]. split; [split; (split; [ex_vm|split; ex_vm])|]. split; [split; [ex_vm|eexists; exists 255; split; [ex_vm|split; ex_vm]]|].
  split; [split; [ex_vm|split; ex_vm]|]. split; [ex_vm|].
  intros ext c seed amount recipient value evers payload s' KN.
  apply (C87_blocked te ext c seed amount recipient value evers payload tc1 s' tuser tuserN 255 FA); [rewrite LA; discriminate|rewrite LA; discriminate|exact KN].
Qed.

(** * Examples *)

(** The user of state [ts1] has no wrapped-SOL account, and wrapped SOL is not known to the bridge. *)
Definition y1 : list acct := Eval vm_compute in map (accs ts1) yk.
Lemma y1_is : map (accs ts1) yk = y1. Proof. vm_compute. reflexivity. Qed.
Lemma at1y n k : nth_error yk n = Some k -> accs ts1 k = nth n y1 no_acct.
Proof. intros H. pose proof (map_nth_error (accs ts1) n yk H) as M. rewrite y1_is in M. symmetry. apply nth_error_nth. exact M. Qed.
Example C87_first_ex : fine ts1 /\ find_pda te (str "vault" ++ kb native_mint) tp_id = Ok (tvaultN, 255) /\ find_pda te (str "settings" ++ kb native_mint) tp_id = Ok (ttsN, 255) /\
  vacant ts1 tvaultN /\ vacant ts1 ttsN /\ NoDup [tuserN; tvaultN; ttsN; td5] /\ bridge_settings te ts1 tset (TpSettings true (KSettings 255 254) false tguard tman twman) /\
  mint_in ts1 native_mint (TMint (false, key0) 0 9 true (false, key0)) /\ wraps te ts1 tuser tuserN 40000 (token_price te) /\
  pays te ts1 tfunder tuser (1000 + token_price te + record_price te) 40000 (token_price te) /\
  multivault_stands te ts1 tmv /\ lam (accs ts1 tmv) + 1000 < 2 ^ 64 /\ vacant ts1 td5 /\ (exists n, find_pda te (str "deposit" ++ le 16 5) tp_id = Ok (td5, n)) /\
  40000 + token_price te < 2 ^ 64 /\ okb c_np_ix (NpDeposit 5 40000 teverX 1000 (knum 72) []) = true.
Proof.
  split; [exact fine1|]. in_wrap at1y. do 2 (split; [ex_vm|]). do 2 (split; [split; [ex_vm|split; ex_vm]|]).
  split. { repeat (apply NoDup_cons; [cbn [In]; intros X; repeat (destruct X as [X|X]; [vm_compute in X; discriminate X|]); exact X|]). apply NoDup_nil. }
  split; [ex_bridge|]. split; [split; ex_vm|].
  split; [split; [exists 255; ex_vm|split; [ex_vm|right; split; [reflexivity|split; [ex_vm|split; ex_vm]]]]|].
  split; [split; (split; [ex_vm|split; ex_vm])|]. split; [split; [ex_vm|eexists; exists 255; split; [ex_vm|split; ex_vm]]|]. split; [ex_vm|].
  split; [split; [ex_vm|split; ex_vm]|]. split; [exists 255; ex_vm|]. split; ex_vm.
Qed.

(** After that deposit the accounts are as in state [ts50]; a second deposit of 30000 lamports, funded by the user. *)
Definition y50 : list (key * acct) := Eval vm_compute in map (fun k => (k, accs ts50 k)) yk.
Definition tc50 := demo_state (y50 ++ taccs).
Lemma tc50_is : map (accs tc50) yk = map (accs ts50) yk. Proof. vm_compute. reflexivity. Qed.
Lemma at50y n k : nth_error yk n = Some k -> accs tc50 k = nth n (map snd y50) no_acct.
Proof.
  intros H. pose proof (map_nth_error (accs tc50) n yk H) as M. replace (map (accs tc50) yk) with (map snd y50) in M by (vm_compute; reflexivity).
  symmetry. apply nth_error_nth. exact M.
Qed.
Example C87_deposit_ex : let ts := the_token tc50 ttsN in fine tc50 /\ sol_listed te tc50 native_mint tvaultN ttsN ts /\ lam (accs tc50 ttsN) <> 0 /\ running te tc50 tset ts /\
  mint_in tc50 native_mint (TMint (false, key0) 0 9 true (false, key0)) /\ wraps te tc50 tuser tuserN 30000 0 /\ pays te tc50 tuser tuser 1000 30000 0 /\
  multivault_stands te tc50 tmv /\ lam (accs tc50 tmv) + 1000 < 2 ^ 64 /\ vacant tc50 td2 /\ (exists n, find_pda te (str "deposit" ++ le 16 2) tp_id = Ok (td2, n)) /\
  accepts tc50 native_mint tvaultN 30000 /\ lam (accs tc50 tvaultN) + 30000 < 2 ^ 64 /\ balance tc50 tvaultN + 30000 <= tk_dlimit ts /\
  fee_fits (tk_fee_dep ts) 30000 /\ fee_on (tk_fee_dep ts) 30000 = 15 /\ tk_fee_supply ts = 20 /\ okb c_np_ix (NpDeposit 2 30000 teverX 1000 (knum 72) []) = true.
Proof.
  cbv zeta. split; [split; [apply demo_nonneg; vm_compute; reflexivity|vm_compute; split; [discriminate|reflexivity]]|]. in_wrap at50y.
  split; [split; [ex_token|split; [exists tvaultN; ex_vm|exists 255, 255; split; ex_vm]]|]. split; [ex_vm|]. split; [split; [eexists; split; [ex_bridge|ex_vm]|ex_vm]|].
  split; [split; ex_vm|]. split.
  { split; [exists 255; ex_vm|]. split; [ex_vm|]. left. split; [reflexivity|]. split; [ex_vm|]. eexists. split; [split; ex_vm|]. do 5 (split; [ex_vm|]). split; [split; ex_vm|]. ex_vm. }
  split; [split; (split; [ex_vm|split; ex_vm])|]. split; [split; [ex_vm|eexists; exists 255; split; [ex_vm|split; ex_vm]]|]. split; [ex_vm|].
  split; [split; [ex_vm|split; ex_vm]|]. split; [exists 255; ex_vm|]. split; [ex_accept|]. split; [ex_vm|]. split; [ex_vm|]. split; [split; ex_vm|]. split; [ex_vm|]. split; ex_vm.
Qed.
Example C87_blocked_ex : find_pda te (kb tuser ++ kb spl_id ++ kb native_mint) ata_id = Ok (tuserN, 255) /\ lam (accs tc1 tuserN) = 1 /\ own (accs tc1 tuserN) = sys_id /\
  nth_error (c_keys (ctx_of np_id tnative)) 1 = Some tuser.
Proof. in_wrap atc1. split; [ex_vm|]. split; [ex_vm|]. split; ex_vm. Qed.

Print Assumptions C87_deposit_partial.
Print Assumptions C87_first_partial.
Print Assumptions C87_blocked.
Print Assumptions C87_refuted.
