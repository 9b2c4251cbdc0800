(** C55: what the processors accept, the client builders can express. *)

From Verif Require Import BindLaws CodecLaws PropCodec PropBindings TpDemoLaws DemoLaws PropTpMisc.

(** ** The instructions a client can build *)

(** round-loader/src/bindings.rs *)
Inductive rl_built (e : env) : instr -> Prop :=
| rb_initialize a b g s m t x : rl_initialize_ix e a b g s m t = Ok x -> rl_built e x
| rb_update a r s m t x : rl_update_settings_ix e a r s m t = Ok x -> rl_built e x
| rb_round a b n t l x : rl_create_relay_round_ix e a b n t l = Ok x -> rl_built e x
| rb_create a b n t l c ev x : rl_create_proposal_ix e a b n t l c ev = Ok x -> rl_built e x
| rb_write p o b x : rl_write_proposal_ix e p o b = Ok x -> rl_built e x
| rb_finalize f p n x : rl_finalize_proposal_ix e f p n = Ok x -> rl_built e x
| rb_vote v p n d x : rl_vote_for_proposal_ix e v p n d = Ok x -> rl_built e x
| rb_execute f p n x : rl_execute_proposal_ix e f p n = Ok x -> rl_built e x
| rb_admin f c p n x : rl_execute_proposal_by_admin_ix e f c p n = Ok x -> rl_built e x.

(** The key at place [n] of an account list. *)
Definition place (ms : list meta) (n : nat) (k : key) : Prop := nth_error (map m_key ms) n = Some k.

(** What a caller may do that no builder offers: create a proposal under something that is not a hash; execute a
    proposal with an account that is not a round's (then nothing happens).*)
Definition rl_covered (e : env) (ms : list meta) (i : rl_ix) : Prop :=
  match i with
  | RlCreateProposal _ _ _ _ h => exists event, h = e_hash e event
  | RlExecute => exists n k, place ms 3 k /\ rl_round_addr e n = Ok k
  | _ => True
  end.

Definition rl_shown (e : env) (s : state) (c : ctx) (i : rl_ix) : Prop :=
  exists b, rl_built e b /\ i_pid b = rl_id /\ i_data b = enc c_rl_ix i /\
  mim s (rl_exec e c i) (rl_exec e (ctx_of rl_id (i_metas b)) i).

Ltac shown_by T := eexists; split; [eapply T|].
Ltac built := repeat (match goal with F : find_pda _ _ _ = Ok _ |- _ => rewrite F end; cbn [rbind fst_r fst]); reflexivity.

Lemma rl_vote_shown e c v s r : c_pid c = rl_id -> rl_vote e c v s = Ok r -> rl_shown e s c (RlVote v).
Proof.
  intros P H. pose proof H as H0. destruct r. unfold rl_vote in H0. mkeys H0. repeat rstep H0.
  destruct VR as (U & n & KR & FR). rewrite P in FR.
  eexists. split; [apply (rb_vote e k k0 (rr_number rr) v)|].
  { unfold rl_vote_for_proposal_ix, rl_round_addr, addr. rewrite FR. reflexivity. }
  split; [reflexivity|]. split; [reflexivity|].
  cbn [i_metas rl_exec]. clear H H0. mm_start EK. unfold rl_vote. rewrite EK, K'. mm_norm. repeat mm.
Qed.
Lemma rl_initialize_shown e c a b m t s r : c_pid c = rl_id -> rl_initialize e c a b m t s = Ok r ->
  rl_shown e s c (RlInitialize a b m t).
Proof.
  intros P H. pose proof H as H0. destruct r. unfold rl_initialize in H0. mkeys H0. repeat rstep H0. mfacts. subst. rewrite P in *.
  eexists. split; [apply (rb_initialize e k k0 a b m t)|].
  { unfold rl_initialize_ix, rl_settings_addr, rl_programdata, addr. built. }
  split; [reflexivity|]. split; [reflexivity|].
  cbn [i_metas rl_exec]. clear - P EK. mm_start EK. unfold rl_initialize. rewrite EK, K'. mm_norm. repeat mm.
Qed.

Lemma rl_update_shown e c a b m t s r : c_pid c = rl_id -> rl_update_settings e c a b m t s = Ok r ->
  rl_shown e s c (RlUpdateSettings a b m t).
Proof.
  intros P H. pose proof H as H0. destruct r. unfold rl_update_settings in H0. mkeys H0. repeat rstep H0. mfacts. subst.
  destruct VS as (U & n & KS & FS). rewrite P in *.
  eexists. split; [apply (rb_update e k a b m t)|].
  { unfold rl_update_settings_ix, rl_settings_addr, rl_programdata, addr. built. }
  split; [reflexivity|]. split; [reflexivity|].
  cbn [i_metas rl_exec]. clear - P EK. mm_start EK. unfold rl_update_settings. rewrite EK, K'. mm_norm. repeat mm.
Qed.
Lemma rl_round_shown e c n l t s r : c_pid c = rl_id -> rl_create_relay_round e c n l t s = Ok r ->
  rl_shown e s c (RlCreateRelayRound n l t).
Proof.
  intros P H. pose proof H as H0. destruct r. unfold rl_create_relay_round, rl_new_round in H0. mkeys H0. repeat rstep H0.
  mfacts. subst. destruct VS as (U & m & KS & FS). rewrite P in *.
  eexists. split; [apply (rb_round e k (rs_submitter st) n t l)|].
  { unfold rl_create_relay_round_ix, rl_settings_addr, rl_round_addr, addr. built. }
  split; [reflexivity|]. split; [reflexivity|].
  cbn [i_metas rl_exec]. clear - P EK. mm_start EK. unfold rl_create_relay_round. rewrite EK, K'. mm_norm. repeat mm.
Qed.
Lemma rl_create_shown e c n ts lt conf ev s r : c_pid c = rl_id -> rl_create_proposal e c n ts lt conf (e_hash e ev) s = Ok r ->
  rl_shown e s c (RlCreateProposal n ts lt conf (e_hash e ev)).
Proof.
  intros P H. pose proof H as H0. destruct r. unfold rl_create_proposal in H0. mkeys H0. repeat rstep H0.
  mfacts. subst. rewrite P in *.
  eexists. split; [apply (rb_create e k k0 n ts lt conf ev)|].
  { unfold rl_create_proposal_ix, rl_proposal_address, addr. built. }
  split; [reflexivity|]. split; [reflexivity|].
  cbn [i_metas rl_exec]. clear - P EK. mm_start EK. unfold rl_create_proposal. rewrite EK, K'. mm_norm. repeat mm.
Qed.
Lemma rl_write_shown e c o b s r : c_pid c = rl_id -> rl_write_proposal c o b s = Ok r ->
  rl_shown e s c (RlWriteProposal o b).
Proof.
  intros P H. pose proof H as H0. destruct r. unfold rl_write_proposal in H0. mkeys H0.
  eexists. split; [apply (rb_write e k o b)|]. { reflexivity. }
  split; [reflexivity|]. split; [reflexivity|].
  cbn [i_metas rl_exec]. clear - P EK. mm_start EK. unfold rl_write_proposal. rewrite EK, K'. mm_norm. repeat mm.
Qed.
Lemma rl_finalize_shown e c s r : c_pid c = rl_id -> rl_finalize e c s = Ok r -> rl_shown e s c RlFinalize.
Proof.
  intros P H. pose proof H as H0. destruct r. unfold rl_finalize in H0. mkeys H0. repeat rstep H0.
  destruct VS as (U & n & KS & FS), VR as (U' & n' & KR & FR). rewrite P in *.
  eexists. split; [apply (rb_finalize e k k0 (rr_number rr))|].
  { unfold rl_finalize_proposal_ix, rl_settings_addr, rl_round_addr, addr. built. }
  split; [reflexivity|]. split; [reflexivity|].
  cbn [i_metas rl_exec]. clear - P EK. mm_start EK. unfold rl_finalize. rewrite EK, K'. mm_norm. repeat mm.
Qed.

Lemma rl_execute_shown e c n k s r : c_pid c = rl_id -> nth_error (c_keys c) 3 = Some k -> rl_round_addr e n = Ok k ->
  rl_execute e c s = Ok r -> rl_shown e s c RlExecute.
Proof.
  intros P N F H. pose proof H as H0. destruct r. unfold rl_execute in H0. mkeys H0. repeat rstep H0. mfacts. subst.
  destruct VS as (U & m & KS & FS). rewrite P in *. cbn [nth_error] in N. injection N as ->.
  eexists. split; [apply (rb_execute e k0 k2 n)|].
  { unfold rl_execute_proposal_ix. rewrite F. unfold rl_settings_addr, addr. rewrite FS. reflexivity. }
  split; [reflexivity|]. split; [reflexivity|].
  cbn [i_metas rl_exec]. clear - P EK. mm_start EK. unfold rl_execute. rewrite EK, K'. mm_norm. repeat mm.
Qed.
Lemma rl_admin_shown e c s r : c_pid c = rl_id -> rl_execute_by_admin e c s = Ok r -> rl_shown e s c RlExecuteByAdmin.
Proof.
  intros P H. pose proof H as H0. destruct r. unfold rl_execute_by_admin, rl_new_round in H0. mkeys H0. repeat rstep H0.
  mfacts. apply bind_ok in H3 as (x & s2 & F1 & H3). apply lift_ok in F1 as [F1 ->]. destruct x as [rk rn]. cbv beta iota in H3.
  apply bind_ok in H3 as (x & s3 & F2 & H3). apply guard_ok in F2 as [F2 ->]. apply keqb_eq in F2.
  subst. destruct VS as (U & m & KS & FS). rewrite P in *.
  eexists. split; [apply (rb_admin e k (rs_submitter st) k2 (re_round (wl_data (p_event p))))|].
  { unfold rl_execute_proposal_by_admin_ix, rl_settings_addr, rl_round_addr, addr. built. }
  split; [reflexivity|]. split; [reflexivity|].
  cbn [i_metas rl_exec]. clear - P EK. mm_start EK. unfold rl_execute_by_admin. rewrite EK, K'. mm_norm. repeat mm.
Qed.

Lemma rl_exec_shown e ms i s r : rl_exec e (ctx_of rl_id ms) i s = Ok r -> rl_covered e ms i ->
  rl_shown e s (ctx_of rl_id ms) i.
Proof.
  intros H V. assert (P : c_pid (ctx_of rl_id ms) = rl_id) by reflexivity. destruct i; cbn [rl_exec rl_covered] in H, V.
  - exact (rl_vote_shown _ _ _ _ _ P H).
  - exact (rl_initialize_shown _ _ _ _ _ _ _ _ P H).
  - exact (rl_update_shown _ _ _ _ _ _ _ _ P H).
  - exact (rl_round_shown _ _ _ _ _ _ _ P H).
  - destruct V as (ev & ->). exact (rl_create_shown _ _ _ _ _ _ _ _ _ P H).
  - exact (rl_write_shown _ _ _ _ _ _ P H).
  - exact (rl_finalize_shown _ _ _ _ P H).
  - destruct V as (n & k & N & F). exact (rl_execute_shown _ _ _ _ _ _ P N F H).
  - exact (rl_admin_shown _ _ _ _ P H).
Qed.

Lemma ro_rl_exec w e c i : sub c w -> rel (roR w) (rl_exec e c i).
Proof. intros S. destruct i; repeat ro_step. Qed.
Lemma run_bind_lift {A} c (d : option A) s s' (x : A) m : run c (bind (lift (ok_or d BorshIo)) m) s = Ok s' -> d = Some x ->
  run c (m x) s = Ok s'.
Proof. intros H ->. exact H. Qed.

(** Whatever an account list and instruction data achieve with the round loader, a builder's instruction with the same
    data achieves. *)
Theorem C55_round_loader_partial : forall e ms d i s s',
  run (ctx_of rl_id ms) (rl_process e (ctx_of rl_id ms) d) s = Ok s' ->
  try_from_slice c_rl_ix d = Some i -> rl_covered e ms i ->
  exists b, rl_built e b /\ i_pid b = rl_id /\ i_data b = d /\
  run (ctx_of rl_id (i_metas b)) (rl_process e (ctx_of rl_id (i_metas b)) d) s = Ok s'.
Proof.
  intros e ms d i s s' H D V. unfold rl_process in H. apply (run_bind_lift _ _ _ _ i) in H; [|exact D].
  assert (X : exists r, rl_exec e (ctx_of rl_id ms) i s = Ok r).
  { unfold run in H. destruct (rl_exec _ _ i s); [eexists; reflexivity|discriminate]. }
  destruct X as (r & X). destruct (rl_exec_shown e ms i s r X V) as (b & B & PB & DB & M).
  assert (E : d = enc c_rl_ix i) by (apply (try_from_slice_can c_rl_ix) in D as [D _]; [exact D|typeclasses eauto]).
  exists b. split; [exact B|]. split; [exact PB|]. split; [rewrite DB; symmetry; exact E|].
  unfold rl_process. rewrite D. cbn [ok_or]. change (run (ctx_of rl_id (i_metas b)) (rl_exec e (ctx_of rl_id (i_metas b)) i) s = Ok s').
  apply (run_mim (ctx_of rl_id ms) _ (rl_exec e (ctx_of rl_id ms) i)); try exact H; try apply ctx_wr_in; try exact M;
    apply ro_rl_exec; intros k K; exact K.
Qed.

(** ** Token proxy *)

(** token-proxy/src/bindings.rs *)
Inductive tp_built (e : env) : instr -> Prop :=
| tb_initialize a b g m w x : initialize_settings_ix e a b g m w = Ok x -> tp_built e x
| tb_deposit_ever f a t k sd z r v ev p x : deposit_multi_token_ever_ix e f a t k sd z r v ev p = Ok x -> tp_built e x
| tb_deposit_sol f a t m sd n y z r v ev p x :
    deposit_multi_token_sol_ix e f a t m sd n y z r v ev p = Ok x -> tp_built e x
| tb_ever_request f a n ts lt cf k nm sy d r z p at_ x :
    withdrawal_multi_token_ever_request_ix e f a n ts lt cf k nm sy d r z p at_ = Ok x -> tp_built e x
| tb_sol_request f a ts lt cf m n r z p at_ x :
    withdrawal_multi_token_sol_request_ix e f a ts lt cf m n r z p at_ = Ok x -> tp_built e x
| tb_vote v w n d x : vote_for_withdrawal_request_ix e v w n d = Ok x -> tp_built e x
| tb_ever w t k x : withdrawal_ever_ix e w t k = Ok x -> tp_built e x
| tb_ever_payload w t k x : withdrawal_ever_with_payload_ix e w t k = Ok x -> tp_built e x
| tb_new_ever f w t k x : create_ever_token_ix e f w t k = Ok x -> tp_built e x
| tb_new_ever_payload f w t k x : create_ever_token_with_payload_ix e f w t k = Ok x -> tp_built e x
| tb_sol w t m x : withdrawal_sol_ix e w t m = Ok x -> tp_built e x
| tb_sol_payload w t m x : withdrawal_sol_with_payload_ix e w t m = Ok x -> tp_built e x
| tb_guardian o k x : change_guardian_ix e o k = Ok x -> tp_built e x
| tb_manager o k x : change_manager_ix e o k = Ok x -> tp_built e x
| tb_wmanager o k x : change_withdrawal_manager_ix e o k = Ok x -> tp_built e x
| tb_emergency_owner o x : enable_emergency_by_owner_ix e o = Ok x -> tp_built e x
| tb_disable o x : disable_emergency_ix e o = Ok x -> tp_built e x
| tb_emergency g x : enable_emergency_ix e g = Ok x -> tp_built e x
| tb_dlimit m t z x : change_deposit_limit_ix e m t z = Ok x -> tp_built e x
| tb_wlimits m t z y x : change_withdrawal_limits_ix e m t z y = Ok x -> tp_built e x
| tb_dlimit_owner m t z x : change_deposit_limit_by_owner_ix e m t z = Ok x -> tp_built e x
| tb_wlimits_owner m t z y x : change_withdrawal_limits_by_owner_ix e m t z y = Ok x -> tp_built e x
| tb_temergency g t x : enable_emergency_token_ix e g t = Ok x -> tp_built e x
| tb_temergency_owner g t x : enable_emergency_token_by_owner_ix e g t = Ok x -> tp_built e x
| tb_tdisable o t x : disable_emergency_token_ix e o t = Ok x -> tp_built e x
| tb_fee a t y m d x : update_fee_ix e a t y m d = Ok x -> tp_built e x
| tb_name a t y n x : update_token_name_ix e a t y n = Ok x -> tp_built e x
| tb_approve_ever a w r m k x : approve_withdrawal_ever_ix e a w r m k = Ok x -> tp_built e x
| tb_approve_sol a w r m x : approve_withdrawal_sol_ix e a w r m = Ok x -> tp_built e x
| tb_ever_fee a m r k z x : withdrawal_ever_fee_ix e a m r k z = Ok x -> tp_built e x
| tb_sol_fee a r m z x : withdrawal_sol_fee_ix e a r m z = Ok x -> tp_built e x
| tb_bounty a w z x : change_bounty_for_withdrawal_sol_ix e a w z = Ok x -> tp_built e x
| tb_cancel f a w m sd r v ev p x : cancel_withdrawal_sol_ix e f a w m sd r v ev p = Ok x -> tp_built e x
| tb_fill f a m sd r z l va v ev p x : fill_withdrawal_sol_ix e f a m sd r z l va v ev p = Ok x -> tp_built e x
| tb_proxy r t m z x : withdrawal_proxy_ix e r t m z = Ok x -> tp_built e x
| tb_close_deposit a d x : close_deposit_ix e a d = Ok x -> tp_built e x
| tb_close_withdrawal w a x : close_withdrawal_ix e w a = Ok x -> tp_built e x
| tb_multivault a r z x : withdrawal_multi_vault_ix e a r z = Ok x -> tp_built e x.

(** The token settings at [tsk] are those of the Solana token [mint]. *)
Definition settings_of (s : state) (tsk mint : key) : Prop :=
  exists ts vault, unpack c_token_settings TP_LEN tk_init (dat (accs s tsk)) = Ok ts /\ tk_kind ts = TKSol mint vault.
(** The settings at [k] give [role] to [a]. *)
Definition has_role (s : state) (k : key) (role : tp_settings -> key) (a : key) : Prop :=
  exists st, unpack c_tp_settings TP_LEN gs_init (dat (accs s k)) = Ok st /\ role st = a.

(** Recipients as the fill builder derives them: pairs of a request and the associated account of some wallet, then the
    vault. *)
Fixpoint fill_list (e : env) (mint : key) (l : list key) : Prop :=
  match l with
  | [] => False
  | [_] => True
  | _ :: rt :: r => (exists to, ata_addr e to mint = Ok rt) /\ fill_list e mint r
  end.

(** What a caller may do that no builder offers:
    - payload execution (only the generic builder names it);
    - the roles' instructions signed by the upgrade authority, where no "by owner" variant exists;
    - a mint or vault other than the token's own where the processor does not insist on it;
    - other recipient accounts than the associated ones in a fill or with the first withdrawal of a token. *)
Definition tp_covered (e : env) (s : state) (ms : list meta) (i : tp_ix) : Prop :=
  match i with
  | TpExecutePayloadEver | TpExecutePayloadSol => False
  | TpWithdrawEver => exists tsk, place ms 3 tsk /\
      (lam (accs s tsk) <> 0 \/
       exists withdrawal mint recipient funder w, place ms 0 withdrawal /\ place ms 1 mint /\ place ms 2 recipient /\
         place ms 9 funder /\ wever_in e tp_id s withdrawal w /\
         let ev := wl_data (p_event w) in
         if nil_b (wee_payload ev) then ata_addr e (wee_recipient ev) mint = Ok recipient
         else tp_proxy_addr e mint (wee_recipient ev) = Ok recipient)
  | TpWithdrawSol => exists tsk mint, place ms 3 tsk /\ place ms 4 mint /\ settings_of s tsk mint
  | TpDepositSol _ _ _ _ _ _ _ _ => exists tsk mint vault, place ms 7 tsk /\ place ms 5 mint /\ place ms 3 vault /\
      (lam (accs s tsk) = 0 \/ settings_of s tsk mint /\ tp_vault_addr e mint = Ok vault)
  | TpCancel _ _ _ _ _ => exists tsk mint, place ms 6 tsk /\ place ms 2 mint /\ settings_of s tsk mint
  | TpFill _ _ _ _ _ _ => exists tsk mint author author_token, place ms 7 tsk /\ place ms 3 mint /\
      place ms 1 author /\ place ms 2 author_token /\ settings_of s tsk mint /\
      ata_addr e author mint = Ok author_token /\ fill_list e mint (skipn 11 (map m_key ms))
  | TpApproveEver | TpApproveSol => exists k a, place ms 5 k /\ place ms 0 a /\ has_role s k gs_wmanager a
  | TpWithdrawEverFee _ | TpWithdrawSolFee _ => exists k a, place ms 4 k /\ place ms 0 a /\ has_role s k gs_manager a
  | TpUpdateFee _ _ _ | TpUpdateTokenName _ _ => exists k a, place ms 2 k /\ place ms 0 a /\ has_role s k gs_manager a
  | TpWithdrawMultiVault _ => exists k a, place ms 3 k /\ place ms 0 a /\ has_role s k gs_manager a
  | _ => True
  end.

Definition tp_shown (e : env) (s : state) (c : ctx) (i : tp_ix) : Prop :=
  exists b, tp_built e b /\ i_pid b = tp_id /\ i_data b = enc c_tp_ix i /\
  forall ext, mim s (tp_exec e ext c i) (tp_exec e ext (ctx_of tp_id (i_metas b)) i).

(** Opening a run up to its validated accounts, the upgrade authority's account included. *)
Ltac xblocks :=
  repeat match goal with
  | X : tp_valid_settings _ _ _ _ = Ok (?v, _) |- _ =>
      let V := fresh "VS" in let E := fresh "E" in let st := fresh "st" in let pn := fresh "pn" in
      apply tp_valid_settings_ok in X; destruct X as [E V]; destruct v as [st pn]; cbn [fst snd] in V; subst
  | X : tp_live_settings _ _ _ _ = Ok (?v, _) |- _ =>
      let V := fresh "VS" in let L := fresh "LV" in let E := fresh "E" in let st := fresh "st" in let pn := fresh "pn" in
      apply tp_live_settings_ok in X; destruct X as (E & V & L); destruct v as [st pn]; cbn [fst snd] in V, L; subst
  | X : valid_ts_ever _ _ _ _ = Ok (?v, _) |- _ =>
      let ts := fresh "ts" in let tok := fresh "token" in let d := fresh "dec_" in let mn := fresh "mn" in
      let m := fresh "m" in let V := fresh "VT" in let K := fresh "KT" in let E := fresh "E" in
      destruct v as [[[ts tok] d] mn];
      apply valid_ts_ever_ok in X; destruct X as (E & V & m & K); subst
  | X : valid_ts_sol _ _ _ _ = Ok (?v, _) |- _ =>
      let ts := fresh "ts" in let mint := fresh "smint" in let va := fresh "svault" in let vn := fresh "vn" in
      let V := fresh "VT" in let K := fresh "KT" in let E := fresh "E" in
      destruct v as [[[ts mint] va] vn];
      apply valid_ts_sol_ok in X; destruct X as (E & V & K); subst
  | X : valid_ts_any _ _ _ _ = Ok (?v, _) |- _ =>
      let ts := fresh "ts" in let tk := fresh "tk" in let vn := fresh "vn" in
      let V := fresh "VT" in let E := fresh "E" in let E2 := fresh "E" in
      destruct v as [ts tk];
      apply valid_ts_any_ok in X; destruct X as (E & E2 & vn & V); subst
  | X : token_live _ _ = Ok _ |- _ =>
      let L := fresh "LT" in let E := fresh "E" in apply token_live_ok in X; destruct X as (E & L); subst
  | X : valid_multivault _ _ _ _ = Ok _ |- _ =>
      let V := fresh "VM" in let E := fresh "E" in apply valid_multivault_ok in X; destruct X as (E & V); subst
  | X : valid_wever _ _ _ _ = Ok (?v, _) |- _ =>
      let w := fresh "w" in let wk := fresh "wk" in let V := fresh "VW" in let E := fresh "E" in let E2 := fresh "E" in
      destruct v as [w wk]; apply valid_wever_ok in X; destruct X as (E & E2 & V); subst
  | X : valid_wsol _ _ _ _ = Ok (?v, _) |- _ =>
      let w := fresh "w" in let wk := fresh "wk" in let V := fresh "VW" in let E := fresh "E" in let E2 := fresh "E" in
      destruct v as [w wk]; apply valid_wsol_ok in X; destruct X as (E & E2 & V); subst
  | X : tp_valid_prop _ _ _ _ _ _ = Ok _ |- _ =>
      let V := fresh "VP" in let E := fresh "E" in let E2 := fresh "E" in
      apply tp_valid_prop_ok in X; destruct X as (E & E2 & V); subst
  | X : tp_valid_round _ _ _ = Ok (?v, _) |- _ =>
      let V := fresh "VR" in let E := fresh "E" in let rr := fresh "rr" in
      rename v into rr; apply tp_valid_round_ok in X; destruct X as (E & V); subst
  | X : tp_valid_rl_settings _ _ _ = Ok (?v, _) |- _ =>
      let V := fresh "VL" in let E := fresh "E" in let rls := fresh "rls" in let pn := fresh "rpn" in
      rename v into rls; apply tp_valid_rl_settings_ok in X; destruct X as (E & pn & V); subst
  | X : deposit_address _ _ _ _ _ = Ok (?v, _) |- _ =>
      let a := fresh "a" in let b := fresh "b" in let V := fresh "FD" in let E := fresh "E" in let E2 := fresh "E" in
      destruct v as [a b]; apply deposit_address_ok in X; destruct X as (E & E2 & V); cbn [fst snd] in E2, V; subst
  | X : tacc_at _ _ = Ok (?v, _) |- _ =>
      let V := fresh "TA" in let E := fresh "E" in
      apply tacc_at_ok in X; destruct X as (V & E); subst
  | X : tmint_at _ _ = Ok (?v, _) |- _ =>
      let V := fresh "TM" in let E := fresh "E" in
      apply tmint_at_ok in X; destruct X as (V & E); subst
  end.
Ltac xstep H := mstep H; xblocks.
Ltac xopen := repeat match goal with
  | V : tp_settings_in _ _ _ _ _ _ |- _ => let U := fresh "US" in let n := fresh "sn" in let K := fresh "KS" in
      let F := fresh "FS" in destruct V as (U & n & K & F)
  | V : multivault_in _ _ _ _ |- _ => let U := fresh "UM" in let n := fresh "mvn" in let mv := fresh "mv" in
      let K := fresh "KM" in let F := fresh "FM" in destruct V as (mv & n & U & K & F)
  | V : token_in _ _ _ _ _ _ |- _ => let U := fresh "UT" in let n := fresh "tn" in let K := fresh "AT" in
      let F := fresh "FT" in destruct V as (U & n & K & F)
  | V : round_in _ _ _ _ _ |- _ => let U := fresh "UR" in let n := fresh "rn" in let K := fresh "KR" in
      let F := fresh "FR" in destruct V as (U & n & K & F)
  | V : rl_settings_in _ _ _ _ _ _ |- _ => let U := fresh "UL" in let n := fresh "ln" in let K := fresh "KL" in
      let F := fresh "FL" in destruct V as (U & n & K & F)
  end.
Ltac xkinds := repeat match goal with K : tk_kind ?t = _, F : find_pda _ (ts_seeds _ (tk_kind ?t)) _ = _ |- _ =>
  rewrite K in F; cbn [ts_seeds] in F end.
Ltac xbuilt := unfold tp_settings_addr, tp_multivault_addr, tp_programdata, tp_token_ever_addr, tp_token_sol_addr,
  tp_mint_addr, tp_vault_addr, tp_deposit_addr, tp_proxy_addr, rl_settings_addr, rl_round_addr, ata_addr, addr; built.
Ltac xrun EK := split; [reflexivity|]; split; [reflexivity|]; intros ext; cbn [i_metas tp_exec app]; mm_start EK.

Lemma tp_vote_shown e c v s r : c_pid c = tp_id -> tp_vote e c v s = Ok r -> tp_shown e s c (TpVote v).
Proof.
  intros P H. destruct r. unfold tp_vote in H. mkeys H. repeat xstep H. mfacts. rewrite P in *.
  eexists. split; [apply (tb_vote e k k0 (p_round v2) v)|]. { unfold vote_for_withdrawal_request_ix. xbuilt. }
  clear - P EK. xrun EK. unfold tp_vote. rewrite EK, K'. mm_norm. repeat mm.
Qed.
Lemma tp_initialize_shown e c g m w s r : c_pid c = tp_id -> tp_initialize e c g m w s = Ok r ->
  tp_shown e s c (TpInitialize g m w).
Proof.
  intros P H. destruct r. unfold tp_initialize in H. mkeys H. repeat xstep H. mfacts. subst. rewrite P in *.
  eexists. split; [eapply (tb_initialize e k k0 g m w)|]. { unfold initialize_settings_ix. xbuilt. }
  clear - P EK. xrun EK. unfold tp_initialize. rewrite EK, K'. mm_norm. repeat mm.
Qed.
Lemma tp_deposit_ever_shown e c sd z rc v ev p s r : c_pid c = tp_id -> tp_deposit_ever e c sd z rc v ev p s = Ok r ->
  tp_shown e s c (TpDepositEver sd z rc v ev p).
Proof.
  intros P H. destruct r. unfold tp_deposit_ever in H. mkeys H. repeat xstep H. mfacts. subst. xopen. rewrite P in *. xkinds.
  eexists. split; [eapply (tb_deposit_ever e k k0 k1 token sd z rc v ev p)|]. { unfold deposit_multi_token_ever_ix. xbuilt. }
  clear - P EK. xrun EK. unfold tp_deposit_ever. rewrite EK, K'. mm_norm. repeat mm.
Qed.

Lemma settings_of_kind s k mint ts m v : settings_of s k mint -> unpack c_token_settings TP_LEN tk_init (dat (accs s k)) = Ok ts ->
  tk_kind ts = TKSol m v -> m = mint.
Proof. intros (t & va & U & K) U' K'. rewrite U in U'. injection U' as ->. rewrite K in K'. injection K' as -> ->. reflexivity. Qed.

Lemma tp_deposit_sol_shown e c sd nm sy z rc v ev p s r : c_pid c = tp_id ->
  (exists tsk mint vault, nth_error (c_keys c) 7 = Some tsk /\ nth_error (c_keys c) 5 = Some mint /\
     nth_error (c_keys c) 3 = Some vault /\
     (lam (accs s tsk) = 0 \/ settings_of s tsk mint /\ tp_vault_addr e mint = Ok vault)) ->
  tp_deposit_sol e c sd nm sy z rc v ev p s = Ok r -> tp_shown e s c (TpDepositSol sd nm sy z rc v ev p).
Proof.
  intros P (tsk & mint & vault & N7 & N5 & N3 & V) H. destruct r. unfold tp_deposit_sol in H. mkeys H.
  cbn [nth_error] in N7, N5, N3. injection N7 as ->. injection N5 as ->. injection N3 as ->.
  do 7 xstep H.
  assert (B : (exists n, find_pda e (sd_vault mint) tp_id = Ok (vault, n)) /\
              (exists n, find_pda e (sd_ts_sol mint) tp_id = Ok (tsk, n))).
  { repeat xstep H. match goal with X : (if _ then register_sol _ _ _ _ _ _ _ _ else _) _ = _ |- _ => rename X into HR end.
    destruct (Z.eqb_spec (lam (accs s tsk)) 0) as [L|L].
    - unfold register_sol in HR. repeat mstep HR. mfacts. subst. rewrite P in *. split; eexists; pdaok.
    - apply ret_ok in HR as [_ ->]. destruct V as [V|[V F]]; [contradiction|]. xopen. rewrite P in *.
      pose proof (settings_of_kind _ _ _ _ _ _ V UT KT) as ->. xkinds. split; [|eexists; pdaok].
      unfold tp_vault_addr, addr, fst_r in F. destruct (find_pda e (sd_vault mint) tp_id) as [[k' n']|]; [|discriminate].
      cbn [rbind] in F. injection F as ->. eexists; reflexivity. }
  destruct B as [(vn & FV) (tn & FT)].
  repeat xstep H. mfacts. subst. xopen. rewrite P in *.
  eexists. split; [eapply (tb_deposit_sol e k k0 k1 mint sd nm sy z rc v ev p)|]. { unfold deposit_multi_token_sol_ix. xbuilt. }
  clear - P EK FV FT. xrun EK. unfold tp_deposit_sol. rewrite EK, K'. mm_norm. repeat mm.
Qed.

(** The proxy account: the builders name the token program; another one is accepted only if it is not used. *)
Lemma mim_create_proxy s e c c' recipient funder proxy mint sysk tokk : c_pid c = tp_id -> c_pid c' = tp_id ->
  In sys_id (c_keys c') -> In spl_id (c_keys c') -> In funder (c_keys c') -> In proxy (c_keys c') -> In mint (c_keys c') ->
  c_sg c' funder = true -> c_wr c' funder = true -> c_wr c' proxy = true ->
  mim s (create_proxy_account e c recipient funder proxy mint sysk tokk)
        (create_proxy_account e c' recipient funder proxy mint sys_id spl_id).
Proof.
  intros P P' IS IT IF IP IM SF WF WP. unfold create_proxy_account. rewrite P, P'.
  apply mim_bind; [apply mim_refl|]. intros [pk n] s1 X. apply lift_ok in X as [F ->]. cbv beta iota.
  apply mim_bind; [apply mim_refl|]. intros ? s1 X. apply guard_ok in X as [X ->]. apply keqb_eq in X. subst pk.
  apply mim_bind; [apply mim_refl|]. intros ac s1 X. apply get_ok in X as [-> ->].
  apply mim_bind; [apply mim_refl|]. intros ? s1 X. apply guard_ok in X as [X ->].
  destruct (nil_b _); [|apply mim_refl]. destruct (keqb tokk spl_id) eqn:T.
  - apply keqb_eq in T. subst tokk. apply find_pda_some in F as [F _].
    apply mim_bind; [apply mim_pda_account; try assumption; [congruence|rewrite P; exact F]|]. intros ? s1 _.
    apply mim_bind; [apply mim_refl|]. intros ? s2 _.
    apply mim_bind; [apply mim_init_immutable; try assumption; left; reflexivity|]. intros ? s3 _.
    apply mim_bind; [apply mim_init_account; try assumption; [left; reflexivity|right; left; reflexivity]|]. intros ? s4 _.
    apply mim_refl.
  - intros [x s2] Y. apply bind_ok in Y as (y & s3 & _ & Y). apply bind_ok in Y as (y' & s4 & Y & _).
    apply guard_ok in Y as [Y _]. discriminate Y.
Qed.

Lemma create_proxy_addr e c recipient funder proxy mint sysk tokk s r :
  create_proxy_account e c recipient funder proxy mint sysk tokk s = Ok r ->
  exists n, find_pda e (sd_proxy mint recipient) (c_pid c) = Ok (proxy, n).
Proof.
  unfold create_proxy_account. intros H. apply bind_ok in H as ([pk n] & s1 & X & H). apply lift_ok in X as [F _].
  apply bind_ok in H as (u & s2 & X & _). apply guard_ok in X as [X _]. apply keqb_eq in X. subst pk. exists n. exact F.
Qed.

Lemma tp_ever_request_shown e c ts lt cf tk nm sy d rc z p at_ s r : c_pid c = tp_id ->
  tp_withdraw_ever_request e c ts lt cf tk nm sy d rc z p at_ s = Ok r ->
  tp_shown e s c (TpWithdrawEverRequest ts lt cf tk nm sy d rc z p at_).
Proof.
  intros P H. destruct r. unfold tp_withdraw_ever_request, request_tail in H. mkeys H. repeat xstep H. mfacts. subst.
  match goal with X : request_proxy _ _ _ _ _ _ _ _ _ _ = _ |- _ => rename X into HP end.
  unfold request_proxy in HP. destruct (nil_b p) eqn:N.
  - xopen. rewrite P in *. eexists.
    split; [eapply (tb_ever_request e k k0 (rr_number rr) ts lt cf tk nm sy d rc z p at_)|].
    { unfold withdrawal_multi_token_ever_request_ix, proxy_metas, tp_withdrawal_ever_addr. rewrite N. xbuilt. }
    clear - P EK N. xrun EK. unfold tp_withdraw_ever_request. rewrite EK, K'. unfold request_proxy. rewrite N. mm_norm. repeat mm.
  - mkeys HP. repeat xstep HP.
    match goal with X : create_proxy_account _ _ _ _ _ _ _ _ _ = _ |- _ => rename X into HC end.
    apply create_proxy_addr in HC as (pn & HC). mfacts. subst.
    destruct (find_pda e (sd_mint (token_hash e tk)) (c_pid c)) as [[mk mn]|] eqn:FMT; [|discriminate]. cbn [rbind] in *.
    repeat match goal with X : Ok _ = Ok _ |- _ => injection X as X end. subst. xopen. rewrite P in *. eexists.
    split; [eapply (tb_ever_request e k k0 (rr_number rr) ts lt cf tk nm sy d rc z p at_)|].
    { unfold withdrawal_multi_token_ever_request_ix, proxy_metas, tp_withdrawal_ever_addr. rewrite N. xbuilt. }
    clear - P EK N FMT. xrun EK. unfold tp_withdraw_ever_request. rewrite EK, K'. unfold request_proxy. rewrite N. mm_norm. repeat mm.
    apply mim_create_proxy; mm_flag.
Qed.

Lemma tp_sol_request_shown e c ts lt cf rc z p at_ s r : c_pid c = tp_id ->
  tp_withdraw_sol_request e c ts lt cf rc z p at_ s = Ok r ->
  tp_shown e s c (TpWithdrawSolRequest ts lt cf rc z p at_).
Proof.
  intros P H. destruct r. unfold tp_withdraw_sol_request, request_tail in H. mkeys H. repeat xstep H. mfacts. subst.
  match goal with X : request_proxy _ _ _ _ _ _ _ _ _ _ = _ |- _ => rename X into HP end.
  unfold request_proxy in HP. destruct (nil_b p) eqn:N.
  - xopen. rewrite P in *. xkinds. eexists.
    split; [eapply (tb_sol_request e k k0 ts lt cf smint (rr_number rr) rc z p at_)|].
    { unfold withdrawal_multi_token_sol_request_ix, proxy_metas, tp_withdrawal_sol_addr. rewrite N. xbuilt. }
    clear - P EK N. xrun EK. unfold tp_withdraw_sol_request. rewrite EK, K'. unfold request_proxy. rewrite N. mm_norm. repeat mm.
  - mkeys HP. repeat xstep HP.
    match goal with X : create_proxy_account _ _ _ _ _ _ _ _ _ = _ |- _ => rename X into HC end.
    apply create_proxy_addr in HC as (pn & HC). mfacts. subst.
    repeat match goal with X : Ok _ = Ok _ |- _ => injection X as X end. subst. xopen. rewrite P in *. xkinds. eexists.
    split; [eapply (tb_sol_request e k k0 ts lt cf k7 (rr_number rr) rc z p at_)|].
    { unfold withdrawal_multi_token_sol_request_ix, proxy_metas, tp_withdrawal_sol_addr. rewrite N. cbn [rbind]. xbuilt. }
    clear - P EK N. xrun EK. unfold tp_withdraw_sol_request. rewrite EK, K'. unfold request_proxy. rewrite N. mm_norm. repeat mm.
    apply mim_create_proxy; mm_flag.
Qed.

Lemma tp_bounty_shown e c b s r : c_pid c = tp_id -> tp_change_bounty e c b s = Ok r -> tp_shown e s c (TpChangeBounty b).
Proof.
  intros P H. destruct r. unfold tp_change_bounty in H. mkeys H. clear H.
  eexists. split; [eapply (tb_bounty e k k0 b); reflexivity|].
  clear - P EK. xrun EK. unfold tp_change_bounty. rewrite EK, K'. mm_norm. repeat mm.
Qed.

Lemma tp_cancel_shown e c sd rc v ev p s r : c_pid c = tp_id -> (exists tsk mint, nth_error (c_keys c) 6 = Some tsk /\
    nth_error (c_keys c) 2 = Some mint /\ settings_of s tsk mint) ->
  tp_cancel e c sd rc v ev p s = Ok r -> tp_shown e s c (TpCancel sd rc v ev p).
Proof.
  intros P (tsk & mint & N1 & N2 & B) H. destruct r. unfold tp_cancel in H. mkeys H.
  cbn [nth_error] in N1, N2. injection N1 as ->. injection N2 as ->.
  repeat xstep H. mfacts. subst. xopen. 
  match goal with U : unpack c_token_settings _ _ _ = Ok _, K : tk_kind _ = TKSol _ _ |- _ => pose proof (settings_of_kind _ _ _ _ _ _ B U K) end. subst.
  rewrite P in *. xkinds.
  eexists. split; [eapply (tb_cancel e k (p_author w) k2 (wse_mint (wl_data (p_event w))) sd rc v ev p)|]. { unfold cancel_withdrawal_sol_ix. xbuilt. }
  clear - P EK. xrun EK. unfold tp_cancel. rewrite EK, K'. mm_norm. repeat mm.
Qed.

Lemma tp_proxy_shown e c z s r : c_pid c = tp_id -> tp_withdraw_proxy e c z s = Ok r -> tp_shown e s c (TpWithdrawProxy z).
Proof.
  intros P H. destruct r. unfold tp_withdraw_proxy in H. mkeys H. repeat xstep H. mfacts. subst. rewrite P in *.
  eexists. split; [eapply (tb_proxy e k k0 k2 z)|]. { unfold withdrawal_proxy_ix. xbuilt. }
  clear - P EK. xrun EK. unfold tp_withdraw_proxy. rewrite EK, K'. mm_norm. repeat mm.
Qed.

Lemma tp_close_deposit_shown e c s r : c_pid c = tp_id -> tp_close_deposit e c s = Ok r -> tp_shown e s c TpCloseDeposit.
Proof.
  intros P H. destruct r. unfold tp_close_deposit in H. mkeys H. clear H.
  eexists. split; [eapply (tb_close_deposit e k k0); reflexivity|].
  clear - P EK. xrun EK. unfold tp_close_deposit. rewrite EK, K'. mm_norm. repeat mm.
Qed.

Lemma tp_close_withdrawal_shown e c s r : c_pid c = tp_id -> tp_close_withdrawal e c s = Ok r -> tp_shown e s c TpCloseWithdrawal.
Proof.
  intros P H. destruct r. unfold tp_close_withdrawal in H. mkeys H. clear H.
  eexists. split; [eapply (tb_close_withdrawal e k k0); reflexivity|].
  clear - P EK. xrun EK. unfold tp_close_withdrawal. rewrite EK, K'. mm_norm. repeat mm.
Qed.

Lemma admin_settings_shown e c f i s r : c_pid c = tp_id -> admin_settings e c f s = Ok r ->
  (forall o x, owner_settings_ix e o i = Ok x -> tp_built e x) ->
  (forall ext c', tp_exec e ext c' i = admin_settings e c' f) -> tp_shown e s c i.
Proof.
  intros P H B X. destruct r. unfold admin_settings in H. mkeys H. repeat xstep H. mfacts. subst. xopen. rewrite P in *.
  eexists. split; [eapply (B k)|]. { unfold owner_settings_ix. xbuilt. }
  clear - P EK X. split; [reflexivity|]. split; [reflexivity|]. intros ext. rewrite !X. cbn [i_metas]. mm_start EK.
  unfold admin_settings. rewrite EK, K'. mm_norm. repeat mm.
Qed.

Lemma tp_tdisable_shown e c s r : c_pid c = tp_id -> tp_disable_token_emergency e c s = Ok r -> tp_shown e s c TpDisableTokenEmergency.
Proof.
  intros P H. destruct r. unfold tp_disable_token_emergency in H. mkeys H. repeat xstep H. mfacts. subst. xopen. rewrite P in *.
  eexists. split; [eapply (tb_tdisable e k k0)|]. { unfold disable_emergency_token_ix, owner_token_ix. xbuilt. }
  clear - P EK. xrun EK. unfold tp_disable_token_emergency. rewrite EK, K'. mm_norm. repeat mm.
Qed.

Lemma tp_sol_shown e c s r : c_pid c = tp_id -> (exists tsk mint, nth_error (c_keys c) 3 = Some tsk /\
    nth_error (c_keys c) 4 = Some mint /\ settings_of s tsk mint) ->
  tp_withdraw_sol e c s = Ok r -> tp_shown e s c TpWithdrawSol.
Proof.
  intros P (tsk & mint & N1 & N2 & B) H. destruct r. unfold tp_withdraw_sol in H. mkeys H.
  cbn [nth_error] in N1, N2. injection N1 as ->. injection N2 as ->.
  repeat xstep H. mfacts. subst. xopen.
  match goal with U : unpack c_token_settings _ _ _ = Ok _, K : tk_kind _ = TKSol _ _ |- _ => pose proof (settings_of_kind _ _ _ _ _ _ B U K) end. subst.
  rewrite P in *. xkinds.
  eexists. split; [eapply (tb_sol e k k1 (wse_mint (wl_data (p_event w))))|]. { unfold withdrawal_sol_ix. xbuilt. }
  clear - P EK. xrun EK. unfold tp_withdraw_sol. rewrite EK, K'. mm_norm. repeat mm.
Qed.

(** ** Roles *)

Lemma authority_open e c role a pn rest s r : check_authority e c role a pn rest s = Ok r ->
  a = role \/ exists pd l n, rest = pd :: l /\ find_pda e (sd_programdata (c_pid c)) loader_id = Ok (pd, n).
Proof.
  unfold check_authority. intros H. destruct (keqb a role) eqn:E; [left; apply keqb_eq; exact E|]. right.
  destruct rest as [|pd l]; [discriminate|]. destruct r. minv H. mfacts. exists pd, l. eexists. split; [reflexivity|]. pdaok.
Qed.
Lemma mim_role s e c c' a pn rest rest' : mim s (check_authority e c a a pn rest) (check_authority e c' a a pn rest').
Proof. unfold check_authority. rewrite keqb_refl. apply mim_refl. Qed.
Lemma mim_owner s e c c' role a pn pd l : c_pid c = c_pid c' ->
  mim s (check_authority e c role a pn (pd :: l)) (check_authority e c' role a pn [pd]).
Proof. intros P. unfold check_authority. rewrite P. apply mim_refl. Qed.

(** The remaining step of a role's instruction, when the signer holds the role. *)
Ltac states C' := clear C'; repeat match goal with
  | X : check_clock _ _ = Ok _ |- _ => apply check_clock_ok in X; destruct X as (? & ? & ->)
  | X : tp_valid_settings _ _ _ _ = Ok _ |- _ => apply tp_valid_settings_ok in X; destruct X as [-> X]
  | X : tp_live_settings _ _ _ _ = Ok _ |- _ => let L := fresh "L" in apply tp_live_settings_ok in X; destruct X as (-> & X & L)
  | X : valid_wever _ _ _ _ = Ok (_, _, _) |- _ => let L := fresh "L" in apply valid_wever_ok in X; destruct X as (-> & L & X)
  end; cbn [fst snd] in *.
Ltac by_role C' US := states C';
  match goal with V : tp_settings_in _ _ _ _ _ _ |- _ => let U := fresh "U" in destruct V as [U _]; rewrite US in U; injection U as -> end;
  apply mim_role.

Lemma tp_emergency_shown e c s r : c_pid c = tp_id -> tp_enable_emergency e c s = Ok r -> tp_shown e s c TpEnableEmergency.
Proof.
  intros P H. destruct r. unfold tp_enable_emergency in H. mkeys H. repeat xstep H. mfacts. subst.
  match goal with X : check_authority _ _ _ _ _ _ _ = _ |- _ => apply authority_open in X; rename X into A end.
  destruct A as [->|(pd & l' & n & -> & F)].
  - xopen. rewrite P in *.
    eexists. split; [eapply (tb_emergency e (gs_guardian st))|]. { unfold enable_emergency_ix. xbuilt. }
    clear - P EK US. xrun EK. unfold tp_enable_emergency. rewrite EK, K'. mm_norm. repeat mm. by_role C' US.
  - xopen. rewrite P in *.
    eexists. split; [eapply (tb_emergency_owner e k)|]. { unfold enable_emergency_by_owner_ix, owner_settings_ix. xbuilt. }
    clear - P EK. xrun EK. unfold tp_enable_emergency. rewrite EK, K'. mm_norm. repeat mm. apply mim_owner. congruence.
Qed.

Lemma admin_role_shown e c role f i s r : c_pid c = tp_id -> admin_token e c role f s = Ok r ->
  (exists k a, nth_error (c_keys c) 2 = Some k /\ nth_error (c_keys c) 0 = Some a /\ has_role s k role a) ->
  (forall o t x, role_token_ix e o t i = Ok x -> tp_built e x) ->
  (forall ext c', tp_exec e ext c' i = admin_token e c' role f) -> tp_shown e s c i.
Proof.
  intros P H (k' & a & N1 & N2 & st' & U & R) B X. destruct r. unfold admin_token in H. mkeys H.
  cbn [nth_error] in N1, N2. injection N1 as ->. injection N2 as ->.
  repeat xstep H. clear H. mfacts. subst. xopen. rewrite P in *. rewrite U in US. injection US as ->.
  eexists. split; [eapply (B (role st) k0)|]. { unfold role_token_ix. xbuilt. }
  clear - P EK U X. split; [reflexivity|]. split; [reflexivity|]. intros ext. rewrite !X. cbn [i_metas]. mm_start EK.
  unfold admin_token. rewrite EK, K'. mm_norm. repeat mm. by_role C' U.
Qed.
Lemma admin_both_shown e c role f i s r : c_pid c = tp_id -> admin_token e c role f s = Ok r ->
  (forall o t x, role_token_ix e o t i = Ok x -> tp_built e x) ->
  (forall o t x, owner_token_ix e o t i = Ok x -> tp_built e x) ->
  (forall ext c', tp_exec e ext c' i = admin_token e c' role f) -> tp_shown e s c i.
Proof.
  intros P H B B' X. pose proof H as H0. destruct r. unfold admin_token in H. mkeys H. repeat xstep H. clear H. mfacts. subst.
  match goal with X : check_authority _ _ _ _ _ _ _ = _ |- _ => apply authority_open in X; rename X into A end.
  destruct A as [->|(pd & l' & n & -> & F)].
  - eapply admin_role_shown; [exact P|exact H0| |exact B|exact X].
    rewrite EK. exists k1, (role st). split; [reflexivity|]. split; [reflexivity|]. exists st. split; [apply VS|reflexivity].
  - xopen. rewrite P in *.
    eexists. split; [eapply (B' k k0)|]. { unfold owner_token_ix. xbuilt. }
    clear - P EK X. split; [reflexivity|]. split; [reflexivity|]. intros ext. rewrite !X. cbn [i_metas]. mm_start EK.
    unfold admin_token. rewrite EK, K'. mm_norm. repeat mm. apply mim_owner. congruence.
Qed.

Lemma tp_approve_ever_shown e c s r : c_pid c = tp_id -> (exists k a, nth_error (c_keys c) 5 = Some k /\
    nth_error (c_keys c) 0 = Some a /\ has_role s k gs_wmanager a) ->
  tp_approve_ever e c s = Ok r -> tp_shown e s c TpApproveEver.
Proof.
  intros P (k' & a & N1 & N2 & st' & U & R) H. destruct r. unfold tp_approve_ever in H. mkeys H.
  cbn [nth_error] in N1, N2. injection N1 as ->. injection N2 as ->.
  repeat xstep H. clear H. mfacts. subst. xopen. rewrite P in *. xkinds. rewrite U in US. injection US as ->.
  eexists. split; [eapply (tb_approve_ever e (gs_wmanager st) k1 k2 k0 token)|]. { unfold approve_withdrawal_ever_ix. xbuilt. }
  clear - P EK U. xrun EK. unfold tp_approve_ever. rewrite EK, K'. mm_norm. repeat mm. by_role C' U.
Qed.
Lemma tp_approve_sol_shown e c s r : c_pid c = tp_id -> (exists k a, nth_error (c_keys c) 5 = Some k /\
    nth_error (c_keys c) 0 = Some a /\ has_role s k gs_wmanager a) ->
  tp_approve_sol e c s = Ok r -> tp_shown e s c TpApproveSol.
Proof.
  intros P (k' & a & N1 & N2 & st' & U & R) H. destruct r. unfold tp_approve_sol in H. mkeys H.
  cbn [nth_error] in N1, N2. injection N1 as ->. injection N2 as ->.
  repeat xstep H. clear H. mfacts. subst.
  match goal with X : check_authority _ _ _ _ _ _ _ = Ok (_, ?s1) |- _ => apply check_authority_ok in X as [-> _] end.
  repeat xstep H. xopen. rewrite P in *. xkinds. rewrite U in US. injection US as ->.
  eexists. split; [eapply (tb_approve_sol e (gs_wmanager st) k1 k2 (wse_mint (wl_data (p_event w))))|]. { unfold approve_withdrawal_sol_ix. xbuilt. }
  clear - P EK U. xrun EK. unfold tp_approve_sol. rewrite EK, K'. mm_norm. repeat mm. by_role C' U.
Qed.

Ltac authority_same := match goal with X : check_authority _ _ _ _ _ _ _ = Ok (_, ?s1) |- _ => apply check_authority_ok in X as [-> _] end.
Lemma tp_ever_fee_shown e c z s r : c_pid c = tp_id -> (exists k a, nth_error (c_keys c) 4 = Some k /\
    nth_error (c_keys c) 0 = Some a /\ has_role s k gs_manager a) ->
  tp_withdraw_ever_fee e c z s = Ok r -> tp_shown e s c (TpWithdrawEverFee z).
Proof.
  intros P (k' & a & N1 & N2 & st' & U & R) H. destruct r. unfold tp_withdraw_ever_fee in H. mkeys H.
  cbn [nth_error] in N1, N2. injection N1 as ->. injection N2 as ->.
  repeat xstep H. clear H. mfacts. subst. authority_same. xopen. rewrite P in *. xkinds. rewrite U in US. injection US as ->.
  eexists. split; [eapply (tb_ever_fee e (gs_manager st) k0 k1 token z)|]. { unfold withdrawal_ever_fee_ix. xbuilt. }
  clear - P EK U. xrun EK. unfold tp_withdraw_ever_fee. rewrite EK, K'. mm_norm. repeat mm. by_role C' U.
Qed.
Lemma tp_sol_fee_shown e c z s r : c_pid c = tp_id -> (exists k a, nth_error (c_keys c) 4 = Some k /\
    nth_error (c_keys c) 0 = Some a /\ has_role s k gs_manager a) ->
  tp_withdraw_sol_fee e c z s = Ok r -> tp_shown e s c (TpWithdrawSolFee z).
Proof.
  intros P (k' & a & N1 & N2 & st' & U & R) H. destruct r. unfold tp_withdraw_sol_fee in H. mkeys H.
  cbn [nth_error] in N1, N2. injection N1 as ->. injection N2 as ->.
  repeat xstep H. clear H. mfacts. subst. authority_same. xopen. rewrite P in *. xkinds. rewrite U in US. injection US as ->.
  eexists. split; [eapply (tb_sol_fee e (gs_manager st) k2 smint z)|]. { unfold withdrawal_sol_fee_ix. xbuilt. }
  clear - P EK U. xrun EK. unfold tp_withdraw_sol_fee. rewrite EK, K'. mm_norm. repeat mm. by_role C' U.
Qed.
Lemma tp_multivault_shown e c z s r : c_pid c = tp_id -> (exists k a, nth_error (c_keys c) 3 = Some k /\
    nth_error (c_keys c) 0 = Some a /\ has_role s k gs_manager a) ->
  tp_withdraw_multi_vault e c z s = Ok r -> tp_shown e s c (TpWithdrawMultiVault z).
Proof.
  intros P (k' & a & N1 & N2 & st' & U & R) H. destruct r. unfold tp_withdraw_multi_vault in H. mkeys H.
  cbn [nth_error] in N1, N2. injection N1 as ->. injection N2 as ->.
  repeat xstep H. clear H. mfacts. subst. authority_same. xopen. rewrite P in *. rewrite U in US. injection US as ->.
  eexists. split; [eapply (tb_multivault e (gs_manager st) k0 z)|]. { unfold withdrawal_multi_vault_ix. xbuilt. }
  clear - P EK U. xrun EK. unfold tp_withdraw_multi_vault. rewrite EK, K'. mm_norm. repeat mm. by_role C' U.
Qed.

Lemma tp_ever_shown e c s r : c_pid c = tp_id -> (exists tsk, nth_error (c_keys c) 3 = Some tsk /\ lam (accs s tsk) <> 0) ->
  tp_withdraw_ever e c s = Ok r -> tp_shown e s c TpWithdrawEver.
Proof.
  intros P (tsk & N1 & L) H. destruct r. unfold tp_withdraw_ever in H. mkeys H.
  cbn [nth_error] in N1. injection N1 as ->.
  repeat xstep H. mfacts. subst. 
  match type of H with (if ?b then _ else _) _ = _ => destruct (Z.eqb_spec (lam (accs s tsk)) 0) as [Q|_]; [contradiction|] end.
  unfold withdraw_ever_exec in H. repeat xstep H. clear H. mfacts. subst. xopen. rewrite P in *. xkinds.
  eexists. split; [eapply (tb_ever e k k1 token)|]. { unfold withdrawal_ever_ix. xbuilt. }
  clear - P EK L. xrun EK. unfold tp_withdraw_ever. rewrite EK, K'. mm_norm. repeat mm.
  all: exfalso; states C'; apply L; match goal with Q : _ = accs _ _, R : (lam _ =? 0) = true |- _ => rewrite Q in R; apply Z.eqb_eq in R; exact R end.
Qed.

Lemma ata_create_addr e c f w m s r : invoke_ata_create e c f w m s = Ok r -> exists a n, find_pda e (ata_seeds w m) ata_id = Ok (a, n).
Proof.
  unfold invoke_ata_create. intros H. apply bind_ok in H as ([a n] & s1 & X & _). apply lift_ok in X as [X _]. exists a, n. exact X.
Qed.
Lemma addr_pda e sd p k : addr e sd p = Ok k -> exists n, find_pda e sd p = Ok (k, n).
Proof. unfold addr, fst_r. destruct (find_pda e sd p) as [[k' n]|]; [|discriminate]. cbn [rbind]. intros H. injection H as ->. exists n. reflexivity. Qed.

Lemma tp_new_ever_shown e c s r : c_pid c = tp_id ->
  (exists tsk withdrawal mint recipient funder w, nth_error (c_keys c) 3 = Some tsk /\ lam (accs s tsk) = 0 /\
     nth_error (c_keys c) 0 = Some withdrawal /\ nth_error (c_keys c) 1 = Some mint /\
     nth_error (c_keys c) 2 = Some recipient /\ nth_error (c_keys c) 9 = Some funder /\ wever_in e tp_id s withdrawal w /\
     let ev := wl_data (p_event w) in
     if nil_b (wee_payload ev) then ata_addr e (wee_recipient ev) mint = Ok recipient
     else tp_proxy_addr e mint (wee_recipient ev) = Ok recipient) ->
  tp_withdraw_ever e c s = Ok r -> tp_shown e s c TpWithdrawEver.
Proof.
  intros P (tsk & wd & mint & rc & fu & w0 & N3 & L & N0 & N1 & N2 & N9 & W & B) H. destruct r. unfold tp_withdraw_ever in H. mkeys H.
  destruct l as [|f l]; [discriminate N9|].
  cbn [nth_error] in N0, N1, N2, N3, N9. injection N0 as ->. injection N1 as ->. injection N2 as ->. injection N3 as ->. injection N9 as ->.
  repeat xstep H. mfacts. subst.
  match type of H with (if ?b then _ else _) _ = _ => replace b with true in H by (symmetry; apply Z.eqb_eq; exact L) end.
  assert (w0 = w) as ->. { rewrite P in VW. destruct W as [W _], VW as [V _]. rewrite W in V. injection V as ->. reflexivity. }
  mstep H. clear H. match goal with X : register_ever _ _ _ _ _ _ _ = _ |- _ => rename X into HR end.
  unfold register_ever in HR. repeat xstep HR. clear HR. mfacts. subst.
  match goal with X : invoke_ata_create _ _ _ _ _ _ = _ |- _ => apply ata_create_addr in X as (at_ & an & FA) end.
  xopen. rewrite P in *. cbv zeta in B. set (ev := wl_data (p_event w)) in *.
  destruct (nil_b (wee_payload ev)) eqn:N.
  - unfold ata_addr in B. apply addr_pda in B as (bn & B). rewrite B in FA. injection FA as <- <-. rename B into FA.
    eexists. split; [eapply (tb_new_ever e fu wd (wee_recipient ev) (wee_token ev))|]. { unfold create_ever_token_ix. xbuilt. }
    subst ev. clear - P EK FA W L. xrun EK. unfold tp_withdraw_ever. rewrite EK, K'. mm_norm.
    do 2 (apply mim_bind; [apply mim_refl|]; let v := fresh "v" in intros v ? ?).
    apply mim_bind; [mm_pid|]. intros sp s3 X3. apply mim_bind; [mm_pid|]. intros [w1 wk] s4 X4.
    repeat match goal with X : check_rent _ _ = Ok _ |- _ => apply check_rent_ok in X as [_ ->]
      | X : check_clock _ _ = Ok _ |- _ => apply check_clock_ok in X as (_ & -> & ->) end.
    apply tp_live_settings_ok in X3 as (-> & _). apply valid_wever_ok in X4 as (-> & -> & [X4 _]).
    destruct W as [W _]. rewrite W in X4. injection X4 as <-.
    apply mim_bind; [apply mim_refl|]. intros ac s3 X3. apply get_ok in X3 as [-> ->].
    replace (lam (accs s tsk) =? 0) with true by (symmetry; apply Z.eqb_eq; exact L). repeat mm.
  - unfold tp_proxy_addr in B. apply addr_pda in B as (bn & B).
    eexists. split; [eapply (tb_new_ever_payload e fu wd (wee_recipient ev) (wee_token ev))|]. { unfold create_ever_token_with_payload_ix. xbuilt. }
    subst ev. clear - P EK FA W L. xrun EK. unfold tp_withdraw_ever. rewrite EK, K'. mm_norm.
    do 2 (apply mim_bind; [apply mim_refl|]; let v := fresh "v" in intros v ? ?).
    apply mim_bind; [mm_pid|]. intros sp s3 X3. apply mim_bind; [mm_pid|]. intros [w1 wk] s4 X4.
    repeat match goal with X : check_rent _ _ = Ok _ |- _ => apply check_rent_ok in X as [_ ->]
      | X : check_clock _ _ = Ok _ |- _ => apply check_clock_ok in X as (_ & -> & ->) end.
    apply tp_live_settings_ok in X3 as (-> & _). apply valid_wever_ok in X4 as (-> & -> & [X4 _]).
    destruct W as [W _]. rewrite W in X4. injection X4 as <-.
    apply mim_bind; [apply mim_refl|]. intros ac s3 X3. apply get_ok in X3 as [-> ->].
    replace (lam (accs s tsk) =? 0) with true by (symmetry; apply Z.eqb_eq; exact L). repeat mm.
Qed.

(** ** Filling *)

Definition flat (l : list (key * key)) : list key := flat_map (fun '(w, rt) => [w; rt]) l.

Lemma fill_list_open e mint l : fill_list e mint l -> exists prs to ms v, l = flat prs ++ [v] /\
  fill_metas e mint to = Ok ms /\ map m_key ms = flat prs /\ Forall (fun m => m = mw (m_key m) false) ms.
Proof.
  revert l. fix IH 1. intros [|w [|rt l]] H; [contradiction| |].
  - exists [], [], [], w. repeat split. constructor.
  - cbn [fill_list] in H. destruct H as [(to & T) H]. apply IH in H as (prs & tos & ms & v & -> & M & K & F).
    exists ((w, rt) :: prs), ((w, to) :: tos), (mw w false :: mw rt false :: ms), v. split; [reflexivity|].
    split; [cbn [fill_metas]; rewrite T; cbn [rbind]; rewrite M; reflexivity|].
    split; [cbn [map]; rewrite K; reflexivity|]. constructor; [reflexivity|]. constructor; [reflexivity|exact F].
Qed.

Lemma fill_loop_unread e c a at_ m dk f prs v : forall fees nets s x, fill_loop e c a at_ m dk f fees nets (flat prs ++ [v]) s = Ok x ->
  snd (fst x) = [v].
Proof.
  induction prs as [|[w rt] l IH]; intros fees nets s x H.
  - injection H as <-. reflexivity.
  - cbn [flat flat_map app fill_loop] in H. apply bind_ok in H as ([fe ne] & s1 & _ & H). eapply IH. exact H.
Qed.

Lemma mim_fill_loop e c c' a at_ m dk f prs v : c_pid c = tp_id -> c_pid c' = tp_id -> In spl_id (c_keys c') ->
  In a (c_keys c') -> c_sg c' a = true -> In at_ (c_keys c') -> c_wr c' at_ = true ->
  (forall k, In k (flat prs) -> In k (c_keys c') /\ c_wr c' k = true) ->
  forall fees nets s, mim s (fill_loop e c a at_ m dk f fees nets (flat prs ++ [v])) (fill_loop e c' a at_ m dk f fees nets (flat prs ++ [v])).
Proof.
  intros P P' T A SA AT WT. induction prs as [|[w rt] l IH]; intros R fees nets s; [apply mim_refl|].
  cbn [flat flat_map app fill_loop]. apply mim_bind.
  - assert (RW : In w (c_keys c') /\ c_wr c' w = true) by (apply R; left; reflexivity).
    assert (RR : In rt (c_keys c') /\ c_wr c' rt = true) by (apply R; right; left; reflexivity).
    destruct RW as [IW WW], RR as [IR WR]. clear R IH. unfold fill_one.
    repeat first [ match goal with |- mim _ (invoke_tok_transfer _ _ _ _ _ _) _ => apply mim_tok_transfer; first [assumption | left; assumption] end
                 | match goal with |- mim _ (pack_at _ _ _ _ _) _ => apply mim_pack; [congruence|assumption] end | mm ].
  - intros [fe ne] s1 _. apply IH. intros k I. apply R. right. right. exact I.
Qed.

Lemma tp_fill_shown e c sd rc z v ev p s r : c_pid c = tp_id -> (exists tsk mint author author_token,
    nth_error (c_keys c) 7 = Some tsk /\ nth_error (c_keys c) 3 = Some mint /\ nth_error (c_keys c) 1 = Some author /\
    nth_error (c_keys c) 2 = Some author_token /\ settings_of s tsk mint /\
    ata_addr e author mint = Ok author_token /\ fill_list e mint (skipn 11 (c_keys c))) ->
  tp_fill e c sd rc z v ev p s = Ok r -> tp_shown e s c (TpFill sd rc z v ev p).
Proof.
  intros P (tsk & mint & au & at_ & N7 & N3 & N1 & N2 & B & FA & L) H. destruct r. unfold tp_fill in H. mkeys H.
  cbn [nth_error] in N7, N3, N1, N2. injection N7 as ->. injection N3 as ->. injection N1 as ->. injection N2 as ->.
  cbn [skipn] in L. apply fill_list_open in L as (prs & to & ms & va & -> & M & K & FM0).
  repeat xstep H. clear H. mfacts. subst. xopen.
  match goal with U : unpack c_token_settings _ _ _ = Ok _, K : tk_kind _ = TKSol _ _ |- _ => pose proof (settings_of_kind _ _ _ _ _ _ B U K) end. subst.
  rewrite P in *. xkinds. unfold ata_addr in FA. apply addr_pda in FA as (an & FA).
  eexists. split; [eapply (tb_fill e k au mint sd rc z to (Some va) v ev p)|].
  { unfold fill_withdrawal_sol_ix. unfold tp_settings_addr, tp_multivault_addr, tp_token_sol_addr, tp_deposit_addr, ata_addr, addr.
    repeat (match goal with F : find_pda _ _ _ = Ok _ |- _ => rewrite F end; cbn [rbind fst_r fst]). rewrite M. reflexivity. }
  clear - P EK K FM0. split; [reflexivity|]. split; [reflexivity|]. intros ext. cbn [i_metas tp_exec app]. mm_start EK.
  rewrite map_app, K in K'. cbn [map m_key mw] in K'.
  assert (R : forall x, In x (flat prs ++ [va]) -> In x (c_keys c') /\ c_wr c' x = true).
  { intros x I. split; [rewrite K'; do 11 right; exact I|]. rewrite C'. eapply wr_in. do 11 right. apply in_or_app.
    apply in_app_or in I as [I|[<-|[]]]; [left|right; left; reflexivity]. rewrite <- K in I. apply in_map_iff in I as (m & <- & I).
    rewrite Forall_forall in FM0. rewrite <- (FM0 m I). exact I. }
  assert (R' : forall x, In x (flat prs) -> In x (c_keys c') /\ c_wr c' x = true) by (intros x I; apply R; apply in_or_app; left; exact I).
  destruct (R va) as [IV WV]; [apply in_or_app; right; left; reflexivity|].
  unfold tp_fill. rewrite EK, K'. mm_norm.
  repeat first
    [ match goal with |- mim _ (fill_loop _ _ _ _ _ _ _ _ _ _) _ => apply mim_fill_loop; first [exact R' | mm_flag] end
    | match goal with |- mim _ (invoke_tok_transfer _ _ _ _ _ _) _ =>
        match goal with X : fill_loop _ _ _ _ _ _ _ _ _ _ _ = Ok _ |- _ => apply fill_loop_unread in X; cbn [fst snd] in X;
          injection X as -> ->; apply mim_tok_transfer; first [assumption | mm_flag] end end
    | mm ].
Qed.

(** ** The theorem *)

Lemma tp_exec_shown e ext ms i s r : tp_exec e ext (ctx_of tp_id ms) i s = Ok r -> tp_covered e s ms i ->
  tp_shown e s (ctx_of tp_id ms) i.
Proof.
  intros H V. assert (P : c_pid (ctx_of tp_id ms) = tp_id) by reflexivity.
  destruct i; cbn [tp_exec tp_covered] in H, V; unfold place in V; try contradiction.
  - exact (tp_vote_shown _ _ _ _ _ P H).
  - destruct V as (tsk & N3 & V). destruct (Z.eq_dec (lam (accs s tsk)) 0) as [L|L].
    + destruct V as [V|V]; [contradiction|]. destruct V as (w & m & rc & f & w0 & N0 & N1 & N2 & N9 & W & B).
      refine (tp_new_ever_shown _ _ _ _ P _ H). exists tsk, w, m, rc, f, w0. repeat (split; [assumption|]). exact B.
    + refine (tp_ever_shown _ _ _ _ P _ H). exists tsk. split; assumption.
  - exact (tp_sol_shown _ _ _ _ P V H).
  - exact (tp_initialize_shown _ _ _ _ _ _ _ P H).
  - exact (tp_deposit_ever_shown _ _ _ _ _ _ _ _ _ _ P H).
  - exact (tp_deposit_sol_shown _ _ _ _ _ _ _ _ _ _ _ _ P V H).
  - exact (tp_ever_request_shown _ _ _ _ _ _ _ _ _ _ _ _ _ _ _ P H).
  - exact (tp_sol_request_shown _ _ _ _ _ _ _ _ _ _ _ P H).
  - refine (admin_settings_shown _ _ _ _ _ _ P H _ _); [|intros; reflexivity]. intros o x E. exact (tb_guardian e _ _ _ E).
  - refine (admin_settings_shown _ _ _ _ _ _ P H _ _); [|intros; reflexivity]. intros o x E. exact (tb_manager e _ _ _ E).
  - refine (admin_settings_shown _ _ _ _ _ _ P H _ _); [|intros; reflexivity]. intros o x E. exact (tb_wmanager e _ _ _ E).
  - refine (admin_both_shown _ _ _ _ _ _ _ P H _ _ _); [intros o t x E|intros o t x E|intros; reflexivity];
      [exact (tb_dlimit e _ _ _ _ E)|exact (tb_dlimit_owner e _ _ _ _ E)].
  - refine (admin_both_shown _ _ _ _ _ _ _ P H _ _ _); [intros o t x E|intros o t x E|intros; reflexivity];
      [exact (tb_wlimits e _ _ _ _ _ E)|exact (tb_wlimits_owner e _ _ _ _ _ E)].
  - exact (tp_emergency_shown _ _ _ _ P H).
  - refine (admin_settings_shown _ _ _ _ _ _ P H _ _); [|intros; reflexivity]. intros o x E. exact (tb_disable e _ _ E).
  - refine (admin_both_shown _ _ _ _ _ _ _ P H _ _ _); [intros o t x E|intros o t x E|intros; reflexivity];
      [exact (tb_temergency e _ _ _ E)|exact (tb_temergency_owner e _ _ _ E)].
  - exact (tp_tdisable_shown _ _ _ _ P H).
  - exact (tp_approve_ever_shown _ _ _ _ P V H).
  - exact (tp_approve_sol_shown _ _ _ _ P V H).
  - refine (admin_role_shown _ _ _ _ _ _ _ P H V _ _); [|intros; reflexivity]. intros o tk x E. exact (tb_fee e _ _ _ _ _ _ E).
  - refine (admin_role_shown _ _ _ _ _ _ _ P H V _ _); [|intros; reflexivity]. intros o tk x E. exact (tb_name e _ _ _ _ _ E).
  - exact (tp_ever_fee_shown _ _ _ _ _ P V H).
  - exact (tp_sol_fee_shown _ _ _ _ _ P V H).
  - exact (tp_bounty_shown _ _ _ _ _ P H).
  - exact (tp_cancel_shown _ _ _ _ _ _ _ _ _ P V H).
  - exact (tp_fill_shown _ _ _ _ _ _ _ _ _ _ P V H).
  - exact (tp_proxy_shown _ _ _ _ _ P H).
  - exact (tp_close_deposit_shown _ _ _ _ P H).
  - exact (tp_close_withdrawal_shown _ _ _ _ P H).
  - exact (tp_multivault_shown _ _ _ _ _ P V H).
Qed.

Definition deaf : extern := fun _ _ _ => Err CpiDenied.
Lemma covered_deaf e ext s ms i c : tp_covered e s ms i -> tp_exec e ext c i = tp_exec e deaf c i.
Proof. intros V. destruct i; first [reflexivity | contradiction V]. Qed.

(** Whatever an account list and instruction data achieve with the token proxy, a builder's instruction with the same
    data achieves, except for the calls that no builder offers ([tp_covered]). *)
Theorem C55_token_proxy_partial : forall e ext ms d i s s',
  run (ctx_of tp_id ms) (tp_process e ext (ctx_of tp_id ms) d) s = Ok s' ->
  try_from_slice c_tp_ix d = Some i -> tp_covered e s ms i ->
  exists b, tp_built e b /\ i_pid b = tp_id /\ i_data b = d /\
  run (ctx_of tp_id (i_metas b)) (tp_process e ext (ctx_of tp_id (i_metas b)) d) s = Ok s'.
Proof.
  intros e ext ms d i s s' H D V. unfold tp_process in H. apply (run_bind_lift _ _ _ _ i) in H; [|exact D].
  rewrite (covered_deaf e ext s ms i _ V) in H.
  assert (X : exists r, tp_exec e deaf (ctx_of tp_id ms) i s = Ok r).
  { unfold run in H. destruct (tp_exec _ _ _ i s); [eexists; reflexivity|discriminate]. }
  destruct X as (r & X). destruct (tp_exec_shown e deaf ms i s r X V) as (b & B & PB & DB & M).
  assert (E : d = enc c_tp_ix i) by (apply (try_from_slice_can c_tp_ix) in D as [D _]; [exact D|typeclasses eauto]).
  exists b. split; [exact B|]. split; [exact PB|]. split; [rewrite DB; symmetry; exact E|].
  unfold tp_process. rewrite D. cbn [ok_or]. change (run (ctx_of tp_id (i_metas b)) (tp_exec e ext (ctx_of tp_id (i_metas b)) i) s = Ok s').
  rewrite (covered_deaf e ext s ms i _ V).
  apply (run_mim (ctx_of tp_id ms) _ (tp_exec e deaf (ctx_of tp_id ms) i)); try exact H; try apply ctx_wr_in; try exact (M deaf);
    (apply ro_tp_exec; [intros ? ? ? ? ? Q; discriminate Q|intros k K; exact K]).
Qed.

(** ** Native proxy *)

(** native-proxy/src/bindings.rs *)
Inductive np_built (e : env) : instr -> Prop :=
| nb_deposit f a sd z r v ev p x : np_deposit_ix e f a sd z r v ev p = Ok x -> np_built e x.

Definition np_exec (e : env) (ext : extern) (c : ctx) (i : np_ix) : M unit :=
  match i with NpDeposit a b r v ev p => np_deposit e ext c a b r v ev p end.

Lemma np_deposit_shown e ext c sd z rc v ev p s r : c_pid c = np_id -> np_deposit e ext c sd z rc v ev p s = Ok r ->
  exists b, np_built e b /\ i_pid b = np_id /\ i_data b = enc c_np_ix (NpDeposit sd z rc v ev p) /\
  mim s (np_deposit e ext c sd z rc v ev p) (np_deposit e ext (ctx_of np_id (i_metas b)) sd z rc v ev p).
Proof.
  intros P H. destruct r. unfold np_deposit in H. mkeys H. repeat xstep H. clear H. mfacts. subst.
  match goal with X : deposit_sol_metas _ _ _ _ _ _ = Ok _ |- _ => rename X into LM end. unfold deposit_sol_metas in LM.
  destruct (find_pda e (sd_vault native_mint) tp_id) as [[vault vn]|] eqn:FV; [|discriminate LM]. cbn [fst_r rbind] in LM.
  destruct (find_pda e sd_settings tp_id) as [[settings sn]|] eqn:FS; [|discriminate LM]. cbn [fst_r rbind] in LM.
  destruct (find_pda e sd_multivault tp_id) as [[mv mn]|] eqn:FM; [|discriminate LM]. cbn [fst_r rbind] in LM.
  destruct (find_pda e (sd_ts_sol native_mint) tp_id) as [[tsk tn]|] eqn:FT; [|discriminate LM]. cbn [fst_r rbind] in LM.
  destruct (find_pda e (sd_deposit sd) tp_id) as [[deposit dn]|] eqn:FD; [|discriminate LM]. clear LM.
  match goal with X : find_pda e (ata_seeds _ _) _ = Ok (_, ?n) |- _ => rename X into FA end.
  eexists. split; [eapply (nb_deposit e k k0 sd z rc v ev p)|]. { unfold np_deposit_ix. xbuilt. }
  clear - P EK FV FS FM FT FD FA. split; [reflexivity|]. split; [reflexivity|]. cbn [i_metas]. mm_start EK.
  unfold np_deposit. rewrite EK, K'.
  repeat lazymatch goal with |- mim _ (cpi _ _ tp_id _ _ _) _ => fail | _ => mm end.
  match goal with X : deposit_sol_metas _ _ _ _ _ _ = Ok _ |- _ => rename X into LM end. unfold deposit_sol_metas in LM.
  rewrite FV, FS, FM, FT, FD in LM. cbn [fst_r rbind] in LM. injection LM as <-.
  apply mim_cpi; [mm_flag|]. rewrite <- K'. cbn [forallb].
  rewrite !meta_ok_intro; try reflexivity; try mm_flag; intros Q; try discriminate Q; try mm_flag; left; mm_flag.
Qed.

Lemma ro_np_exec w e ext c i : ext_ro ext -> sub c w -> rel (roR w) (np_exec e ext c i).
Proof.
  intros X S. destruct i. unfold np_exec, np_deposit.
  assert (N : forall c' d, sub c' w -> rel (roR w) (as_nested (fun c0 => tp_process e ext c0 d) c')).
  { intros c' d S' s0 a s1 H. unfold as_nested, run in H.
    destruct (tp_process e ext c' d s0) as [[[] s2]|] eqn:T; [|discriminate H].
    destruct (_ =? _); [|discriminate H]. cbn [rbind] in H. injection H as _ <-.
    eapply (ro_tp_process w e ext c' d X S'). exact T. }
  repeat lazymatch goal with
    | |- rel _ (cpi _ _ _ _ _ (as_nested _)) => apply ro_cpi; [exact S|intros c' S'; apply N; exact S']
    | _ => ro_step end.
Qed.

(** Whatever an account list and instruction data achieve with the native proxy, the builder's instruction with the same
    data achieves. *)
Theorem C55_native_proxy : forall e ext ms d i s s', ext_ro ext ->
  run (ctx_of np_id ms) (np_process e ext (ctx_of np_id ms) d) s = Ok s' -> try_from_slice c_np_ix d = Some i ->
  exists b, np_built e b /\ i_pid b = np_id /\ i_data b = d /\
  run (ctx_of np_id (i_metas b)) (np_process e ext (ctx_of np_id (i_metas b)) d) s = Ok s'.
Proof.
  intros e ext ms d i s s' XR H D. unfold np_process in H. apply (run_bind_lift _ _ _ _ i) in H; [|exact D].
  change (run (ctx_of np_id ms) (np_exec e ext (ctx_of np_id ms) i) s = Ok s') in H.
  assert (X : exists r, np_exec e ext (ctx_of np_id ms) i s = Ok r).
  { unfold run in H. destruct (np_exec _ _ _ i s); [eexists; reflexivity|discriminate]. }
  destruct X as (r & X).
  assert (E : d = enc c_np_ix i) by (apply (try_from_slice_can c_np_ix) in D as [D _]; [exact D|typeclasses eauto]).
  destruct i as [sd z rc v ev p]. cbn [np_exec] in X.
  destruct (np_deposit_shown e ext (ctx_of np_id ms) _ _ _ _ _ _ _ _ eq_refl X) as (b & B & PB & DB & M).
  exists b. split; [exact B|]. split; [exact PB|]. split; [rewrite DB; symmetry; exact E|].
  unfold np_process. rewrite D. cbn [ok_or].
  change (run (ctx_of np_id (i_metas b)) (np_exec e ext (ctx_of np_id (i_metas b)) (NpDeposit sd z rc v ev p)) s = Ok s').
  apply (run_mim (ctx_of np_id ms) _ (np_exec e ext (ctx_of np_id ms) (NpDeposit sd z rc v ev p))); try exact H; try apply ctx_wr_in; try exact M;
    (apply ro_np_exec; [exact XR|intros k K; exact K]).
Qed.

(** ** The fill builder without a vault *)

(** token-proxy/src/bindings.rs:1208-1210 adds the vault only when the caller passes one; without it no call succeeds. *)
Lemma fill_metas_keys e mint l : forall ms, fill_metas e mint l = Ok ms -> exists prs, map m_key ms = flat prs.
Proof.
  induction l as [|[w t] l IH]; intros ms H; cbn [fill_metas] in H; [injection H as <-; exists []; reflexivity|].
  destruct (ata_addr e t mint) as [rt|]; [|discriminate H]. cbn [rbind] in H.
  destruct (fill_metas e mint l) as [ms0|]; [|discriminate H]. cbn [rbind] in H. injection H as <-.
  destruct (IH ms0 eq_refl) as (prs & K). exists ((w, rt) :: prs). cbn [map flat flat_map app]. rewrite K. reflexivity.
Qed.
Lemma fill_loop_even e c a at_ m dk f prs : forall fees nets s x, fill_loop e c a at_ m dk f fees nets (flat prs) s = Ok x ->
  snd (fst x) = [].
Proof.
  induction prs as [|[w rt] l IH]; intros fees nets s x H.
  - injection H as <-. reflexivity.
  - cbn [flat flat_map app fill_loop] in H. apply bind_ok in H as ([fe ne] & s1 & _ & H). eapply IH. exact H.
Qed.

Theorem C55_fill_without_vault : forall e ext f a m sd r z l v ev p b s s',
  okb c_tp_ix (TpFill sd r z v ev p) = true ->
  fill_withdrawal_sol_ix e f a m sd r z l None v ev p = Ok b ->
  run (ctx_of tp_id (i_metas b)) (tp_process e ext (ctx_of tp_id (i_metas b)) (i_data b)) s <> Ok s'.
Proof.
  intros e ext f a m sd r z l v ev p b s s' O B H. unfold fill_withdrawal_sol_ix in B.
  destruct (ata_addr e a m) as [at_|]; [|discriminate B]. cbn [rbind] in B.
  destruct (tp_settings_addr e) as [ks|]; [|discriminate B]. cbn [rbind] in B.
  destruct (tp_multivault_addr e) as [km|]; [|discriminate B]. cbn [rbind] in B.
  destruct (tp_deposit_addr e sd) as [kd|]; [|discriminate B]. cbn [rbind] in B.
  destruct (tp_token_sol_addr e m) as [kt|]; [|discriminate B]. cbn [rbind] in B.
  destruct (fill_metas e m l) as [ms|] eqn:FM; [|discriminate B]. cbn [rbind] in B.
  apply fill_metas_keys in FM as (prs & K). unfold tp_build in B. apply ok_inj in B. subst b. cbn [i_metas i_data] in H.
  rewrite app_nil_r in H. unfold tp_process in H.
  apply (run_bind_lift _ _ _ _ (TpFill sd r z v ev p)) in H; [|apply try_from_slice_rt; [typeclasses eauto|exact O]].
  cbn [tp_exec] in H. set (c := ctx_of tp_id _) in H.
  assert (EK : c_keys c = f :: a :: at_ :: m :: kd :: ks :: sys_id :: kt :: spl_id :: rent_id :: km :: flat prs).
  { unfold c, ctx_of. cbn [c_keys]. rewrite map_app, K. reflexivity. }
  clearbody c. unfold run in H. destruct (tp_fill e c sd r z v ev p s) as [[u s1]|] eqn:X; [|discriminate H]. clear H.
  unfold tp_fill in X. rewrite EK in X. repeat xstep X.
  match goal with Y : fill_loop _ _ _ _ _ _ _ _ _ _ _ = Ok _ |- _ => apply fill_loop_even in Y; cbn [fst snd] in Y; subst end.
  discriminate X.
Qed.

(** The full statement is false: this builder call lists accounts the processor never accepts. *)
Theorem C55_refuted : exists e f a m sd r z l v ev p b, okb c_tp_ix (TpFill sd r z v ev p) = true /\
  fill_withdrawal_sol_ix e f a m sd r z l None v ev p = Ok b /\
  forall ext s s', run (ctx_of tp_id (i_metas b)) (tp_process e ext (ctx_of tp_id (i_metas b)) (i_data b)) s <> Ok s'.
Proof.
  destruct (fill_withdrawal_sol_ix te tfunder tuser native_mint 5 teverX 700000 [(tw2, tuser)] None 10 (knum 72) []) as [b|] eqn:B;
    [|vm_compute in B; discriminate B].
  exists te, tfunder, tuser, native_mint, 5, teverX, 700000, [(tw2, tuser)], 10, (knum 72), [], b.
  split; [vm_compute; reflexivity|]. split; [exact B|]. intros ext s s'.
  refine (C55_fill_without_vault te ext _ _ _ _ _ _ _ _ _ _ b s s' _ B). vm_compute; reflexivity.
Qed.

(** ** Instances *)

(** A relay votes with two accounts too many; a proposal is executed. *)
Example C55_round_loader_ex :
  let ok ms i s := is_ok (run (ctx_of rl_id ms) (rl_process de (ctx_of rl_id ms) (enc c_rl_ix i)) s) = true /\
    try_from_slice c_rl_ix (enc c_rl_ix i) = Some i /\ rl_covered de ms i in
  ok (fst (de_vote de_r10 (knum 21)) ++ [ro sys_id; sw (knum 77)]) (snd (de_vote de_r10 (knum 21))) ds7 /\
  ok (fst de_exec) (snd de_exec) ds10.
Proof.
  cbv zeta. split.
  - split; [vm_compute; reflexivity|]. split; [vm_compute; reflexivity|]. exact Logic.I.
  - split; [vm_compute; reflexivity|]. split; [vm_compute; reflexivity|]. exists 5, de_r5. split; vm_compute; reflexivity.
Qed.

(** A vote with extra accounts, a first withdrawal of an Ever token, a withdrawal from the vault, an approval and a
    cancellation. *)
Example C55_token_proxy_ex :
  let ok x s := is_ok (run (ctx_of tp_id (fst x)) (tp_process te no_ext (ctx_of tp_id (fst x)) (enc c_tp_ix (snd x))) s) = true /\
    try_from_slice c_tp_ix (enc c_tp_ix (snd x)) = Some (snd x) /\ tp_covered te s (fst x) (snd x) in
  ok (fst (tvote trelay1 tw1 tround) ++ [sw tstranger; ro tset], TpVote VConfirm) ts3 /\
  ok (texecE tw5 trecvE tregE) ts7 /\ ok (texecS tw1 trecvS tmintS) ts4 /\
  ok (tapprS twman tw1 trecvS) ts16 /\ ok (tcancel trecv tw2) ts11.
Proof.
  cbv zeta.
  assert (ST : forall s, is_ok (unpack c_token_settings TP_LEN tk_init (dat (accs s ttsS))) = true ->
    tk_kind (the_token s ttsS) = TKSol tmintS tvault -> settings_of s ttsS tmintS).
  { intros s O K. exists (the_token s ttsS), tvault. split; [|exact K]. unfold the_token. revert O. destruct (unpack c_token_settings TP_LEN tk_init (dat (accs s ttsS))); [reflexivity|discriminate]. }
  split; [split; [vm_compute; reflexivity|]; split; [vm_compute; reflexivity|exact Logic.I]|].
  split.
  { split; [vm_compute; reflexivity|]. split; [vm_compute; reflexivity|]. exists ttsE. split; [reflexivity|]. right.
    exists tw5, tmintE, trecvE, tfunder, (the_wever ts7 tw5). do 4 (split; [reflexivity|]). split; [|vm_compute; reflexivity].
    split; [vm_compute; reflexivity|]. unfold request_addr. eexists. eexists. split; [vm_compute; reflexivity|vm_compute; reflexivity]. }
  split. { split; [vm_compute; reflexivity|]. split; [vm_compute; reflexivity|]. exists ttsS, tmintS. split; [reflexivity|]. split; [reflexivity|].
    apply ST; vm_compute; reflexivity. }
  split. { split; [vm_compute; reflexivity|]. split; [vm_compute; reflexivity|]. exists tset, twman. split; [reflexivity|]. split; [reflexivity|].
    eexists. split; vm_compute; reflexivity. }
  split; [vm_compute; reflexivity|]. split; [vm_compute; reflexivity|]. exists ttsS, tmintS. split; [reflexivity|]. split; [reflexivity|].
  apply ST; vm_compute; reflexivity.
Qed.

(** Wrapping and depositing SOL. *)
Example C55_native_proxy_ex : ext_ro no_ext /\
  is_ok (run (ctx_of np_id tnative) (np_process te no_ext (ctx_of np_id tnative) (enc c_np_ix tnp)) ts2) = true /\
  try_from_slice c_np_ix (enc c_np_ix tnp) = Some tnp.
Proof. split; [intros c d s a s' H; discriminate H|]. split; vm_compute; reflexivity. Qed.

Print Assumptions C55_round_loader_partial.
Print Assumptions C55_token_proxy_partial.
Print Assumptions C55_native_proxy.
Print Assumptions C55_fill_without_vault.
Print Assumptions C55_refuted.
