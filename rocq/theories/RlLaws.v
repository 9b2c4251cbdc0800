(** What each instruction of the round loader does when it succeeds. *)

From Coq Require Import ZifyBool ZifyNat ZifyN.
From Verif Require Export HelperLaws RoundLoader.
Ltac Zify.zify_post_hook ::= Z.div_mod_to_equations.

(** ** What the accounts of a state say *)

(** The account at [k] is the settings account of program [pid] and holds [st]. *)
Definition rl_settings_in (e : env) (pid : key) (s : state) (k : key) (st : rl_settings) (pn : Z) : Prop :=
  unpack c_rl_settings RL_SETTINGS_LEN rs_init (dat (accs s k)) = Ok st /\
  exists n, rs_kind st = KSettings n pn /\ find_pda e sd_settings pid = Ok (k, n).
(** The account at [k] is the relay-round account of the round it holds. *)
Definition round_in (e : env) (pid : key) (s : state) (k : key) (rr : relay_round) : Prop :=
  unpack c_relay_round RELAY_ROUND_LEN rr_init (dat (accs s k)) = Ok rr /\
  exists n, rr_kind rr = KRelayRound n /\ find_pda e (sd_relay_round (rr_number rr)) pid = Ok (k, n).
(** [k] is the address derived from the content of proposal [p]. *)
Definition proposal_addr (e : env) (pid : key) (k : key) (p : rl_proposal) : Prop :=
  exists n pn, p_kind p = KProposal n pn /\
  find_pda e (sd_proposal (p_round p) (pd_ts (p_pda p)) (pd_lt (p_pda p)) (pd_conf (p_pda p))
     (e_hash e (enc c_rl_event (wl_data (p_event p))))) pid = Ok (k, n).
(** The upgrade authority of program [pid]. *)
Definition upgrade_auth (e : env) (pid : key) (s : state) (k : key) : Prop :=
  exists pd n, find_pda e (sd_programdata pid) loader_id = Ok (pd, n) /\
               upgrade_authority (dat (accs s pd)) = Some k.

Lemma rl_valid_settings_ok e c k s r s' : rl_valid_settings e c k s = Ok (r, s') ->
  s' = s /\ rl_settings_in e (c_pid c) s k (fst r) (snd r).
Proof.
  unfold rl_valid_settings, rl_settings_at. intros H. minv H. split; [reflexivity|].
  match goal with X : into_settings _ = _ |- _ => apply into_settings_ok in X end.
  match goal with X : validate_pda _ _ _ _ _ = _ |- _ => apply validate_pda_ok in X as [_ ?] end.
  split; [first [pdaok|assumption]|]. cbn [fst snd]. eauto.
Qed.
Lemma rl_valid_round_ok e c k s r s' : rl_valid_round e c k s = Ok (r, s') ->
  s' = s /\ round_in e (c_pid c) s k r.
Proof.
  unfold rl_valid_round, relay_round_at. intros H. minv H. split; [reflexivity|].
  match goal with X : into_relay_round _ = _ |- _ => apply into_relay_round_ok in X end.
  match goal with X : validate_pda _ _ _ _ _ = _ |- _ => apply validate_pda_ok in X as [_ ?] end.
  split; [first [pdaok|assumption]|]. eauto.
Qed.
Lemma rl_valid_proposal_ok e c k p s r s' : rl_valid_proposal e c k p s = Ok (r, s') ->
  s' = s /\ r = k /\ proposal_addr e (c_pid c) k p.
Proof.
  unfold rl_valid_proposal. intros H. minv H.
  match goal with X : into_proposal _ = _ |- _ => apply into_proposal_ok in X end.
  match goal with X : validate_pda _ _ _ _ _ = _ |- _ => apply validate_pda_ok in X as [-> ?] end.
  split; [reflexivity|]. split; [reflexivity|]. do 2 eexists. eauto.
Qed.
Lemma rl_proposal_at_ok k s p s' : rl_proposal_at k s = Ok (p, s') ->
  s' = s /\ unpack c_rl_proposal RL_PROPOSAL_LEN (@p_init _ _) (dat (accs s k)) = Ok p.
Proof. unfold rl_proposal_at. intros H. apply unpack_at_ok in H as [H ->]. auto. Qed.

(** ** Handlers *)

(** Steps through the validation blocks. *)
Ltac rstep H :=
  mstep H;
  repeat match goal with
  | X : rl_valid_settings _ _ _ _ = Ok (?v, _) |- _ =>
      let V := fresh "VS" in let E := fresh "E" in
      apply rl_valid_settings_ok in X; destruct X as [E V]; destruct v as [st pn]; cbn [fst snd] in V; subst
  | X : rl_valid_round _ _ _ _ = Ok (?v, _) |- _ =>
      let V := fresh "VR" in let E := fresh "E" in
      apply rl_valid_round_ok in X; destruct X as [E V]; rename v into rr; subst
  | X : rl_valid_proposal _ _ _ _ _ = Ok (?v, _) |- _ =>
      let V := fresh "VP" in let E := fresh "E" in let E' := fresh "E" in
      apply rl_valid_proposal_ok in X; destruct X as (E & E' & V); subst
  | X : rl_proposal_at _ _ = Ok (?v, _) |- _ =>
      let V := fresh "HU" in let E := fresh "E" in
      apply rl_proposal_at_ok in X; destruct X as (E & V); rename v into p; subst
  end.

(** [k] is an account of the system program that holds at least [z] lamports. *)
Definition pays (s : state) (k : key) (z : Z) : Prop := z <= lam (accs s k) /\ own (accs s k) = sys_id.

(** Owner and data of [k] after writing record [x] there. *)
Definition wrote {A} (c : codec A) (s s' : state) (k : key) (x : A) : Prop :=
  own (accs s' k) = own (accs s k) /\
  dat (accs s' k) = enc c x ++ skipn (length (enc c x)) (dat (accs s k)) /\
  blen (enc c x) <= blen (dat (accs s k)).

Lemma wrote_unpack {A} (cd : codec A) (L : Lawful cd) LEN s s' k x :
  wrote cd s s' k x -> blen (dat (accs s k)) = LEN -> okb cd x = true ->
  unpack_unchecked cd LEN (dat (accs s' k)) = Ok x.
Proof.
  intros (_ & E & B) H O. rewrite E. apply unpack_unchecked_enc; [exact L|exact O|].
  rewrite blen_app. unfold blen in *. rewrite skipn_length. lia.
Qed.
Lemma wrote_blen {A} (cd : codec A) s s' k x :
  wrote cd s s' k x -> blen (dat (accs s' k)) = blen (dat (accs s k)).
Proof. intros (_ & E & B). rewrite E, blen_app. unfold blen in *. rewrite skipn_length. lia. Qed.

Lemma rl_initialize_ok e c g sub mv ttl s a s' :
  rl_initialize e c g sub mv ttl s = Ok (a, s') ->
  exists funder ini settings programdata system rest sn pn,
    c_keys c = funder :: ini :: settings :: programdata :: system :: rent_id :: rest /\
    c_sg c ini = true /\
    find_pda e (sd_programdata (c_pid c)) loader_id = Ok (programdata, pn) /\
    upgrade_authority (dat (accs s programdata)) = Some ini /\
    find_pda e sd_settings (c_pid c) = Ok (settings, sn) /\
    fresh_record c_rl_settings RL_SETTINGS_LEN (RlSettings true (KSettings sn pn) g sub mv ttl)
      (c_pid c) s s' settings /\
    (forall k, k <> settings -> same_od s s' k) /\ same_env s s' /\
    dlam s s' (fun k => at_key settings (Z.max 1 (rent_min e RL_SETTINGS_LEN)) k
                      - at_key funder (Z.max 1 (rent_min e RL_SETTINGS_LEN)) k) /\
    pays s funder (Z.max 1 (rent_min e RL_SETTINGS_LEN)).
Proof.
  unfold rl_initialize. intros H. mkeys H. repeat mstep H. mfacts. subst.
  apply invoke_create_ok in H6 as (C & E1 & D & P1 & _ & _ & _ & P2 & _).
  assert (PY : pays s _ _) by (split; [exact P1|apply P2; lia]).
  pose proof C as C'. destruct C' as (_ & _ & _ & _ & _ & C6).
  eapply created_pack in H as [F Hs']; [|exact C|apply same_od_refl].
  do 8 eexists. split; [reflexivity|]. split; [first [pdaok|assumption]|]. split; [first [pdaok|eassumption]|].
  split; [first [pdaok|assumption]|]. split; [first [pdaok|eassumption]|]. split; [exact F|]. rewrite Hs'. split; [|split].
  - intros j Hj. eapply same_od_trans; [apply C6; exact Hj|]. apply same_od_put_dat_other. exact Hj.
  - exact E1.
  - split; [intros j'; rewrite lam_put_dat; apply D|exact PY].
Qed.

Lemma rl_update_settings_ok e c cur sub mv ttl s a s' :
  rl_update_settings e c cur sub mv ttl s = Ok (a, s') ->
  exists author settings programdata rest st pn,
    c_keys c = author :: settings :: programdata :: rest /\
    c_sg c author = true /\
    rl_settings_in e (c_pid c) s settings st pn /\ own (accs s settings) = c_pid c /\
    find_pda e (sd_programdata (c_pid c)) loader_id = Ok (programdata, pn) /\
    upgrade_authority (dat (accs s programdata)) = Some author /\
    let st' := RlSettings (rs_init st) (rs_kind st) (opt_or cur (rs_current st))
         (opt_or sub (rs_submitter st)) (opt_or mv (rs_min_votes st)) (opt_or ttl (rs_ttl st)) in
    s' = put_dat s settings (enc c_rl_settings st'
           ++ skipn (length (enc c_rl_settings st')) (dat (accs s settings))) /\
    blen (enc c_rl_settings st') <= blen (dat (accs s settings)).
Proof.
  unfold rl_update_settings. intros H. mkeys H.
  mstep H. mstep H. apply rl_valid_settings_ok in H1 as [-> V]. destruct v0 as [st pn]. cbn [fst snd] in V.
  repeat mstep H. mfacts. apply pack_at_eff in H as (-> & B1 & _ & B3 & _). rewrite <- B1 in B3.
  do 6 eexists. split; [reflexivity|]. split; [first [pdaok|assumption]|]. split; [first [pdaok|eassumption]|].
  split; [first [pdaok|assumption]|]. split; [first [pdaok|eassumption]|]. split; [first [pdaok|assumption]|].
  split; [reflexivity|exact B3].
Qed.

Lemma rl_new_round_ok e c funder settings rrk st round relays round_end s a s' :
  rl_new_round e c funder settings rrk st round relays round_end s = Ok (a, s') ->
  exists rn,
    find_pda e (sd_relay_round round) (c_pid c) = Ok (rrk, rn) /\
    settings <> rrk /\
    fresh_record c_relay_round RELAY_ROUND_LEN
      (RelayRound true (KRelayRound rn) round (wrap32 (round_end + rs_ttl st)) relays)
      (c_pid c) s s' rrk /\
    dat (accs s' settings) =
      enc c_rl_settings (rs_with_current st round)
      ++ skipn (length (enc c_rl_settings (rs_with_current st round))) (dat (accs s settings)) /\
    own (accs s' settings) = own (accs s settings) /\
    blen (enc c_rl_settings (rs_with_current st round)) <= blen (dat (accs s settings)) /\
    (dat (accs s settings) = dat (accs s' settings) \/
     own (accs s settings) = c_pid c /\ c_wr c settings = true) /\
    (forall k, k <> settings -> k <> rrk -> same_od s s' k) /\ same_env s s' /\
    dlam s s' (fun k => at_key rrk (Z.max 1 (rent_min e RELAY_ROUND_LEN)) k
                      - at_key funder (Z.max 1 (rent_min e RELAY_ROUND_LEN)) k) /\
    pays s funder (Z.max 1 (rent_min e RELAY_ROUND_LEN)).
Proof.
  unfold rl_new_round. intros H. repeat mstep H. mfacts. subst.
  apply invoke_create_ok in H2 as (C & E1 & D & P1 & _ & _ & _ & P2 & _).
  assert (PY : pays s _ _) by (split; [exact P1|apply P2; lia]).
  pose proof C as C'. destruct C' as (_ & _ & _ & _ & _ & C6).
  eapply created_pack in H3 as [F Hs']; [|exact C|apply same_od_refl].
  apply pack_at_eff in H as (-> & B1 & B2 & B3 & W).
  assert (Hne : settings <> rrk).
  { intros ->. destruct F as (_ & _ & r & _ & _ & B). rewrite B1 in B. discriminate. }
  rewrite Hs' in *. rewrite dat_put_dat_other, own_put_dat in * by assumption.
  destruct (C6 settings Hne) as [G1 G2]. rewrite G1, G2 in *.
  exists z. split; [first [pdaok|assumption]|]. split; [first [pdaok|assumption]|]. split.
  { destruct F as (F1 & F2 & r & F3 & F4 & F5). split; [exact F1|]. rewrite own_put_dat. split; [exact F2|].
    exists r. rewrite dat_put_dat_other by congruence. auto. }
  split; [rewrite dat_put_dat; reflexivity|]. split; [rewrite !own_put_dat; assumption|].
  split; [rewrite B1; exact B3|]. split; [rewrite dat_put_dat; exact W|]. split; [|split].
  - intros j K1 K2. eapply same_od_trans; [apply C6; exact K2|].
    eapply same_od_trans; apply same_od_put_dat_other; assumption.
  - exact E1.
  - split; [intros j'; rewrite !lam_put_dat; apply D|exact PY].
Qed.

Lemma rl_create_relay_round_ok e c round relays round_end s a s' :
  rl_create_relay_round e c round relays round_end s = Ok (a, s') ->
  exists funder creator settings rrk system rest st pn,
    c_keys c = funder :: creator :: settings :: rrk :: system :: rent_id :: rest /\
    c_sg c creator = true /\ rl_settings_in e (c_pid c) s settings st pn /\ rs_submitter st = creator /\
    (rs_current st = 0 \/ rs_current st <= round) /\
    rl_new_round e c funder settings rrk st round relays round_end s = Ok (a, s').
Proof.
  unfold rl_create_relay_round. intros H. mkeys H. repeat rstep H. mfacts.
  do 8 eexists. split; [reflexivity|]. split; [pdaok|]. split; [exact VS|]. split; [assumption|].
  split; [|exact H]. lia.
Qed.

Lemma rl_create_proposal_ok e c round ts lt conf h s a s' :
  rl_create_proposal e c round ts lt conf h s = Ok (a, s') ->
  exists funder creator proposal system rest pn,
    c_keys c = funder :: creator :: proposal :: system :: rent_id :: rest /\
    c_sg c creator = true /\
    find_pda e (sd_proposal round ts lt conf h) (c_pid c) = Ok (proposal, pn) /\
    ((lam (accs s proposal) <> 0 /\ s' = s) \/
     (lam (accs s proposal) = 0 /\
      fresh_record c_rl_proposal RL_PROPOSAL_LEN
        (Prop_ false (KProposal pn None) creator round 0 (Pda ts lt conf)
           (WithLen 0 (RlEvent 0 [] 0)) (WithLen 1 PNew) []) (c_pid c) s s' proposal /\
      (forall k, k <> proposal -> same_od s s' k) /\ same_env s s' /\
      dlam s s' (fun k => at_key proposal (Z.max 1 (rent_min e RL_PROPOSAL_LEN)) k
                        - at_key funder (Z.max 1 (rent_min e RL_PROPOSAL_LEN)) k) /\
      pays s funder (Z.max 1 (rent_min e RL_PROPOSAL_LEN)))).
Proof.
  unfold rl_create_proposal. intros H. mkeys H. repeat mstep H. mfacts. subst.
  match goal with X : find_pda e (sd_proposal _ _ _ _ _) _ = Ok (?p, ?z) |- _ =>
    rename X into HP; set (pk := p) in *; set (pz := z) in * end.
  exists k, k0, pk, k2, l, pz. split; [reflexivity|]. split; [pdaok|]. split; [pdaok|].
  destruct (Z.eqb_spec (lam (accs s pk)) 0) as [E|E].
  - right. split; [exact E|]. mstep H. apply invoke_create_ok in H1 as (C & E1 & D & P1 & _ & _ & _ & P2 & _).
  assert (PY : pays s _ _) by (split; [exact P1|apply P2; lia]).
    pose proof C as C'. destruct C' as (_ & _ & _ & _ & _ & C6).
    eapply created_pack in H as [F Hs']; [|exact C|apply same_od_refl].
    split; [exact F|]. rewrite Hs'. split; [|split].
    + intros j Hj. eapply same_od_trans; [apply C6; exact Hj|]. apply same_od_put_dat_other. exact Hj.
    + exact E1.
    + split; [intros j'; rewrite lam_put_dat; apply D|exact PY].
  - left. split; [exact E|]. msimple H. reflexivity.
Qed.

Lemma rl_write_proposal_ok c offset b s a s' :
  rl_write_proposal c offset b s = Ok (a, s') ->
  exists proposal rest d',
    c_keys c = proposal :: rest /\
    (forall p, unpack_unchecked c_rl_proposal RL_PROPOSAL_LEN (dat (accs s proposal)) = Ok p ->
               p_init p = false) /\
    write_proposal_data (dat (accs s proposal)) offset b = Ok d' /\
    s' = put_dat s proposal d' /\
    (dat (accs s proposal) = d' \/ own (accs s proposal) = c_pid c /\ c_wr c proposal = true).
Proof.
  unfold rl_write_proposal. intros H. mkeys H. repeat mstep H.
  apply set_data_ok in H as [-> W].
  do 3 eexists. split; [reflexivity|]. split; [|split; [eassumption|split; [reflexivity|exact W]]].
  intros p P. rewrite P in *. mfacts. assumption.
Qed.

Lemma enc_prop_init {E M_} (ce : codec E) (cm : codec M_) (p : prop E M_) :
  exists t, enc (c_prop ce cm) p = (if p_init p then x01 else x00) :: t.
Proof. unfold c_prop. cbn [c_iso enc c_pair fst snd c_bool app]. eexists. reflexivity. Qed.

Lemma enc_rl_prop_init (p : rl_proposal) :
  exists t, enc c_rl_proposal p = (if p_init p then x01 else x00) :: t.
Proof. apply (enc_prop_init (c_withlen c_rl_event) (c_withlen c_pstatus) p). Qed.

Lemma rl_finalize_ok e c s a s' : rl_finalize e c s = Ok (a, s') ->
  exists funder proposal settings rrk system rest st pn p rr,
    c_keys c = funder :: proposal :: settings :: rrk :: system :: rest /\
    rl_settings_in e (c_pid c) s settings st pn /\
    unpack_unchecked c_rl_proposal RL_PROPOSAL_LEN (dat (accs s proposal)) = Ok p /\
    p_init p = false /\ proposal_addr e (c_pid c) proposal p /\
    round_in e (c_pid c) s rrk rr /\
    own (accs s proposal) = c_pid c /\ c_wr c proposal = true /\
    let p' := Prop_ true (p_kind p) (p_author p) (rr_number rr)
         (Z.max (two_thirds (blen (rr_relays rr))) (rs_min_votes st))
         (p_pda p) (p_event p) (WithLen 1 PNew)
         (repeat VNone (length (rr_relays rr))) in
    wrote c_rl_proposal s s' proposal p' /\ blen (enc c_rl_proposal p') <= RL_PROPOSAL_LEN /\
    (forall k, k <> proposal -> same_od s s' k) /\ same_env s s' /\
    let amt := wrap64 (RELAY_REPARATION * blen (rr_relays rr)) in
    dlam s s' (fun k => at_key proposal amt k - at_key funder amt k) /\ dat (accs s funder) = [] /\
    amt <= lam (accs s funder) /\ (0 < amt -> own (accs s funder) = sys_id).
Proof.
  unfold rl_finalize. intros H. mkeys H. repeat rstep H.
  match goal with X : pack_at _ _ _ _ _ _ = _ |- _ =>
    apply pack_at_eff in X as (-> & B1 & B2 & B3 & W) end.
  match goal with X : unpack_unchecked _ _ _ = Ok ?v |- _ => rename X into HU; rename v into p end.
  apply invoke_transfer_ok in H as (T1 & T2 & T3 & T4 & T5 & T6 & _ & _ & T7 & _).
  rewrite lam_put_dat in T3. rewrite own_put_dat in T7.
  mfacts.
  match type of W with _ = enc _ ?p' ++ _ \/ _ => set (pp := p') in * end.
  assert (W' : own (accs s k0) = c_pid c /\ c_wr c k0 = true).
  { destruct W as [W|W]; [exfalso|exact W].
    apply unpack_unchecked_ok in HU as (r & HU & _); [|typeclasses eauto].
    destruct (enc_rl_prop_init p) as [t1 E1].
    destruct (enc_rl_prop_init pp) as [t2 E2].
    rewrite HU in W at 1. rewrite E1, E2 in W. cbn [app] in W.
    rewrite H1 in W. discriminate. }
  exists k, k0, k1, k2, k3, l, st, pn, p, rr.
  split; [reflexivity|]. split; [exact VS|]. split; [exact HU|]. split; [assumption|].
  split; [exact VP|]. split; [exact VR|]. split; [apply W'|]. split; [apply W'|].
  cbv zeta. fold pp. split; [|split; [exact B3|split; [|split]]].
  - destruct (T4 k0) as [X1 X2]. split; [|split].
    + rewrite X1. apply own_put_dat.
    + rewrite X2, dat_put_dat. reflexivity.
    + rewrite B1. exact B3.
  - intros j Hj. eapply same_od_trans; [|apply T4]. apply same_od_put_dat_other. exact Hj.
  - exact T5.
  - split; [intros j; rewrite T6, lam_put_dat; reflexivity|].
    split; [|split; [exact T3|exact T7]].
    destruct (key_dec k k0) as [->|N]; [|rewrite dat_put_dat_other in T2; assumption].
    rewrite dat_put_dat in T2. rewrite T2 in B2. discriminate.
Qed.

(** Two proposals with the same bytes are equal. *)
Lemma prop_bytes_eq {A} (c : codec A) (L : Lawful c) LEN d p p' :
  unpack_unchecked c LEN d = Ok p -> okb c p' = true ->
  d = enc c p' ++ skipn (length (enc c p')) d -> p = p'.
Proof.
  intros HU O E. apply unpack_unchecked_ok in HU as (r & HU & O1 & _); [|exact L].
  rewrite HU in E at 1. apply enc_prefix in E as [E _]; auto.
Qed.

Lemma rl_vote_ok e c v s a s' : rl_vote e c v s = Ok (a, s') ->
  exists voter proposal rrk rest p rr i old,
    c_keys c = voter :: proposal :: rrk :: rest /\
    c_sg c voter = true /\ v <> VNone /\
    unpack c_rl_proposal RL_PROPOSAL_LEN (@p_init _ _) (dat (accs s proposal)) = Ok p /\
    proposal_addr e (c_pid c) proposal p /\ round_in e (c_pid c) s rrk rr /\
    nth_error (rr_relays rr) i = Some voter /\
    (forall j, (j < i)%nat -> nth_error (rr_relays rr) j <> Some voter) /\
    nth_error (p_signers p) i = Some old /\
    ((old <> VNone /\ s' = s) \/
     (old = VNone /\ own (accs s proposal) = c_pid c /\ c_wr c proposal = true /\
      wrote c_rl_proposal s s' proposal (p_with_signers p (set_nth i v (p_signers p))) /\
      (forall k, k <> proposal -> same_od s s' k) /\ same_env s s' /\
      RELAY_REPARATION <= lam (accs s proposal) /\
      dlam s s' (fun k => at_key voter RELAY_REPARATION k - at_key proposal RELAY_REPARATION k))).
Proof.
  unfold rl_vote. intros H. mkeys H. repeat rstep H. mfacts.
  match goal with X : position _ _ = Some ?x |- _ => apply position_ok in X as [N1 N2]; rename x into i end.
  match goal with X : nth_error (p_signers _) i = Some ?x |- _ => rename x into old; rename X into NS end.
  exists k, k0, k1, l, p, rr, i, old. split; [reflexivity|]. split; [pdaok|]. split; [assumption|].
  split; [exact HU|]. split; [exact VP|]. split; [exact VR|]. split; [exact N1|]. split; [exact N2|].
  split; [assumption|].
  destruct (vote_eqb old VNone) eqn:E; mfacts.
  - right. split; [assumption|]. do 3 mstep H.
    match goal with X : set_data _ _ _ _ = _ |- _ => apply set_data_ok in X as [-> W] end.
    apply move_lam_ok in H as (M1 & M2 & M3 & M4 & _).
    match goal with X : pack_into_slice _ _ _ = _ |- _ => apply pack_into_slice_ok in X as [-> Hlen] end.
    apply unpack_unchecked_init in HU as [HU HI].
    match type of W with _ = enc _ ?p' ++ _ \/ _ => set (pp := p') in * end.
    assert (W' : own (accs s k0) = c_pid c /\ c_wr c k0 = true).
    { destruct W as [W|W]; [exfalso|exact W].
      assert (X : p = pp).
      { apply (prop_bytes_eq c_rl_proposal _ _ _ _ _ HU); [|exact W].
        apply okb_with_signers. apply unpack_unchecked_ok in HU as (r & _ & O & _); [exact O|typeclasses eauto]. }
      assert (Y : nth_error (p_signers pp) i = Some v).
      { unfold pp, p_with_signers. cbn [p_signers]. apply set_nth_same. apply nth_error_Some. congruence. }
      rewrite <- X in Y. congruence. }
    split; [apply W'|]. split; [apply W'|]. split.
    { destruct (M1 k0) as [X1 X2]. split; [rewrite X1; apply own_put_dat|]. split; [rewrite X2; apply dat_put_dat|].
      fold pp in Hlen. rewrite app_length, skipn_length in Hlen. unfold blen. lia. }
    split.
    { intros j Hj. eapply same_od_trans; [|apply M1]. apply same_od_put_dat_other. exact Hj. }
    split; [exact M2|]. rewrite lam_put_dat in M3. split; [exact M3|].
    intros j. rewrite M4, lam_put_dat. reflexivity.
  - left. split; [assumption|]. msimple H. reflexivity.
Qed.

Lemma okb_with_meta {E M_} (ce : codec E) (cm : codec M_) (p : prop E M_) m :
  okb (c_prop ce cm) p = true -> okb cm m = true -> okb (c_prop ce cm) (p_with_meta p m) = true.
Proof.
  rewrite !okb_prop. unfold p_with_meta.
  cbn [p_init p_kind p_author p_round p_required p_pda p_event p_meta p_signers].
  intros H ->. repeat (apply andb_true_iff in H; destruct H as [? H]).
  repeat match goal with X : _ = true |- _ => rewrite X; clear X end.
  cbn [andb]. unfold okb, c_vec. apply andb_true_iff. auto.
Qed.

Definition executed (p : rl_proposal) : rl_proposal :=
  p_with_meta p (WithLen (wl_len (p_meta p)) PExecuted).

Lemma okb_executed p : okb c_rl_proposal p = true -> okb c_rl_proposal (executed p) = true.
Proof.
  intros H. unfold executed, c_rl_proposal. apply okb_with_meta; [exact H|].
  assert (H0 := H). unfold c_rl_proposal, rl_proposal in H0, p. rewrite (okb_prop (c_withlen c_rl_event) (c_withlen c_pstatus) p) in H0.
  rewrite !okb_withlen in *.
  repeat match goal with X : _ && _ = true |- _ => apply andb_true_iff in X; destruct X end.
  cbn [wl_len wl_data].
  repeat match goal with X : _ = true |- _ => rewrite X; clear X end. reflexivity.
Qed.

Lemma rl_execute_ok e c s a s' : rl_execute e c s = Ok (a, s') ->
  exists funder settings proposal rrk system rest st pn p,
    c_keys c = funder :: settings :: proposal :: rrk :: system :: rent_id :: rest /\
    rl_settings_in e (c_pid c) s settings st pn /\
    unpack c_rl_proposal RL_PROPOSAL_LEN (@p_init _ _) (dat (accs s proposal)) = Ok p /\
    proposal_addr e (c_pid c) proposal p /\
    (((wl_data (p_meta p) <> PNew \/ wrap32 (confirms (p_signers p)) < p_required p) /\ s' = put_dat s proposal (dat (accs s proposal))) \/
     (wl_data (p_meta p) = PNew /\ p_required p <= wrap32 (confirms (p_signers p)) /\
      own (accs s proposal) = c_pid c /\ c_wr c proposal = true /\ proposal <> settings /\ proposal <> rrk /\
      wrote c_rl_proposal s s' proposal (executed p) /\
      exists s1,
      rl_new_round e c funder settings rrk st (re_round (wl_data (p_event p)))
        (re_relays (wl_data (p_event p))) (re_end (wl_data (p_event p))) s = Ok (tt, s1) /\
      s' = put_dat s1 proposal (dat (accs s' proposal)))).
Proof.
  unfold rl_execute. intros H. mkeys H. repeat rstep H.
  exists k, k0, k1, k2, k3, l, st, pn, p. split; [reflexivity|]. split; [exact VS|]. split; [exact HU|].
  split; [exact VP|].
  pose proof HU as HU2. apply unpack_unchecked_init in HU2 as [HU2 HI].
  destruct (pstatus_eqb _ PNew && _) eqn:G; mfacts.
  - right. split; [assumption|]. split; [lia|]. mstep H.
    match goal with X : rl_new_round _ _ _ _ _ _ _ _ _ _ = Ok (?u, _) |- _ => destruct u; pose proof X as HN;
      rename X into HN0 end. apply rl_new_round_ok in HN0 as (rn & R1 & R2 & R3 & R4 & R5 & R6b & R6 & R7 & R8 & R9).
    apply pack_at_eff in H as (-> & B1 & B2 & B3 & W).
    assert (L0 : blen (dat (accs s k1)) = RL_PROPOSAL_LEN).
    { apply unpack_unchecked_ok in HU2 as (r & _ & _ & B); [exact B|typeclasses eauto]. }
    assert (N1 : k1 <> k0).
    { intros ->. destruct VS as [V _]. apply unpack_unchecked_init in V as [V _].
      apply unpack_unchecked_ok in V as (r & _ & _ & B); [|typeclasses eauto]. rewrite B in L0. discriminate. }
    assert (N2 : k1 <> k2).
    { intros ->. destruct R3 as [(_ & X & _) _]. rewrite X in L0. discriminate. }
    destruct (R7 k1 N1 N2) as [X1 X2]. rewrite X1, X2 in W. rewrite X2 in *.
    assert (W' : own (accs s k1) = c_pid c /\ c_wr c k1 = true).
    { destruct W as [W|W]; [exfalso|exact W].
      assert (X : p = executed p).
      { apply (prop_bytes_eq c_rl_proposal _ _ _ _ _ HU2); [|exact W].
        apply okb_executed. apply unpack_unchecked_ok in HU2 as (r & _ & O & _); [exact O|typeclasses eauto]. }
      rewrite X in *. discriminate. }
    split; [apply W'|]. split; [apply W'|]. split; [exact N1|]. split; [exact N2|]. split.
    { split; [rewrite own_put_dat; exact X1|]. split; [rewrite dat_put_dat; reflexivity|]. rewrite B1. exact B3. }
    exists s0. split; [exact HN|]. rewrite dat_put_dat. reflexivity.
  - left. apply andb_false_iff in G. split.
    + destruct G as [G|G]; [left|right; lia]. intros E. rewrite E in G. discriminate.
    + apply pack_at_eff in H as (-> & _). f_equal. eapply pack_same; [typeclasses eauto|exact HU2].
Qed.

Lemma rl_execute_by_admin_ok e c s a s' : rl_execute_by_admin e c s = Ok (a, s') ->
  exists funder creator settings proposal rrk system rest st pn p,
    c_keys c = funder :: creator :: settings :: proposal :: rrk :: system :: rent_id :: rest /\
    c_sg c creator = true /\
    rl_settings_in e (c_pid c) s settings st pn /\ rs_submitter st = creator /\
    unpack c_rl_proposal RL_PROPOSAL_LEN (@p_init _ _) (dat (accs s proposal)) = Ok p /\
    proposal <> settings /\ proposal <> rrk /\
    wrote c_rl_proposal s s' proposal (executed p) /\
    (wl_data (p_meta p) = PExecuted \/ own (accs s proposal) = c_pid c /\ c_wr c proposal = true) /\
    exists s1,
      rl_new_round e c funder settings rrk st (re_round (wl_data (p_event p)))
        (re_relays (wl_data (p_event p))) (re_end (wl_data (p_event p))) s = Ok (tt, s1) /\
      s' = put_dat s1 proposal (dat (accs s' proposal)).
Proof.
  unfold rl_execute_by_admin. intros H. mkeys H. repeat rstep H. mfacts.
  exists k, k0, k1, k2, k3, k4, l, st, pn, p. split; [reflexivity|]. split; [pdaok|]. split; [exact VS|].
  split; [assumption|]. split; [exact HU|].
  pose proof HU as HU2. apply unpack_unchecked_init in HU2 as [HU2 HI].
  match goal with X : rl_new_round _ _ _ _ _ _ _ _ _ _ = Ok (?u, _) |- _ => destruct u; pose proof X as HN;
    rename X into HN0 end. apply rl_new_round_ok in HN0 as (rn & R1 & R2 & R3 & R4 & R5 & R6b & R6 & R7 & R8 & R9).
  apply pack_at_eff in H as (-> & B1 & B2 & B3 & W).
  assert (L0 : blen (dat (accs s k2)) = RL_PROPOSAL_LEN).
  { apply unpack_unchecked_ok in HU2 as (r & _ & _ & B); [exact B|typeclasses eauto]. }
  assert (N1 : k2 <> k1).
  { intros ->. destruct VS as [V _]. apply unpack_unchecked_init in V as [V _].
    apply unpack_unchecked_ok in V as (r & _ & _ & B); [|typeclasses eauto]. rewrite B in L0. discriminate. }
  assert (N2 : k2 <> k3).
  { intros ->. destruct R3 as [(_ & X & _) _]. rewrite X in L0. discriminate. }
  destruct (R7 k2 N1 N2) as [X1 X2]. rewrite X1, X2 in W. rewrite X2 in *.
  split; [exact N1|]. split; [exact N2|]. split.
  { split; [rewrite own_put_dat; exact X1|]. split; [rewrite dat_put_dat; reflexivity|]. rewrite B1. exact B3. }
  split.
  { destruct W as [W|W]; [left|right; exact W].
    assert (X : p = executed p).
    { apply (prop_bytes_eq c_rl_proposal _ _ _ _ _ HU2); [|exact W].
      apply okb_executed. apply unpack_unchecked_ok in HU2 as (r & _ & O & _); [exact O|typeclasses eauto]. }
    rewrite X. reflexivity. }
  exists s0. split; [exact HN|]. rewrite dat_put_dat. reflexivity.
Qed.
