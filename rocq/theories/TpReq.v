(** A withdrawal request seen independently of its kind: what one instruction and whole histories do to
    it.  No code of /repo is modelled here. *)

From Coq Require Import ZifyBool ZifyNat ZifyN.
From Verif Require Export TpWorld.
Open Scope Z_scope.
Open Scope list_scope.
Ltac Zify.zify_post_hook ::= Z.div_mod_to_equations.

(** * Vocabulary *)

(** [k] is a withdrawal request: an account of the token proxy that reads [g], with meta data [m], at
    the address derived from round, event position, configuration and hash of the event bytes. *)
Definition request_at (e : env) (s : state) (k : key) (g : gprop) (m : wmeta) : Prop :=
  own (accs s k) = tp_id /\ unpack c_gprop TP_LEN (@p_init _ _) (dat (accs s k)) = Ok g /\
  p_meta g = enc c_wmeta m /\ okb c_wmeta m = true /\
  exists wn pn, p_kind g = KProposal wn pn /\
    find_pda e (sd_proposal (p_round g) (pd_ts (p_pda g)) (pd_lt (p_pda g)) (pd_conf (p_pda g)) (e_hash e (p_event g))) tp_id
      = Ok (k, wn).

(** Different event bytes do not give [k] as request address. *)
Definition no_collision (e : env) (k : key) : Prop := forall r ts lt conf b n r' ts' lt' conf' b' n',
  find_pda e (sd_proposal r ts lt conf (e_hash e b)) tp_id = Ok (k, n) ->
  find_pda e (sd_proposal r' ts' lt' conf' (e_hash e b')) tp_id = Ok (k, n') -> b = b'.

(** The record with other meta data or votes. *)
Definition g_meta (g : gprop) (m : wmeta) : gprop := p_with_meta g (enc c_wmeta m).
Definition m_status (m : wmeta) (st : wstatus) : wmeta := WMeta st (wm_bounty m) (wm_epoch m).
Definition m_bounty (m : wmeta) (b : Z) : wmeta := WMeta (wm_status m) b (wm_epoch m).
Definition g_vote (g : gprop) (j : nat) (v : vote) : gprop := p_with_signers g (set_nth j v (p_signers g)).

(** * The view *)

(** A typed record over the same bytes and the same event is the same request. *)
Lemma typed_view {E} (ce : codec E) (LE : Lawful ce) d ini (w : prop (withlen E) (withlen wmeta)) (g : gprop) m LEN ini' :
  unpack (c_prop (c_withlen ce) (c_withlen c_wmeta)) LEN ini d = Ok w -> unpack c_gprop LEN ini' d = Ok g ->
  p_meta g = enc c_wmeta m -> okb c_wmeta m = true -> enc ce (wl_data (p_event w)) = p_event g ->
  g = gen_prop ce c_wmeta w /\ m = wl_data (p_meta w) /\ true_len ce (p_event w) /\ true_len c_wmeta (p_meta w).
Proof.
  intros U G PM OM EV. apply unpack_ok in U as (r & D & OW & _); [|typeclasses eauto].
  apply unpack_ok in G as (r' & D' & OG & _); [|typeclasses eauto]. subst d.
  unfold c_gprop, gprop in OG. rewrite (okb_prop (c_withlen ce)) in OW. rewrite (okb_prop c_bytes c_bytes) in OG. rewrite !andb_true_iff in OW, OG.
  destruct OW as (W1 & W2 & W3 & W4 & W5 & W6 & W7), OG as (G1 & G2 & G3 & G4 & G5 & G6 & G7).
  rewrite okb_withlen in W5. rewrite okb_withlen in W6. rewrite !andb_true_iff in W5, W6. destruct W5 as [[W5a W5b] W5c], W6 as [[W6a W6b] W6c].
  unfold c_gprop, c_prop in D'. cbn [c_iso enc c_pair fst snd] in D'. unfold c_withlen at 1 2 in D'. cbn [c_iso enc c_pair fst snd c_bytes] in D'.
  rewrite <- !app_assoc in D'.
  apply (enc_prefix c_bool _) in D' as [E0 D']; [|reflexivity|reflexivity].
  apply (enc_prefix c_kind _) in D' as [E1 D']; [|assumption|assumption].
  apply (enc_prefix c_key _) in D' as [E2 D']; [|reflexivity|reflexivity].
  apply (enc_prefix c_u32 _) in D' as [E3 D']; [|assumption|assumption].
  apply (enc_prefix c_u32 _) in D' as [E4 D']; [|assumption|assumption].
  apply (enc_prefix c_pda _) in D' as [E5 D']; [|assumption|assumption].
  rewrite EV in D'.
  assert (B5 : 0 <= wl_len (p_event w) < u32max) by lia. assert (B6 : 0 <= wl_len (p_meta w) < u32max) by lia.
  change (le 4 (blen (p_event g))) with (enc c_u32 (blen (p_event g))) in D'.
  apply (enc_prefix c_u32 _) in D' as [E6 D']; [|apply okb_u32; exact B5|apply okb_u32; pose proof (blen_nonneg (p_event g)); cbn [c_bytes okb] in G5; lia].
  apply app_inv_head in D'.
  change (le 4 (blen (p_meta g))) with (enc c_u32 (blen (p_meta g))) in D'.
  apply (enc_prefix c_u32 _) in D' as [E7 D']; [|apply okb_u32; exact B6|apply okb_u32; pose proof (blen_nonneg (p_meta g)); cbn [c_bytes okb] in G6; lia].
  rewrite PM in D', E7. rewrite blen_wmeta in E7.
  apply (enc_prefix c_wmeta _) in D' as [E8 D']; [|assumption|assumption].
  apply (enc_prefix (c_vec c_vote) _) in D' as [E9 _]; [|assumption|assumption].
  split.
  - destruct g as [g0 g1 g2 g3 g4 g5 g6 g7 g8]. cbn [p_init p_kind p_author p_round p_required p_pda p_event p_meta p_signers] in *.
    unfold gen_prop. subst. reflexivity.
  - split; [congruence|]. unfold true_len. rewrite EV, blen_wmeta. auto.
Qed.

Lemma typed_request {E} (ce : codec E) (LE : Lawful ce) e s k (w : prop (withlen E) (withlen wmeta)) :
  own (accs s k) = tp_id -> unpack (c_prop (c_withlen ce) (c_withlen c_wmeta)) TP_LEN (@p_init _ _) (dat (accs s k)) = Ok w ->
  true_len ce (p_event w) -> true_len c_wmeta (p_meta w) ->
  request_addr e tp_id k w (e_hash e (enc ce (wl_data (p_event w)))) ->
  request_at e s k (gen_prop ce c_wmeta w) (wl_data (p_meta w)).
Proof.
  intros O U T1 T2 (n & pn & KD & P). split; [exact O|]. apply unpack_ok in U as (r & D & OW & B & I); [|typeclasses eauto].
  split; [|split; [reflexivity|split]].
  - rewrite D, <- gen_prop_enc by assumption. apply unpack_enc; [typeclasses eauto|apply gen_prop_ok; assumption|exact I|].
    rewrite gen_prop_enc, <- D by assumption. exact B.
  - rewrite (okb_prop (c_withlen ce)) in OW. rewrite !andb_true_iff in OW. destruct OW as (_ & _ & _ & _ & _ & W & _).
    rewrite okb_withlen in W. rewrite !andb_true_iff in W. apply W.
  - exists n, pn. split; [exact KD|exact P].
Qed.

Lemma request_fun e s k g m g' m' : request_at e s k g m -> request_at e s k g' m' -> g' = g /\ m' = m.
Proof.
  intros (_ & U & P & O & _) (_ & U' & P' & O' & _). assert (g' = g) by congruence. subst g'. split; [reflexivity|].
  apply (enc_inj c_wmeta _); congruence.
Qed.
Lemma request_same e s s' k g m : same_od s s' k -> request_at e s k g m -> request_at e s' k g m.
Proof. intros [O D] H. unfold request_at. rewrite O, D. exact H. Qed.
Lemma request_kind e s k g m : request_at e s k g m -> exists n pn, kind_at (dat (accs s k)) = Some (KProposal n pn).
Proof.
  intros (_ & U & _ & _ & n & pn & K & _). exists n, pn. rewrite <- K. eapply kind_prop; [| |exact U]; typeclasses eauto.
Qed.

(** A validated typed record at a request's address is the request. *)
Lemma wever_request e s k g m w : no_collision e k -> request_at e s k g m -> wever_in e tp_id s k w ->
  g = gen_prop c_wever_event c_wmeta w /\ m = wl_data (p_meta w) /\ true_len c_wever_event (p_event w) /\ true_len c_wmeta (p_meta w).
Proof.
  intros NC (O & U & PM & OM & n & pn & K & P) [UW (n' & pn' & K' & P')].
  eapply (typed_view c_wever_event _); [exact UW|exact U|exact PM|exact OM|]. eapply NC; [exact P'|exact P].
Qed.
Lemma wsol_request e s k g m w : no_collision e k -> request_at e s k g m -> wsol_in e tp_id s k w ->
  g = gen_prop c_wsol_event c_wmeta w /\ m = wl_data (p_meta w) /\ true_len c_wsol_event (p_event w) /\ true_len c_wmeta (p_meta w).
Proof.
  intros NC (O & U & PM & OM & n & pn & K & P) [UW (n' & pn' & K' & P')].
  eapply (typed_view c_wsol_event _); [exact UW|exact U|exact PM|exact OM|]. eapply NC; [exact P'|exact P].
Qed.

Lemma flt_le {A} (f : A -> bool) l : (length (filter f l) <= length l)%nat.
Proof. induction l as [|x l IH]; cbn [filter length]; [lia|]. destruct (f x); cbn [length]; lia. Qed.
Lemma confirms_g {E M_} (w : prop E M_) cd d LEN ini : Lawful cd -> unpack cd LEN ini d = Ok w ->
  (forall x, okb cd x = true -> blen (p_signers x) < u32max) -> w_confirms w = confirms (p_signers w).
Proof.
  intros L U O. apply unpack_ok in U as (r & _ & OW & _); [|exact L]. apply O in OW.
  unfold w_confirms. apply wrap32_small. unfold confirms, blen in *. pose proof (flt_le (vote_eqb VConfirm) (p_signers w)). lia.
Qed.
Lemma signers_small {E M_} (ce : codec E) (cm : codec M_) x : okb (c_prop ce cm) x = true -> blen (p_signers x) < u32max.
Proof. rewrite okb_prop, !andb_true_iff. intros (_ & _ & _ & _ & _ & _ & V). rewrite okb_votes in V. lia. Qed.

(** A typed record whose meta data is replaced. *)
Lemma typed_meta {E} (ce : codec E) (LE : Lawful ce) e s s' k g m (w : prop (withlen E) (withlen wmeta)) m' :
  request_at e s k g m -> g = gen_prop ce c_wmeta w -> true_len ce (p_event w) -> true_len c_wmeta (p_meta w) ->
  held (c_prop (c_withlen ce) (c_withlen c_wmeta)) (@p_init _ _) s' k (p_with_meta w (WithLen (wl_len (p_meta w)) m')) ->
  request_at e s' k (g_meta g m') m'.
Proof.
  intros (_ & _ & _ & _ & n & pn & K & P) -> T1 T2 [O U].
  pose proof (typed_request ce LE e s' k _ O U) as R. cbn [p_with_meta p_event p_meta wl_len wl_data] in R.
  apply R; [exact T1|unfold true_len in *; cbn [wl_len wl_data]; rewrite blen_wmeta in *; exact T2|].
  exists n, pn. split; [exact K|exact P].
Qed.

(** * One instruction *)

(** What instruction [i] did to the request [g], [m] at [k]. *)
Variant req_change (e : env) (c : ctx) (i : tp_ix) (s s' : state) (k : key) (g : gprop) (m : wmeta) : Prop :=
| RC_same : same_od s s' k -> req_change e c i s s' k g m
| RC_vote v relay rrk rr j n : i = TpVote v -> v <> VNone -> c_sg c relay = true ->
    unpack c_relay_round RELAY_ROUND_LEN rr_init (dat (accs s rrk)) = Ok rr -> rr_kind rr = KRelayRound n ->
    find_pda e (sd_relay_round (p_round g)) rl_id = Ok (rrk, n) ->
    position relay (rr_relays rr) = Some j -> nth_error (p_signers g) j = Some VNone ->
    RELAY_REPARATION <= lam (accs s k) -> 
    dlam s s' (fun x => at_key relay RELAY_REPARATION x - at_key k RELAY_REPARATION x) ->
    (forall x, x <> k -> same_od s s' x) ->
    request_at e s' k (g_vote g j v) m -> req_change e c i s s' k g m
| RC_bounty b a ev : i = TpChangeBounty b -> c_sg c a = true -> enc c_wsol_event ev = p_event g ->
    a = p_author g \/ a = wse_recipient ev -> wm_status m = WPending ->
    request_at e s' k (g_meta g (m_bounty m b)) (m_bounty m b) -> req_change e c i s s' k g m
| RC_move st' : wmove i (wm_status m) st' = true -> wpos i c k -> (is_exec i = true -> p_required g <= confirms (p_signers g)) ->
    request_at e s' k (g_meta g (m_status m st')) (m_status m st') -> req_change e c i s s' k g m
| RC_closed : i = TpCloseWithdrawal -> hd_error (c_keys c) = Some k -> wm_status m = WProcessed \/ wm_status m = WCancelled ->
    deleted c s s' k (p_author g) -> req_change e c i s s' k g m.

Lemma pack_vote e s s' k g m j v d' : request_at e s k g m ->
  pack_into_slice c_gprop (g_vote g j v) (dat (accs s k)) = Ok d' -> dat (accs s' k) = d' -> own (accs s' k) = own (accs s k) ->
  request_at e s' k (g_vote g j v) m.
Proof.
  intros (O & U & PM & OM & n & pn & K & P) PK D OW. apply unpack_ok in U as (r & D0 & OG & B & I); [|typeclasses eauto].
  split; [congruence|]. split; [|split; [exact PM|split; [exact OM|exists n, pn; split; [exact K|exact P]]]].
  apply pack_into_slice_ok in PK as [E1 E2]. rewrite D, E1. apply unpack_enc; [typeclasses eauto| |exact I|].
  - apply okb_with_signers. exact OG.
  - rewrite <- E1. unfold blen in *. rewrite E2. exact B.
Qed.

Lemma unpack_slice_of {A} (cd : codec A) LEN ini d x : unpack cd LEN ini d = Ok x -> unpack_from_slice cd d = Ok x.
Proof.
  intros U. apply unpack_unchecked_init in U as [U _]. with_strategy transparent [unpack_unchecked] unfold unpack_unchecked in U.
  destruct (_ =? _); [exact U|discriminate].
Qed.

Lemma effect_req e c i s s' k g m : no_collision e k -> c_pid c = tp_id -> is_payload i = false -> i <> TpCloseWithdrawal ->
  request_at e s k g m -> tp_effect e c i s s' k -> req_change e c i s s' k g m.
Proof.
  intros NC Hp NP NCl R T. pose proof R as (O & U & PM & OM & n & pn & K & P).
  destruct (request_kind _ _ _ _ _ R) as (kn & kp & KD).
  assert (NU : ~ unused s k) by (intros [Z _]; rewrite O in Z; discriminate).
  destruct T as [Q|? ? ? ? ? ? _ _ _ _ Z _|? ? ? ? _ _ Z _|st st' pn0 _ _ V _|nt ts' Z _ _ _|ts ts' vn _ _ V _
    |? ? ? ? ? ? ? ? ? ? ? ? ? ? ? ? ? ? ? _ _ _ _ _ Z|? ? ? ? ? ? ? ? ? ? ? ? ? ? ? ? ? ? ? ? _ _ _ _ _ _ _ Z|seed dn Z _ _ _ _
    |v relay rrk rest Ei KS _ OW V|b w a Ei SG AU HW RA ST HW'|w st' HW RA MV WP QU HW'|w st' HW RA MV WP QU HW'|author CW _ D];
    try contradiction.
  - destruct Q as [Q|[Q _]]; [apply RC_same; exact Q|contradiction].
  - destruct V as (V & x & KV & _). apply kind_tp_settings in V. rewrite KD, KV in V. discriminate.
  - destruct V as (V & tn & KV & _). apply kind_token_settings in V. rewrite KD, KV in V. discriminate.
  - destruct V as (g0 & rr & j & old & S & NV & U0 & RA & RR & (rn & KR & PR) & PO & NE & V).
    rewrite (unpack_slice_of _ _ _ _ _ U) in U0. injection U0 as <-.
    destruct V as [(_ & ->)|(-> & d & PK & DD & OO & _ & SO & _ & LE & DL & _)]; [apply RC_same; apply same_od_refl|].
    eapply RC_vote; try eassumption. eapply pack_vote; [exact R|exact PK|exact DD|exact OO].
  - destruct (wsol_request _ _ _ _ _ _ NC R (conj (proj2 HW) RA)) as (EG & EM & T1 & T2).
    eapply (RC_bounty _ _ _ _ _ _ _ _ _ a (wl_data (p_event w))); [exact Ei|exact SG|rewrite EG; reflexivity|rewrite EG; exact AU|rewrite EM; exact ST|].
    eapply (typed_meta c_wsol_event _); [exact R|exact EG|exact T1|exact T2|]. rewrite EM. exact HW'.
  - destruct (wever_request _ _ _ _ _ _ NC R (conj (proj2 HW) RA)) as (EG & EM & T1 & T2).
    apply (RC_move _ _ _ _ _ _ _ _ st'); [rewrite EM; exact MV|exact WP| |].
    + intros X. specialize (QU X). rewrite (confirms_g w c_wever _ _ _ _ (proj2 HW)) in QU; [rewrite EG; exact QU|apply signers_small].
    + eapply (typed_meta c_wever_event _); [exact R|exact EG|exact T1|exact T2|]. rewrite EM. exact HW'.
  - destruct (wsol_request _ _ _ _ _ _ NC R (conj (proj2 HW) RA)) as (EG & EM & T1 & T2).
    apply (RC_move _ _ _ _ _ _ _ _ st'); [rewrite EM; exact MV|exact WP| |].
    + intros X. specialize (QU X). rewrite (confirms_g w c_wsol _ _ _ _ (proj2 HW)) in QU; [rewrite EG; exact QU|apply signers_small].
    + eapply (typed_meta c_wsol_event _); [exact R|exact EG|exact T1|exact T2|]. rewrite EM. exact HW'.
  - destruct CW as [(_ & _ & g0 & seed & n0 & U0 & _ & K0 & _)|(Ei & g0 & m0 & U0 & _ & A & M0 & ST)].
    + apply kind_gdep in U0. rewrite KD, K0 in U0. discriminate.
    + contradiction.
Qed.

(** Payload execution is only called on an account of the token proxy that passes the checks which the
    other instructions make (token-proxy/src/processor.rs:2153-2241 makes none). *)
Definition payload_checked (e : env) (c : ctx) (i : tp_ix) (s : state) : Prop := forall k, hd_error (c_keys c) = Some k ->
  (i = TpExecutePayloadEver -> own (accs s k) = tp_id /\ exists w, wever_in e tp_id s k w) /\
  (i = TpExecutePayloadSol -> own (accs s k) = tp_id /\ exists w, wsol_in e tp_id s k w).

Lemma packed_typed {E} (ce : codec E) (LE : Lawful ce) c e s s1 s' k (w : prop (withlen E) (withlen wmeta)) m st :
  own (accs s1 k) = tp_id ->
  unpack (c_prop (c_withlen ce) (c_withlen c_wmeta)) TP_LEN (@p_init _ _) (dat (accs s k)) = Ok w ->
  packed c (c_prop (c_withlen ce) (c_withlen c_wmeta)) TP_LEN s1 s' k (w_set_status w st) ->
  request_at e s k (gen_prop ce c_wmeta w) m -> m = wl_data (p_meta w) -> true_len ce (p_event w) -> true_len c_wmeta (p_meta w) ->
  request_at e s' k (g_meta (gen_prop ce c_wmeta w) (m_status m st)) (m_status m st).
Proof.
  intros O U PK R EM T1 T2.
  pose proof (okb_unpack _ _ _ _ _ _ U) as OW. pose proof (unpack_unchecked_init _ _ _ _ _ U) as [_ I].
  eapply (typed_meta ce _ e s s' k _ m w); [exact R|reflexivity|exact T1|exact T2|].
  split; [rewrite (packed_own _ _ _ _ _ _ _ PK); exact O|]. apply unpack_init; [|exact I].
  rewrite EM. eapply packed_unpack; [exact PK|typeclasses eauto|].
  apply (okb_set_status (c_withlen ce) w st). exact OW.
Qed.

Lemma req_call e ext c i s s' k g m : tp_call e ext c i s s' -> ext_outside ext -> payload_checked e c i s -> no_collision e k ->
  request_at e s k g m -> req_change e c i s s' k g m.
Proof.
  intros C X PC NC R. pose proof C as C0. apply tp_call_exec in C as (Hp & Oi & CK & H). pose proof R as (O & U & PM & OM & n & pn & K & P).
  destruct (is_payload i) eqn:IP.
  - destruct (payload_cases _ _ _ _ _ _ k Hp IP H) as (s1 & N & [Q|Q]); pose proof (nested_outside _ _ _ _ _ X N k O) as SO.
    { apply RC_same. exact (same_od_trans _ _ _ _ SO Q). }
    destruct SO as [OO _]. destruct Q as [(Ei & HK & OW & w & wn & wp & UW & ST & KW & PK)|(Ei & HK & OW & w & wn & wp & UW & ST & KW & PK)];
      destruct (PC k HK) as [P1 P2].
    + destruct (P1 Ei) as (_ & w' & UW' & RA). pose proof (eq_trans (eq_sym UW') UW) as EW. injection EW as EW. subst w'.
      destruct (wever_request _ _ _ _ _ _ NC R (conj UW RA)) as (EG & EM & T1 & T2).
      apply (RC_move _ _ _ _ _ _ _ _ WProcessed).
      * rewrite EM. unfold w_status in ST. rewrite ST, Ei. reflexivity.
      * rewrite Ei. cbn [wpos]. destruct (c_keys c); [discriminate|exact HK].
      * rewrite Ei. discriminate.
      * rewrite EG. rewrite EG in R. eapply (packed_typed c_wever_event _); eassumption.
    + destruct (P2 Ei) as (_ & w' & UW' & RA). pose proof (eq_trans (eq_sym UW') UW) as EW. injection EW as EW. subst w'.
      destruct (wsol_request _ _ _ _ _ _ NC R (conj UW RA)) as (EG & EM & T1 & T2).
      apply (RC_move _ _ _ _ _ _ _ _ WProcessed).
      * rewrite EM. unfold w_status in ST. rewrite ST, Ei. reflexivity.
      * rewrite Ei. cbn [wpos]. destruct (c_keys c); [discriminate|exact HK].
      * rewrite Ei. discriminate.
      * rewrite EG. rewrite EG in R. eapply (packed_typed c_wsol_event _); eassumption.
  - destruct i; try (eapply effect_req; try eassumption; [discriminate|eapply tp_exec_effect; eassumption]).
    cbn [tp_exec] in H. apply tp_close_withdrawal_ok in H as (wk & a & rest & g0 & m0 & KS & U0 & _ & A & M0 & ST & D).
    destruct (key_dec k wk) as [->|NE]; [|apply RC_same; apply D; exact NE].
    rewrite (unpack_slice_of _ _ _ _ _ U) in U0. injection U0 as <-. subst a.
    apply RC_closed; [reflexivity|rewrite KS; reflexivity| |exact D]. rewrite PM in M0. rewrite try_from_slice_rt in M0 by (typeclasses eauto || exact OM).
    injection M0 as <-. exact ST.
Qed.

(** * Histories *)

(** One instruction of the token proxy.  What payloads call does not call back into the token proxy,
    payloads are run on checked requests only, and [ok] holds of the instruction. *)
Definition req_instr (e : env) (ok : ctx -> tp_ix -> Prop) (s s' : state) : Prop := exists c ext i,
  tp_call e ext c i s s' /\ signs (ordinary e) c /\ tp_ext e 0 ext /\ payload_checked e c i s /\ ok c i.
Definition req_hist (e : env) (ok : ctx -> tp_ix -> Prop) : state -> state -> Prop := hist e tp_id (req_instr e ok).
(** The request at [k] is not closed. *)
Definition not_closing (k : key) (c : ctx) (i : tp_ix) : Prop := ~ (i = TpCloseWithdrawal /\ hd_error (c_keys c) = Some k).

Lemma ext0_outside e ext : tp_ext e 0 ext -> ext_outside ext.
Proof. intros X c d s a s' k H O. apply X in H as [[_ [_ F]]|[]]. destruct (F k) as (_ & F1 & _). apply (F1 O). Qed.

Lemma nested0 e ext c s s1 : tp_ext e 0 ext -> nested e ext c s s1 ->
  (nonneg s -> nonneg s1) /\ forall k,
  (own (accs s k) = tp_id -> same_od s s1 k /\ lam (accs s k) <= lam (accs s1 k)) /\
  (own (accs s k) <> tp_id -> own (accs s1 k) = tp_id -> all0 (dat (accs s1 k)) = true).
Proof.
  intros X [->|(proxy & l & mint & r & b & _ & H)].
  - split; [auto|]. intros k. split; [split; [apply same_od_refl|lia]|intros A B; contradiction].
  - induction H as [s|i l s s1 s2 x C R [IH1 IH2]].
    { split; [auto|]. intros k. split; [split; [apply same_od_refl|lia]|intros A B; contradiction]. }
    apply cpi_inv in C as [C _]. apply X in C as [[_ [_ F]]|[]]. split.
    + intros N. apply IH1. intros k. apply (F k). apply N.
    + intros k. destruct (F k) as (_ & F1 & F2 & _), (IH2 k) as [G1 G2]. split.
      * intros O. destruct (F1 O) as [SO LE]. destruct G1 as [SO' LE']; [destruct SO; congruence|].
        split; [exact (same_od_trans _ _ _ _ SO SO')|lia].
      * intros O O2. destruct (key_dec (own (accs s1 k)) tp_id) as [O1|O1]; [|apply G2; assumption].
        destruct (G1 O1) as [[_ D] _]. rewrite D. apply F2; assumption.
Qed.

(** Lamports of a request. *)
Lemma req_lam e ext c i s s' k g m : tp_call e ext c i s s' -> tp_ext e 0 ext -> nonneg s -> request_at e s k g m ->
  nonneg s' /\
  (lam (accs s k) <= lam (accs s' k) \/
   (exists v j, i = TpVote v /\ v <> VNone /\ nth_error (p_signers g) j = Some VNone /\
      request_at e s' k (g_vote g j v) m /\ lam (accs s k) - RELAY_REPARATION <= lam (accs s' k)) \/
   (i = TpCloseWithdrawal /\ hd_error (c_keys c) = Some k)).
Proof.
  intros C X N R. apply tp_call_exec in C as (Hp & Oi & CK & H). pose proof R as (O & U & _).
  destruct (request_kind _ _ _ _ _ R) as (kn & kp & KD). destruct (is_payload i) eqn:IP.
  - destruct (payload_two _ _ _ _ _ _ IP H) as (s1 & NE & Q). destruct (nested0 _ _ _ _ _ X NE) as [N1 F].
    assert (L : forall j, lam (accs s' j) = lam (accs s1 j)).
    { intros j. destruct Q as [->|Q]; [reflexivity|].
      destruct Q as (j0 & [(_ & _ & w & n & pn & _ & _ & _ & Q)|(_ & _ & w & n & pn & _ & _ & _ & Q)]); apply (packed_lam _ _ _ _ _ _ _ Q). }
    split; [intros j; rewrite L; apply N1; exact N|]. left. rewrite L. apply (F k). exact O.
  - split; [apply (nn_tp_exec _ _ _ _ IP _ _ _ H); exact N|].
    destruct (tp_debit _ _ _ _ _ _ k Hp Oi IP H N O) as [L|(kd & K & D)]; [left; exact L|].
    rewrite KD in K. injection K as <-. destruct i; try contradiction.
    { cbn [tp_exec] in H. apply tp_vote_ok in H as (relay & wk & rrk & rest & KS & g0 & rr & j & old & S & NV & U0 & _ & _ & _ & _ & NE & V).
      destruct V as [(_ & ->)|(-> & d & PK & DD & OO & _ & SO & _ & LE & DL & _)]; [left; lia|].
      pose proof (DL k) as D1. unfold at_key in D1. assert (0 <= RELAY_REPARATION) by (unfold RELAY_REPARATION; lia).
      destruct (key_dec k wk) as [->|NK].
      - right. left. rewrite (unpack_slice_of _ _ _ _ _ U) in U0. injection U0 as <-. exists v, j.
        split; [reflexivity|]. split; [exact NV|]. split; [exact NE|]. split; [eapply pack_vote; eassumption|].
        destruct (keqb wk relay), (keqb wk wk); lia.
      - left. rewrite (keqb_ne k wk) in D1 by exact NK. destruct (keqb k relay); lia. }
    cbn [tp_exec] in H. apply tp_close_withdrawal_ok in H as (wk & a & rest & g0 & m0 & KS & _ & _ & A & _ & _ & DE).
    destruct (key_dec k wk) as [->|NE]; [right; right; split; [reflexivity|rewrite KS; reflexivity]|left].
    destruct DE as (_ & _ & _ & _ & _ & L1 & L2 & _). destruct (key_dec k a) as [E|NA]; [|rewrite L2; [lia|exact NE|exact NA]].
    subst k. rewrite L1 by exact NE. specialize (N wk). lia.
Qed.

(** The status graph. *)
Definition next_status (a b : wstatus) : Prop :=
  match a with
  | WNew => b = WProcessed \/ b = WPending \/ b = WWaitApprove \/ b = WWaitExecute
  | WWaitApprove => b = WProcessed \/ b = WPending \/ b = WWaitExecute
  | WPending => b = WProcessed \/ b = WCancelled \/ b = WWaitExecute
  | WWaitExecute => b = WProcessed
  | _ => False
  end.
Inductive status_path : wstatus -> wstatus -> Prop :=
| sp_refl a : status_path a a
| sp_step a b c : status_path a b -> next_status b c -> status_path a c.
Lemma wmove_next i a b : wmove i a b = true -> next_status a b.
Proof. destruct i, a, b; try discriminate; intros _; cbn [next_status]; auto. Qed.
Lemma status_trans a b c : status_path a b -> status_path b c -> status_path a c.
Proof. intros H1 H2. induction H2 as [|a0 b0 c0 _ IH N]; [exact H1|]. eapply sp_step; [apply IH; exact H1|exact N]. Qed.

(** How a request may have changed: nothing but votes that were missing, status and bounty. *)
Record evolves (g : gprop) (m : wmeta) (g' : gprop) (m' : wmeta) : Prop := Evolves {
  ev_author : p_author g' = p_author g; ev_round : p_round g' = p_round g; ev_required : p_required g' = p_required g;
  ev_pda : p_pda g' = p_pda g; ev_event : p_event g' = p_event g; ev_epoch : wm_epoch m' = wm_epoch m;
  ev_relays : length (p_signers g') = length (p_signers g);
  ev_votes : forall j v, nth_error (p_signers g) j = Some v -> v <> VNone -> nth_error (p_signers g') j = Some v;
  ev_status : status_path (wm_status m) (wm_status m');
  ev_quorum : wm_status m = WNew -> wm_status m' = WNew \/ p_required g <= confirms (p_signers g') }.

Lemma evolves_refl g m : evolves g m g m.
Proof. constructor; auto. apply sp_refl. Qed.

Lemma confirms_mono l : forall l', length l' = length l ->
  (forall j v, nth_error l j = Some v -> v <> VNone -> nth_error l' j = Some v) -> confirms l <= confirms l'.
Proof.
  unfold confirms, blen. induction l as [|v l IH]; intros l' L H; [cbn; lia|]. destruct l' as [|v' l']; [discriminate|].
  cbn [length] in L. assert (IH' : (length (filter (vote_eqb VConfirm) l) <= length (filter (vote_eqb VConfirm) l'))%nat).
  { assert (Z.of_nat (length (filter (vote_eqb VConfirm) l)) <= Z.of_nat (length (filter (vote_eqb VConfirm) l'))); [|lia].
    apply IH; [lia|]. intros j. apply (H (S j)). }
  cbn [filter]. destruct v; cbn [vote_eqb].
  - destruct v'; cbn [length]; lia.
  - assert (E : Some v' = Some VConfirm) by (apply (H O VConfirm eq_refl); discriminate). injection E as ->. cbn [length]. lia.
  - destruct v'; cbn [length]; lia.
Qed.

Lemma evolves_trans g m g1 m1 g2 m2 : evolves g m g1 m1 -> evolves g1 m1 g2 m2 -> evolves g m g2 m2.
Proof.
  intros [A1 A2 A3 A4 A5 A6 A7 A8 A9 A10] [B1 B2 B3 B4 B5 B6 B7 B8 B9 B10]. constructor; try congruence.
  - intros j v H N. apply B8; [apply A8; assumption|exact N].
  - eapply status_trans; eassumption.
  - intros W. destruct (A10 W) as [E|Q].
    + destruct (B10 E) as [E2|Q2]; [left; exact E2|right; congruence].
    + right. assert (confirms (p_signers g1) <= confirms (p_signers g2)) by (apply confirms_mono; assumption). lia.
Qed.

(** Votes still missing. *)
Definition missing (g : gprop) : Z := blen (filter (vote_eqb VNone) (p_signers g)).
Lemma missing_vote l : forall j v, nth_error l j = Some VNone -> v <> VNone ->
  blen (filter (vote_eqb VNone) (set_nth j v l)) + 1 = blen (filter (vote_eqb VNone) l).
Proof.
  unfold blen. induction l as [|x l IH]; intros j v H N; [destruct j; discriminate|].
  destruct j as [|j]; cbn [nth_error] in H; cbn [set_nth filter].
  - injection H as ->. destruct v; [congruence| |]; cbn [vote_eqb length]; lia.
  - specialize (IH j v H N). destruct (vote_eqb VNone x); cbn [length]; lia.
Qed.

(** [k] carries enough lamports for the votes still missing. *)
Definition funded (s : state) (k : key) (g : gprop) : Prop := 1 + RELAY_REPARATION * missing g <= lam (accs s k).

Lemma vote_evolves g m j v : nth_error (p_signers g) j = Some VNone -> v <> VNone -> evolves g m (g_vote g j v) m.
Proof.
  intros N V. constructor; cbn [g_vote p_with_signers p_author p_round p_required p_pda p_event p_signers]; auto; [apply set_nth_length| |apply sp_refl].
  intros i u H NU. destruct (Nat.eq_dec j i) as [->|E]; [congruence|]. rewrite set_nth_other by exact E. exact H.
Qed.

Lemma req_step e ext c i s s' k g m : tp_call e ext c i s s' -> tp_ext e 0 ext -> payload_checked e c i s -> no_collision e k ->
  request_at e s k g m -> not_closing k c i -> nonneg s -> funded s k g ->
  exists g' m', request_at e s' k g' m' /\ evolves g m g' m' /\ funded s' k g' /\ nonneg s'.
Proof.
  intros C X PC NC R NCl N F. pose proof (req_call _ _ _ _ _ _ _ _ _ C (ext0_outside _ _ X) PC NC R) as CH.
  destruct (req_lam _ _ _ _ _ _ _ _ _ C X N R) as [N' L].
  destruct L as [L|[(v & j & Ei & NV & NE & R' & L)|L]]; [| |contradiction].
  2:{ exists (g_vote g j v), m. split; [exact R'|]. split; [apply vote_evolves; assumption|]. split; [|exact N'].
      unfold funded, missing in *. cbn [g_vote p_with_signers p_signers]. pose proof (missing_vote _ _ _ NE NV).
      unfold RELAY_REPARATION in *. lia. }
  destruct CH as [SO|v relay rrk rr j n Ei NV SG _ _ _ PO NO LR DL SO R'|b a ev Ei SG _ AU ST R'|st' MV WP QU R'|Ei HD _ _].
  - exists g, m. split; [eapply request_same; eassumption|]. split; [apply evolves_refl|]. split; [|exact N'].
    exact (Z.le_trans _ _ _ F L).
  - exists (g_vote g j v), m. split; [exact R'|]. split; [apply vote_evolves; assumption|]. split; [|exact N'].
    unfold funded, missing in *. cbn [g_vote p_with_signers p_signers]. pose proof (missing_vote _ _ _ NO NV).
    unfold RELAY_REPARATION in *. lia.
  - exists (g_meta g (m_bounty m b)), (m_bounty m b). split; [exact R'|].
    split; [constructor; cbn; auto; apply sp_refl|]. split; [|exact N'].
    unfold funded in *. change (missing (g_meta g (m_bounty m b))) with (missing g). lia.
  - exists (g_meta g (m_status m st')), (m_status m st'). split; [exact R'|].
    split; [|split; [|exact N']].
    + constructor; cbn [g_meta p_with_meta p_author p_round p_required p_pda p_event p_signers m_status wm_status wm_epoch]; auto.
      * eapply sp_step; [apply sp_refl|eapply wmove_next; exact MV].
      * intros W. right. apply QU. rewrite W in MV. destruct i; try discriminate; reflexivity.
    + unfold funded in *. change (missing (g_meta g (m_status m st'))) with (missing g). lia.
  - exfalso. apply NCl. auto.
Qed.

(** Over a whole history a request only evolves, until it is closed. *)
Theorem req_evolves e k s s' : no_collision e k -> req_hist e (not_closing k) s s' ->
  forall g m, request_at e s k g m -> nonneg s -> funded s k g ->
  exists g' m', request_at e s' k g' m' /\ evolves g m g' m' /\ funded s' k g' /\ nonneg s'.
Proof.
  intros NC H. induction H as [s|s s1 s2 _ IH H|s s1 s2 _ IH H|s s1 s2 _ IH H]; intros g m R N F.
  - exists g, m. split; [exact R|]. split; [apply evolves_refl|]. auto.
  - destruct (IH g m R N F) as (g1 & m1 & R1 & E1 & F1 & N1). destruct H as (c & ext & i & C & S & X & PC & OK).
    destruct (req_step _ _ _ _ _ _ _ _ _ C X PC NC R1 OK N1 F1) as (g2 & m2 & R2 & E2 & F2 & N2).
    exists g2, m2. split; [exact R2|]. split; [eapply evolves_trans; eassumption|]. auto.
  - destruct (IH g m R N F) as (g1 & m1 & R1 & E1 & F1 & N1). exists g1, m1.
    destruct (H k) as (_ & H2 & _). destruct (H2 (proj1 R1)) as [SO LE].
    split; [eapply request_same; eassumption|]. split; [exact E1|]. split; [exact (Z.le_trans _ _ _ F1 LE)|].
    intros j. apply (H j). apply N1.
  - destruct (IH g m R N F) as (g1 & m1 & R1 & E1 & F1 & N1). exists g1, m1.
    assert (EA : accs s2 k = accs s1 k).
    { destruct (H k) as [E|[Z _]]; [exact E|]. exfalso. clear - F1 Z. unfold funded, RELAY_REPARATION in F1.
      pose proof (blen_nonneg (filter (vote_eqb VNone) (p_signers g1))). unfold missing in F1. lia. }
    split; [unfold request_at; rewrite EA; exact R1|]. split; [exact E1|]. split; [unfold funded; rewrite EA; exact F1|].
    intros j. destruct (H j) as [->|[_ ->]]; [apply N1|apply Z.le_refl].
Qed.

(** * New requests *)

(** [k] is no withdrawal request, whatever it contains. *)
Definition no_request (s : state) (k : key) : Prop :=
  own (accs s k) = tp_id -> forall n pn, kind_at (dat (accs s k)) <> Some (KProposal n pn).

(** What the sender of the instruction asked for. *)
Definition asked (e : env) (c : ctx) (i : tp_ix) (s : state) (g : gprop) : Prop :=
  match i with
  | TpWithdrawEverRequest ts lt conf token name symbol decimals recipient amount payload _ =>
      p_pda g = Pda ts lt conf /\
      p_event g = enc c_wever_event (WEverEvent token name symbol decimals amount recipient payload)
  | TpWithdrawSolRequest ts lt conf recipient amount payload _ =>
      p_pda g = Pda ts lt conf /\ exists tsk tks mint vault,
        nth_error (c_keys c) 3 = Some tsk /\ token_at e s tsk tks /\ tk_kind tks = TKSol mint vault /\
        p_event g = enc c_wsol_event (WSolEvent mint amount recipient payload)
  | _ => False
  end.

(** A request came into being at [k]. *)
Record born (e : env) (c : ctx) (i : tp_ix) (s s' : state) (k : key) (g : gprop) (m : wmeta)
  (rls : rl_settings) (rr : relay_round) : Prop := Born {
  bo_req : request_at e s' k g m; bo_unused : unused s k;
  bo_place : nth_error (c_keys c) 2 = Some k;
  bo_author : nth_error (c_keys c) 1 = Some (p_author g) /\ c_sg c (p_author g) = true;
  bo_settings : exists rlsk rpn, rl_settings_in e rl_id s rlsk rls rpn;
  bo_round : exists rrk, round_in e rl_id s rrk rr; bo_live : wrap32 (now s) < rr_end rr; bo_number : p_round g = rr_number rr;
  bo_required : p_required g = required_votes rls rr; bo_signers : p_signers g = repeat VNone (length (rr_relays rr));
  bo_asked : asked e c i s g; bo_meta : m = WMeta WNew 0 (epoch_of (now s));
  bo_funded : funded s' k g }.

Lemma all0_app a b : all0 (a ++ b) = all0 a && all0 b.
Proof. apply forallb_app. Qed.
Lemma all0_kind d n pn : all0 d = true -> kind_at d <> Some (KProposal n pn).
Proof.
  intros A H. unfold kind_at in H. destruct (dec (c_bool ** c_kind) d) as [[[b kd] r]|] eqn:E; [|discriminate]. injection H as ->.
  apply can in E as [E O]. rewrite E in A. rewrite all0_app in A. apply andb_true_iff in A as [A _].
  cbn [enc c_pair fst snd] in A. rewrite all0_app in A. apply andb_true_iff in A as [_ A]. destruct pn; cbn in A; discriminate.
Qed.
Lemma all0_kind_dep d n : all0 d = true -> kind_at d <> Some (KDeposit n).
Proof.
  intros A H. unfold kind_at in H. destruct (dec (c_bool ** c_kind) d) as [[[b kd] r]|] eqn:E; [|discriminate]. injection H as ->.
  apply can in E as [E O]. rewrite E in A. rewrite all0_app in A. apply andb_true_iff in A as [A _].
  cbn [enc c_pair fst snd] in A. rewrite all0_app in A. apply andb_true_iff in A as [_ A]. cbn in A. discriminate.
Qed.

Lemma tail_lam {E} e c (ce : codec E) f author wk rls rr ts lt conf ev evb pn ep tok rcp amt s s' :
  unused s wk -> own (accs s' wk) <> sys_id -> okb c_relay_round rr = true ->
  tail_eff e c ce f author wk rls rr ts lt conf ev evb pn ep tok rcp amt s s' ->
  1 + RELAY_REPARATION * blen (rr_relays rr) <= lam (accs s' wk).
Proof.
  intros [UN _] O OR (wn & F & [[_ ->]|(L0 & s1 & R & P)]); [contradiction|].
  destruct R as ((_ & _ & _ & r & _ & _ & B) & _ & _ & D & _). destruct P as (_ & _ & DF & _ & _ & D2 & _).
  assert (NE : f <> wk) by (intros ->; rewrite DF in B; unfold TP_LEN in B; discriminate B).
  pose proof (D wk) as D1. pose proof (D2 wk) as D3. unfold at_key in *. rewrite keqb_refl in *. rewrite keqb_ne in D1 by congruence.
  rewrite keqb_ne in D3 by congruence. apply okb_round_parts in OR as (_ & _ & _ & OR).
  assert (W : wrap64 (RELAY_REPARATION * blen (rr_relays rr)) = RELAY_REPARATION * blen (rr_relays rr)).
  { unfold wrap64. apply Z.mod_small. pose proof (blen_nonneg (rr_relays rr)). unfold RELAY_REPARATION, u32max, u64max in *. lia. }
  rewrite W in D3. lia.
Qed.

Lemma tail_born {E} (ce : codec E) (Le : Lawful ce) e c f author wk rls rr ts lt conf (ev : withlen E) pn tok rcp amt p m0 r0 att rest s s1 s' rlsk rpn rrk k wn :
  let w := new_request wn pn author rls rr ts lt conf ev (epoch_of (now s)) in
  round_in e rl_id s rrk rr -> rl_settings_in e rl_id s rlsk rls rpn -> proxy_eff e c p m0 r0 f att rest pn s s1 ->
  tail_eff e c (c_withlen ce) f author wk rls rr ts lt conf ev (enc ce (wl_data ev)) pn (epoch_of (now s)) tok rcp amt s1 s' -> k = wk ->
  find_pda e (sd_proposal (rr_number rr) ts lt conf (e_hash e (enc ce (wl_data ev)))) tp_id = Ok (k, wn) -> unused s k ->
  true_len ce ev -> held (c_prop (c_withlen ce) (c_withlen c_wmeta)) (@p_init _ _) s' k w ->
  request_at e s' k (gen_prop ce c_wmeta w) (WMeta WNew 0 (epoch_of (now s))) /\ funded s' k (gen_prop ce c_wmeta w).
Proof.
  intros w VO VR PX T -> F UN TL [O U]. split.
  - apply typed_request; try assumption; [reflexivity|]. exists wn, pn. split; [reflexivity|exact F].
  - assert (U1 : unused s1 wk).
    { destruct (key_dec (own (accs s1 wk)) sys_id) as [E1|E1].
      - destruct (proxy_eff_sys _ _ _ _ _ _ _ _ _ _ _ _ PX E1) as [A B]. destruct UN. split; congruence.
      - exfalso. destruct T as (wn' & _ & [[_ ->]|(_ & s2 & ((E2 & _) & _) & _)]); [|contradiction].
        destruct (proxy_eff_q _ _ _ _ _ _ _ _ _ _ _ wk PX) as [[A _]|[_ A]]; [destruct UN; congruence|contradiction]. }
    unfold funded, missing, w. cbn [gen_prop p_signers new_request].
    assert (FL : forall n, filter (vote_eqb VNone) (repeat VNone n) = repeat VNone n) by (induction n as [|n IH]; cbn; congruence).
    rewrite FL. unfold blen at 1. rewrite repeat_length. fold (blen (rr_relays rr)).
    eapply tail_lam; [exact U1| | |exact T]; [rewrite O; discriminate|]. destruct VO as [VO _]. eapply okb_unpack; [|exact VO]. typeclasses eauto.
Qed.

Definition is_request (i : tp_ix) : bool := match i with TpWithdrawEverRequest _ _ _ _ _ _ _ _ _ _ _ | TpWithdrawSolRequest _ _ _ _ _ _ _ => true | _ => false end.
Lemma effect_no_request e c i s s' k : tp_effect e c i s s' k -> is_request i = false -> no_request s k -> no_request s' k.
Proof.
  intros T NI NR.
  assert (KK : forall kd, kind_at (dat (accs s' k)) = Some kd -> (forall n pn, kd <> KProposal n pn) -> no_request s' k).
  { intros kd K D _ n pn. rewrite K. intros E. injection E as E. exact (D n pn E). }
  assert (TK : forall ts, tp_token s' k ts -> (exists a b, tk_akind ts = KTokenSettings a b) -> no_request s' k).
  { intros ts [_ U] (a & b & E). apply (KK (tk_akind ts)); [eapply kind_token_settings; exact U|]. intros n pn. rewrite E. discriminate. }
  destruct T as
      [Q|g m w auth sn pn Ei _ _ _ _ HH|g m w mn Ei _ _ HH|st st' pn _ HH V SC|nt ts' _ HH TO TC|ts ts' vn _ HH V TC|? ? ? ? ? ? ? ? ? ? ? ? ? ? ? ? ? ? ? Ei|? ? ? ? ? ? ? ? ? ? ? ? ? ? ? ? ? ? ? Ei
      |seed dn _ _ _ _ HH|v0 relay rrk rest Ei _ OO _ VE|b w author Ei _ _ [HO HU] (n & pn & KD & _)|w st' [HO HU] (n & pn & KD & _)|w st' [HO HU] (n & pn & KD & _)|author _ _ (_ & OO & _)].
  - destruct Q as [[A B]|[_ A]]; intros O; [|contradiction]. rewrite B. apply NR. congruence.
  - destruct HH as [_ U]. eapply KK; [eapply kind_tp_settings; exact U|]. intros; discriminate.
  - destruct HH as [_ U]. eapply KK; [eapply kind_multi_vault; exact U|]. intros; discriminate.
  - destruct HH as [_ U]. eapply KK; [eapply kind_tp_settings; exact U|]. rewrite (settings_cause_kind _ _ _ _ _ _ SC). destruct V as (_ & n & E & _). rewrite E. intros; discriminate.
  - apply (TK _ HH). assert (E0 : exists a b, tk_akind nt = KTokenSettings a b) by (destruct TO; subst nt; do 2 eexists; reflexivity).
    destruct TC as [->|TC]; [exact E0|]. apply token_cause_core in TC as [-> _]. exact E0.
  - apply (TK _ HH). apply token_cause_core in TC as [-> _]. destruct V as (_ & n & E & _). do 2 eexists. exact E.
  - subst i. discriminate.
  - subst i. discriminate.
  - eapply KK; [exact HH|]. intros; discriminate.
  - exfalso. destruct VE as (g & rr & j & old & _ & _ & U & (n & pn & E & _) & _). apply kind_gprop in U. apply (NR OO n pn). congruence.
  - exfalso. apply (NR HO n pn). rewrite <- KD. eapply kind_prop; [| |exact HU]; typeclasses eauto.
  - exfalso. apply (NR HO n pn). rewrite <- KD. eapply kind_prop; [| |exact HU]; typeclasses eauto.
  - exfalso. apply (NR HO n pn). rewrite <- KD. eapply kind_prop; [| |exact HU]; typeclasses eauto.
  - intros O. rewrite OO in O. discriminate.
Qed.

(** A request instruction makes a request as asked, or none. *)
Lemma request_made e ext c i s s' k : tp_call e ext c i s s' -> is_request i = true ->
  quietk s s' k \/ exists g m rls rr, born e c i s s' k g m rls rr.
Proof.
  intros C IR. apply tp_call_exec in C as (Hp & Oi & CK & H).
  destruct i; try discriminate IR; cbn [tp_exec] in H.
  - apply tp_withdraw_ever_request_ok in H as (f & a & wk & rlsk & rrk & x & y & z & rest & K & B).
    destruct B as (rls & rpn & rr & pn & s1 & S & _ & _ & VR & VO & LV & PX & T).
    apply ix_ever_request in Oi as (O1 & O2 & O3 & O4).
    set (ev := WEverEvent token name symbol decimals amount recipient payload) in *.
    assert (WR : 0 <= wl_len (wever_event_new ev) < u32max) by (unfold wever_event_new; cbn [wl_len]; unfold wrap32, u32max; lia).
    destruct (request_cases c_wever_event _ e c f a wk rls rr ts lt conf (wever_event_new ev) _ pn _ _ _ _ _ _ _ _ s s1 s' rlsk rpn rrk k Hp CK O1 O2 O3 WR VR VO PX T)
      as [Q|(EK & wn & F & UN & SM & HH)]; [left; exact Q|right].
    destruct (tail_born c_wever_event _ e c f a wk rls rr ts lt conf (wever_event_new ev) pn _ _ _ _ _ _ _ _ s s1 s' rlsk rpn rrk k wn VO VR PX T EK F UN (wever_len _ SM) HH) as [R FU].
    do 2 eexists. exists rls, rr. constructor; try eassumption; try reflexivity.
    + rewrite K, EK. reflexivity.
    + rewrite K. split; [reflexivity|exact S].
    + exists rlsk, rpn. exact VR.
    + exists rrk. exact VO.
    + split; reflexivity.
  - apply tp_withdraw_sol_request_ok in H as (f & a & wk & tsk & rlsk & rrk & x & y & z & rest & K & B).
    destruct B as (tks & vn & sv & mint & rls & rpn & rr & pn & s1 & S & V & KT & VR & VO & LV & PX & T).
    apply (ix_sol_request _ _ _ _ _ _ _ mint) in Oi as (O1 & O2 & O3 & O4).
    set (ev := WSolEvent mint amount recipient payload) in *. rewrite Hp in V.
    assert (WR : 0 <= wl_len (wsol_event_new ev) < u32max) by (unfold wsol_event_new; cbn [wl_len]; unfold wrap32, u32max; lia).
    destruct (request_cases c_wsol_event _ e c f a wk rls rr ts lt conf (wsol_event_new ev) _ pn _ _ _ _ _ _ _ _ s s1 s' rlsk rpn rrk k Hp CK O1 O2 O3 WR VR VO PX T)
      as [Q|(EK & wn & F & UN & SM & HH)]; [left; exact Q|right].
    destruct (tail_born c_wsol_event _ e c f a wk rls rr ts lt conf (wsol_event_new ev) pn _ _ _ _ _ _ _ _ s s1 s' rlsk rpn rrk k wn VO VR PX T EK F UN (wsol_len _ SM) HH) as [R FU].
    do 2 eexists. exists rls, rr. constructor; try eassumption; try reflexivity.
    + rewrite K, EK. reflexivity.
    + rewrite K. split; [reflexivity|exact S].
    + exists rlsk, rpn. exact VR.
    + exists rrk. exact VO.
    + cbn [asked]. split; [reflexivity|]. exists tsk, tks, mint, sv. split; [rewrite K; reflexivity|]. split; [eapply token_spec; exact V|].
      split; [exact KT|reflexivity].
Qed.
(** An instruction makes a request only as asked. *)
Lemma request_born e ext c i s s' k : tp_call e ext c i s s' -> tp_ext e 0 ext -> payload_checked e c i s -> no_request s k ->
  no_request s' k \/ exists g m rls rr, born e c i s s' k g m rls rr.
Proof.
  intros C X PC NR. pose proof C as C0. apply tp_call_exec in C as (Hp & Oi & CK & H). destruct (is_payload i) eqn:IP.
  { left. destruct (payload_cases _ _ _ _ _ _ k Hp IP H) as (s1 & N & [[Q1 Q2]|Q]).
    - intros O. rewrite Q2. destruct (nested0 _ _ _ _ _ X N) as [_ F]. destruct (F k) as [F1 F2]. rewrite Q1 in O.
      destruct (key_dec (own (accs s k)) tp_id) as [O1|O1].
      + destruct (F1 O1) as [[_ D] _]. rewrite D. apply NR. exact O1.
      + intros n pn. apply all0_kind. apply F2; assumption.
    - exfalso. destruct (payload_kind _ _ _ _ _ _ Q) as (n & pn & K).
      assert (O : own (accs s k) = tp_id) by (destruct Q as [[Ei (HD & _)]|[Ei (HD & _)]]; destruct (PC _ HD) as [P1 P2]; [apply P1|apply P2]; exact Ei).
      apply (NR O n pn K). }
  destruct (is_request i) eqn:IR; [|left; eapply effect_no_request; [eapply tp_exec_effect; eassumption|exact IR|exact NR]].
  assert (QK : quietk s s' k -> no_request s' k).
  { intros [[A B]|[_ A]] O; [|contradiction]. rewrite B. apply NR. congruence. }
  destruct (request_made _ _ _ _ _ _ k C0 IR) as [Q|Q]; [left; apply QK; exact Q|right; exact Q].
Qed.

(** * Every request is sound *)

(** The required number of confirmations is more than two thirds of the vote positions, a request that
    left its first status has them, and the reparation for the missing votes is there. *)
Record sound_request (s : state) (k : key) (g : gprop) (m : wmeta) : Prop := Sound {
  sr_thirds : 2 * blen (p_signers g) < 3 * p_required g;
  sr_quorum : wm_status m = WNew \/ p_required g <= confirms (p_signers g);
  sr_funded : funded s k g }.

Lemma gprop_size (g : gprop) d LEN : unpack c_gprop LEN (@p_init _ _) d = Ok g -> blen (p_signers g) <= LEN.
Proof.
  intros U. apply unpack_ok in U as (r & D & O & B & _); [|typeclasses eauto]. rewrite D, blen_app in B.
  rewrite (size_prop c_bytes c_bytes) in B. pose proof (kind_len_range (p_kind g)). pose proof (blen_nonneg r).
  pose proof (blen_nonneg (enc c_bytes (p_event g))). pose proof (blen_nonneg (enc c_bytes (p_meta g))). lia.
Qed.
Lemma two_thirds_more n : 0 <= n <= TP_LEN -> 2 * n < 3 * two_thirds n.
Proof. intros H. unfold TP_LEN in H. unfold two_thirds, wrap32, u32max. rewrite Z.mod_small by lia. lia. Qed.

Lemma born_sound e c i s s' k g m rls rr : born e c i s s' k g m rls rr -> sound_request s' k g m.
Proof.
  intros B. pose proof (bo_req _ _ _ _ _ _ _ _ _ _ B) as (_ & U & _). constructor.
  - rewrite (bo_required _ _ _ _ _ _ _ _ _ _ B). apply gprop_size in U. rewrite (bo_signers _ _ _ _ _ _ _ _ _ _ B) in *.
    unfold blen in *. rewrite repeat_length in *. fold (blen (rr_relays rr)) in *. pose proof (blen_nonneg (rr_relays rr)).
    pose proof (two_thirds_more (blen (rr_relays rr))). unfold required_votes. lia.
  - left. rewrite (bo_meta _ _ _ _ _ _ _ _ _ _ B). reflexivity.
  - apply (bo_funded _ _ _ _ _ _ _ _ _ _ B).
Qed.

Lemma evolves_sound s s' k g m g' m' : evolves g m g' m' -> sound_request s k g m -> funded s' k g' -> sound_request s' k g' m'.
Proof.
  intros E [T Q F] F'. constructor; [| |exact F'].
  - rewrite (ev_required _ _ _ _ E). unfold blen in *. rewrite (ev_relays _ _ _ _ E). exact T.
  - rewrite (ev_required _ _ _ _ E). destruct Q as [Q|Q]; [apply (ev_quorum _ _ _ _ E Q)|right].
    apply (Z.le_trans _ _ _ Q). apply confirms_mono; apply E.
Qed.

(** Any instruction. *)
Definition any_instr (c : ctx) (i : tp_ix) : Prop := True.

Theorem requests_sound e k s s' : no_collision e k -> req_hist e any_instr s s' -> nonneg s ->
  (no_request s k \/ exists g m, request_at e s k g m /\ sound_request s k g m) ->
  nonneg s' /\ (no_request s' k \/ exists g m, request_at e s' k g m /\ sound_request s' k g m).
Proof.
  intros NC H N I. induction H as [s|s s1 s2 _ IH H|s s1 s2 _ IH H|s s1 s2 _ IH H].
  - split; assumption.
  - destruct (IH N I) as [N1 I1]. destruct H as (c & ext & i & C & S & X & PC & _).
    assert (N2 : nonneg s2).
    { pose proof C as C0. apply tp_call_exec in C0 as (Hp & Oi & CK & R). destruct (is_payload i) eqn:IP; [|apply (nn_tp_exec _ _ _ _ IP _ _ _ R); exact N1].
      destruct (payload_two _ _ _ _ _ _ IP R) as (s3 & NE & Q). destruct (nested0 _ _ _ _ _ X NE) as [N3 _].
      intros j. specialize (N3 N1 j). destruct Q as [->|Q]; [exact N3|].
      destruct Q as (j0 & [(_ & _ & w & n & pn & _ & _ & _ & Q)|(_ & _ & w & n & pn & _ & _ & _ & Q)]); rewrite (packed_lam _ _ _ _ _ _ _ Q); exact N3. }
    split; [exact N2|]. destruct I1 as [I1|(g & m & R & SR)].
    + destruct (request_born _ _ _ _ _ _ _ C X PC I1) as [I2|(g & m & rls & rr & B)]; [left; exact I2|right].
      exists g, m. split; [apply (bo_req _ _ _ _ _ _ _ _ _ _ B)|eapply born_sound; exact B].
    + assert (CL : not_closing k c i \/ (i = TpCloseWithdrawal /\ hd_error (c_keys c) = Some k)).
      { destruct i; try (left; intros [E _]; discriminate). destruct (c_keys c) as [|j l] eqn:K; [left; intros [_ E]; rewrite K in E; discriminate|].
        destruct (key_dec j k) as [->|NE]; [right; split; reflexivity|left; intros [_ E]; rewrite K in E; injection E as E; contradiction]. }
      destruct CL as [CL|[Ei HD]].
      * right. destruct (req_step _ _ _ _ _ _ _ _ _ C X PC NC R CL N1 (sr_funded _ _ _ _ SR)) as (g' & m' & R' & E & F & _).
        exists g', m'. split; [exact R'|]. eapply evolves_sound; eassumption.
      * left. subst i. apply tp_call_exec in C as (_ & _ & _ & C). cbn [tp_exec] in C.
        apply tp_close_withdrawal_ok in C as (wk & a & rest & g0 & m0 & KS & _ & _ & _ & _ & _ & D).
        rewrite KS in HD. injection HD as ->. destruct D as (_ & O & _). intros O2. rewrite O in O2. discriminate.
  - destruct (IH N I) as [N1 I1]. split; [intros j; apply (H j); apply N1|]. destruct (H k) as (_ & H2 & H3).
    destruct I1 as [I1|(g & m & R & SR)].
    + left. intros O. destruct (key_dec (own (accs s1 k)) tp_id) as [O1|O1].
      * destruct (H2 O1) as [[_ D] _]. rewrite D. apply I1. exact O1.
      * intros n pn. apply all0_kind. apply H3; assumption.
    + right. destruct (H2 (proj1 R)) as [SO LE]. exists g, m. split; [eapply request_same; eassumption|].
      destruct SR as [S1 S2 S3]. constructor; try assumption. exact (Z.le_trans _ _ _ S3 LE).
  - destruct (IH N I) as [N1 I1]. split; [intros j; destruct (H j) as [->|[_ ->]]; [apply N1|apply Z.le_refl]|].
    destruct (H k) as [E|[Z EA]].
    + destruct I1 as [I1|(g & m & R & [S1 S2 S3])]; [left; unfold no_request; rewrite E; exact I1|right].
      exists g, m. split; [unfold request_at; rewrite E; exact R|]. constructor; try assumption. unfold funded. rewrite E. exact S3.
    + left. intros O. rewrite EA in O. discriminate.
Qed.

(** * Payload execution on any account *)

(** The part of a record before the event. *)
Definition c_phead := c_bool ** c_kind ** c_key ** c_u32 ** c_u32 ** c_pda.
Definition phead {E M_} (p : prop E M_) := (p_init p, (p_kind p, (p_author p, (p_round p, (p_required p, p_pda p))))).
Lemma prop_split {E M_} (ce : codec E) (cm : codec M_) (p : prop E M_) :
  enc (c_prop ce cm) p = enc c_phead (phead p) ++ enc ce (p_event p) ++ enc cm (p_meta p) ++ enc (c_vec c_vote) (p_signers p).
Proof. unfold c_prop, c_iso, c_phead, phead. cbn [enc c_pair fst snd]. rewrite <- !app_assoc. reflexivity. Qed.

(** Marking a record as processed changes one byte behind its head. *)
Lemma mark_flips {E} (ce : codec E) (w : prop (withlen E) (withlen wmeta)) : w_status w = WWaitExecute ->
  exists a b, enc (c_prop (c_withlen ce) (c_withlen c_wmeta)) w = enc c_phead (phead w) ++ a ++ x05 :: b /\
              enc (c_prop (c_withlen ce) (c_withlen c_wmeta)) (w_set_status w WProcessed) = enc c_phead (phead w) ++ a ++ x01 :: b.
Proof.
  intros ST. rewrite !prop_split. change (phead (w_set_status w WProcessed)) with (phead w).
  unfold w_set_status. cbn [p_with_meta p_event p_meta p_signers]. destruct w as [i kd au ro rq pd [el ev] [ml [st bo ep]] sg].
  unfold w_status in ST. cbn [p_meta wl_data wm_status] in ST. subst st.
  exists (enc (c_withlen ce) (WithLen el ev) ++ enc c_u32 ml), (enc c_u64 bo ++ enc c_i64 ep ++ enc (c_vec c_vote) sg).
  cbn [p_event p_meta p_signers wl_len wl_data wm_bounty wm_epoch]. unfold c_withlen at 2 4, c_wmeta, c_iso.
  cbn [enc c_pair fst snd wl_len wl_data wm_status wm_bounty wm_epoch c_wstatus app]. rewrite <- !app_assoc. split; reflexivity.
Qed.

Lemma nth_flip (a b : bytes) x y n : n <> length a -> nth_error (a ++ x :: b) n = nth_error (a ++ y :: b) n.
Proof.
  intros N. destruct (Nat.lt_ge_cases n (length a)) as [L|L].
  - rewrite !nth_error_app1 by exact L. reflexivity.
  - rewrite !nth_error_app2 by exact L. destruct (n - length a)%nat eqn:D; [lia|]. reflexivity.
Qed.
Lemma nth_mid (a b : bytes) x : nth_error (a ++ x :: b) (length a) = Some x.
Proof. rewrite nth_error_app2 by lia. rewrite Nat.sub_diag. reflexivity. Qed.

(** The status byte of a request. *)
Definition status_byte (st : wstatus) : byte :=
  match st with WNew => x00 | WProcessed => x01 | WCancelled => x02 | WPending => x03 | WWaitApprove => x04 | WWaitExecute => x05 end.
Lemma request_bytes e s k g m : request_at e s k g m -> okb c_phead (phead g) = true /\ exists r,
  dat (accs s k) = (enc c_phead (phead g) ++ enc c_bytes (p_event g) ++ enc c_u32 17) ++ status_byte (wm_status m) :: r.
Proof.
  intros (_ & U & PM & _). apply unpack_ok in U as (r & D & O & _); [|typeclasses eauto]. split.
  { unfold c_gprop in O. rewrite (okb_prop c_bytes c_bytes) in O. unfold c_phead, phead. cbn [okb c_pair fst snd]. rewrite !andb_true_iff in *. intuition. }
  rewrite D. unfold c_gprop. rewrite (prop_split c_bytes c_bytes). rewrite PM.
  assert (E : enc c_bytes (enc c_wmeta m) = enc c_u32 17 ++ enc c_wmeta m) by (unfold c_bytes; cbn [enc]; rewrite blen_wmeta; reflexivity).
  rewrite E. destruct m as [st bo ep]. exists (enc c_u64 bo ++ enc c_i64 ep ++ enc (c_vec c_vote) (p_signers g) ++ r).
  rewrite <- !app_assoc. do 3 f_equal. unfold c_wmeta, c_iso. cbn [enc c_pair fst snd wm_status wm_bounty wm_epoch]. rewrite <- !app_assoc.
  destruct st; reflexivity.
Qed.

Lemma head_same {E} (ce : codec E) (w : prop (withlen E) (withlen wmeta)) e s k g m x : request_at e s k g m ->
  okb c_phead (phead w) = true -> dat (accs s k) = enc c_phead (phead w) ++ x -> phead g = phead w.
Proof.
  intros R O D. destruct (request_bytes _ _ _ _ _ R) as (O' & r & D'). rewrite D' in D. rewrite <- !app_assoc in D.
  assert (L : Lawful c_phead) by (unfold c_phead; typeclasses eauto).
  pose proof (@rt _ c_phead L (phead g) (enc c_bytes (p_event g) ++ enc c_u32 17 ++ status_byte (wm_status m) :: r) O') as R1.
  rewrite D in R1. rewrite rt in R1 by exact O. congruence.
Qed.

(** Executing a payload changes the status of a request, if at all, as it should. *)
Lemma payload_status {E} (ce : codec E) (LE : Lawful ce) e c s s1 s' k g m g' m' : no_collision e k ->
  request_at e s k g m -> request_at e s' k g' m' -> same_od s s1 k ->
  payload_wrote (c_prop (c_withlen ce) (c_withlen c_wmeta)) c s s1 s' k ->
  phead g' = phead g /\ p_event g' = p_event g /\
  (wm_status m' = wm_status m \/ (wm_status m = WWaitExecute /\ wm_status m' = WProcessed)).
Proof.
  intros NC R R' [SO SD] (_ & _ & w & n & pn & U & ST & KD & P).
  apply unpack_ok in U as (r & D & O & B & I); [|typeclasses eauto].
  destruct (mark_flips ce w ST) as (a & b & E1 & E2).
  assert (OH : okb c_phead (phead w) = true).
  { rewrite (okb_prop (c_withlen ce) (c_withlen c_wmeta)) in O. unfold c_phead, phead. cbn [okb c_pair fst snd]. rewrite !andb_true_iff in *. intuition. }
  assert (D' : dat (accs s' k) = enc c_phead (phead w) ++ a ++ x01 :: b ++ r).
  { destruct P as [-> _]. rewrite dat_put_dat, SD, D, E2.
    assert (LL : length (enc c_phead (phead w) ++ a ++ x01 :: b) = length (enc c_phead (phead w) ++ a ++ x05 :: b)) by (rewrite !app_length; reflexivity).
    rewrite LL, E1, skipn_app, skipn_all, Nat.sub_diag. cbn [skipn app]. rewrite <- !app_assoc. reflexivity. }
  rewrite E1, <- !app_assoc in D. cbn [app] in D.
  pose proof (head_same ce w _ _ _ _ _ _ R OH D) as H1. pose proof (head_same ce w _ _ _ _ _ _ R' OH D') as H2.
  split; [congruence|]. assert (EV : p_event g' = p_event g).
  { destruct R as (_ & _ & _ & _ & wn & pn0 & _ & F), R' as (_ & _ & _ & _ & wn' & pn' & _ & F'). exact (NC _ _ _ _ _ _ _ _ _ _ _ _ F' F). }
  split; [exact EV|]. destruct (request_bytes _ _ _ _ _ R) as (_ & q & Q). destruct (request_bytes _ _ _ _ _ R') as (_ & q' & Q').
  rewrite H2, EV, <- H1 in Q'. set (H := enc c_phead (phead g) ++ enc c_bytes (p_event g) ++ enc c_u32 17) in *.
  rewrite app_assoc in D, D'. set (A := enc c_phead (phead w) ++ a) in *.
  pose proof (nth_mid H q (status_byte (wm_status m))) as N1. rewrite <- Q, D in N1.
  pose proof (nth_mid H q' (status_byte (wm_status m'))) as N2. rewrite <- Q', D' in N2.
  destruct (Nat.eq_dec (length H) (length A)) as [EL|NL].
  - rewrite EL, nth_mid in N1, N2. right. injection N1 as N1. injection N2 as N2.
    split; [destruct (wm_status m); (reflexivity || discriminate)|destruct (wm_status m'); (reflexivity || discriminate)].
  - left. rewrite (nth_flip A (b ++ r) x05 x01) in N1 by exact NL. rewrite N1 in N2. injection N2 as N2.
    destruct (wm_status m), (wm_status m'); (reflexivity || discriminate).
Qed.

(** One instruction, payload execution on unchecked accounts included: what can happen to the status. *)
Lemma req_status e ext c i s s' k g m g' m' : tp_call e ext c i s s' -> ext_outside ext -> no_collision e k ->
  request_at e s k g m -> request_at e s' k g' m' ->
  p_author g' = p_author g /\ p_round g' = p_round g /\ p_required g' = p_required g /\ p_pda g' = p_pda g /\ p_event g' = p_event g /\
  (wm_status m' = wm_status m \/
   (wmove i (wm_status m) (wm_status m') = true /\ (is_payload i = false -> wpos i c k) /\ (is_exec i = true -> p_required g <= confirms (p_signers g)))).
Proof.
  intros C X NC R R'. destruct (is_payload i) eqn:IP.
  - pose proof C as C0. apply tp_call_exec in C0 as (Hp & Oi & CK & H).
    destruct (payload_cases _ _ _ _ _ _ k Hp IP H) as (s1 & N & Q).
    assert (S1 : same_od s s1 k) by (apply (nested_outside _ _ _ _ _ X N); apply R).
    destruct Q as [Q|Q].
    { assert (S2 : same_od s s' k) by exact (same_od_trans _ _ _ _ S1 Q).
      destruct (request_fun _ _ _ _ _ _ _ (request_same _ _ _ _ _ _ S2 R) R') as [-> ->]. repeat (split; [reflexivity|]). left. reflexivity. }
    destruct Q as [[-> Q]|[-> Q]].
    + destruct (payload_status c_wever_event _ _ _ _ _ _ _ _ _ _ _ NC R R' S1 Q) as (PH & EV & ST).
      unfold phead in PH. injection PH as _ _ P1 P2 P3 P4. repeat (split; [assumption|]).
      destruct ST as [ST|[A B]]; [left; exact ST|right]. rewrite A, B. repeat split; discriminate.
    + destruct (payload_status c_wsol_event _ _ _ _ _ _ _ _ _ _ _ NC R R' S1 Q) as (PH & EV & ST).
      unfold phead in PH. injection PH as _ _ P1 P2 P3 P4. repeat (split; [assumption|]).
      destruct ST as [ST|[A B]]; [left; exact ST|right]. rewrite A, B. repeat split; discriminate.
  - assert (PC : payload_checked e c i s) by (intros j _; split; intros ->; discriminate IP).
    destruct (req_call _ _ _ _ _ _ _ _ _ C X PC NC R) as [SO|v relay rrk rr j n Ei NV SG _ _ _ PO NO LR DL SO R2|b a ev Ei SG _ AU ST R2|st' MV WP QU R2|Ei HD _ D].
    + destruct (request_fun _ _ _ _ _ _ _ (request_same _ _ _ _ _ _ SO R) R') as [-> ->]. repeat (split; [reflexivity|]). left. reflexivity.
    + destruct (request_fun _ _ _ _ _ _ _ R2 R') as [-> ->]. repeat (split; [reflexivity|]). left. reflexivity.
    + destruct (request_fun _ _ _ _ _ _ _ R2 R') as [-> ->]. repeat (split; [reflexivity|]). left. reflexivity.
    + destruct (request_fun _ _ _ _ _ _ _ R2 R') as [-> ->]. repeat (split; [reflexivity|]). right. split; [exact MV|]. split; [auto|exact QU].
    + exfalso. destruct D as (_ & O & _). destruct R' as (O' & _). rewrite O in O'. discriminate.
Qed.
