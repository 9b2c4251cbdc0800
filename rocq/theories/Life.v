(** The life of a request over whole histories, with payloads that call the token proxy again, to any depth,
    and payload executions on any account.  No code of /repo is modelled here. *)

From Coq Require Import ZifyBool ZifyNat ZifyN.
From Verif Require Export Filed.
Ltac Zify.zify_post_hook ::= Z.div_mod_to_equations.
Open Scope Z_scope.
Open Scope list_scope.

(** * Vocabulary *)

(** What calls of other programs may do. *)
Definition others (e : env) (c : ctx) (s s' : state) : Prop := foreign_with e (c_sg c) s s'.
(** The calls of the token proxy that one of its instructions consists of. *)
Definition calls (e : env) : list call -> state -> state -> Prop := steps e (ordinary e) (others e).

(** A history with all its calls of the token proxy. *)
Inductive trace (e : env) : list call -> state -> state -> Prop :=
| tr_refl s : trace e [] s s
| tr_prog l l' s s1 s2 : trace e l s s1 -> calls e l' s1 s2 -> trace e (l ++ l') s s2
| tr_foreign l s s1 s2 : trace e l s s1 -> foreign e tp_id s1 s2 -> trace e l s s2
| tr_purge l s s1 s2 : trace e l s s1 -> purge s1 s2 -> trace e l s s2.

(** A call that executes the new withdrawal with head [h] and event [b] at [k], whose record has the required
    confirmations. *)
Definition executes (e : env) (k : key) (h : head) (b : bytes) (x : call) : Prop :=
  is_exec (cl_ix x) = true /\ hd_error (c_keys (cl_ctx x)) = Some k /\ exists g m,
  request_at e (cl_pre x) k g m /\ phead g = h /\ p_event g = b /\ wm_status m = WNew /\ p_required g <= confirms (p_signers g).
(** A call that closes the request [k]. *)
Definition closes (k : key) (x : call) : Prop := cl_ix x = TpCloseWithdrawal /\ hd_error (c_keys (cl_ctx x)) = Some k.
(** A call that makes the request [g] at [k]. *)
Definition makes (e : env) (k : key) (g : gprop) (x : call) : Prop :=
  exists m rls rr, born e (cl_ctx x) (cl_ix x) (cl_pre x) (cl_post x) k g m rls rr.

(** No request. *)
Definition shut (s : state) (k : key) : Prop := own (accs s k) = sys_id /\ all0 (dat (accs s k)) = true.
(** A closed one, before the end of the transaction. *)
Definition dead (s : state) (k : key) : Prop := shut s k /\ dat (accs s k) <> [].

(** * Lemmas *)

Lemma nest_of e n : forall ext, tp_ext e n ext -> nest e (others e) n ext.
Proof.
  induction n as [|n IH]; intros ext X c d s a s' H; apply X in H; [exact H|].
  destruct H as [H|(P & ext' & X' & R)]; [left; exact H|right]. split; [exact P|]. exists ext'. auto.
Qed.
Lemma instr_calls e n s s' : tp_instr e n s s' -> exists l, calls e l s s'.
Proof.
  intros (c & ext & d & Hp & CK & S & X & R). apply (deep_steps e (ordinary e) (others e)) with (n := n).
  - intros k P _. exact P.
  - intros c0 a b F. apply F.
  - exists c, ext, d. split; [exact Hp|]. split; [exact CK|]. split; [exact S|]. split; [apply nest_of; exact X|exact R].
Qed.
(** Every history is one with calls. *)
Lemma hist_trace e n s s' : tp_hist e n s s' -> exists l, trace e l s s'.
Proof.
  intros H. induction H as [s|s s1 s2 _ [l IH] P|s s1 s2 _ [l IH] F|s s1 s2 _ [l IH] G].
  - exists []. apply tr_refl.
  - apply instr_calls in P as (l' & P). exists (l ++ l'). eapply tr_prog; eassumption.
  - exists l. eapply tr_foreign; eassumption.
  - exists l. eapply tr_purge; eassumption.
Qed.

Lemma shut_same s s' k : same_od s s' k -> shut s k -> shut s' k.
Proof. intros [O D] H. unfold shut. rewrite O, D. exact H. Qed.
Lemma dead_same s s' k : same_od s s' k -> dead s k -> dead s' k.
Proof. intros [O D] H. unfold dead, shut. rewrite O, D. exact H. Qed.
Lemma all0_zeros n : all0 (repeat x00 n) = true.
Proof. induction n as [|n IH]; [reflexivity|exact IH]. Qed.

(** What a payload execution writes. *)
Lemma packs_other i c s s1 s' k : c_pid c = tp_id -> payload_packs i c s s1 s' ->
  same_od s1 s' k \/
  (own (accs s1 k) = tp_id /\ own (accs s' k) = tp_id /\ blen (dat (accs s' k)) = TP_LEN /\ exists n pn,
   kind_at (dat (accs s k)) = Some (KProposal n pn) /\
   ((exists w : wever, unpack c_wever TP_LEN (@p_init _ _) (dat (accs s k)) = Ok w /\ w_status w = WWaitExecute /\
       dat (accs s' k) = enc c_wever (w_set_status w WProcessed) ++ skipn (length (enc c_wever (w_set_status w WProcessed))) (dat (accs s1 k))) \/
    (exists w : wsol, unpack c_wsol TP_LEN (@p_init _ _) (dat (accs s k)) = Ok w /\ w_status w = WWaitExecute /\
       dat (accs s' k) = enc c_wsol (w_set_status w WProcessed) ++ skipn (length (enc c_wsol (w_set_status w WProcessed))) (dat (accs s1 k))))).
Proof.
  intros Hp (k0 & Q). destruct (key_dec k k0) as [->|NE].
  - destruct Q as [(_ & _ & w & n & pn & U & ST & KW & PK)|(_ & _ & w & n & pn & U & ST & KW & PK)];
      destruct PK as (E & B & BE & [DD|[O _]]); try (left; rewrite E; split; [apply own_put_dat|]; rewrite E in DD; exact DD).
    + right. rewrite Hp in O. split; [exact O|]. rewrite E. rewrite own_put_dat. split; [exact O|]. rewrite dat_put_dat.
      split; [unfold blen in *; rewrite app_length, skipn_length; lia|]. exists n, pn.
      split; [rewrite <- KW; eapply kind_prop; [| |exact U]; typeclasses eauto|]. left. exists w. auto.
    + right. rewrite Hp in O. split; [exact O|]. rewrite E. rewrite own_put_dat. split; [exact O|]. rewrite dat_put_dat.
      split; [unfold blen in *; rewrite app_length, skipn_length; lia|]. exists n, pn.
      split; [rewrite <- KW; eapply kind_prop; [| |exact U]; typeclasses eauto|]. right. exists w. auto.
  - left. destruct Q as [(_ & _ & w & n & pn & U & ST & KW & PK)|(_ & _ & w & n & pn & U & ST & KW & PK)]; eapply packed_od; eassumption.
Qed.

(** A request that is closed stays so until the end of the transaction. *)
Lemma dead_steps e l s s' k : request_only e k -> calls e l s s' -> dead s k -> same_od s s' k.
Proof.
  intros RO H. induction H as [s|c s s1 Hp S X|c ext i s s' S IP C|l1 l2 s s1 s2 _ IH1 _ IH2|c i l s s1 s' Hp S IP _ IH PK]; intros D.
  - apply same_od_refl.
  - destruct X as [_ X]. destruct (X k) as (_ & _ & _ & F). apply F; [apply RO|eapply request_unsigned; eassumption|apply D].
  - destruct (vacant_call _ _ _ _ _ _ _ C IP RO (request_unsigned _ _ RO _ S) (proj1 (proj1 D))) as [Q|(g & m & rls & rr & B)]; [exact Q|].
    exfalso. apply (proj2 D). apply (bo_unused _ _ _ _ _ _ _ _ _ _ B).
  - pose proof (IH1 D) as S1. apply (same_od_trans _ _ _ _ S1). apply IH2. exact (dead_same _ _ _ S1 D).
  - pose proof (IH D) as S1. apply (same_od_trans _ _ _ _ S1). destruct (packs_other _ _ _ _ _ k Hp PK) as [Q|(O & _)]; [exact Q|].
    exfalso. destruct S1 as [S1 _], D as [[D _] _]. rewrite S1, D in O. discriminate O.
Qed.

Section Life.
  Context (e : env) (k : key) (NC : no_collision e k) (h : head) (b : bytes) (EF : event_for e k b)
    (HI : fst h = true) (HK : exists n pn, fst (snd h) = KProposal n pn).

  (** The request with head [h] and an event as long as [b], with the given status. *)
  Definition stands (st : wstatus) (s : state) : Prop := exists ev m, filed s k h ev m /\ length ev = length b /\ wm_status m = st.
  Definition moves (l : list call) (st st' : wstatus) : Prop :=
    status_path st st' /\ (st = WNew -> st' = WNew \/ Exists (executes e k h b) l).

  Lemma moves_refl l st : moves l st st.
  Proof. split; [apply sp_refl|auto]. Qed.
  Lemma stands_same st s s' : same_od s s' k -> stands st s -> stands st s'.
  Proof. intros S (ev & m & F & L). exists ev, m. split; [eapply filed_same; eassumption|exact L]. Qed.
  Lemma request_stands s g m : request_at e s k g m -> phead g = h -> p_event g = b -> stands (wm_status m) s.
  Proof. intros R EH EB. exists b, m. split; [rewrite <- EH, <- EB; eapply request_filed; exact R|auto]. Qed.

  Lemma life_call ext c i s s' st : tp_call e ext c i s s' -> is_payload i = false -> stands st s ->
    (exists st', stands st' s' /\ moves [Call c i s s'] st st') \/ (closes k (Call c i s s') /\ dead s' k).
  Proof.
    intros C IP (ev & m & F & L & ST).
    destruct (filed_call _ _ _ _ _ _ _ _ _ _ _ C IP NC EF HI HK F L) as [S|(g & R & EH & EB & EV & RC)].
    { left. exists st. split; [eapply stands_same; [exact S|exists ev, m; auto]|apply moves_refl]. }
    destruct RC as [S|v relay rrk rr j n _ _ _ _ _ _ _ _ _ _ _ R'|b0 a ev0 _ _ _ _ _ R'|st' MV WP QU R'|Ei HC _ D].
    - left. exists st. split; [eapply stands_same; [exact S|exists ev, m; auto]|apply moves_refl].
    - left. exists st. split; [|apply moves_refl]. rewrite <- ST. eapply request_stands; [exact R'|exact EH|exact EB].
    - left. exists st. split; [|apply moves_refl]. rewrite <- ST. change (wm_status m) with (wm_status (m_bounty m b0)). eapply request_stands; [exact R'|exact EH|exact EB].
    - left. exists st'. split; [change st' with (wm_status (m_status m st')); eapply request_stands; [exact R'|exact EH|exact EB]|].
      split; [eapply sp_step; [apply sp_refl|]; rewrite <- ST; eapply wmove_next; exact MV|].
      intros N. right. apply Exists_cons_hd. rewrite ST, N in MV.
      assert (IX : is_exec i = true) by (destruct i; try discriminate MV; reflexivity).
      split; [exact IX|]. split; [cbn [cl_ctx]; destruct i; try discriminate IX; cbn [wpos] in WP; destruct (c_keys c); (discriminate || exact WP)|].
      exists g, m. cbn [cl_pre]. split; [exact R|]. split; [exact EH|]. split; [exact EB|]. split; [congruence|]. apply QU. exact IX.
    - right. split; [split; [exact Ei|exact HC]|]. destruct D as (_ & D1 & D2 & _). split; [split; [exact D1|rewrite D2; apply all0_zeros]|].
      destruct F as (_ & B & _). rewrite D2. intros Z. unfold blen, TP_LEN in B. destruct (length (dat (accs s k))); [discriminate B|discriminate Z].
  Qed.

  Lemma life_steps l s s' : calls e l s s' -> forall st, stands st s ->
    (exists st', stands st' s' /\ moves l st st') \/ (Exists (closes k) l /\ (request_only e k -> dead s' k)).
  Proof.
    intros H. induction H as [s|c s s1 Hp S X|c ext i s s' S IP C|l1 l2 s s1 s2 _ IH1 H2 IH2|c i l s s1 s' Hp S IP _ IH PK]; intros st T.
    - left. exists st. split; [exact T|apply moves_refl].
    - left. exists st. split; [|apply moves_refl]. eapply stands_same; [|exact T]. destruct X as [_ X]. destruct (X k) as (_ & F & _).
      apply F. destruct T as (ev & m & (O & _) & _). exact O.
    - destruct (life_call _ _ _ _ _ _ C IP T) as [Q|[Q D]]; [left; exact Q|right]. split; [apply Exists_cons_hd; exact Q|intros _; exact D].
    - destruct (IH1 _ T) as [(st1 & T1 & M1)|[Q D]].
      + destruct (IH2 _ T1) as [(st2 & T2 & M2)|[Q D]].
        * left. exists st2. split; [exact T2|]. destruct M1 as [P1 N1], M2 as [P2 N2]. split; [eapply status_trans; eassumption|].
          intros N. rewrite Exists_app. destruct (N1 N) as [E1|E1]; [|auto]. destruct (N2 E1); auto.
        * right. split; [rewrite Exists_app; auto|exact D].
      + right. split; [rewrite Exists_app; auto|]. intros RO. eapply dead_same; [|exact (D RO)]. eapply dead_steps; eauto.
    - destruct (IH _ T) as [(st1 & T1 & M1)|[Q D]].
      + destruct (packs_other _ _ _ _ _ k Hp PK) as [Q|(O1 & O' & B' & _ & _ & _ & Q)].
        { left. exists st1. split; [eapply stands_same; eassumption|exact M1]. }
        left. destruct T as (ev & m & F & L & ST), T1 as (ev1 & m1 & F1 & L1 & ST1).
        assert (LL : length (dat (accs s1 k)) = length (dat (accs s k))).
        { destruct F as (_ & B & _), F1 as (_ & B1 & _). unfold blen in *. lia. }
        pose proof (filed_fits _ _ _ _ _ F) as G. pose proof (filed_fits _ _ _ _ _ F1) as G1. rewrite L, ST in G. rewrite L1, ST1 in G1.
        assert (OH : okb c_phead h = true) by apply F.
        assert (X : exists st', fits h (length b) st' (dat (accs s' k)) /\ (st' = st \/ st' = st1 \/ (st = WWaitExecute /\ st' = WProcessed))).
        { destruct Q as [(w & U & SW & DD)|(w & U & SW & DD)]; rewrite DD.
          - exact (fits_back c_wever_event _ _ _ _ _ _ _ _ _ OH G G1 LL U SW).
          - exact (fits_back c_wsol_event _ _ _ _ _ _ _ _ _ OH G G1 LL U SW). }
        destruct X as (st' & FT & CS). exists st'. split.
        * destruct (fits_filed _ _ _ _ _ O' B' OH FT) as (ev' & m' & F' & L' & ST'). exists ev', m'. auto.
        * destruct CS as [->|[->|[-> ->]]]; [apply moves_refl|exact M1|]. split; [|discriminate].
          eapply sp_step; [apply sp_refl|]. reflexivity.
      + right. split; [exact Q|]. intros RO. eapply dead_same; [|exact (D RO)]. destruct (packs_other _ _ _ _ _ k Hp PK) as [G|(O & _)]; [exact G|].
        exfalso. destruct (D RO) as [[D1 _] _]. rewrite D1 in O. discriminate O.
  Qed.
End Life.

(** The request [g] stands since its making: still new, or executed by a call of the list. *)
Definition since (e : env) (k : key) (g : gprop) (l : list call) (s : state) : Prop :=
  exists st, stands k (phead g) (p_event g) st s /\ (st = WNew \/ Exists (executes e k (phead g) (p_event g)) l).

Lemma request_parts e s k g m : request_at e s k g m ->
  event_for e k (p_event g) /\ fst (phead g) = true /\ exists n pn, fst (snd (phead g)) = KProposal n pn.
Proof.
  intros (O & U & _ & _ & n & pn & K & P). split; [|split].
  - exists (p_round g), (pd_ts (p_pda g)), (pd_lt (p_pda g)), (pd_conf (p_pda g)), n. exact P.
  - exact (proj2 (unpack_unchecked_init _ _ _ _ _ U)).
  - exists n, pn. exact K.
Qed.

Lemma since_steps e k x g l0 l s s' : no_collision e k -> request_only e k -> makes e k g x -> calls e l s s' ->
  since e k g l0 s -> since e k g (l0 ++ l) s' \/ dead s' k.
Proof.
  intros NC RO (m0 & rls & rr & B) C (st & T & N). destruct (request_parts _ _ _ _ _ (bo_req _ _ _ _ _ _ _ _ _ _ B)) as (EF & HI & HK).
  destruct (life_steps e k NC (phead g) (p_event g) EF HI HK _ _ _ C _ T) as [(st' & T' & M)|[_ D]]; [left|right; exact (D RO)].
  exists st'. split; [exact T'|]. rewrite Exists_app. destruct M as [_ M]. destruct N as [N|N]; [|auto]. destruct (M N); auto.
Qed.

Lemma vacant_steps e k l s s' : no_collision e k -> request_only e k -> calls e l s s' -> shut s k ->
  same_od s s' k \/ exists l1 x l2 g, l = l1 ++ x :: l2 /\ makes e k g x /\ (since e k g l2 s' \/ dead s' k).
Proof.
  intros NC RO H. induction H as [s|c s s1 Hp S X|c ext i s s' S IP C|l1 l2 s s1 s2 H1 IH1 H2 IH2|c i l s s1 s' Hp S IP _ IH PK]; intros D.
  - left. apply same_od_refl.
  - left. destruct X as [_ X]. destruct (X k) as (_ & _ & _ & F). apply F; [apply RO|eapply request_unsigned; eassumption|apply D].
  - destruct (vacant_call _ _ _ _ _ _ _ C IP RO (request_unsigned _ _ RO _ S) (proj1 D)) as [Q|(g & m & rls & rr & B)]; [left; exact Q|].
    right. exists [], (Call c i s s'), [], g. split; [reflexivity|]. split; [exists m, rls, rr; exact B|]. left.
    exists WNew. split; [|left; reflexivity]. exists (p_event g), m. split; [eapply request_filed; apply B|]. split; [reflexivity|].
    rewrite (bo_meta _ _ _ _ _ _ _ _ _ _ B). reflexivity.
  - destruct (IH1 D) as [S1|(a & x & c & g & -> & MK & [SI|DD])].
    + destruct (IH2 (shut_same _ _ _ S1 D)) as [S2|(a & x & c & g & -> & MK & R)]; [left; exact (same_od_trans _ _ _ _ S1 S2)|].
      right. exists (l1 ++ a), x, c, g. split; [rewrite app_assoc; reflexivity|]. split; [exact MK|exact R].
    + right. exists a, x, (c ++ l2), g. split; [rewrite <- app_assoc; reflexivity|]. split; [exact MK|]. eapply since_steps; eassumption.
    + right. exists a, x, (c ++ l2), g. split; [rewrite <- app_assoc; reflexivity|]. split; [exact MK|]. right.
      eapply dead_same; [|exact DD]. eapply dead_steps; eassumption.
  - assert (SO : same_od s1 s' k).
    { destruct (packs_other _ _ _ _ _ k Hp PK) as [Q|(_ & _ & _ & n & pn & K & _)]; [exact Q|]. destruct (all0_kind _ _ _ (proj2 D) K). }
    destruct (IH D) as [S1|(a & x & c0 & g & -> & MK & [SI|DD])].
    + left. exact (same_od_trans _ _ _ _ S1 SO).
    + right. exists a, x, c0, g. split; [reflexivity|]. split; [exact MK|]. left. destruct SI as (st & T & N). exists st.
      split; [eapply stands_same; eassumption|exact N].
    + right. exists a, x, c0, g. split; [reflexivity|]. split; [exact MK|]. right. eapply dead_same; eassumption.
Qed.

(** From the first state on: no request, or one that was made by a call and, unless it is still new, executed by
    a later call. *)
Theorem trace_request e k l s s' : no_collision e k -> request_only e k -> trace e l s s' -> shut s k ->
  shut s' k \/ exists l1 x l2 g, l = l1 ++ x :: l2 /\ makes e k g x /\ since e k g l2 s'.
Proof.
  intros NC RO H D. induction H as [s|l l' s s1 s2 _ IH C|l s s1 s2 _ IH F|l s s1 s2 _ IH P]; [left; exact D| | |];
    destruct (IH D) as [S1|(a & x & c & g & -> & MK & SI)].
  - destruct (vacant_steps _ _ _ _ _ NC RO C S1) as [S2|(a & x & c & g & -> & MK & [SI|DD])].
    + left. eapply shut_same; eassumption.
    + right. exists (l ++ a), x, c, g. split; [rewrite app_assoc; reflexivity|]. split; [exact MK|exact SI].
    + left. apply DD.
  - destruct (since_steps _ _ _ _ _ _ _ _ NC RO MK C SI) as [SI'|DD]; [right|left; apply DD].
    exists a, x, (c ++ l'), g. split; [rewrite <- app_assoc; reflexivity|]. split; [exact MK|exact SI'].
  - left. eapply shut_same; [|exact S1]. destruct (F k) as (_ & _ & _ & F4). apply F4; [apply RO|apply S1].
  - right. exists a, x, c, g. split; [reflexivity|]. split; [exact MK|]. destruct SI as (st & T & N). exists st. split; [|exact N].
    eapply stands_same; [|exact T]. destruct (F k) as (_ & F2 & _). apply F2. destruct T as (ev & m & (O & _) & _). exact O.
  - left. destruct (P k) as [E|[_ E]]; unfold shut; rewrite E; [exact S1|split; reflexivity].
  - destruct (P k) as [E|[_ E]]; [right|left; unfold shut; rewrite E; split; reflexivity].
    exists a, x, c, g. split; [reflexivity|]. split; [exact MK|]. destruct SI as (st & T & N). exists st. split; [|exact N].
    eapply stands_same; [|exact T]. unfold same_od. rewrite E. auto.
Qed.

(** A request keeps its head and the length of its event and moves along the statuses, unless it is closed or
    its account loses its last lamport. *)
Theorem trace_status e k l s s' g m : no_collision e k -> trace e l s s' -> request_at e s k g m ->
  (exists st, stands k (phead g) (p_event g) st s' /\ moves e k (phead g) (p_event g) l (wm_status m) st) \/
  Exists (closes k) l \/
  (exists l1 l2 s1, l = l1 ++ l2 /\ trace e l1 s s1 /\ trace e l2 s1 s' /\ own (accs s1 k) = tp_id /\ lam (accs s1 k) = 0).
Proof.
  intros NC H R. destruct (request_parts _ _ _ _ _ R) as (EF & HI & HK).
  induction H as [s|l l' s s1 s2 H IH C|l s s1 s2 H IH F|l s s1 s2 H IH P].
  - left. exists (wm_status m). split; [eapply request_stands; [exact R|reflexivity|reflexivity]|apply moves_refl].
  - destruct (IH R) as [(st & T & M)|[CL|(a & b & s0 & -> & T1 & T2 & O & L)]].
    + destruct (life_steps e k NC (phead g) (p_event g) EF HI HK _ _ _ C _ T) as [(st' & T' & M')|[Q _]].
      * left. exists st'. split; [exact T'|]. destruct M as [P1 N1], M' as [P2 N2]. split; [eapply status_trans; eassumption|].
        intros N. rewrite Exists_app. destruct (N1 N) as [E1|E1]; [|auto]. destruct (N2 E1); auto.
      * right. left. rewrite Exists_app. auto.
    + right. left. rewrite Exists_app. auto.
    + right. right. exists a, (b ++ l'), s0. split; [rewrite app_assoc; reflexivity|]. split; [exact T1|]. split; [eapply tr_prog; eassumption|auto].
  - destruct (IH R) as [(st & T & M)|[CL|(a & b & s0 & -> & T1 & T2 & O & L)]]; [left|right; left; exact CL|right; right].
    + exists st. split; [|exact M]. eapply stands_same; [|exact T]. destruct (F k) as (_ & F2 & _). apply F2. destruct T as (ev & m1 & (O & _) & _). exact O.
    + exists a, b, s0. split; [reflexivity|]. split; [exact T1|]. split; [eapply tr_foreign; eassumption|auto].
  - destruct (IH R) as [(st & T & M)|[CL|(a & b & s0 & -> & T1 & T2 & O & L)]]; [|right; left; exact CL|right; right].
    + destruct (P k) as [E|[Z E]].
      * left. exists st. split; [|exact M]. eapply stands_same; [|exact T]. unfold same_od. rewrite E. auto.
      * right. right. exists l, [], s1. split; [rewrite app_nil_r; reflexivity|]. split; [exact H|]. split; [eapply tr_purge; [apply tr_refl|exact P]|].
        split; [destruct T as (ev & m1 & (O & _) & _); exact O|exact Z].
    + exists a, b, s0. split; [reflexivity|]. split; [exact T1|]. split; [eapply tr_purge; eassumption|auto].
Qed.
