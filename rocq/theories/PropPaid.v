(** Property C29 over all histories: payloads may call the token proxy again, to any depth, and payload
    execution may be applied to any account. *)

From Coq Require Import Strings.String ZifyBool ZifyNat ZifyN.
From Verif Require Import TpFlow TpDemoLaws Selfless PropTpReq PropTpFlow PropTpMisc PropNested PropLife.
Open Scope Z_scope.
Open Scope list_scope.
Ltac Zify.zify_post_hook ::= Z.div_mod_to_equations.

(** * C29 A request is paid at most once *)

(** The call [x] pays the request at [k]. *)
Definition pay (k : key) (x : call) : Prop := pays (cl_ctx x) (cl_ix x) (cl_pre x) (cl_post x) k.
(** At most one call of the list pays it. *)
Definition once (k : key) (l : list call) : Prop := forall i j x y,
  nth_error l i = Some x -> nth_error l j = Some y -> pay k x -> pay k y -> i = j.

Lemma once_app k l1 l2 : once k l1 -> once k l2 -> Forall (fun x => ~ pay k x) l1 \/ Forall (fun x => ~ pay k x) l2 -> once k (l1 ++ l2).
Proof.
  intros O1 O2 F i j x y X Y PX PY.
  assert (SP : forall n z, nth_error (l1 ++ l2) n = Some z -> pay k z ->
    ((n < List.length l1)%nat /\ nth_error l1 n = Some z /\ ~ Forall (fun x => ~ pay k x) l1) \/
    ((List.length l1 <= n)%nat /\ nth_error l2 (n - List.length l1) = Some z /\ ~ Forall (fun x => ~ pay k x) l2)).
  { intros n z N P. destruct (Nat.lt_ge_cases n (List.length l1)) as [L|L].
    - rewrite nth_error_app1 in N by exact L. left. split; [exact L|]. split; [exact N|]. intros A. rewrite Forall_forall in A. apply nth_error_In in N. exact (A _ N P).
    - rewrite nth_error_app2 in N by exact L. right. split; [exact L|]. split; [exact N|]. intros A. rewrite Forall_forall in A. apply nth_error_In in N. exact (A _ N P). }
  destruct (SP _ _ X PX) as [(L & N & A)|(L & N & A)], (SP _ _ Y PY) as [(L' & N' & A')|(L' & N' & A')].
  - exact (O1 _ _ _ _ N N' PX PY).
  - exfalso. destruct F; contradiction.
  - exfalso. destruct F; contradiction.
  - assert (i - List.length l1 = j - List.length l1)%nat by exact (O2 _ _ _ _ N N' PX PY). lia.
Qed.
Lemma once_nil k : once k [].
Proof. intros [|i] j x y H; discriminate H. Qed.
Lemma once_one k x : once k [x].
Proof. intros [|[|i]] [|[|j]] a b A B; (reflexivity || discriminate A || discriminate B). Qed.
Lemma paid_dec st : {paid st} + {~ paid st}.
Proof. unfold paid. destruct st; (left; auto; fail) || (right; intros [X|[X|X]]; discriminate X). Qed.
Lemma closes_dec k x : {closes k x} + {~ closes k x}.
Proof.
  unfold closes. destruct (hd_error (c_keys (cl_ctx x))) as [j|]; [|right; intros [_ E]; discriminate E].
  destruct (key_dec j k) as [->|N]; [|right; intros [_ E]; congruence].
  destruct (cl_ix x); (left; split; reflexivity) || (right; intros [E _]; discriminate E).
Qed.

Section Paid.
  Context (e : env) (k : key) (NC : no_collision e k) (h : head) (b : bytes) (EF : event_for e k b)
    (HI : fst h = true) (HK : exists n pn, fst (snd h) = KProposal n pn).

  Lemma stands_fun st st' s : stands k h b st s -> stands k h b st' s -> st' = st.
  Proof. intros (ev & m & F & _ & <-) (ev' & m' & F' & _ & <-). destruct (filed_fun _ _ _ _ _ _ _ _ F F') as (_ & _ & ->). reflexivity. Qed.

  Lemma pay_call ext c i s s' st st' : tp_call e ext c i s s' -> is_payload i = false -> stands k h b st s -> stands k h b st' s' ->
    pays c i s s' k -> unpaid st /\ paid st'.
  Proof.
    intros C IP T T' P. destruct T as (ev & m & F & L & ST).
    destruct (filed_call _ _ _ _ _ _ _ _ _ _ _ C IP NC EF HI HK F L) as [[SO SD]|(g & R & _)].
    - exfalso. destruct (pays_typed _ _ _ _ _ _ _ C P) as (st0 & PD & [(w & [_ W1] & _ & UP & [_ W2])|(w & [_ W1] & _ & UP & [_ W2])]);
        rewrite SD, W1 in W2; injection W2 as W2; apply (paid_unpaid st0 PD); rewrite W2 in UP; exact UP.
    - destruct (C29_step _ _ _ _ _ _ _ _ _ NC C P R) as (UP & g' & m' & R' & PD). split; [rewrite <- ST; exact UP|].
      destruct T' as (ev' & m1 & F' & _ & <-). apply request_filed in R'. destruct (filed_fun _ _ _ _ _ _ _ _ F' R') as (_ & _ & <-). exact PD.
  Qed.

  Definition paying (l : list call) (st st' : wstatus) : Prop :=
    status_path st st' /\ (paid st -> Forall (fun x => ~ pay k x) l) /\ (~ paid st' -> Forall (fun x => ~ pay k x) l) /\ once k l.

  Lemma paying_none st st' : status_path st st' -> paying [] st st'.
  Proof. intros P. split; [exact P|]. split; [intros _; apply Forall_nil|]. split; [intros _; apply Forall_nil|apply once_nil]. Qed.
  Lemma paying_app l1 l2 st st1 st2 : paying l1 st st1 -> paying l2 st1 st2 -> paying (l1 ++ l2) st st2.
  Proof.
    intros (P1 & A1 & B1 & O1) (P2 & A2 & B2 & O2). split; [eapply status_trans; eassumption|]. split; [|split].
    - intros P. apply Forall_app. split; [apply A1; exact P|apply A2; exact (paid_stays _ _ P1 P)].
    - intros N. apply Forall_app. split; [apply B1; intros P; apply N; exact (paid_stays _ _ P2 P)|apply B2; exact N].
    - apply once_app; [exact O1|exact O2|]. destruct (paid_dec st1) as [P|N]; [right; apply A2; exact P|left; apply B1; exact N].
  Qed.

  Lemma paid_steps l s s' : tame e k l s s' -> forall st, stands k h b st s -> Forall (fun x => ~ closes k x) l ->
    exists st', stands k h b st' s' /\ paying l st st'.
  Proof.
    intros H. induction H as [s|c s s1 Hp S X|c ext i s s' S IP C|l1 l2 s s1 s2 _ IH1 H2 IH2|c i l s s1 s' Hp S IP _ IH PK KP]; intros st T NCL.
    - exists st. split; [exact T|apply paying_none; apply sp_refl].
    - exists st. split; [|apply paying_none; apply sp_refl]. eapply stands_same; [|exact T]. destruct X as [_ X]. destruct (X k) as (_ & F & _).
      apply F. destruct T as (ev & m & (O & _) & _). exact O.
    - destruct (life_call e k NC h b EF HI HK _ _ _ _ _ _ C IP T) as [(st' & T' & M)|[Q _]]; [|inversion NCL; contradiction].
      exists st'. split; [exact T'|]. split; [apply M|]. split; [|split; [|apply once_one]].
      + intros P. apply Forall_cons; [|apply Forall_nil]. intros Y. apply (paid_unpaid st P). apply (pay_call _ _ _ _ _ _ _ C IP T T' Y).
      + intros N. apply Forall_cons; [|apply Forall_nil]. intros Y. apply N. apply (pay_call _ _ _ _ _ _ _ C IP T T' Y).
    - apply Forall_app in NCL as [N1 N2]. destruct (IH1 _ T N1) as (st1 & T1 & P1). destruct (IH2 _ T1 N2) as (st2 & T2 & P2).
      exists st2. split; [exact T2|eapply paying_app; eassumption].
    - destruct (IH _ T NCL) as (st1 & T1 & P1).
      destruct (packs_other _ _ _ _ _ k Hp PK) as [Q|(O1 & O' & B' & _ & _ & _ & Q)].
      { exists st1. split; [eapply stands_same; eassumption|exact P1]. }
      assert (SO : same_od s1 s' k \/ st1 = st).
      { pose proof PK as (k0 & Z). destruct (key_dec k0 k) as [->|NE]; [|apply not_eq_sym in NE].
        - right. eapply stands_fun; [|exact T1]. eapply stands_same; [|exact T]. apply KP; [destruct Z as [(_ & Z & _)|(_ & Z & _)]; exact Z|].
          destruct T as (ev & m & (O & _) & _). exact O.
        - left. destruct Z as [(_ & _ & w & n & pn & _ & _ & _ & P)|(_ & _ & w & n & pn & _ & _ & _ & P)]; eapply packed_od; eassumption. }
      destruct SO as [SO| ->]; [exists st1; split; [eapply stands_same; eassumption|exact P1]|].
      destruct T as (ev & m & F & L & ST), T1 as (ev1 & m1 & F1 & L1 & ST1).
      assert (LL : List.length (dat (accs s1 k)) = List.length (dat (accs s k))).
      { destruct F as (_ & B & _), F1 as (_ & B1 & _). unfold blen in *. lia. }
      pose proof (filed_fits _ _ _ _ _ F) as G. pose proof (filed_fits _ _ _ _ _ F1) as G1. rewrite L, ST in G. rewrite L1, ST1 in G1.
      assert (OH : okb c_phead h = true) by apply F.
      assert (X : exists st', fits h (List.length b) st' (dat (accs s' k)) /\ (st' = st \/ st' = st \/ (st = WWaitExecute /\ st' = WProcessed))).
      { destruct Q as [(w & U & SW & DD)|(w & U & SW & DD)]; rewrite DD.
        - exact (fits_back c_wever_event _ _ _ _ _ _ _ _ _ OH G G1 LL U SW).
        - exact (fits_back c_wsol_event _ _ _ _ _ _ _ _ _ OH G G1 LL U SW). }
      destruct X as (st' & FT & CS). exists st'. split.
      * destruct (fits_filed _ _ _ _ _ O' B' OH FT) as (ev' & m' & F' & L' & ST'). exists ev', m'. auto.
      * destruct CS as [->|[->|[-> ->]]]; [exact P1|exact P1|]. destruct P1 as (_ & A & _ & O).
        split; [eapply sp_step; [apply sp_refl|]; reflexivity|]. split; [exact A|]. split; [|exact O]. intros N. exfalso. apply N. unfold paid. auto.
  Qed.
End Paid.

Lemma paid_trace e k l s s' g m : no_collision e k -> tame_trace e k l s s' -> request_at e s k g m -> Forall (fun x => ~ closes k x) l ->
  (exists st, stands k (phead g) (p_event g) st s' /\ paying k l (wm_status m) st) \/
  (exists l1 l2 s1, l = l1 ++ l2 /\ trace e l1 s s1 /\ trace e l2 s1 s' /\ lam (accs s1 k) = 0).
Proof.
  intros NC H R. destruct (request_parts _ _ _ _ _ R) as (EF & HI & HK).
  induction H as [s|l l' s s1 s2 H IH C|l s s1 s2 H IH F|l s s1 s2 H IH P]; intros NCL.
  - left. exists (wm_status m). split; [eapply request_stands; [exact R|reflexivity|reflexivity]|apply paying_none; apply sp_refl].
  - apply Forall_app in NCL as [N1 N2]. destruct (IH R N1) as [(st & T & M)|(a & b & s0 & -> & T1 & T2 & L)].
    + destruct (paid_steps e k NC (phead g) (p_event g) EF HI HK _ _ _ C _ T N2) as (st' & T' & M').
      left. exists st'. split; [exact T'|eapply paying_app; eassumption].
    + right. exists a, (b ++ l'), s0. split; [rewrite app_assoc; reflexivity|]. split; [exact T1|]. split; [|exact L].
      eapply tr_prog; [exact T2|eapply tame_steps; exact C].
  - destruct (IH R NCL) as [(st & T & M)|(a & b & s0 & -> & T1 & T2 & L)]; [left|right].
    + exists st. split; [|exact M]. eapply stands_same; [|exact T]. destruct (F k) as (_ & F2 & _). apply F2. destruct T as (ev & m1 & (O & _) & _). exact O.
    + exists a, b, s0. split; [reflexivity|]. split; [exact T1|]. split; [eapply tr_foreign; eassumption|auto].
  - destruct (IH R NCL) as [(st & T & M)|(a & b & s0 & -> & T1 & T2 & L)]; [|right].
    + destruct (P k) as [E|[Z E]].
      * left. exists st. split; [|exact M]. eapply stands_same; [|exact T]. unfold same_od. rewrite E. auto.
      * right. exists l, [], s1. split; [rewrite app_nil_r; reflexivity|]. split; [eapply tame_trace_trace; exact H|]. split; [eapply tr_purge; [apply tr_refl|exact P]|exact Z].
    + exists a, b, s0. split; [reflexivity|]. split; [exact T1|]. split; [eapply tr_purge; eassumption|auto].
Qed.

(** While the request at [k] exists - until a call closes it or its account has no lamports left - at most one
    call pays it, however deeply payloads call the token proxy and whatever payload execution is applied to.
    Partial: whenever the token proxy is called, the account [k] does not contain its own address, which is
    derived from the hash of the event it contains ([C29_refuted] needs such a record). *)
Theorem C29_nested_partial : forall e n k s s' g m, no_collision e k -> hist_in (unnamed k) e n s s' -> request_at e s k g m ->
  exists l, trace e l s s' /\
  ((forall i j x y, nth_error l i = Some x -> nth_error l j = Some y ->
      pays (cl_ctx x) (cl_ix x) (cl_pre x) (cl_post x) k -> pays (cl_ctx y) (cl_ix y) (cl_pre y) (cl_post y) k -> i = j) \/
   (exists x, In x l /\ cl_ix x = TpCloseWithdrawal /\ hd_error (c_keys (cl_ctx x)) = Some k) \/
   (exists l1 l2 s1, l = l1 ++ l2 /\ trace e l1 s s1 /\ trace e l2 s1 s' /\ lam (accs s1 k) = 0)).
Proof.
  intros e n k s s' g m NC H R. apply hist_tame in H as (l & H). exists l. split; [eapply tame_trace_trace; exact H|].
  destruct (Exists_dec (closes k) l (closes_dec k)) as [X|X].
  { right. left. apply Exists_exists in X as (x & IN & X). exists x. split; [exact IN|exact X]. }
  apply Forall_Exists_neg in X. destruct (paid_trace _ _ _ _ _ _ _ NC H R X) as [(st & _ & _ & _ & _ & O)|D]; [left; exact O|right; right; exact D].
Qed.
(** A request that is paid already is not paid again. *)
Theorem C29_paid_partial : forall e n k s s' g m, no_collision e k -> hist_in (unnamed k) e n s s' -> request_at e s k g m -> paid (wm_status m) ->
  exists l, trace e l s s' /\
  ((forall x, In x l -> ~ pays (cl_ctx x) (cl_ix x) (cl_pre x) (cl_post x) k) \/
   (exists x, In x l /\ cl_ix x = TpCloseWithdrawal /\ hd_error (c_keys (cl_ctx x)) = Some k) \/
   (exists l1 l2 s1, l = l1 ++ l2 /\ trace e l1 s s1 /\ trace e l2 s1 s' /\ lam (accs s1 k) = 0)).
Proof.
  intros e n k s s' g m NC H R P. apply hist_tame in H as (l & H). exists l. split; [eapply tame_trace_trace; exact H|].
  destruct (Exists_dec (closes k) l (closes_dec k)) as [X|X].
  { right. left. apply Exists_exists in X as (x & IN & X). exists x. split; [exact IN|exact X]. }
  apply Forall_Exists_neg in X. destruct (paid_trace _ _ _ _ _ _ _ NC H R X) as [(st & _ & _ & A & _ & _)|D]; [left|right; right; exact D].
  specialize (A P). rewrite Forall_forall in A. exact A.
Qed.

(** ** The request [tev10], paid by the payload of another request and then executed once more *)

Fixpoint startsb (x d : bytes) : bool :=
  match x, d with
  | [], _ => true
  | a :: x', b :: d' => Byte.eqb a b && startsb x' d'
  | _, _ => false
  end.
Fixpoint partb (x d : bytes) : bool := startsb x d || match d with [] => false | _ :: d' => partb x d' end.
Lemma startsb_app x r : startsb x (x ++ r) = true.
Proof. induction x as [|a x IH]; [reflexivity|]. cbn [startsb app]. rewrite IH, andb_true_r. apply Byte.byte_dec_lb. reflexivity. Qed.
Lemma part_partb x d : part x d -> partb x d = true.
Proof.
  intros (a & r & ->). induction a as [|b a IH].
  - cbn [app]. assert (S : startsb x (x ++ r) = true) by apply startsb_app. destruct (x ++ r); cbn [partb]; rewrite S; reflexivity.
  - cbn [app partb]. rewrite IH. apply orb_true_r.
Qed.
Lemma demo_unnamed k s : partb (kb k) (dat (accs s k)) = false -> unnamed k s.
Proof. intros H P. apply part_partb in P. congruence. Qed.

(** The token proxy called by a payload while [tw16] does not contain its own address. *)
Definition checked_ext : extern := fun c d s => if partb (kb tw16) (dat (accs s tw16)) then Err Runtime else self_ext c d s.
Lemma checked_in : ext_in (unnamed tw16) te 1 checked_ext.
Proof.
  intros c d s a s' H. right. unfold checked_ext in H. destruct (partb (kb tw16) (dat (accs s tw16))) eqn:E; [discriminate H|].
  unfold self_ext in H. destruct (keqb (c_pid c) tp_id) eqn:P; [|discriminate H]. apply keqb_eq in P.
  split; [exact P|]. split; [apply demo_unnamed; exact E|]. exists no_ext. split; [intros c' d' b x b' H'; destruct (no_ext_never _ _ _ _ H')|].
  destruct (run c _ s) as [x|] eqn:R; [|discriminate H]. cbn [rbind] in H. injection H as _ ->. reflexivity.
Qed.
Definition tp1 := unres (do_tp te checked_ext (fst trun2) (snd trun2) ts52).
Definition tp2 := unres (tstp tp1 (texecS tw16 trecvS tmintS)).

Lemma paid_hist : hist_in (unnamed tw16) te 1 ts52 tp2.
Proof.
  eapply h_prog; [eapply h_prog; [apply h_refl|]|].
  - exists (ctx_of tp_id (fst trun2)), checked_ext, (enc c_tp_ix (snd trun2)). split; [reflexivity|]. split; [vm_compute; split; [discriminate|reflexivity]|].
    split; [intros k S; rewrite run2_signs in S; discriminate S|]. split; [apply demo_unnamed; vm_compute; reflexivity|]. split; [apply checked_in|].
    instantiate (1 := tp1). unfold tp1. apply ok_unres. vm_compute. reflexivity.
  - exists (ctx_of tp_id (fst (texecS tw16 trecvS tmintS))), no_ext, (enc c_tp_ix TpWithdrawSol). split; [reflexivity|]. split; [vm_compute; split; [discriminate|reflexivity]|].
    split; [intros k S P; apply (demo_plain ttab thash _ tp_id) in S; [contradiction|vm_compute; reflexivity]|].
    split; [apply demo_unnamed; vm_compute; reflexivity|]. split; [intros c' d' b x b' x'; destruct (no_ext_never _ _ _ _ x')|].
    unfold tp2. apply ok_unres. vm_compute. reflexivity.
Qed.
Example C29_nested_ex : no_collision te tw16 /\ hist_in (unnamed tw16) te 1 ts52 tp2 /\
  request_at te ts52 tw16 (the_req ts52 tw16) (the_meta ts52 tw16) /\ wm_status (the_meta ts52 tw16) = WNew /\
  wm_status (the_meta tp1 tw16) = WProcessed /\ balance tp1 tvault < balance ts52 tvault /\ balance tp2 tvault = balance tp1 tvault.
Proof.
  split; [exact tw16_sole|]. split; [exact paid_hist|]. split; [demo_req|]. vm_compute. repeat split; reflexivity.
Qed.

Print Assumptions C29_nested_partial.
Print Assumptions C29_paid_partial.
