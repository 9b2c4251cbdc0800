(** Forward reasoning about the associated-token-account program and the initialisation of mints: when they succeed.
    No code of /repo is modelled here. *)

From Coq Require Import Strings.String ZifyBool ZifyNat ZifyN.
From Verif Require Export Progress SplGo SysGo PropDeposits.
From Verif Require Import PropTpFlow PropTpPay PropTpMoney PropLive PropExec PropExits.
Open Scope Z_scope.
Open Scope list_scope.
Ltac Zify.zify_post_hook ::= Z.div_mod_to_equations.

(** Nobody uses the address; it may hold lamports. *)
Definition unused (s : state) (k : key) : Prop := 0 <= lam (accs s k) /\ own (accs s k) = sys_id /\ dat (accs s k) = [].

Lemma all0_repeat n : all0 (repeat x00 n) = true.
Proof. unfold all0. apply forallb_forall. intros x X. apply repeat_spec in X. rewrite X. reflexivity. Qed.

Lemma sys_transfer_go c from to z s : c_pid c = sys_id -> c_sg c from = true -> c_wr c from = true -> c_wr c to = true ->
  has_lamports s from z -> from <> to -> 0 <= z -> 0 <= lam (accs s to) -> lam (accs s to) + z < u64max ->
  exists s', sys_transfer c from to z s = Ok (tt, s') /\
    accs s' to = Acct (lam (accs s to) + z) (own (accs s to)) (dat (accs s to)) /\ accs s' from = Acct (lam (accs s from) - z) sys_id [] /\
    (forall j, j <> from -> j <> to -> accs s' j = accs s j) /\ logs s' = logs s /\ now s' = now s.
Proof.
  intros P S1 W1 W2 (F1 & F2 & F3) NE Z N L.
  set (s3 := put_lam s from (lam (accs s from) - z)). set (s4 := put_lam s3 to (lam (accs s3 to) + z)).
  assert (NE' : to <> from) by congruence.
  assert (A4 : accs s3 to = accs s to) by (unfold s3, put_lam; rewrite accs_put, keqb_ne by exact NE'; reflexivity).
  exists s4. split; [|split; [|split; [|split; [|split; reflexivity]]]].
  - unfold sys_transfer. eapply bind_go; [apply guard_go; exact S1|]. eapply bind_go; [reflexivity|]. cbv beta.
    eapply bind_go; [apply guard_go; rewrite F3; reflexivity|]. eapply bind_go; [apply guard_go; apply Z.leb_le; exact F1|].
    apply (bind_go _ _ s tt s3). { unfold s3. apply set_lam_go; [lia|exact W1|right; rewrite P; exact F2]. }
    eapply bind_go; [reflexivity|]. cbv beta. rewrite A4. eapply bind_go; [apply guard_go; apply Z.ltb_lt; lia|]. unfold s4. rewrite A4.
    apply set_lam_go; [lia|exact W2|left; rewrite A4; lia].
  - unfold s4, put_lam. rewrite accs_put, keqb_refl, A4. reflexivity.
  - unfold s4, put_lam. rewrite accs_put, keqb_ne by exact NE. unfold s3, put_lam. rewrite accs_put, keqb_refl, F2, F3. reflexivity.
  - intros j J1 J2. unfold s4, put_lam. rewrite accs_put, keqb_ne by exact J2. unfold s3, put_lam. rewrite accs_put, keqb_ne by exact J1. reflexivity.
Qed.
Lemma sys_allocate_go c k n s : c_pid c = sys_id -> c_sg c k = true -> c_wr c k = true -> unused s k -> 0 <= n <= MAX_DATA ->
  sys_allocate c k n s = Ok (tt, put_dat s k (repeat x00 (Z.to_nat n))).
Proof.
  intros P S W (_ & O & D) N. unfold sys_allocate. eapply bind_go; [apply guard_go; exact S|]. eapply bind_go; [reflexivity|]. cbv beta.
  eapply bind_go; [apply guard_go; rewrite O, D, keqb_refl; reflexivity|]. eapply bind_go; [apply guard_go; apply Z.leb_le; lia|].
  unfold set_data. rewrite O, P, keqb_refl, W. cbn [andb]. rewrite orb_true_r. reflexivity.
Qed.
Lemma sys_assign_go c k o n s : c_pid c = sys_id -> c_sg c k = true -> c_wr c k = true -> own (accs s k) = sys_id -> dat (accs s k) = repeat x00 n -> o <> sys_id ->
  sys_assign c k o s = Ok (tt, put_own s k o).
Proof.
  intros P S W O D NO. unfold sys_assign. eapply bind_go; [reflexivity|]. cbv beta. rewrite O, keqb_ne by congruence.
  eapply bind_go; [apply guard_go; exact S|]. unfold set_own. rewrite O, P, keqb_refl, W, D, all0_repeat. cbn [andb]. rewrite orb_true_r. reflexivity.
Qed.

(** Creation of an account at an unused address that may hold lamports: the payer adds what is missing. *)
Lemma create_pda_go e c payer n o k sd s : In payer (c_keys c) -> In k (c_keys c) -> In sys_id (c_keys c) -> c_sg c payer = true -> c_wr c payer = true -> c_wr c k = true ->
  e_pda e sd (c_pid c) = Some k -> unused s k -> has_lamports s payer (Z.max (rent_min e n) 1) -> payer <> k -> Z.max (rent_min e n) 1 < u64max -> lam (accs s k) < u64max ->
  0 <= n <= MAX_DATA -> o <> sys_id ->
  exists s' p, create_pda_account e c payer n o sys_id k sd s = Ok (tt, s') /\ p = Z.max 0 (Z.max (rent_min e n) 1 - lam (accs s k)) /\
    accs s' k = Acct (lam (accs s k) + p) o (repeat x00 (Z.to_nat n)) /\ accs s' payer = Acct (lam (accs s payer) - p) sys_id [] /\
    (forall j, j <> payer -> j <> k -> accs s' j = accs s j) /\ logs s' = logs s /\ now s' = now s.
Proof.
  intros I1 I2 I3 S1 W1 W2 PD U HL NE ZB LB N O. pose proof U as (U0 & U1 & U2). pose proof HL as (F1 & F2 & F3). set (z := Z.max (rent_min e n) 1) in *.
  assert (PS : forall s, pda_signer e c sd s = Ok (k, s)) by (intros x; unfold pda_signer; apply lift_go; rewrite PD; reflexivity).
  assert (NE' : k <> payer) by congruence. assert (Z0 : 0 < z) by (unfold z; lia).
  destruct (0 <? lam (accs s k)) eqn:L.
  - (* topped up, allocated, assigned *)
    assert (T : exists s1, (if 0 <? z - lam (accs s k) then cpi c [payer; k; sys_id] sys_id [Meta payer true true; Meta k false true] [] (fun c' => sys_transfer c' payer k (z - lam (accs s k))) else ret tt) s = Ok (tt, s1) /\
      accs s1 k = Acct (lam (accs s k) + Z.max 0 (z - lam (accs s k))) sys_id [] /\ accs s1 payer = Acct (lam (accs s payer) - Z.max 0 (z - lam (accs s k))) sys_id [] /\
      (forall j, j <> payer -> j <> k -> accs s1 j = accs s j) /\ logs s1 = logs s /\ now s1 = now s).
    { destruct (0 <? z - lam (accs s k)) eqn:R.
      - destruct (sys_transfer_go (ctx_of sys_id [Meta payer true true; Meta k false true]) payer k (z - lam (accs s k)) s) as (s1 & T & A & B & C & D); try reflexivity; try lia; try assumption.
        { cbn [ctx_of c_sg existsb m_key m_sg]. rewrite keqb_refl. reflexivity. } { cbn [ctx_of c_wr existsb m_key m_wr]. rewrite keqb_refl. reflexivity. }
        { cbn [ctx_of c_wr existsb m_key m_wr]. rewrite keqb_refl. cbn [andb]. rewrite ?orb_true_r. reflexivity. } { split; [lia|auto]. }
        exists s1. replace (Z.max 0 (z - lam (accs s k))) with (z - lam (accs s k)) by lia. split; [|rewrite A, U1, U2; auto].
        apply cpi_go; [exact I3| |exact T]. repeat (apply Forall_cons; [cbn [m_key m_sg m_wr]; (split; [cbn [In]; tauto|split; [assumption|split; [intros X; try discriminate X; left; exact S1|intros _; assumption]]])|]). apply Forall_nil.
      - exists s. replace (Z.max 0 (z - lam (accs s k))) with 0 by lia. split; [reflexivity|]. rewrite Z.add_0_r, Z.sub_0_r.
        assert (EK : accs s k = Acct (lam (accs s k)) sys_id []) by (rewrite <- U1, <- U2; apply eta_acct).
        assert (EP : accs s payer = Acct (lam (accs s payer)) sys_id []) by (rewrite <- F2, <- F3; apply eta_acct). auto. }
    destruct T as (s1 & T & A & B & C & D1 & D2). set (s2 := put_dat s1 k (repeat x00 (Z.to_nat n))). set (s3 := put_own s2 k o).
    set (c1 := ctx_of sys_id [Meta k true true]).
    assert (CS : c_sg c1 k = true /\ c_wr c1 k = true) by (unfold c1; cbn [ctx_of c_sg c_wr existsb m_key m_sg m_wr]; rewrite keqb_refl; auto). destruct CS as [CS CW].
    assert (RUN : create_pda_account e c payer n o sys_id k sd s = Ok (tt, s3)).
    { unfold create_pda_account. eapply bind_go; [reflexivity|]. cbv beta. rewrite L. cbv zeta. fold z. eapply bind_go; [exact T|]. eapply bind_go; [apply PS|]. cbv beta.
      apply (bind_go _ _ s1 tt s2).
      - apply cpi_go; [exact I3| |apply sys_allocate_go; try assumption; [reflexivity|unfold unused; rewrite A; cbn [lam own dat]; split; [lia|auto]]].
        apply Forall_cons; [|apply Forall_nil]. cbn [m_key m_sg m_wr]. split; [left; reflexivity|]. split; [assumption|]. split; [intros _; right; left; reflexivity|auto].
      - apply cpi_go; [exact I3| |eapply sys_assign_go; try assumption; [reflexivity| |]].
        + apply Forall_cons; [|apply Forall_nil]. cbn [m_key m_sg m_wr]. split; [left; reflexivity|]. split; [assumption|]. split; [intros _; right; left; reflexivity|auto].
        + unfold s2, put_dat. rewrite accs_put, keqb_refl, A. reflexivity.
        + unfold s2, put_dat. rewrite accs_put, keqb_refl. reflexivity. }
    exists s3, (Z.max 0 (z - lam (accs s k))). split; [exact RUN|]. split; [reflexivity|]. split; [|split; [|split; [|auto]]].
    + unfold s3, put_own. rewrite accs_put, keqb_refl. unfold s2, put_dat. rewrite accs_put, keqb_refl, A. reflexivity.
    + unfold s3, put_own. rewrite accs_put, keqb_ne by exact NE. unfold s2, put_dat. rewrite accs_put, keqb_ne by exact NE. exact B.
    + intros j J1 J2. unfold s3, put_own. rewrite accs_put, keqb_ne by exact J2. unfold s2, put_dat. rewrite accs_put, keqb_ne by exact J2. apply C; assumption.
  - destruct (create_go e c payer k z n o sd s) as (s1 & T & A & B & C & D1 & D2); try assumption; [split; [lia|auto]|lia|].
    unfold invoke_create in T.
    assert (RUN : create_pda_account e c payer n o sys_id k sd s = Ok (tt, s1)).
    { unfold create_pda_account. eapply bind_go; [reflexivity|]. cbv beta. rewrite L. fold z. eapply bind_go; [apply PS|]. cbv beta.
      apply bind_ok in T as (p & ? & G & T). unfold pda_signer in G. apply lift_ok in G as [G ->]. rewrite PD in G. injection G as <-.
      apply cpi_inv in T as T'. apply cpi_go; [exact I3| |].
      - repeat (apply Forall_cons; [cbn [m_key m_sg m_wr]; (split; [cbn [In]; tauto|split; [assumption|split; [intros X; try discriminate X; first [left; exact S1|right; left; reflexivity]|intros _; assumption]]])|]). apply Forall_nil.
      - unfold cpi in T. apply bind_ok in T as (? & ? & G & T). apply guard_ok in G as [_ ->]. apply bind_ok in T as (? & ? & G & T). apply guard_ok in G as [_ ->]. exact T. }
    exists s1, z. split; [exact RUN|]. split; [lia|]. replace (lam (accs s k)) with 0 by lia. auto.
Qed.

Lemma init_mint_go e c mint auth d s : c_pid c = spl_id -> c_wr c mint = true -> own (accs s mint) = spl_id -> dat (accs s mint) = repeat x00 82 ->
  rent_min e TMINT_LEN <= lam (accs s mint) -> 0 <= d < 256 ->
  exists m, tok_init_mint e c mint rent_id auth None d s = Ok (tt, written c_tmint s mint m) /\ okb c_tmint m = true /\ tm_init m = true /\ tm_supply m = 0 /\ tm_decimals m = d /\
    tm_auth m = (true, auth) /\ fst (tm_freeze m) = false.
Proof.
  intros P W O D R DB. set (m0 := TMint (false, key0) 0 0 false (false, key0)).
  assert (U0 : spl_unpack_unchecked c_tmint TMINT_LEN (dat (accs s mint)) = Ok m0) by (rewrite D; vm_compute; reflexivity).
  exists (TMint (true, auth) 0 d true (false, key0)). split; [|split].
  - unfold tok_init_mint. eapply bind_go; [unfold check_rent; apply guard_go; reflexivity|]. eapply bind_go; [reflexivity|]. cbv beta.
    eapply bind_go; [apply lift_go; exact U0|]. cbv beta. eapply bind_go; [apply guard_go; reflexivity|]. eapply bind_go; [apply guard_go; apply Z.leb_le; exact R|].
    apply pack_at_go; [rewrite P; exact O|exact W|rewrite D; reflexivity|]. unfold TMINT_LEN. rewrite size_tmint. lia.
  - apply okb_tmint. cbn [tm_supply tm_decimals]. unfold u64max. lia.
  - repeat split.
Qed.

(** Creation of the associated token account of [wallet] for [mint]. *)
Lemma ata_made e c funder wallet mint ata an s m : c_keys c <> [] -> In funder (c_keys c) -> In ata (c_keys c) -> In wallet (c_keys c) -> In mint (c_keys c) -> In sys_id (c_keys c) ->
  In spl_id (c_keys c) -> In ata_id (c_keys c) -> c_sg c funder = true -> c_wr c funder = true -> c_wr c ata = true ->
  find_pda e (kb wallet ++ kb spl_id ++ kb mint) ata_id = Ok (ata, an) -> unused s ata -> lam (accs s ata) < u64max -> has_lamports s funder (token_price e) -> mint_in s mint m ->
  tm_init m = true -> funder <> ata ->
  exists s' p t, invoke_ata_create e c funder wallet mint s = Ok (tt, s') /\ 0 <= p <= token_price e /\
    tok_in s' ata t /\ ta_mint t = mint /\ ta_owner t = wallet /\ ta_state t = TInit /\ fst (ta_delegate t) = false /\
    ta_amount t = (if keqb mint native_mint then lam (accs s' ata) - e_rent e 165 mod 2 ^ 64 else 0) /\
    ta_native t = (if keqb mint native_mint then (true, e_rent e 165 mod 2 ^ 64) else (false, 0)) /\ e_rent e 165 mod 2 ^ 64 <= lam (accs s' ata) /\
    lam (accs s' ata) = lam (accs s ata) + p /\ accs s' funder = Acct (lam (accs s funder) - p) sys_id [] /\
    (forall j, j <> funder -> j <> ata -> accs s' j = accs s j) /\ logs s' = logs s /\ now s' = now s.
Proof.
  intros _ I1 I2 I3 I4 I5 I6 I7 SG W1 W2 FA UN LB HL MI MT NE.
  pose proof UN as (U0 & U1 & U2). pose proof FA as FA0. apply find_pda_some in FA0 as [FA0 _].
  set (c2 := ctx_of ata_id [Meta funder true true; Meta ata false true; Meta wallet false false; Meta mint false false; Meta sys_id false false; Meta spl_id false false]).
  assert (KY : c_keys c2 = [funder; ata; wallet; mint; sys_id; spl_id]) by reflexivity.
  assert (C2 : c_sg c2 funder = true /\ c_wr c2 funder = true /\ c_wr c2 ata = true).
  { unfold c2. cbn [ctx_of c_sg c_wr existsb m_key m_sg m_wr]. rewrite !keqb_refl. cbn [andb orb]. rewrite ?orb_true_r. auto. }
  destruct C2 as (CS & CW1 & CW2). assert (TP : token_price e = Z.max (rent_min e TACC_LEN) 1) by (unfold token_price, rent_min, wrap64, TACC_LEN; change u64max with (2 ^ 64); lia).
  assert (TP1 : 0 < token_price e < u64max) by (unfold token_price, u64max; lia).
  destruct (create_pda_go e c2 funder TACC_LEN spl_id ata (kb wallet ++ kb spl_id ++ kb mint ++ [zb an]) s) as (s1 & p & C & PE & A1 & A2 & A3 & L1 & T1);
    try assumption; try (rewrite KY; cbn [In]; tauto); try discriminate.
  { change (c_pid c2) with ata_id. rewrite <- FA0. f_equal. rewrite <- !app_assoc. reflexivity. }
  { rewrite <- TP. exact HL. } { rewrite <- TP. lia. } { unfold TACC_LEN, MAX_DATA. lia. }
  rewrite <- TP in PE.
  assert (NMA : mint <> ata) by (intros E; destruct MI as [MI _]; rewrite E, U1 in MI; discriminate).
  assert (NMF : mint <> funder) by (intros E; destruct MI as [MI _], HL as (_ & HL & _); rewrite E, HL in MI; discriminate).
  assert (MI1 : mint_in s1 mint m) by (split; unfold tmint_in; rewrite A3 by assumption; apply MI).
  assert (D1 : dat (accs s1 ata) = repeat x00 165) by (rewrite A1; reflexivity).
  destruct (init3_go e (ctx_of spl_id [Meta ata false true; Meta mint false false]) ata mint wallet s1) as (t & IN & OKT & TI & TM & TO & TST & TA & TN & TD); try reflexivity; try assumption; try (rewrite A1; reflexivity).
  { cbn [ctx_of c_wr existsb m_key m_wr]. rewrite keqb_refl. reflexivity. }
  { rewrite A1. cbn [lam]. unfold token_price in *. lia. } { rewrite A1. cbn [lam]. unfold u64max in *. lia. } { exists m. exact MI1. }
  exists (written c_tacc s1 ata t), p, t. split; [|split; [lia|]].
  - unfold invoke_ata_create. eapply bind_go; [apply lift_go; unfold ata_seeds; exact FA|]. cbv beta iota.
    apply cpi_go; [exact I7| |].
    { repeat (apply Forall_cons; [cbn [m_key m_sg m_wr]; (split; [assumption|split; [assumption|split; intros X; [try discriminate X; left; assumption|try discriminate X; assumption]]])|]). apply Forall_nil. }
    fold c2. unfold ata_create. change (c_pid c2) with ata_id.
    eapply bind_go; [apply lift_go; exact FA|]. cbv beta iota. eapply bind_go; [apply guard_go; apply keqb_refl|].
    eapply bind_go; [reflexivity|]. cbv beta. eapply bind_go; [apply guard_go; rewrite U1; apply keqb_refl|].
    eapply bind_go; [apply guard_go; apply keqb_refl|].
    apply (bind_go _ _ s tt s).
    { unfold invoke_account_size. apply cpi_go; [rewrite KY; cbn [In]; tauto| |].
      - apply Forall_cons; [|apply Forall_nil]. cbn [m_key m_sg m_wr]. rewrite KY. cbn [In]. split; [tauto|]. split; [tauto|]. split; discriminate.
      - unfold tok_account_size. eapply bind_go; [apply check_owner_go; exact (proj1 MI)|]. eapply bind_go; [reflexivity|]. cbv beta. apply guard_go.
        destruct MI as [_ UM]. unfold tmint_in in UM. unfold spl_unpack. rewrite UM. reflexivity. }
    eapply bind_go; [exact C|].
    apply (bind_go _ _ s1 tt s1).
    { unfold invoke_init_immutable. apply cpi_go; [rewrite KY; cbn [In]; tauto| |].
      - apply Forall_cons; [|apply Forall_nil]. cbn [m_key m_sg m_wr]. rewrite KY. cbn [In]. split; [tauto|]. split; [tauto|]. split; [discriminate|auto].
      - unfold tok_init_immutable. eapply bind_go; [reflexivity|]. cbv beta. rewrite D1. eapply bind_go; [apply lift_go; vm_compute; reflexivity|]. reflexivity. }
    unfold invoke_init_account3. apply cpi_go; [rewrite KY; cbn [In]; tauto| |exact IN].
    apply Forall_cons; [|apply Forall_cons; [|apply Forall_nil]]; cbn [m_key m_sg m_wr]; rewrite KY; cbn [In]; (split; [tauto|]; split; [tauto|]; split; [discriminate|try discriminate; auto]).
  - assert (AT : accs (written c_tacc s1 ata t) ata = Acct (lam (accs s1 ata)) spl_id (dat (accs (written c_tacc s1 ata t) ata))).
    { unfold written, put_dat. rewrite accs_put, keqb_refl. cbn [dat]. f_equal. rewrite A1. reflexivity. }
    split; [split; [rewrite AT; reflexivity|]|].
    { unfold tacc_in. apply written_reads; try assumption; try typeclasses eauto; [rewrite D1; reflexivity|unfold TACC_LEN; rewrite size_tacc; lia]. }
    split; [exact TM|]. split; [exact TO|]. split; [exact TST|]. split; [exact TD|]. split; [rewrite AT; cbn [lam]; exact TA|]. split; [exact TN|].
    split; [rewrite AT, A1; cbn [lam]; unfold token_price in *; lia|]. split; [rewrite AT; cbn [lam]; rewrite A1; reflexivity|].
    split; [unfold written; rewrite accs_put_dat_other by exact NE; exact A2|]. split; [|auto].
    intros j J1 J2. unfold written. rewrite accs_put_dat_other by exact J2. apply A3; assumption.
Qed.
Lemma ata_go e c funder wallet mint ata an s m : c_keys c <> [] -> In funder (c_keys c) -> In ata (c_keys c) -> In wallet (c_keys c) -> In mint (c_keys c) -> In sys_id (c_keys c) ->
  In spl_id (c_keys c) -> In ata_id (c_keys c) -> c_sg c funder = true -> c_wr c funder = true -> c_wr c ata = true ->
  find_pda e (kb wallet ++ kb spl_id ++ kb mint) ata_id = Ok (ata, an) -> unused s ata -> lam (accs s ata) < u64max -> has_lamports s funder (token_price e) -> mint_in s mint m ->
  tm_init m = true -> mint <> native_mint -> funder <> ata ->
  exists s' p t, invoke_ata_create e c funder wallet mint s = Ok (tt, s') /\ 0 <= p <= token_price e /\
    tok_in s' ata t /\ ta_mint t = mint /\ ta_owner t = wallet /\ ta_state t = TInit /\ ta_amount t = 0 /\ fst (ta_native t) = false /\
    lam (accs s' ata) = lam (accs s ata) + p /\ accs s' funder = Acct (lam (accs s funder) - p) sys_id [] /\
    (forall j, j <> funder -> j <> ata -> accs s' j = accs s j) /\ logs s' = logs s /\ now s' = now s.
Proof.
  intros K I1 I2 I3 I4 I5 I6 I7 SG W1 W2 FA UN LB HL MI MT NM NE.
  destruct (ata_made e c funder wallet mint ata an s m K I1 I2 I3 I4 I5 I6 I7 SG W1 W2 FA UN LB HL MI MT NE) as (s' & p & t & A & B & C & D & E & F & _ & G & H & _ & J).
  rewrite keqb_ne in G, H by exact NM. exists s', p, t. rewrite H. auto 20.
Qed.
