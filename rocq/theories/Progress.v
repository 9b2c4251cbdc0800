(** Forward reasoning about the token proxy: when its steps succeed.  No code of /repo is modelled here. *)

From Coq Require Import ZifyBool ZifyNat ZifyN.
From Verif Require Export TpSpec.
Open Scope Z_scope.
Open Scope list_scope.
Ltac Zify.zify_post_hook ::= Z.div_mod_to_equations.

Lemma bind_go {A B} (m : M A) (f : A -> M B) s a s1 r : m s = Ok (a, s1) -> f a s1 = r -> bind m f s = r.
Proof. intros H E. unfold bind. rewrite H. exact E. Qed.
Lemma guard_go b er s : b = true -> guard b er s = Ok (tt, s).
Proof. intros ->. reflexivity. Qed.
Lemma lift_go {A} (r : res A) s a : r = Ok a -> lift r s = Ok (a, s).
Proof. intros ->. reflexivity. Qed.
Lemma pda_go e pid sd n k : find_pda e sd pid = Ok (k, n) -> validate_pda e pid sd n k = Ok k.
Proof. intros H. unfold validate_pda. rewrite H. cbn [rbind]. rewrite keqb_refl, Z.eqb_refl. reflexivity. Qed.
Lemma unpack_at_go {A} (c : codec A) LEN ini k s x : unpack c LEN ini (dat (accs s k)) = Ok x -> unpack_at c LEN ini k s = Ok (x, s).
Proof. intros H. unfold unpack_at. eapply bind_go; [reflexivity|]. apply lift_go. exact H. Qed.

(** The state after a record is written. *)
Definition written {A} (cd : codec A) (s : state) (k : key) (x : A) : state :=
  put_dat s k (enc cd x ++ skipn (length (enc cd x)) (dat (accs s k))).
Lemma pack_at_go {A} c (cd : codec A) LEN k x s : own (accs s k) = c_pid c -> c_wr c k = true ->
  blen (dat (accs s k)) = LEN -> blen (enc cd x) <= LEN -> pack_at c cd LEN k x s = Ok (tt, written cd s k x).
Proof.
  intros O W B LE. unfold pack_at. eapply bind_go; [reflexivity|]. eapply bind_go.
  - apply lift_go. with_strategy transparent [pack] unfold pack. rewrite B, Z.eqb_refl. with_strategy transparent [pack_into_slice] unfold pack_into_slice.
    apply Z.leb_le in LE. rewrite B, LE. reflexivity.
  - unfold set_data. rewrite O, keqb_refl, W. cbn [andb]. rewrite orb_true_r. reflexivity.
Qed.
Lemma written_only {A} (cd : codec A) s k x : only_data_of k s (written cd s k x) /\ logs (written cd s k x) = logs s /\ now (written cd s k x) = now s.
Proof.
  split; [|split; reflexivity]. split; [|split].
  - unfold written. apply lam_put_dat.
  - unfold written. apply own_put_dat.
  - intros j J. unfold written, put_dat, put, accs, upd. rewrite keqb_ne by exact J. reflexivity.
Qed.
Lemma written_reads {A} (cd : codec A) (L : Lawful cd) LEN ini s k x : blen (dat (accs s k)) = LEN -> blen (enc cd x) <= LEN ->
  okb cd x = true -> ini x = true -> unpack cd LEN ini (dat (accs (written cd s k x) k)) = Ok x.
Proof.
  intros B LE O I. unfold written. rewrite dat_put_dat. apply unpack_enc; [exact L|exact O|exact I|].
  rewrite blen_app. unfold blen in *. rewrite skipn_length. lia.
Qed.

Lemma settings_go e c k st pn s : c_pid c = tp_id -> tp_settings_in e tp_id s k st pn -> tp_valid_settings e c k s = Ok ((st, pn), s).
Proof.
  intros P (U & n & KD & F). unfold tp_valid_settings, tp_settings_at. eapply bind_go; [apply unpack_at_go; exact U|]. cbv beta.
  eapply bind_go; [apply lift_go; rewrite KD; reflexivity|]. cbv beta iota.
  eapply bind_go; [apply lift_go; rewrite P; apply pda_go; exact F|]. reflexivity.
Qed.
Lemma live_go e c k st pn s : c_pid c = tp_id -> tp_settings_in e tp_id s k st pn -> gs_emergency st = false ->
  tp_live_settings e c k s = Ok ((st, pn), s).
Proof.
  intros P S E. unfold tp_live_settings. eapply bind_go; [apply settings_go; eassumption|]. cbv beta iota.
  eapply bind_go; [apply guard_go; rewrite E; reflexivity|]. reflexivity.
Qed.
Lemma ts_any_go e c k ts vn s : c_pid c = tp_id -> token_in e tp_id s k ts vn -> valid_ts_any e c k s = Ok ((ts, k), s).
Proof.
  intros P (U & n & KD & F). unfold valid_ts_any, token_settings_at. eapply bind_go; [apply unpack_at_go; exact U|]. cbv beta.
  eapply bind_go; [apply lift_go; rewrite KD; reflexivity|]. cbv beta iota.
  eapply bind_go; [apply lift_go; rewrite P; apply pda_go; unfold ts_seeds in F; destruct (tk_kind ts); exact F|]. reflexivity.
Qed.

(** The holder of a role, or the upgrade authority with the program-data account. *)
Definition backed (e : env) (s : state) (role a : key) (rest : list key) : Prop :=
  a = role \/ exists pd n, find_pda e (kb tp_id) loader_id = Ok (pd, n) /\ tp_authority_is e s a /\ hd_error rest = Some pd.

Lemma authority_back e s a pd n : find_pda e (kb tp_id) loader_id = Ok (pd, n) -> tp_authority_is e s a -> validate_initializer (dat (accs s pd)) a = Ok tt.
Proof.
  intros F (pd' & n' & slot & rest & F' & L & D). rewrite F in F'. injection F' as <- <-.
  unfold validate_initializer, upgrade_authority. rewrite D.
  replace ([x03; x00; x00; x00] ++ slot ++ [x01] ++ kb a ++ rest)
    with (enc (c_u32 ** c_u64 ** c_option c_key) (3, (unle slot, Some a)) ++ rest).
  - rewrite rt; [rewrite keqb_refl; reflexivity|]. cbn [okb c_pair c_option c_key fst snd]. unfold c_u32, c_u64, c_uint. cbn [okb].
    pose proof (unle_range slot) as R. unfold blen in R. rewrite L in R. change (256 ^ Z.of_nat 8) with (256 ^ 8).
    replace (0 <=? unle slot) with true by lia. replace (unle slot <? 256 ^ 8) with true by lia. reflexivity.
  - cbn [enc c_pair c_option c_key fst snd]. unfold c_u32, c_u64, c_uint. cbn [enc]. rewrite <- L, le_unle, <- !app_assoc. reflexivity.
Qed.
Lemma pd_go e pid k n : find_pda e (kb pid) loader_id = Ok (k, n) -> validate_programdata e pid n k = Ok tt.
Proof. intros H. unfold validate_programdata, sd_programdata. rewrite H. cbn [rbind]. rewrite keqb_refl, Z.eqb_refl. reflexivity. Qed.
Lemma authority_go e c s role a pd pn rest : c_pid c = tp_id -> find_pda e (kb tp_id) loader_id = Ok (pd, pn) -> backed e s role a rest ->
  check_authority e c role a pn rest s = Ok (tt, s).
Proof.
  intros P F B. unfold check_authority. destruct (keqb a role) eqn:E; [reflexivity|].
  destruct B as [->|(pd' & n' & F' & A & R)]; [rewrite keqb_refl in E; discriminate|].
  rewrite F in F'. injection F' as <- <-. destruct rest as [|x rest]; [discriminate|]. cbn [hd_error] in R. injection R as ->.
  eapply bind_go; [apply lift_go; rewrite P; apply pd_go; exact F|]. eapply bind_go; [reflexivity|].
  cbv beta. apply lift_go. eapply authority_back; eassumption.
Qed.

(** An instruction that leaves all lamports alone. *)
Lemma run_go c (m : M unit) s s' : m s = Ok (tt, s') -> (forall k, lam (accs s' k) = lam (accs s k)) -> run c m s = Ok s'.
Proof.
  intros H L. unfold run. rewrite H. replace (lam_sum (c_keys c) s') with (lam_sum (c_keys c) s); [rewrite Z.eqb_refl; reflexivity|].
  unfold lam_sum. induction (dedup (c_keys c)) as [|x r IH]; [reflexivity|]. cbn [fold_right]. rewrite IH, L. reflexivity.
Qed.
Lemma call_go e ext c i s s' : c_pid c = tp_id -> clock_ok s -> okb c_tp_ix i = true -> run c (tp_exec e ext c i) s = Ok s' -> tp_call e ext c i s s'.
Proof.
  intros P CK O R. split; [exact P|]. split; [exact CK|]. exists (enc c_tp_ix i).
  assert (D : try_from_slice c_tp_ix (enc c_tp_ix i) = Some i) by (apply try_from_slice_rt; [typeclasses eauto|exact O]).
  split; [exact D|]. unfold run, tp_process, bind, lift. rewrite D. exact R.
Qed.
Lemma lam_same_only k s s' : only_data_of k s s' -> forall j, lam (accs s' j) = lam (accs s j).
Proof. intros (L & _ & S) j. destruct (key_dec j k) as [->|D]; [exact L|rewrite S by exact D; reflexivity]. Qed.
