(** Property C68: the JavaScript bindings build the instructions that the Rust bindings build. *)

From Coq Require Import ZifyBool ZifyNat ZifyN Strings.String.
From Verif Require Import PropBasics PropCodec CodecLaws RuntimeLaws TpValid TpOk TpAdmin TpDemoLaws PropKinds PropBindings PropScript Wasm PropClient.
Import ListNotations.
Open Scope Z_scope.
Ltac Zify.zify_post_hook ::= Z.div_mod_to_equations.

(** ** What the arguments of a JavaScript call mean; the texts are described by C69 and C08 *)

Definition names (s : bytes) (k : key) : Prop := key_of_string s = Some k.
Definition is_address (s : bytes) (a : ever) : Prop := ever_from_string s = Some a.
Definition is_amount (s : bytes) (z : Z) : Prop := u128_of_string s = Some z.
Definition is_seed (s : bytes) (z : Z) : Prop := uuid_of_string s = Some z.
Definition is_payload (s : bytes) (p : bytes) : Prop := b64_decode s = Some p.
(** An amount of EVERs: a number whose 32 bytes, most significant first, are the field of the instruction. *)
Definition is_evers (z : Z) (k : key) : Prop := number 256 (map bz (kb k)) = z.
Definition opt_named (s : option bytes) (k : option key) : Prop :=
  match s, k with Some s, Some k => names s k | None, None => True | _, _ => False end.
Definition pair_named (s : bytes * bytes) (k : key * key) : Prop := names (fst s) (fst k) /\ names (snd s) (snd k).
Definition fee_named (s : bytes) (t : fee_type) : Prop := s = match t with FDeposit => str "Deposit" | FWithdrawal => str "Withdrawal" end.
(** The settings account of the token with this text: a mint for Solana tokens, else an address of the other chain. *)
Definition token_named (e : env) (s : bytes) (is_sol : bool) (tsk : key) : Prop :=
  if is_sol then exists mint, names s mint /\ tp_token_sol_addr e mint = Ok tsk
  else exists token, is_address s token /\ tp_token_ever_addr e token = Ok tsk.

(** ** Arguments *)

Lemma js_some {A} (o : option A) x : js o = Ok x <-> o = Some x.
Proof. unfold js, ok_or. destruct o; split; intros H; try discriminate; [apply ok_inj in H as ->|injection H as ->]; reflexivity. Qed.

Lemma undigits_inj b l m : 2 <= b -> below b l -> below b m -> List.length l = List.length m -> undigits b l = undigits b m -> l = m.
Proof.
  intros B. revert m. induction l as [|d l IH] using rev_ind; intros m L M E V.
  - destruct m; [reflexivity|discriminate].
  - destruct (exists_last (l := m)) as (m' & x & ->); [intros ->; rewrite app_length in E; cbn in E; lia|].
    rewrite !undigits_app in V. apply Forall_app in L as [L D]. apply Forall_app in M as [M X]. inversion D; subst. inversion X; subst.
    rewrite !app_length in E. cbn [List.length] in E.
    pose proof (Z.div_mod_unique b (undigits b l) (undigits b m') d x ltac:(lia) ltac:(lia) V) as [Q ->]. f_equal.
    apply IH; try assumption. lia.
Qed.
Lemma bytes_below l : below 256 (map bz l).
Proof. apply Forall_map. apply Forall_forall. intros x _. apply bz_range. Qed.
Lemma map_bz_inj l m : map bz l = map bz m -> l = m.
Proof.
  revert m. induction l as [|x l IH]; intros [|y m] H; try discriminate; [reflexivity|]. cbn [map] in H. injection H as H1 H2.
  f_equal; [|apply IH; exact H2]. rewrite <- (zb_bz x), <- (zb_bz y), H1. reflexivity.
Qed.

Lemma number_is b l : number b l = undigits b l. Proof. reflexivity. Qed.
Lemma evers_named z k : 0 <= z < 2 ^ 64 -> jevers z = Ok k <-> is_evers z k.
Proof.
  intros H. unfold is_evers, jevers. destruct (C09_be_bytes (rev (le 8 z))) as (L & V & _).
  assert (R : List.length (rev (le 8 z)) = 8%nat) by (rewrite rev_length; apply le_length).
  specialize (V ltac:(lia)). rewrite (number_is 256 (map bz (rev (le 8 z)))), be_value, Z.mod_small in V by (change (256 ^ Z.of_nat 8) with (2 ^ 64); exact H).
  destruct (mkkey (be_pad (rev (le 8 z)))) as [k'|] eqn:M.
  - apply mkkey_some in M. cbn [ok_or]. split; intros E.
    + apply ok_inj in E as <-. rewrite M. exact V.
    + f_equal. apply key_ext. rewrite M. apply map_bz_inj. apply (undigits_inj 256); try lia; try apply bytes_below.
      * rewrite !map_length, L, kb_length. reflexivity.
      * rewrite !number_is in *. rewrite V, E. reflexivity.
  - exfalso. unfold mkkey in M. revert M.
    assert (G : forall b, List.length b = 32%nat -> mkkey b <> None).
    { intros b B M. pose proof (mkkey_kb (Key b (proj2 (Nat.eqb_eq _ _) B))) as Q. cbn [kb] in Q. congruence. }
    exact (G _ L).
Qed.

Lemma fees_named s t : fee_type_of_string s = Some t <-> fee_named s t.
Proof.
  unfold fee_type_of_string, fee_named. destruct (beqb s (str "Deposit")) eqn:A.
  - apply beqb_eq in A as ->. destruct t; split; intros H; try reflexivity; discriminate.
  - destruct (beqb s (str "Withdrawal")) eqn:B.
    + apply beqb_eq in B as ->. destruct t; split; intros H; try reflexivity; discriminate.
    + split; [discriminate|]. intros ->. destruct t; [rewrite beqb_refl in A|rewrite beqb_refl in B]; discriminate.
Qed.
Lemma tokens_named e s is_sol k : js_token_settings_address e s is_sol = Ok k <-> token_named e s is_sol k.
Proof.
  unfold js_token_settings_address, token_named, names, is_address, jkey, jever. destruct is_sol; split.
  - destruct (js _) eqn:E; [|discriminate]. apply js_some in E. cbn [rbind]. eauto.
  - intros (m & E & H). rewrite E. exact H.
  - destruct (js _) eqn:E; [|discriminate]. apply js_some in E. cbn [rbind]. eauto.
  - intros (m & E & H). rewrite E. exact H.
Qed.
Lemma relays_named l ks : js_relays l = Ok ks <-> Forall2 names l ks.
Proof.
  revert ks. induction l as [|s l IH]; intros ks; cbn [js_relays].
  - split; intros H; [apply ok_inj in H as <-; constructor|inversion H; reflexivity].
  - unfold names at 1. destruct (key_of_string s) as [k|] eqn:E; cbn [ok_or rbind].
    + split; intros H.
      * destruct (js_relays l) as [r|]; [|discriminate]. apply ok_inj in H as <-. constructor; [exact E|]. apply IH. reflexivity.
      * inversion H as [|? k' ? r A B]; subst. apply IH in B. rewrite B. cbn [rbind]. congruence.
    + split; intros H; [discriminate|]. inversion H; subst. unfold names in *. congruence.
Qed.
Lemma fills_named e m l ms : js_fill_metas e m l = Ok ms <-> exists ks, Forall2 pair_named l ks /\ fill_metas e m ks = Ok ms.
Proof.
  revert ms. induction l as [|[a b] l IH]; intros ms; cbn [js_fill_metas].
  - split; intros H; [apply ok_inj in H as <-; exists []; split; [constructor|reflexivity]|].
    destruct H as (ks & F & H). inversion F; subst. exact H.
  - unfold jkey. split; intros H.
    + destruct (js (key_of_string a)) as [ka|] eqn:A; [|discriminate]. apply js_some in A. cbn [rbind] in H.
      destruct (js (key_of_string b)) as [kb_|] eqn:B; [|discriminate]. apply js_some in B. cbn [rbind] in H.
      destruct (ata_addr e kb_ m) as [rt|] eqn:T; [|discriminate]. cbn [rbind] in H.
      destruct (js_fill_metas e m l) as [r|] eqn:R; [|discriminate]. cbn [rbind] in H.
      destruct (proj1 (IH r) eq_refl) as (ks & F & G). exists ((ka, kb_) :: ks). split.
      * constructor; [split; assumption|exact F].
      * cbn [fill_metas]. rewrite T. cbn [rbind]. rewrite G. exact H.
    + destruct H as (ks & F & H). inversion F as [|? [ka kb_] ? r [A B] G]; subst. cbn [fst snd] in A, B. unfold names in A, B.
      rewrite A, B. cbn [js ok_or rbind]. cbn [fill_metas] in H. destruct (ata_addr e kb_ m) as [rt|]; [|discriminate].
      cbn [rbind] in *. destruct (fill_metas e m r) as [x|] eqn:X; [|discriminate].
      rewrite (proj2 (IH x)) by (exists r; split; assumption). exact H.
Qed.

Lemma to_jkey s k : jkey s = Ok k <-> names s k. Proof. apply js_some. Qed.
Lemma to_jever s k : jever s = Ok k <-> is_address s k. Proof. apply js_some. Qed.
Lemma to_jb64 s k : jb64 s = Ok k <-> is_payload s k. Proof. apply js_some. Qed.
Lemma to_ju128 s k : ju128 s = Ok k <-> is_amount s k. Proof. apply js_some. Qed.
Lemma to_juuid s k : juuid s = Ok k <-> is_seed s k. Proof. apply js_some. Qed.
Lemma to_fee s k : js (fee_type_of_string s) = Ok k <-> fee_named s k. Proof. rewrite js_some. apply fees_named. Qed.

Ltac unwrap H :=
  repeat match type of H with
  | rbind ?r _ = Ok _ => let E := fresh "E" in destruct r eqn:E; [cbn [rbind] in H|discriminate H]
  end.
Ltac parsed :=
  repeat match goal with
  | E : jkey _ = Ok _ |- _ => apply to_jkey in E
  | E : jever _ = Ok _ |- _ => apply to_jever in E
  | E : jb64 _ = Ok _ |- _ => apply to_jb64 in E
  | E : ju128 _ = Ok _ |- _ => apply to_ju128 in E
  | E : juuid _ = Ok _ |- _ => apply to_juuid in E
  | E : js (fee_type_of_string _) = Ok _ |- _ => apply to_fee in E
  | E : js_token_settings_address _ _ _ = Ok _ |- _ => apply tokens_named in E
  | E : jevers _ = Ok _ |- _ => apply evers_named in E; [|assumption]
  | E : js_relays _ = Ok _ |- _ => apply relays_named in E
  end.
Ltac give :=
  repeat match goal with
  | E : ?a = Ok _ |- rbind ?x _ = Ok _ => constr_eq a x; rewrite E; cbn [rbind]
  end.
Ltac written :=
  repeat match goal with
  | E : names _ _ |- _ => apply to_jkey in E
  | E : is_address _ _ |- _ => apply to_jever in E
  | E : is_payload _ _ |- _ => apply to_jb64 in E
  | E : is_amount _ _ |- _ => apply to_ju128 in E
  | E : is_seed _ _ |- _ => apply to_juuid in E
  | E : fee_named _ _ |- _ => apply to_fee in E
  | E : token_named _ _ _ _ |- _ => apply tokens_named in E
  | E : is_evers _ _ |- _ => apply evers_named in E; [|assumption]
  | E : Forall2 names _ _ |- _ => apply relays_named in E
  end.
Ltac found :=
  match goal with
  | E : names ?s _ |- names ?s _ => exact E
  | E : is_address ?s _ |- is_address ?s _ => exact E
  | E : is_payload ?s _ |- is_payload ?s _ => exact E
  | E : is_amount ?s _ |- is_amount ?s _ => exact E
  | E : is_seed ?s _ |- is_seed ?s _ => exact E
  | E : is_evers ?s _ |- is_evers ?s _ => exact E
  | E : fee_named ?s _ |- fee_named ?s _ => exact E
  | E : token_named _ ?s ?b _ |- token_named _ ?s ?b _ => exact E
  | E : Forall2 names ?s _ |- Forall2 names ?s _ => exact E
  end.
Ltac open_rust := unfold owner_settings_ix, owner_token_ix, role_token_ix, proxy_metas in *.
Ltac same f g :=
  intros; split;
  [ let H := fresh "H" in intros H; unfold f in H; unwrap H; parsed;
    repeat match goal with |- ex _ => eexists end; repeat (split; [found|]); unfold g; open_rust; give; exact H
  | let H := fresh "H" in intros H;
    repeat match type of H with ex _ => destruct H as [? H] | _ /\ _ => let X := fresh "X" in destruct H as [X H] end;
    written; unfold g in H; open_rust; unwrap H; unfold f; give; exact H ].


Lemma vault_named v ms :
  match v with Some v => k <~ jkey v ; Ok [mw k false] | None => Ok [] end = Ok ms <->
  exists vt, opt_named v vt /\ ms = match vt with Some v => [mw v false] | None => [] end.
Proof.
  destruct v as [v|]; split.
  - intros H. unwrap H. apply to_jkey in E. apply ok_inj in H as <-. exists (Some a). split; [exact E|reflexivity].
  - intros ([k|] & N & ->); [|contradiction]. cbn [opt_named] in N. apply to_jkey in N. rewrite N. reflexivity.
  - intros H. apply ok_inj in H as <-. exists None. split; [exact Logic.I|reflexivity].
  - intros ([k|] & N & ->); [contradiction|reflexivity].
Qed.
Lemma submitter_named v o :
  match v with Some s => k <~ jkey s ; Ok (Some k) | None => Ok None end = Ok o <-> opt_named v o.
Proof.
  destruct v as [v|]; split.
  - intros H. unwrap H. apply to_jkey in E. apply ok_inj in H as <-. exact E.
  - destruct o as [k|]; [|contradiction]. cbn [opt_named]. intros N. apply to_jkey in N. rewrite N. reflexivity.
  - intros H. apply ok_inj in H as <-. exact Logic.I.
  - destruct o as [k|]; [contradiction|reflexivity].
Qed.

Theorem C68_same_partial : forall e,
  (forall f' i' g' w' m' b, js_initialize_settings e f' i' g' w' m' = Ok b <->
     exists f i g w m, names f' f /\ names i' i /\ names g' g /\ names w' w /\ names m' m /\
       initialize_settings_ix e f i g m w = Ok b) /\
  (forall f' a' nm sy d ts lt cf' t' r' z' n p' at_ b, js_withdrawal_ever_request e f' a' nm sy d ts lt cf' t' r'
     z' n p' at_ = Ok b <->
     exists f a cf t r z p, names f' f /\ names a' a /\ names cf' cf /\ is_address t' t /\ names r' r /\
     is_amount z' z /\ is_payload p' p /\
       withdrawal_multi_token_ever_request_ix e f a n ts lt cf t nm sy d r z p at_ = Ok b) /\
  (forall f' a' m' ts lt cf' r' z' n p' at_ b, js_withdrawal_sol_request e f' a' m' ts lt cf' r' z' n p' at_ = Ok
     b <->
     exists f a m cf r z p, names f' f /\ names a' a /\ names m' m /\ names cf' cf /\ names r' r /\ is_amount z' z /\
     is_payload p' p /\
       withdrawal_multi_token_sol_request_ix e f a ts lt cf m n r z p at_ = Ok b) /\
  (forall w' r' t' b, js_withdrawal_ever e w' r' t' = Ok b <->
     exists w r t, names w' w /\ names r' r /\ is_address t' t /\
       withdrawal_ever_ix e w r t = Ok b) /\
  (forall f' w' r' t' b, js_create_ever_token e f' w' r' t' = Ok b <->
     exists f w r t, names f' f /\ names w' w /\ names r' r /\ is_address t' t /\
       create_ever_token_ix e f w r t = Ok b) /\
  (forall w' r' m' b, js_withdrawal_sol e w' r' m' = Ok b <->
     exists w r m, names w' w /\ names r' r /\ names m' m /\
       withdrawal_sol_ix e w r m = Ok b) /\
  (forall f' a' sd' z r' v ev' p' b, 0 <= ev' < 2 ^ 64 -> js_deposit_native_sol e f' a' sd' z r' v ev' p' = Ok b
     <->
     exists f a sd r ev p, names f' f /\ names a' a /\ is_seed sd' sd /\ is_address r' r /\ is_evers ev' ev /\
     is_payload p' p /\
       np_deposit_ix e f a sd z r v ev p = Ok b) /\
  (forall f' a' u' t' sd' z r' v ev' p' b, 0 <= ev' < 2 ^ 64 -> js_deposit_ever e f' a' u' t' sd' z r' v ev' p' =
     Ok b <->
     exists f a u t sd r ev p, names f' f /\ names a' a /\ names u' u /\ is_address t' t /\ is_seed sd' sd /\
     is_address r' r /\ is_evers ev' ev /\ is_payload p' p /\
       deposit_multi_token_ever_ix e f a u t sd z r v ev p = Ok b) /\
  (forall f' a' u' m' sd' nm sy z r' v ev' p' b, 0 <= ev' < 2 ^ 64 -> js_deposit_sol e f' a' u' m' sd' nm sy z r'
     v ev' p' = Ok b <->
     exists f a u m sd r ev p, names f' f /\ names a' a /\ names u' u /\ names m' m /\ is_seed sd' sd /\
     is_address r' r /\ is_evers ev' ev /\ is_payload p' p /\
       deposit_multi_token_sol_ix e f a u m sd nm sy z r v ev p = Ok b) /\
  (forall a' w' n b, js_vote e a' w' n = Ok b <->
     exists a w, names a' a /\ names w' w /\
       vote_for_withdrawal_request_ix e a w n VConfirm = Ok b) /\
  (forall a' g' b, js_change_guardian e a' g' = Ok b <->
     exists a g, names a' a /\ names g' g /\
       change_guardian_ix e a g = Ok b) /\
  (forall a' g' b, js_change_withdrawal_manager e a' g' = Ok b <->
     exists a g, names a' a /\ names g' g /\
       change_withdrawal_manager_ix e a g = Ok b) /\
  (forall a' tk' tk_sol z b, js_change_deposit_limit e a' tk' tk_sol z = Ok b <->
     exists a tk, names a' a /\ token_named e tk' tk_sol tk /\
       change_deposit_limit_by_owner_ix e a tk z = Ok b) /\
  (forall a' tk' tk_sol z y b, js_change_withdrawal_limits e a' tk' tk_sol z y = Ok b <->
     exists a tk, names a' a /\ token_named e tk' tk_sol tk /\
       change_withdrawal_limits_by_owner_ix e a tk z y = Ok b) /\
  (forall a' b, js_enable_emergency e a' = Ok b <->
     exists a, names a' a /\
       enable_emergency_ix e a = Ok b) /\
  (forall a' b, js_enable_emergency_by_owner e a' = Ok b <->
     exists a, names a' a /\
       enable_emergency_by_owner_ix e a = Ok b) /\
  (forall a' b, js_disable_emergency e a' = Ok b <->
     exists a, names a' a /\
       disable_emergency_ix e a = Ok b) /\
  (forall r' u' m' z b, js_withdrawal_proxy e r' u' m' z = Ok b <->
     exists r u m, names r' r /\ names u' u /\ names m' m /\
       withdrawal_proxy_ix e r u m z = Ok b) /\
  (forall a' d' b, js_close_deposit e a' d' = Ok b <->
     exists a d, names a' a /\ names d' d /\
       close_deposit_ix e a d = Ok b) /\
  (forall w' a' b, js_close_withdrawal e w' a' = Ok b <->
     exists w a, names w' w /\ names a' a /\
       close_withdrawal_ix e w a = Ok b) /\
  (forall a' tk' tk_sol ty' y z b, js_update_fee e a' tk' tk_sol ty' y z = Ok b <->
     exists a tk ty, names a' a /\ token_named e tk' tk_sol tk /\ fee_named ty' ty /\
       update_fee_ix e a tk ty y z = Ok b) /\
  (forall a' w' r' m' t' b, js_approve_withdrawal_ever e a' w' r' m' t' = Ok b <->
     exists a w r m t, names a' a /\ names w' w /\ names r' r /\ names m' m /\ is_address t' t /\
       approve_withdrawal_ever_ix e a w r m t = Ok b) /\
  (forall a' w' r' m' b, js_approve_withdrawal_sol e a' w' r' m' = Ok b <->
     exists a w r m, names a' a /\ names w' w /\ names r' r /\ names m' m /\
       approve_withdrawal_sol_ix e a w r m = Ok b) /\
  (forall f' a' w' m' sd' r' v ev' p' b, 0 <= ev' < 2 ^ 64 -> js_cancel_withdrawal_sol e f' a' w' m' sd' r' v ev'
     p' = Ok b <->
     exists f a w m sd r ev p, names f' f /\ names a' a /\ names w' w /\ names m' m /\ is_seed sd' sd /\
     is_address r' r /\ is_evers ev' ev /\ is_payload p' p /\
       cancel_withdrawal_sol_ix e f a w m sd r v ev p = Ok b) /\
  (forall f' a' m' sd' r' z l' vt' v ev' p' b, 0 <= ev' < 2 ^ 64 -> js_fill_withdrawal_sol e f' a' m' sd' r' z l'
     vt' v ev' p' = Ok b <->
     exists f a m sd r l vt ev p, names f' f /\ names a' a /\ names m' m /\ is_seed sd' sd /\ is_address r' r /\
     Forall2 pair_named l' l /\ opt_named vt' vt /\ is_evers ev' ev /\ is_payload p' p /\
       fill_withdrawal_sol_ix e f a m sd r z l vt v ev p = Ok b) /\
  (forall a' w' z b, js_change_bounty e a' w' z = Ok b <->
     exists a w, names a' a /\ names w' w /\
       change_bounty_for_withdrawal_sol_ix e a w z = Ok b) /\
  (forall a' r' z b, js_withdrawal_multi_vault e a' r' z = Ok b <->
     exists a r, names a' a /\ names r' r /\
       withdrawal_multi_vault_ix e a r z = Ok b) /\
  (forall a' m' r' t' z b, js_withdrawal_ever_fee e a' m' r' t' z = Ok b <->
     exists a m r t, names a' a /\ names m' m /\ names r' r /\ is_address t' t /\
       withdrawal_ever_fee_ix e a m r t z = Ok b) /\
  (forall a' r' m' z b, js_withdrawal_sol_fee e a' r' m' z = Ok b <->
     exists a r m, names a' a /\ names r' r /\ names m' m /\
       withdrawal_sol_fee_ix e a r m z = Ok b) /\
  (forall f' i' n u' y z b, js_rl_initialize e f' i' n u' y z = Ok b <->
     exists f i u, names f' f /\ names i' i /\ names u' u /\
       rl_initialize_ix e f i n u y z = Ok b) /\
  (forall a' n u' y z b, js_rl_update_settings e a' n u' y z = Ok b <->
     exists a u, names a' a /\ opt_named u' u /\
       rl_update_settings_ix e a n u y z = Ok b) /\
  (forall f' a' n z l' b, js_rl_create_relay_round e f' a' n z l' = Ok b <->
     exists f a l, names f' f /\ names a' a /\ Forall2 names l' l /\
       rl_create_relay_round_ix e f a n z l = Ok b) /\
  (forall f' w' n b, js_rl_execute e f' w' n = Ok b <->
     exists f w, names f' f /\ names w' w /\
       rl_execute_proposal_ix e f w n = Ok b) /\
  (forall f' a' w' n b, js_rl_execute_by_admin e f' a' w' n = Ok b <->
     exists f a w, names f' f /\ names a' a /\ names w' w /\
       rl_execute_proposal_by_admin_ix e f a w n = Ok b) /\
  (forall a' tk' sy nm b, js_update_token_name e a' tk' sy nm = Ok b <->
     exists a tk, names a' a /\ token_named e tk' true tk /\
       update_token_name_ix e a tk sy nm = Ok b) /\
  (forall w' r' m' u' b, js_execute_payload_sol e w' r' m' u' = Ok b <->
     exists w r m u, names w' w /\ names r' r /\ names m' m /\ names u' u /\
       (exists x, tp_proxy_addr e m r = Ok x /\ g_execute_payload_ix e tp_id 4 w [(x, false, false); (u, false, false);
       (spl_id, true, false)] = Ok b)) /\
  (forall w' r' m' u' b, js_execute_payload_ever e w' r' m' u' = Ok b <->
     exists w r m u, names w' w /\ names r' r /\ names m' m /\ names u' u /\
       (exists x, tp_proxy_addr e m r = Ok x /\ g_execute_payload_ix e tp_id 3 w [(x, false, false); (u, false, false);
       (spl_id, true, false)] = Ok b)) /\
  (forall tk' tk_sol b, js_token_settings_address e tk' tk_sol = Ok b <-> token_named e tk' tk_sol b) /\
  (forall t' b, js_mint_address e t' = Ok b <->
     exists t, is_address t' t /\
       tp_mint_addr e t = Ok b) /\
  (forall m' r' b, js_proxy_address e m' r' = Ok b <->
     exists m r, names m' m /\ names r' r /\
       tp_proxy_addr e m r = Ok b) /\
  (forall n ts lt cf' m' r' z' p' b, js_proposal_sol_address e n ts lt cf' m' r' z' p' = Ok b <->
     exists cf m r z p, names cf' cf /\ names m' m /\ names r' r /\ is_amount z' z /\ is_payload p' p /\
       tp_withdrawal_sol_addr e n ts lt cf (WSolEvent m z r p) = Ok b) /\
  (forall n ts lt cf' t' r' z' nm sy d p' b, js_proposal_ever_address e n ts lt cf' t' r' z' nm sy d p' = Ok b <->
     exists cf t r z p, names cf' cf /\ is_address t' t /\ names r' r /\ is_amount z' z /\ is_payload p' p /\
       tp_withdrawal_ever_addr e n ts lt cf (WEverEvent t nm sy d z r p) = Ok b).
Proof.
  intros e.
  split; [same js_initialize_settings initialize_settings_ix|].
  split; [same js_withdrawal_ever_request withdrawal_multi_token_ever_request_ix|].
  split; [same js_withdrawal_sol_request withdrawal_multi_token_sol_request_ix|].
  split; [same js_withdrawal_ever withdrawal_ever_ix|].
  split; [same js_create_ever_token create_ever_token_ix|].
  split; [same js_withdrawal_sol withdrawal_sol_ix|].
  split; [same js_deposit_native_sol np_deposit_ix|].
  split; [same js_deposit_ever deposit_multi_token_ever_ix|].
  split; [same js_deposit_sol deposit_multi_token_sol_ix|].
  split; [same js_vote vote_for_withdrawal_request_ix|].
  split; [same js_change_guardian change_guardian_ix|].
  split; [same js_change_withdrawal_manager change_withdrawal_manager_ix|].
  split; [same js_change_deposit_limit change_deposit_limit_by_owner_ix|].
  split; [same js_change_withdrawal_limits change_withdrawal_limits_by_owner_ix|].
  split; [same js_enable_emergency enable_emergency_ix|].
  split; [same js_enable_emergency_by_owner enable_emergency_by_owner_ix|].
  split; [same js_disable_emergency disable_emergency_ix|].
  split; [same js_withdrawal_proxy withdrawal_proxy_ix|].
  split; [same js_close_deposit close_deposit_ix|].
  split; [same js_close_withdrawal close_withdrawal_ix|].
  split; [same js_update_fee update_fee_ix|].
  split; [same js_approve_withdrawal_ever approve_withdrawal_ever_ix|].
  split; [same js_approve_withdrawal_sol approve_withdrawal_sol_ix|].
  split; [same js_cancel_withdrawal_sol cancel_withdrawal_sol_ix|].
  split.
  { intros. split; intros X.
    - unfold js_fill_withdrawal_sol in X. unwrap X. parsed. apply fills_named in E11 as (l & L & FM).
      apply vault_named in E12 as (vt & N & ->). exists a1, a2, a0, a, a3, l, vt, a9, a10. repeat (split; [assumption|]).
      unfold fill_withdrawal_sol_ix. give. exact X.
    - destruct X as (f & a & m & sd & r & l & vt & ev & p & X1 & X2 & X3 & X4 & X5 & X6 & X7 & X8 & X9 & X). written.
      unfold fill_withdrawal_sol_ix in X. unwrap X.
      assert (Y : js_fill_metas e m l' = Ok a5) by (apply fills_named; exists l; split; assumption).
      pose proof (proj2 (vault_named vt' _) (ex_intro _ vt (conj X7 eq_refl))) as W.
      unfold js_fill_withdrawal_sol. give. exact X. }
  split; [same js_change_bounty change_bounty_for_withdrawal_sol_ix|].
  split; [same js_withdrawal_multi_vault withdrawal_multi_vault_ix|].
  split; [same js_withdrawal_ever_fee withdrawal_ever_fee_ix|].
  split; [same js_withdrawal_sol_fee withdrawal_sol_fee_ix|].
  split; [same js_rl_initialize rl_initialize_ix|].
  split.
  { intros. split; intros X.
    - unfold js_rl_update_settings in X. unwrap X. parsed. apply submitter_named in E2. exists a, a2.
      repeat (split; [assumption|]). unfold rl_update_settings_ix. give. exact X.
    - destruct X as (a & u & X1 & X2 & X). written. unfold rl_update_settings_ix in X. unwrap X.
      apply submitter_named in X2. unfold js_rl_update_settings. give. exact X. }
  split; [same js_rl_create_relay_round rl_create_relay_round_ix|].
  split; [same js_rl_execute rl_execute_proposal_ix|].
  split; [same js_rl_execute_by_admin rl_execute_proposal_by_admin_ix|].
  split.
  { intros. split; intros X.
    - unfold js_update_token_name in X. unwrap X. parsed. exists a, a1. split; [assumption|].
      split; [exists a0; split; assumption|]. unfold update_token_name_ix. open_rust. give. exact X.
    - destruct X as (a & tk & X1 & (m & X2 & X3) & X). written. unfold update_token_name_ix in X. open_rust. unwrap X.
      unfold js_update_token_name. give. exact X. }
  split.
  { intros. split; intros X.
    - unfold js_execute_payload_sol in X. unwrap X. parsed. exists a, a0, a1, a3. repeat (split; [assumption|]).
      exists a2. split; [assumption|]. exact X.
    - destruct X as (w & r & m & u & X1 & X2 & X3 & X4 & x & X5 & X). written. unfold js_execute_payload_sol. give. exact X. }
  split.
  { intros. split; intros X.
    - unfold js_execute_payload_ever in X. unwrap X. parsed. exists a, a0, a1, a3. repeat (split; [assumption|]).
      exists a2. split; [assumption|]. exact X.
    - destruct X as (w & r & m & u & X1 & X2 & X3 & X4 & x & X5 & X). written. unfold js_execute_payload_ever. give. exact X. }
  split; [intros; apply tokens_named|].
  split; [same js_mint_address tp_mint_addr|].
  split; [same js_proxy_address tp_proxy_addr|].
  split; [same js_proposal_sol_address tp_withdrawal_sol_addr|].
  same js_proposal_ever_address tp_withdrawal_ever_addr.
Qed.

(** ** The three functions that the theorem does not list *)

(** What they build is refused whatever the state: the first two list the settings and the token's settings the other
    way round than the processor reads them, the third does not list the settings. *)
Theorem C68_token_emergency_never : forall e ext authority token is_sol b s s',
  js_enable_token_emergency e authority token is_sol = Ok b \/
  js_enable_token_emergency_by_owner e authority token is_sol = Ok b \/
  js_disable_token_emergency e authority token is_sol = Ok b ->
  run (ctx_of tp_id (i_metas b)) (tp_process e ext (ctx_of tp_id (i_metas b)) (i_data b)) s <> Ok s'.
Proof.
  intros e ext au tk sol b s s' B H.
  assert (W : forall a k l, tp_settings_addr e = Ok k ->
    run (ctx_of tp_id ([mw a true; mr k false] ++ l)) (tp_enable_token_emergency e (ctx_of tp_id ([mw a true; mr k false] ++ l))) s <> Ok s').
  { clear B H. intros a k l K H. unfold run in H. destruct (tp_enable_token_emergency _ _ s) as [[u s1]|] eqn:X; [|discriminate]. clear H.
    unfold tp_enable_token_emergency in X. apply admin_token_ok in X as (a1 & tsk & ks & rest & st & pn & ts & vn & ts' & s2 & KS & _ & S & _ & T & _).
    cbn [ctx_of c_keys map app m_key mw mr c_pid] in *. injection KS as _ <- _.
    destruct S as (S1 & n & S2 & S3). unfold tp_settings_addr, addr in K. rewrite S3 in K. apply ok_inj in K as <-.
    assert (Y : tp_settings_in e tp_id s ks st pn) by (split; [exact S1|exists n; split; assumption]).
    apply tag_settings in Y. apply tag_token in T. congruence. }
  destruct B as [B|[B|B]].
  - unfold js_enable_token_emergency in B. unwrap B. apply ok_inj in B as <-. cbn [i_metas i_data] in H. unfold tp_process in H.
    apply (run_bind_lift _ _ _ _ TpEnableTokenEmergency) in H; [|apply try_from_slice_rt; [typeclasses eauto|reflexivity]].
    exact (W a1 a [_] eq_refl H).
  - unfold js_enable_token_emergency_by_owner in B. unwrap B. apply ok_inj in B as <-. cbn [i_metas i_data] in H. unfold tp_process in H.
    apply (run_bind_lift _ _ _ _ TpEnableTokenEmergency) in H; [|apply try_from_slice_rt; [typeclasses eauto|reflexivity]].
    exact (W a2 a [_; _] eq_refl H).
  - unfold js_disable_token_emergency in B. unwrap B. apply ok_inj in B as <-. cbn [i_metas i_data] in H. unfold tp_process in H.
    apply (run_bind_lift _ _ _ _ TpDisableTokenEmergency) in H; [|apply try_from_slice_rt; [typeclasses eauto|reflexivity]].
    discriminate H.
Qed.

(** The full property fails: the guardian stops a token with the instruction of the Rust bindings; the same call of the
    JavaScript bindings builds one that no state accepts. *)
Theorem C68_refuted : exists e s authority token ga mint tsk b1 b2 s2,
  names authority ga /\ names token mint /\ tp_token_sol_addr e mint = Ok tsk /\
  js_enable_token_emergency e authority token true = Ok b1 /\
  (forall ext s s', run (ctx_of tp_id (i_metas b1)) (tp_process e ext (ctx_of tp_id (i_metas b1)) (i_data b1)) s <> Ok s') /\
  enable_emergency_token_ix e ga tsk = Ok b2 /\
  run (ctx_of tp_id (i_metas b2)) (tp_process e no_ext (ctx_of tp_id (i_metas b2)) (i_data b2)) s = Ok s2 /\
  exists ts, unpack c_token_settings TP_LEN tk_init (dat (accs s2 tsk)) = Ok ts /\ tk_emergency ts = true.
Proof.
  destruct (js_enable_token_emergency te (string_of_key tguard) (string_of_key tmintS) true) as [b1|] eqn:B1; [|vm_compute in B1; discriminate B1].
  destruct (enable_emergency_token_ix te tguard ttsS) as [b2|] eqn:B2; [|vm_compute in B2; discriminate B2].
  exists te, ts2, (string_of_key tguard), (string_of_key tmintS), tguard, tmintS, ttsS, b1, b2,
    (unres (run (ctx_of tp_id (i_metas b2)) (tp_process te no_ext (ctx_of tp_id (i_metas b2)) (i_data b2)) ts2)).
  split; [apply key_shown|]. split; [apply key_shown|]. split; [vm_compute; reflexivity|]. split; [exact B1|].
  split; [intros ext s s'; exact (C68_token_emergency_never te ext _ _ _ b1 s s' (or_introl B1))|]. split; [exact B2|].
  vm_compute in B2. apply ok_inj in B2 as <-. split.
  - apply ok_unres. vm_compute. reflexivity.
  - match goal with |- exists ts, ?u = Ok ts /\ _ => assert (X : match u with Ok ts => tk_emergency ts = true | Err _ => False end) by (vm_compute; reflexivity); destruct u as [ts|]; [exists ts; split; [reflexivity|exact X]|contradiction] end.
Qed.

(** Concrete calls: the texts of a recipient, an amount, a UUID and an empty payload; a relay's vote; a round whose list has
    a broken relay key (the module traps instead of throwing). *)
Example C68_case :
  is_ok (js_deposit_sol te (string_of_key tfunder) (string_of_key tuser) (string_of_key tuserS) (string_of_key tmintS)
    (string_of_uuid 1) (str "Token") (str "TKN") 100000 (str "0:00000000000000000000000000000000000000000000000000000000000000aa")
    5 7 (str "")) = true /\
  is_evers 7 (knum (7 * 256 ^ 31)) /\
  js_vote te (string_of_key trelay1) (string_of_key tw1) 10 =
    vote_for_withdrawal_request_ix te trelay1 tw1 10 VConfirm /\
  is_ok (js_vote te (string_of_key trelay1) (string_of_key tw1) 10) = true /\
  js_vote te (str "not a key") (string_of_key tw1) 10 = Err InvalidArgument /\
  js_rl_create_relay_round te (string_of_key tfunder) (string_of_key tauth) 10 9 [str "not a key"] = Err Panic.
Proof. repeat match goal with |- _ /\ _ => split end; vm_compute; reflexivity. Qed.

Print Assumptions C68_same_partial.
Print Assumptions C68_token_emergency_never.
Print Assumptions C68_refuted.
