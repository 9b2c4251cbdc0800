(** Properties C05 - C09 and C58: seeds, event confusion, error codes, text forms, arithmetic. *)

From Coq Require Import ZifyBool ZifyNat ZifyN Strings.String.
From Verif Require Export CodecFacts.
Open Scope Z_scope.
Ltac Zify.zify_post_hook ::= Z.div_mod_to_equations.

(** * C05 Seeds of different accounts never coincide *)

(** All account families whose addresses the two programs derive, with their parameters. *)
Inductive family :=
| FamSettings | FamMultiVault
| FamTokenSettingsEver (token_hash : key) | FamTokenSettingsSol (mint : key)
| FamMint (token_hash : key) | FamVault (mint : key)
| FamDeposit (seed : Z)
| FamProxy (mint recipient : key)
| FamProposal (round ts lt : Z) (configuration event_hash : key)
| FamRelayRound (number : Z).

(** Integer parameters are u32, u32, u64, u128. *)
Definition family_ok (f : family) : Prop :=
  match f with
  | FamDeposit seed => 0 <= seed < 2 ^ 128
  | FamProposal r t l _ _ => 0 <= r < 2 ^ 32 /\ 0 <= t < 2 ^ 32 /\ 0 <= l < 2 ^ 64
  | FamRelayRound n => 0 <= n < 2 ^ 32
  | _ => True
  end.

Definition family_seeds (f : family) : bytes :=
  match f with
  | FamSettings => sd_settings
  | FamMultiVault => sd_multivault
  | FamTokenSettingsEver h => sd_ts_ever h
  | FamTokenSettingsSol m => sd_ts_sol m
  | FamMint h => sd_mint h
  | FamVault m => sd_vault m
  | FamDeposit s => sd_deposit s
  | FamProxy m r => sd_proxy m r
  | FamProposal r t l c h => sd_proposal r t l c h
  | FamRelayRound n => sd_relay_round n
  end.

Lemma app_eq_len {A} (a b c d : list A) : length a = length c -> a ++ b = c ++ d -> a = c /\ b = d.
Proof.
  revert c; induction a as [|x a IH]; intros [|y c] H E; cbn [length app] in *; try lia; auto.
  injection E as -> E. apply IH in E as [-> ->]; [auto|lia].
Qed.
Lemma kb_len32 k : length (kb k) = 32%nat.
Proof. apply kb_length. Qed.
Lemma kb_inj a b : kb a = kb b -> a = b.
Proof. apply key_ext. Qed.
Lemma zb_inj x y : 0 <= x < 256 -> 0 <= y < 256 -> zb x = zb y -> x = y.
Proof. intros Hx Hy H. apply (f_equal bz) in H. rewrite !bz_zb in H. rewrite !Z.mod_small in H; auto. Qed.

Ltac seed_split H :=
  repeat match type of H with
  | _ ++ _ = _ ++ _ => apply app_eq_len in H as [? H]; [|rewrite ?le_length, ?kb_len32; reflexivity]
  end.

Definition same_account (a b : family) : Prop :=
  a = b \/ exists k, (a = FamTokenSettingsEver k /\ b = FamTokenSettingsSol k) \/
                     (a = FamTokenSettingsSol k /\ b = FamTokenSettingsEver k).

(** The bytes hashed for an address are the concatenated seeds followed by the bump byte. *)
Theorem C05_seeds_distinct : forall a b x y,
  family_ok a -> family_ok b -> 0 <= x < 256 -> 0 <= y < 256 ->
  (with_bump (family_seeds a) x = with_bump (family_seeds b) y <-> x = y /\ same_account a b).
Proof.
  intros a b x y Ha Hb Hx Hy. split.
  - intros H. unfold with_bump in H. apply app_inj_tail in H as [H Hn].
    apply zb_inj in Hn; [|assumption|assumption]. split; [assumption|].
    pose proof (f_equal (@List.length byte) H) as Hl.
    destruct a, b; cbn [family_seeds family_ok] in *;
    unfold sd_settings, sd_multivault, sd_ts_ever, sd_ts_sol, sd_mint, sd_vault, sd_deposit, sd_proxy,
      sd_proposal, sd_relay_round in *;
    rewrite ?app_length, ?le_length, ?kb_len32 in Hl; cbn in Hl; try discriminate Hl;
    first [ left; reflexivity | idtac ];
    rewrite <- ?app_assoc in H; seed_split H; subst.
    all: repeat match goal with
         | E : kb _ = kb _ |- _ => apply kb_inj in E; subst
         | E : le ?n _ = le ?n _ |- _ => apply le_inj in E; [subst|cbn in *; lia|cbn in *; lia]
         end.
    all: try (left; reflexivity).
    all: right; eexists; (left; split; reflexivity) || (right; split; reflexivity).
  - intros [-> [->|[k [[-> ->]|[-> ->]]]]]; reflexivity.
Qed.

Example C05_example :
  with_bump (family_seeds (FamProxy (knum 1) (knum 2))) 255
    <> with_bump (family_seeds (FamProxy (knum 2) (knum 1))) 255 /\
  with_bump (family_seeds (FamTokenSettingsEver (knum 5))) 9
    = with_bump (family_seeds (FamTokenSettingsSol (knum 5))) 9.
Proof.
  split; [|reflexivity]. intros H.
  apply C05_seeds_distinct in H; [|exact I|exact I|lia|lia].
  destruct H as [_ [H|[k [[H _]|[H _]]]]]; discriminate H.
Qed.

(** * C06 Ever and Solana withdrawal events can be confused (finding) *)

(** Full claim: [forall e s, okb c_wever_event e = true -> okb c_wsol_event s = true ->
    enc c_wever_event e <> enc c_wsol_event s].  It is false: *)

Definition confused_recipient : key := Key
  (repeat x11 21 ++ [x0b; x00; x00; x00] ++ repeat x22 7) eq_refl.
Definition confused_ever : wever_event :=
  WEverEvent (AddrStd 0 (knum 77)) [] [] 9 1000 confused_recipient [].

Theorem C06_refuted : exists ev sol,
  okb c_wever_event ev = true /\ okb c_wsol_event sol = true /\
  enc c_wever_event ev = enc c_wsol_event sol /\
  (* both carry a payable amount and the two kinds name different recipients *)
  0 < wee_amount ev /\ 0 < wse_amount sol /\ wee_recipient ev <> wse_recipient sol.
Proof.
  destruct (dec c_wsol_event (enc c_wever_event confused_ever)) as [[s r]|] eqn:E;
    [|vm_compute in E; discriminate E].
  exists confused_ever, s.
  split; [vm_compute; reflexivity|].
  assert (Hr : r = []) by (vm_compute in E; injection E as _ <-; reflexivity).
  apply can in E as [E O]. subst r. rewrite app_nil_r in E.
  split; [exact O|]. split; [exact E|].
  split; [reflexivity|].
  assert (Hs : Some s = option_map fst (dec c_wsol_event (enc c_wever_event confused_ever))).
  { rewrite E, <- (app_nil_r (enc c_wsol_event s)), rt by exact O. reflexivity. }
  vm_compute in Hs. injection Hs as ->. split; [reflexivity|]. discriminate.
Qed.

Lemma firstn_app_long {A} n (a b : list A) : (n <= List.length a)%nat -> firstn n (a ++ b) = firstn n a.
Proof.
  intros H. rewrite firstn_app. replace (n - List.length a)%nat with 0%nat by lia.
  apply app_nil_r.
Qed.

(** What holds: the two encodings can coincide only if the Solana mint's first byte is 0 (the tag of
    an Everscale address), its second byte is the workchain and the next 30 bytes are the beginning
    of the token address; hence never for a mint whose key does not start with a zero byte. *)
Theorem C06_partial : forall ev sol,
  okb c_wever_event ev = true -> okb c_wsol_event sol = true ->
  enc c_wever_event ev = enc c_wsol_event sol ->
  firstn 32 (enc c_ever (wee_token ev)) = kb (wse_mint sol) /\
  nth_error (kb (wse_mint sol)) 0 = Some x00.
Proof.
  intros ev sol _ _ E.
  assert (H : firstn 32 (enc c_ever (wee_token ev)) = kb (wse_mint sol)).
  { unfold c_wever_event, c_wsol_event in E.
    cbn [c_iso enc c_pair fst snd c_key] in E.
    apply (f_equal (firstn 32)) in E.
    rewrite firstn_app_long in E.
    - rewrite firstn_app_long in E by (rewrite kb_len32; lia).
      rewrite firstn_all2 with (l := kb (wse_mint sol)) in E by (rewrite kb_len32; lia). exact E.
    - pose proof (blen_ever (wee_token ev)) as Hb. unfold blen in Hb. lia. }
  split; [exact H|]. rewrite <- H. cbn [c_ever enc firstn nth_error]. reflexivity.
Qed.

Example C06_example :
  (* an ordinary mint (wrapped SOL) starts with byte 6 and can not be confused *)
  forall ev amount r p, okb c_wever_event ev = true ->
    okb c_wsol_event (WSolEvent native_mint amount r p) = true ->
    enc c_wever_event ev <> enc c_wsol_event (WSolEvent native_mint amount r p).
Proof.
  intros ev amount r p H1 H2 E. destruct (C06_partial _ _ H1 H2 E) as [_ H]. discriminate H.
Qed.

(** * C07 Error codes *)

Theorem C07_partial : forall x, error_code x <= 6 -> error_of_code (error_code x) = Some x.
Proof. intros []; cbn [error_code]; intros; try lia; reflexivity. Qed.

(** No two errors have the same code: each failure can be told apart by its code. *)
Theorem C07_codes : forall x y, error_code x = error_code y -> x = y.
Proof. intros [] []; cbn [error_code]; intros E; (reflexivity || discriminate E). Qed.

(** From code 7 on every conversion yields a different error or none. *)
Theorem C07_refuted :
  exists x, error_of_code (error_code x) <> Some x /\
  forall y, 7 <= error_code y -> error_of_code (error_code y) <> Some y.
Proof.
  exists EInsufficientBalance. split; [discriminate|].
  intros []; cbn [error_code]; intros; try lia; discriminate.
Qed.

Example C07_example :
  error_of_code (error_code EInvalidRelay) = Some EInvalidRelay /\
  error_of_code (error_code EOverflow) = Some ETokenNameLenLimit.
Proof. split; reflexivity. Qed.
Example C07_codes_example : error_code EOverflow <> error_code EInvalidVote /\ error_code EDepositLimit = 0 /\ error_code EDeserializePayload = 16.
Proof. split; [discriminate|split; reflexivity]. Qed.

(** * C08 Text form of Everscale addresses *)

(** Specification of the accepted strings. *)
Definition is_digit (c : byte) : Prop := 48 <= bz c <= 57.
Definition is_hex (c : byte) : Prop := 48 <= bz c <= 57 \/ 97 <= bz c <= 102 \/ 65 <= bz c <= 70.
Definition hex_digit_value (c : byte) : Z :=
  if bz c <=? 57 then bz c - 48 else if 97 <=? bz c then bz c - 87 else bz c - 55.
(** Positional value of digits, most significant first. *)
Definition number (base : Z) (ds : list Z) : Z := fold_left (fun a d => base * a + d) ds 0.

(** [w] is a decimal text of [z], with an optional sign. *)
Definition decimal_text (w : bytes) (z : Z) : Prop :=
  exists sign ds, w = sign ++ ds /\ ds <> [] /\ Forall is_digit ds /\
    ((sign = [] \/ sign = str "+") /\ z = number 10 (map (fun c => bz c - 48) ds) \/
     sign = str "-" /\ z = - number 10 (map (fun c => bz c - 48) ds)).

Lemma dec_val_spec s acc n : dec_val acc s = Some n ->
  Forall is_digit s /\ n = fold_left (fun a d => 10 * a + d) (map (fun c => bz c - 48) s) acc.
Proof.
  revert acc; induction s as [|c s IH]; intros acc; cbn [dec_val map fold_left].
  - intros H; injection H as <-. auto.
  - destruct ((0 <=? bz c - 48) && (bz c - 48 <? 10)) eqn:E; [|discriminate].
    intros H. apply IH in H as [H ->]. split; [|reflexivity]. constructor; [unfold is_digit; lia|auto].
Qed.

Lemma parse_i8_spec s z : parse_i8 s = Some z -> decimal_text s z /\ -128 <= z <= 127.
Proof.
  unfold parse_i8. destruct s as [|c r]; [discriminate|].
  assert (F : forall neg l z', match l with
    | [] => None
    | _ => match dec_val 0 l with
           | Some n => let v := if (neg : bool) then - n else n in
                       if (-128 <=? v) && (v <=? 127) then Some v else None
           | None => None end end = Some z' ->
    l <> [] /\ Forall is_digit l /\ -128 <= z' <= 127 /\
    z' = (if neg then - number 10 (map (fun c => bz c - 48) l) else number 10 (map (fun c => bz c - 48) l))).
  { intros neg l z'. destruct l as [|d l]; [discriminate|].
    destruct (dec_val 0 (d :: l)) as [n|] eqn:E; [|discriminate]. apply dec_val_spec in E as [E ->].
    cbv zeta. fold (number 10 (map (fun c => bz c - 48) (d :: l))).
    match goal with |- (if ?b then _ else _) = _ -> _ => destruct b eqn:Eb end; [|discriminate].
    intros H; injection H as <-. split; [discriminate|]. split; [exact E|]. split; [|reflexivity].
    apply andb_true_iff in Eb as [E1 E2]; apply Z.leb_le in E1, E2; split; assumption. }
  cbv zeta.
  destruct (Byte.eqb c x2d) eqn:E1; [|destruct (Byte.eqb c x2b) eqn:E2].
  - apply byte_eqb_eq in E1 as ->. intros H.
    destruct (F true r z H) as (Hn & Hd & Hr & ->). split; [|exact Hr].
    exists (str "-"), r. split; [reflexivity|]. split; [exact Hn|]. split; [exact Hd|].
    right; split; reflexivity.
  - apply byte_eqb_eq in E2 as ->. intros H.
    destruct (F false r z H) as (Hn & Hd & Hr & ->). split; [|exact Hr].
    exists (str "+"), r. split; [reflexivity|]. split; [exact Hn|]. split; [exact Hd|].
    left; split; [right|]; reflexivity.
  - intros H. destruct (F false (c :: r) z H) as (Hn & Hd & Hr & ->). split; [|exact Hr].
    exists [], (c :: r). split; [reflexivity|]. split; [exact Hn|]. split; [exact Hd|].
    left; split; [left|]; reflexivity.
Qed.

Definition zrange (lo : Z) (n : nat) : list Z := map (fun i => lo + Z.of_nat i) (seq 0 n).
Lemma zrange_in lo n z : lo <= z < lo + Z.of_nat n -> In z (zrange lo n).
Proof.
  intros H. unfold zrange. apply in_map_iff. exists (Z.to_nat (z - lo)).
  split; [lia|]. apply in_seq. lia.
Qed.

Definition no_colon (s : bytes) : Prop := Forall (fun c => Byte.eqb c x3a = false) s.

Lemma show_i8_ok z : -128 <= z <= 127 ->
  parse_i8 (show_i8 z) = Some z /\ no_colon (show_i8 z).
Proof.
  intros H.
  assert (A : forallb (fun z => match parse_i8 (show_i8 z) with Some y => y =? z | None => false end
                        && forallb (fun c => negb (Byte.eqb c x3a)) (show_i8 z)) (zrange (-128) 256) = true)
    by (vm_compute; reflexivity).
  rewrite forallb_forall in A. specialize (A z (zrange_in (-128) 256 z ltac:(lia))).
  apply andb_true_iff in A as [A B]. split.
  - destruct (parse_i8 (show_i8 z)) as [y|]; [|discriminate]. f_equal. apply Z.eqb_eq; exact A.
  - apply Forall_forall. rewrite forallb_forall in B. intros c Hc. apply B in Hc.
    destruct (Byte.eqb c x3a); [discriminate|reflexivity].
Qed.

Lemma split_colon_none s : no_colon s -> split_colon s = [s].
Proof.
  induction 1 as [|c s H F IH]; [reflexivity|]. cbn [split_colon]. rewrite H, IH. reflexivity.
Qed.
Lemma split_colon_app a b : no_colon a -> split_colon (a ++ x3a :: b) = a :: split_colon b.
Proof.
  induction 1 as [|c s H F IH]; [reflexivity|].
  cbn [app split_colon]. rewrite H, IH. reflexivity.
Qed.
Lemma split_colon_ne s : split_colon s <> [].
Proof.
  destruct s as [|c s]; [discriminate|]. cbn [split_colon].
  destruct (Byte.eqb c x3a); [discriminate|]. destruct (split_colon s); discriminate.
Qed.
Lemma split_colon_one s a : split_colon s = [a] -> s = a /\ no_colon a.
Proof.
  revert a; induction s as [|c s IH]; intros a; cbn [split_colon].
  - intros H; injection H as <-. split; [reflexivity|constructor].
  - destruct (Byte.eqb c x3a) eqn:E.
    + intros H. injection H as _ H. destruct (split_colon_ne _ H).
    + destruct (split_colon s) as [|p ps] eqn:E2; [destruct (split_colon_ne _ E2)|].
      intros H. injection H as <- ->. destruct (IH p eq_refl) as [-> N].
      split; [reflexivity|constructor; assumption].
Qed.
Lemma split_colon_two s w a : split_colon s = [w; a] -> s = w ++ x3a :: a.
Proof.
  revert w; induction s as [|c s IH]; intros w; cbn [split_colon]; [discriminate|].
  destruct (Byte.eqb c x3a) eqn:E.
  - apply byte_eqb_eq in E as ->. intros H. injection H as <- H.
    apply split_colon_one in H as [-> _]. reflexivity.
  - destruct (split_colon s) as [|p ps] eqn:E2; [destruct (split_colon_ne _ E2)|].
    intros H. injection H as <- ->. rewrite (IH p eq_refl). reflexivity.
Qed.

Lemma hex_val_spec c v : hex_val c = Some v -> is_hex c /\ v = hex_digit_value c /\ 0 <= v < 16.
Proof.
  unfold hex_val, is_hex, hex_digit_value. cbv zeta.
  destruct ((48 <=? bz c) && (bz c <=? 57)) eqn:E1.
  { intros H; injection H as <-. destruct (Z.leb_spec (bz c) 57); lia. }
  destruct ((97 <=? bz c) && (bz c <=? 102)) eqn:E2.
  { intros H; injection H as <-. destruct (Z.leb_spec (bz c) 57); [lia|].
    destruct (Z.leb_spec 97 (bz c)); lia. }
  destruct ((65 <=? bz c) && (bz c <=? 70)) eqn:E3; [|discriminate].
  intros H; injection H as <-. destruct (Z.leb_spec (bz c) 57); [lia|].
  destruct (Z.leb_spec 97 (bz c)); lia.
Qed.

Lemma list_pair_ind {A} (P : list A -> Prop) :
  P [] -> (forall x, P [x]) -> (forall x y l, P l -> P (x :: y :: l)) -> forall l, P l.
Proof.
  intros H0 H1 H2. fix F 1. intros [|x [|y l]]; [exact H0|apply H1|apply H2, F].
Qed.

Lemma hex_decode_spec s : forall b, hex_decode s = Some b ->
  List.length s = (2 * List.length b)%nat /\ Forall is_hex s /\
  forall acc, fold_left (fun a d => 16 * a + d) (map hex_digit_value s) acc
            = fold_left (fun a d => 256 * a + d) (map bz b) acc.
Proof.
  induction s as [|x|x y s IH] using list_pair_ind; intros b; cbn [hex_decode].
  - intros H; injection H as <-. auto.
  - discriminate.
  - destruct (hex_val x) as [v|] eqn:Ex; [|discriminate].
    destruct (hex_val y) as [u|] eqn:Ey; [|discriminate].
    destruct (hex_decode s) as [t|]; [|discriminate]. intros H.
    assert (Hb : b = zb (16 * v + u) :: t) by congruence. subst b.
    apply hex_val_spec in Ex as (Hx & Ex & Rx). apply hex_val_spec in Ey as (Hy & Ey & Ry).
    destruct (IH t eq_refl) as (L & F & V). cbn [List.length map fold_left]. split; [lia|].
    split; [auto|]. intros acc. rewrite V. f_equal. rewrite <- Ex, <- Ey, bz_zb.
    rewrite Z.mod_small by lia. ring.
Qed.

Lemma hex_encode_ok b : hex_decode (hex_encode b) = Some b /\ no_colon (hex_encode b).
Proof.
  induction b as [|x b [IH1 IH2]]; [split; [reflexivity|constructor]|].
  unfold hex_encode in *. cbn [flat_map app]. cbn [hex_decode].
  assert (A : hex_val (hex_char (bz x / 16)) = Some (bz x / 16) /\
              hex_val (hex_char (bz x mod 16)) = Some (bz x mod 16) /\
              Byte.eqb (hex_char (bz x / 16)) x3a = false /\
              Byte.eqb (hex_char (bz x mod 16)) x3a = false) by (destruct x; vm_compute; auto).
  destruct A as (A1 & A2 & A3 & A4). rewrite A1, A2, IH1. split.
  - repeat f_equal. rewrite <- Z.div_mod by lia. apply zb_bz.
  - constructor; [exact A3|constructor; [exact A4|exact IH2]].
Qed.

Theorem C08_text_form :
  (forall a, -128 <= ev_wc a <= 127 -> ever_from_string (ever_to_string a) = Some a) /\
  (forall s a, ever_from_string s = Some a ->
     exists w h, s = w ++ str ":" ++ h /\
       decimal_text w (ev_wc a) /\ -128 <= ev_wc a <= 127 /\
       List.length h = 64%nat /\ Forall is_hex h /\
       number 16 (map hex_digit_value h) = number 256 (map bz (kb (ev_addr a)))).
Proof.
  split.
  - intros [z k] H. cbn [ev_wc] in H. unfold ever_to_string. cbn [ev_wc ev_addr].
    destruct (show_i8_ok z H) as [P N]. destruct (hex_encode_ok (kb k)) as [D N2].
    unfold ever_from_string. rewrite split_colon_app by exact N. rewrite split_colon_none by exact N2.
    cbn [firstn]. rewrite P, D, mkkey_kb. reflexivity.
  - intros s [z k]. unfold ever_from_string.
    destruct (split_colon s) as [|w [|h [|x r]]] eqn:E; try discriminate.
    cbn [firstn]. destruct (parse_i8 w) as [z'|] eqn:P; [|discriminate].
    destruct (hex_decode h) as [b|] eqn:D; [|discriminate].
    destruct (mkkey b) as [k'|] eqn:K; [|discriminate]. intros H; injection H as -> ->.
    apply split_colon_two in E. apply parse_i8_spec in P as [P R].
    apply hex_decode_spec in D as (L & F & V). apply mkkey_some in K. subst b.
    rewrite kb_len32 in L. cbn [ev_wc ev_addr].
    exists w, h. split; [exact E|]. split; [exact P|]. split; [exact R|]. split; [exact L|].
    split; [exact F|]. apply V.
Qed.

Example C08_example :
  ever_to_string (AddrStd (-1) (knum 0)) =
    str "-1:0000000000000000000000000000000000000000000000000000000000000000" /\
  ever_from_string (str "+0:ABcdef0000000000000000000000000000000000000000000000000000000001") <> None /\
  ever_from_string (str "128:0000000000000000000000000000000000000000000000000000000000000000") = None /\
  ever_from_string (str "0:00") = None.
Proof. vm_compute. repeat split; discriminate. Qed.

(** * C09 256-bit values from big-endian bytes *)

Lemma fold256_zeros n l acc :
  fold_left (fun a d => 256 * a + d) (map bz (repeat x00 n ++ l)) 0
  = fold_left (fun a d => 256 * a + d) (map bz l) 0 + 0 * acc.
Proof.
  rewrite map_app, fold_left_app.
  replace (fold_left (fun a d => 256 * a + d) (map bz (repeat x00 n)) 0) with 0; [lia|].
  induction n as [|n IH]; [reflexivity|]. cbn [repeat map fold_left]. exact IH.
Qed.

Theorem C09_be_bytes : forall v,
  List.length (be_pad v) = 32%nat /\
  ((List.length v <= 32)%nat -> number 256 (map bz (be_pad v)) = number 256 (map bz v)) /\
  ((32 <= List.length v)%nat -> be_pad v = firstn 32 v).
Proof.
  intros v. unfold be_pad. split; [|split].
  - rewrite app_length, repeat_length, firstn_length. lia.
  - intros H. rewrite Nat.min_l by lia. rewrite firstn_all. unfold number.
    rewrite (fold256_zeros _ _ 0). lia.
  - intros H. rewrite Nat.min_r by lia. reflexivity.
Qed.

Example C09_example :
  number 256 (map bz (be_pad [x01; x02])) = 258 /\
  be_pad (repeat x05 40) = repeat x05 32.
Proof. vm_compute. split; reflexivity. Qed.

(** * C58 Decimals conversion never creates value *)

Lemma pow10_small n : 0 <= n <= 38 -> pow10 n = 10 ^ n.
Proof.
  intros H. unfold pow10, wrap128, u128max. apply Z.mod_small. split; [apply Z.pow_nonneg; lia|].
  apply Z.le_lt_trans with (10 ^ 38); [apply Z.pow_le_mono_r; lia|reflexivity].
Qed.

(** A deposit of [amount] (u64) in a token with [sol_dec] decimals on Solana and [ever_dec] on
    Everscale is announced as [x]; withdrawing [x] yields [y]. *)
Theorem C58_no_value_created : forall amount ever_dec sol_dec x y,
  0 <= amount < 2 ^ 64 -> 0 <= ever_dec < 256 -> 0 <= sol_dec < 256 ->
  Z.abs (ever_dec - sol_dec) <= 38 ->
  get_deposit_amount amount ever_dec sol_dec = Ok x ->
  get_withdrawal_amount x ever_dec sol_dec = Ok y ->
  y <= amount /\
  (* exact when no precision is lost *)
  (sol_dec <= ever_dec \/ amount mod 10 ^ (sol_dec - ever_dec) = 0 -> y = amount) /\
  (* otherwise exactly the dust is lost *)
  (ever_dec < sol_dec -> y = amount - amount mod 10 ^ (sol_dec - ever_dec)).
Proof.
  intros amount ed sd x y Ha He Hs Hd. unfold get_deposit_amount, get_withdrawal_amount.
  destruct (Z.ltb_spec sd ed) as [L|L].
  - rewrite pow10_small by lia. assert (P : 0 < 10 ^ (ed - sd)) by (apply Z.pow_pos_nonneg; lia).
    set (p := 10 ^ (ed - sd)) in *. unfold cmul, cdiv.
    destruct (amount * p <? u128max); [|discriminate]. intros H; injection H as <-.
    destruct (Z.eqb_spec p 0); [lia|]. cbn [rbind]. intros H; injection H as <-.
    rewrite Z.div_mul by lia. unfold wrap64. rewrite Z.mod_small by exact Ha. lia.
  - rewrite pow10_small by lia. assert (P : 0 < 10 ^ (sd - ed)) by (apply Z.pow_pos_nonneg; lia).
    pose proof (Z.pow_0_r 10) as P0.
    destruct (Z.eq_dec sd ed) as [Heq|Hne].
    + subst sd. rewrite Z.sub_diag in *. rewrite P0 in *. unfold cdiv, cmul. cbn [Z.eqb].
      intros H; injection H as <-. rewrite Z.div_1_r, Z.mul_1_r.
      destruct (amount <? u128max); [|discriminate]. cbn [rbind]. intros H; injection H as <-.
      unfold wrap64. rewrite Z.mod_small by exact Ha. lia.
    + set (p := 10 ^ (sd - ed)) in *. unfold cdiv, cmul.
      destruct (Z.eqb_spec p 0); [lia|]. intros H; injection H as <-.
      destruct (amount / p * p <? u128max); [|discriminate]. cbn [rbind]. intros H; injection H as <-.
      pose proof (Z.div_mod amount p ltac:(lia)) as D. pose proof (Z.mod_pos_bound amount p P) as B.
      assert (Q : amount / p * p = amount - amount mod p) by (rewrite Z.mul_comm; lia).
      pose proof (Z.mod_le amount p ltac:(lia) P) as Le.
      rewrite Q. unfold wrap64, u64max. clear D Q. set (r := amount mod p) in *.
      rewrite Z.mod_small by (clearbody r; lia).
      clearbody r. lia.
Qed.

Example C58_example :
  get_deposit_amount 1234567 6 9 = Ok 1234 /\ get_withdrawal_amount 1234 6 9 = Ok 1234000 /\
  get_deposit_amount 1234567 18 9 = Ok 1234567000000000 /\
  get_withdrawal_amount 1234567000000000 18 9 = Ok 1234567.
Proof. vm_compute. repeat split. Qed.

Print Assumptions C05_seeds_distinct.
Print Assumptions C06_refuted.
Print Assumptions C06_partial.
Print Assumptions C07_partial.
Print Assumptions C07_codes.
Print Assumptions C07_refuted.
Print Assumptions C08_text_form.
Print Assumptions C09_be_bytes.
Print Assumptions C58_no_value_created.
