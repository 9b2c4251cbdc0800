(** token-proxy/src/processor.rs, function by function.

    [e] is the environment, [c] the instruction's context ([c_pid c] is [program_id]).  Account keys
    are taken from the front of the account list in the order of the [next_account_info] calls; a list
    that is too short fails before the other checks (only the error value can differ from Rust, where
    a sysvar check may come before the last [next_account_info]). *)

From Verif Require Export Helper RoundLoader Spl Text.

(** ** Unpacking *)

Definition tp_settings_at := unpack_at c_tp_settings TP_LEN gs_init.
Definition multi_vault_at := unpack_at c_multi_vault TP_LEN mv_init.
Definition token_settings_at := unpack_at c_token_settings TP_LEN tk_init.
Definition wever_at := unpack_at c_wever TP_LEN (@p_init _ _).
Definition wsol_at := unpack_at c_wsol TP_LEN (@p_init _ _).

(** token-proxy/src/state.rs:12-13 *)
Definition MAX_NAME_LEN : Z := 32.
Definition MAX_SYMBOL_LEN : Z := 32.

Definition nil_b {A} (l : list A) : bool := match l with [] => true | _ => false end.

(** ** Common blocks *)

(** "Validate Settings Account" (e.g. processor.rs:438-450): returns the settings and the
    program-data nonce. *)
Definition tp_valid_settings (e : env) (c : ctx) (k : key) : M (tp_settings * Z) :=
  st <- tp_settings_at k ;;
  '(n, pn) <- lift (into_settings (gs_kind st)) ;;
  lift (validate_pda e (c_pid c) sd_settings n k) ;;;
  ret (st, pn).

(** The same followed by the emergency check (e.g. processor.rs:452-454). *)
Definition tp_live_settings (e : env) (c : ctx) (k : key) : M (tp_settings * Z) :=
  '(st, pn) <- tp_valid_settings e c k ;;
  guard (negb (gs_emergency st)) (Custom 5) ;;;
  ret (st, pn).

(** "Validate Token Settings Account" for an Ever token (e.g. processor.rs:457-475): returns the
    settings, the token address, the stored decimals and the mint nonce.  The two accessors may be
    called in either order; both fail with InvalidTokenKind. *)
Definition valid_ts_ever (e : env) (c : ctx) (k : key) : M (token_settings * ever * Z * Z) :=
  ts <- token_settings_at k ;;
  '(_, token, dec_) <- lift (into_ever (tk_kind ts)) ;;
  '(n, mn) <- lift (into_token_settings (tk_akind ts)) ;;
  lift (validate_pda e (c_pid c) (sd_ts_ever (token_hash e token)) n k) ;;;
  ret (ts, token, dec_, mn).

(** The same for a Solana token (e.g. processor.rs:773-791): settings, mint, vault, vault nonce. *)
Definition valid_ts_sol (e : env) (c : ctx) (k : key) : M (token_settings * key * key * Z) :=
  ts <- token_settings_at k ;;
  '(mint, vault) <- lift (into_solana (tk_kind ts)) ;;
  '(n, vn) <- lift (into_token_settings (tk_akind ts)) ;;
  lift (validate_pda e (c_pid c) (sd_ts_sol mint) n k) ;;;
  ret (ts, mint, vault, vn).

(** Token emergency check (e.g. processor.rs:477-479). *)
Definition token_live (ts : token_settings) : M unit := guard (negb (tk_emergency ts)) (Custom 5).

(** "Validate Token Settings Account" for either kind (e.g. processor.rs:2438-2465). *)
Definition valid_ts_any (e : env) (c : ctx) (k : key) : M (token_settings * key) :=
  ts <- token_settings_at k ;;
  '(n, _) <- lift (into_token_settings (tk_akind ts)) ;;
  p <- lift (validate_pda e (c_pid c)
    (match tk_kind ts with
     | TKEver _ token _ => sd_ts_ever (token_hash e token)
     | TKSol mint _ => sd_ts_sol mint end) n k) ;;
  ret (ts, p).

(** "Validate Multi Vault Account" (e.g. processor.rs:488-494). *)
Definition valid_multivault (e : env) (c : ctx) (k : key) : M unit :=
  mv <- multi_vault_at k ;;
  n <- lift (into_multi_vault (mv_kind mv)) ;;
  lift (validate_pda e (c_pid c) sd_multivault n k) ;;;
  ret tt.

(** "Validate Withdrawal Account" after unpacking (e.g. processor.rs:1421-1442, 1522-1541); [h] is
    the hash of the event bytes.  Returns the derived address. *)
Definition tp_valid_prop {E M_} (e : env) (c : ctx) (k : key) (p : prop E M_) (h : key) : M key :=
  '(n, _) <- lift (into_proposal (p_kind p)) ;;
  lift (validate_pda e (c_pid c)
    (sd_proposal (p_round p) (pd_ts (p_pda p)) (pd_lt (p_pda p)) (pd_conf (p_pda p)) h) n k).

Definition wever_hash (e : env) (w : wever) : key := e_hash e (enc c_wever_event (wl_data (p_event w))).
Definition wsol_hash (e : env) (w : wsol) : key := e_hash e (enc c_wsol_event (wl_data (p_event w))).

(** Unpack and validate a typed withdrawal (processor.rs:1519-1541, 1875-1897, ...). *)
Definition valid_wever (e : env) (c : ctx) (k : key) : M (wever * key) :=
  w <- wever_at k ;; pk <- tp_valid_prop e c k w (wever_hash e w) ;; ret (w, pk).
Definition valid_wsol (e : env) (c : ctx) (k : key) : M (wsol * key) :=
  w <- wsol_at k ;; pk <- tp_valid_prop e c k w (wsol_hash e w) ;; ret (w, pk).

(** "Validate Manager/Guardian Account" (e.g. processor.rs:2421-2435): the role itself, or the
    upgrade authority proven by the next account. *)
Definition check_authority (e : env) (c : ctx) (role authority : key) (pn : Z) (rest : list key)
  : M unit :=
  if keqb authority role then ret tt
  else match rest with
       | programdata :: _ =>
         lift (validate_programdata e (c_pid c) pn programdata) ;;;
         d <- data programdata ;;
         lift (validate_initializer d authority)
       | [] => NotEnough
       end.

(** "Validate Relay Round Account" against round-loader's addresses (processor.rs:1009-1024): the
    round number is the stored one. *)
Definition tp_valid_round (e : env) (k : key) : M relay_round :=
  rr <- relay_round_at k ;;
  n <- lift (into_relay_round (rr_kind rr)) ;;
  lift (validate_pda e rl_id (sd_relay_round (rr_number rr)) n k) ;;;
  ret rr.

(** "Validate Round Loader Settings Account" (processor.rs:994-1007). *)
Definition tp_valid_rl_settings (e : env) (k : key) : M rl_settings :=
  st <- rl_settings_at k ;;
  '(n, _) <- lift (into_settings (rs_kind st)) ;;
  lift (validate_pda e rl_id sd_settings n k) ;;;
  ret st.

(** ** Arithmetic *)

(** [checked_add], [checked_sub] on a type with the given bound, mapped to Overflow (code 10). *)
Definition cadd (bound a b : Z) : res Z := if a + b <? bound then Ok (a + b) else Err (Custom 10).
Definition csub (a b : Z) : res Z := if b <=? a then Ok (a - b) else Err (Custom 10).
Definition cdiv (a b : Z) : res Z := if b =? 0 then Err (Custom 10) else Ok (a / b).
Definition cmul (bound a b : Z) : res Z := if a * b <? bound then Ok (a * b) else Err (Custom 10).

(** [1.max(amount.checked_div(divisor)?.checked_mul(multiplier)?)] (e.g. processor.rs:535-541). *)
Definition fee_of (bound : Z) (f : fee_info) (amount : Z) : res Z :=
  rbind (cdiv amount (fi_div f)) (fun q => rbind (cmul bound q (fi_mul f)) (fun x => Ok (Z.max 1 x))).

(** [10u128.pow(n)], wrapping. *)
Definition pow10 (n : Z) : Z := wrap128 (10 ^ n).

(** processor.rs:4588-4606; the result is cut to 64 bits by [as u64]. *)
Definition get_withdrawal_amount (amount ever_dec sol_dec : Z) : res Z :=
  rbind (if sol_dec <? ever_dec then cdiv amount (pow10 (ever_dec - sol_dec))
         else cmul u128max amount (pow10 (sol_dec - ever_dec)))
        (fun x => Ok (wrap64 x)).

(** processor.rs:4608-4626 *)
Definition get_deposit_amount (amount ever_dec sol_dec : Z) : res Z :=
  if sol_dec <? ever_dec then cmul u128max amount (pow10 (ever_dec - sol_dec))
  else cdiv amount (pow10 (sol_dec - ever_dec)).

(** [clock.unix_timestamp / SECONDS_PER_DAY as i64]: truncating division. *)
Definition epoch_of (t : Z) : Z := Z.quot t 86400.

(** ** Record updates *)

Definition gs_set (st : tp_settings) (emergency : bool) (guardian manager wmanager : key)
  : tp_settings := TpSettings (gs_init st) (gs_kind st) emergency guardian manager wmanager.

Definition tk_set_fee_supply (t : token_settings) (z : Z) : token_settings :=
  TokenSettings (tk_init t) (tk_akind t) (tk_kind t) (tk_name t) (tk_symbol t) (tk_dlimit t)
    (tk_wlimit t) (tk_wdlimit t) (tk_wdamount t) (tk_wepoch t) (tk_emergency t) z (tk_fee_dep t)
    (tk_fee_wdr t).
Definition tk_set_daily (t : token_settings) (epoch amount : Z) : token_settings :=
  TokenSettings (tk_init t) (tk_akind t) (tk_kind t) (tk_name t) (tk_symbol t) (tk_dlimit t)
    (tk_wlimit t) (tk_wdlimit t) amount epoch (tk_emergency t) (tk_fee_supply t) (tk_fee_dep t)
    (tk_fee_wdr t).
Definition tk_set_limits (t : token_settings) (dl wl wdl : Z) : token_settings :=
  TokenSettings (tk_init t) (tk_akind t) (tk_kind t) (tk_name t) (tk_symbol t) dl
    wl wdl (tk_wdamount t) (tk_wepoch t) (tk_emergency t) (tk_fee_supply t) (tk_fee_dep t)
    (tk_fee_wdr t).
Definition tk_set_emergency (t : token_settings) (b : bool) : token_settings :=
  TokenSettings (tk_init t) (tk_akind t) (tk_kind t) (tk_name t) (tk_symbol t) (tk_dlimit t)
    (tk_wlimit t) (tk_wdlimit t) (tk_wdamount t) (tk_wepoch t) b (tk_fee_supply t) (tk_fee_dep t)
    (tk_fee_wdr t).
Definition tk_set_fees (t : token_settings) (fd fw : fee_info) : token_settings :=
  TokenSettings (tk_init t) (tk_akind t) (tk_kind t) (tk_name t) (tk_symbol t) (tk_dlimit t)
    (tk_wlimit t) (tk_wdlimit t) (tk_wdamount t) (tk_wepoch t) (tk_emergency t) (tk_fee_supply t)
    fd fw.
Definition tk_set_names (t : token_settings) (name symbol : bytes) : token_settings :=
  TokenSettings (tk_init t) (tk_akind t) (tk_kind t) name symbol (tk_dlimit t)
    (tk_wlimit t) (tk_wdlimit t) (tk_wdamount t) (tk_wepoch t) (tk_emergency t) (tk_fee_supply t)
    (tk_fee_dep t) (tk_fee_wdr t).

(** The record a new token starts with (processor.rs:733-751, 1626-1646). *)
Definition new_token_settings (kind : account_kind) (tk : token_kind) (name symbol : bytes)
  : token_settings :=
  TokenSettings true kind tk name symbol (u64max - 1) (u64max - 1) (u64max - 1) 0 0 false 0
    default_fee default_fee.

Definition w_set_status {E} (w : prop E (withlen wmeta)) (s : wstatus) : prop E (withlen wmeta) :=
  p_with_meta w (WithLen (wl_len (p_meta w))
    (WMeta s (wm_bounty (wl_data (p_meta w))) (wm_epoch (wl_data (p_meta w))))).
Definition w_set_bounty {E} (w : prop E (withlen wmeta)) (b : Z) : prop E (withlen wmeta) :=
  p_with_meta w (WithLen (wl_len (p_meta w))
    (WMeta (wm_status (wl_data (p_meta w))) b (wm_epoch (wl_data (p_meta w))))).
Definition w_status {E} (w : prop E (withlen wmeta)) : wstatus := wm_status (wl_data (p_meta w)).

(** ** Initialisation *)

(** processor.rs:302-406 *)
Definition tp_initialize (e : env) (c : ctx) (guardian manager wmanager : key) : M unit :=
  match c_keys c with
  | funder :: initializer :: settings :: multivault :: programdata :: _system :: rent :: _ =>
    check_rent rent ;;;
    guard (c_sg c initializer) MissingRequiredSignature ;;;
    '(pd, pn) <- lift (find_pda e (sd_programdata (c_pid c)) loader_id) ;;
    guard (keqb pd programdata) InvalidArgument ;;;
    d <- data programdata ;;
    lift (validate_initializer d initializer) ;;;
    '(sk, sn) <- lift (find_pda e sd_settings (c_pid c)) ;;
    guard (keqb sk settings) InvalidArgument ;;;
    invoke_create e c funder settings (Z.max 1 (rent_min e TP_LEN)) TP_LEN (c_pid c)
      (with_bump sd_settings sn) ;;;
    pack_at c c_tp_settings TP_LEN settings
      (TpSettings true (KSettings sn pn) false guardian manager wmanager) ;;;
    '(mk, mn) <- lift (find_pda e sd_multivault (c_pid c)) ;;
    guard (keqb mk multivault) InvalidArgument ;;;
    invoke_create e c funder multivault (Z.max 1 (rent_min e TP_LEN)) TP_LEN (c_pid c)
      (with_bump sd_multivault mn) ;;;
    pack_at c c_multi_vault TP_LEN multivault (MultiVault true (KMultiVault mn))
  | _ => NotEnough
  end.

(** ** Deposits *)

(** Address of a new deposit account (e.g. processor.rs:512-520). *)
Definition deposit_address (e : env) (c : ctx) (seed : Z) (deposit : key) : M (key * Z) :=
  '(dk, dn) <- lift (find_pda e (sd_deposit seed) (c_pid c)) ;;
  guard (keqb dk deposit) InvalidArgument ;;;
  ret (dk, dn).

(** Creation of the deposit account (e.g. processor.rs:522-532). *)
Definition create_deposit (e : env) (c : ctx) (funder deposit : key) (seed dn : Z) : M unit :=
  invoke_create e c funder deposit (Z.max 1 (rent_min e TP_LEN)) TP_LEN (c_pid c)
    (with_bump (sd_deposit seed) dn).

(** Log record of a deposit (processor.rs:576-589, 921-934). *)
Definition emit_deposit (account : key) (recipient : ever) (amount seed value : Z) (evers h : key)
  : M unit :=
  emit (enc c_ev_deposit (EvDeposit account recipient amount seed value evers (kb h))).

(** processor.rs:409-604 *)
Definition tp_deposit_ever (e : env) (c : ctx) (seed amount : Z) (recipient : ever) (value : Z)
  (evers : key) (payload : bytes) : M unit :=
  match c_keys c with
  | funder :: creator :: creator_token :: deposit :: mint :: multivault :: tsk :: settings
    :: _system :: _token :: rent :: _ =>
    check_rent rent ;;;
    guard (c_sg c creator) MissingRequiredSignature ;;;
    tp_live_settings e c settings ;;;
    '(ts, token, ever_dec, mn) <- valid_ts_ever e c tsk ;;
    token_live ts ;;;
    lift (validate_pda e (c_pid c) (sd_mint (token_hash e token)) mn mint) ;;;
    m <- tmint_at mint ;;
    valid_multivault e c multivault ;;;
    invoke_tok_burn c creator_token mint creator amount ;;;
    '(dk, dn) <- deposit_address e c seed deposit ;;
    create_deposit e c funder deposit seed dn ;;;
    fee <- lift (fee_of u64max (tk_fee_dep ts) amount) ;;
    fs <- lift (cadd u64max (tk_fee_supply ts) fee) ;;
    pure_ <- lift (csub amount fee) ;;
    amt <- lift (get_deposit_amount pure_ ever_dec (tm_decimals m)) ;;
    let ev := DEverEvent token amt recipient value evers payload in
    emit_deposit dk recipient amt seed value evers (e_hash e (enc c_dever_event ev)) ;;;
    pack_at c c_dever TP_LEN deposit
      (Dep true (KDeposit dn) creator (dever_event_new ev) (dep_meta_new seed)) ;;;
    pack_at c c_token_settings TP_LEN tsk (tk_set_fee_supply ts fs) ;;;
    invoke_transfer c funder multivault value
  | _ => NotEnough
  end.

(** Registration of a Solana token by its first deposit (processor.rs:667-769). *)
Definition register_sol (e : env) (c : ctx) (funder vault mint tsk : key) (name symbol : bytes)
  : M unit :=
  '(vk, vn) <- lift (find_pda e (sd_vault mint) (c_pid c)) ;;
  guard (keqb vk vault) InvalidArgument ;;;
  invoke_create e c funder vault (Z.max 1 (rent_min e TACC_LEN)) TACC_LEN spl_id
    (with_bump (sd_vault mint) vn) ;;;
  p <- pda_signer e c (with_bump (sd_vault mint) vn) ;;
  invoke_init_account3 e c (c_keys c) vault mint vault [p] ;;;
  '(tk, tn) <- lift (find_pda e (sd_ts_sol mint) (c_pid c)) ;;
  guard (keqb tk tsk) InvalidArgument ;;;
  invoke_create e c funder tsk (Z.max 1 (rent_min e TP_LEN)) TP_LEN (c_pid c)
    (with_bump (sd_ts_sol mint) tn) ;;;
  emit (enc c_ev_token (EvToken tk symbol name mint (Some vault) None None None default_fee)) ;;;
  pack_at c c_token_settings TP_LEN tsk
    (new_token_settings (KTokenSettings tn vn) (TKSol mint vault) name symbol).

(** processor.rs:607-947.  The mint and vault checks (797, 805) combine two tests with [&&]. *)
Definition tp_deposit_sol (e : env) (c : ctx) (seed : Z) (name symbol : bytes) (amount : Z)
  (recipient : ever) (value : Z) (evers : key) (payload : bytes) : M unit :=
  match c_keys c with
  | funder :: creator :: creator_token :: vault :: deposit :: mint :: multivault :: tsk :: settings
    :: _system :: _token :: rent :: _ =>
    check_rent rent ;;;
    guard (c_sg c creator) MissingRequiredSignature ;;;
    tp_live_settings e c settings ;;;
    guard (blen name <=? MAX_NAME_LEN) (Custom 11) ;;;
    guard (blen symbol <=? MAX_SYMBOL_LEN) (Custom 12) ;;;
    t <- get tsk ;;
    (if lam t =? 0 then register_sol e c funder vault mint tsk name symbol else ret tt) ;;;
    '(ts, smint, svault, _) <- valid_ts_sol e c tsk ;;
    token_live ts ;;;
    am <- get mint ;;
    guard (negb (negb (keqb mint smint) && negb (keqb (own am) spl_id))) InvalidArgument ;;;
    m <- tmint_at mint ;;
    av <- get vault ;;
    guard (negb (negb (keqb vault svault) && negb (keqb (own av) spl_id))) InvalidArgument ;;;
    valid_multivault e c multivault ;;;
    v <- tacc_at vault ;;
    total <- lift (cadd u64max (ta_amount v) amount) ;;
    guard (total <=? tk_dlimit ts) (Custom 0) ;;;
    invoke_tok_transfer c creator_token vault creator amount [] ;;;
    invoke_transfer c funder multivault value ;;;
    '(dk, dn) <- deposit_address e c seed deposit ;;
    create_deposit e c funder deposit seed dn ;;;
    fee <- lift (fee_of u64max (tk_fee_dep ts) amount) ;;
    fs <- lift (cadd u64max (tk_fee_supply ts) fee) ;;
    amt <- lift (csub amount fee) ;;
    let ev := DSolEvent mint (tk_name ts) (tk_symbol ts) (tm_decimals m) amt recipient value evers
                payload in
    emit_deposit dk recipient amt seed value evers (e_hash e (enc c_dsol_event ev)) ;;;
    pack_at c c_dsol TP_LEN deposit
      (Dep true (KDeposit dn) creator (dsol_event_new ev) (dep_meta_new seed)) ;;;
    pack_at c c_token_settings TP_LEN tsk (tk_set_fee_supply ts fs)
  | _ => NotEnough
  end.

(** ** Withdrawal requests *)

(** processor.rs:4644-4724; [Rent::get] yields the same rent. *)
Definition create_proxy_account (e : env) (c : ctx) (recipient funder proxy mint sysk tokk : key)
  : M Z :=
  '(pk, n) <- lift (find_pda e (sd_proxy mint recipient) (c_pid c)) ;;
  guard (keqb pk proxy) InvalidSeeds ;;;
  a <- get proxy ;;
  guard (keqb (own a) sys_id) IllegalOwner ;;;
  if nil_b (dat a) then
    create_pda_account e c funder TACC_LEN tokk sysk proxy (with_bump (sd_proxy mint recipient) n) ;;;
    guard (keqb tokk spl_id) IncorrectProgramId ;;;
    invoke_init_immutable c [proxy; tokk] proxy ;;;
    invoke_init_account3 e c [proxy; mint; tokk] proxy mint proxy [] ;;;
    ret n
  else ret n.

(** "Create Proxy Account" (processor.rs:1038-1077, 1267-1305): for a non-empty payload three more
    accounts are taken, the mint is checked, the proxy is created and [attached] lamports are sent
    to it. *)
Definition request_proxy (e : env) (c : ctx) (payload : bytes) (mintk : res key)
  (recipient funder sysk : key) (attached : Z) (rest : list key) : M (option Z) :=
  if nil_b payload then ret None
  else match rest with
       | proxy :: mint :: tokk :: _ =>
         mk <- lift mintk ;;
         guard (keqb mk mint) InvalidArgument ;;;
         n <- create_proxy_account e c recipient funder proxy mint sysk tokk ;;
         invoke_transfer c funder proxy attached ;;;
         ret (Some n)
       | _ => NotEnough
       end.

(** [(relays.len() * 2 / 3 + 1) as u32] and the configured minimum (processor.rs:1030-1033). *)
Definition required_votes (rls : rl_settings) (rr : relay_round) : Z :=
  Z.max (two_thirds (blen (rr_relays rr))) (rs_min_votes rls).

(** "Create Withdraw Account" (processor.rs:1080-1166, 1307-1390): [ev] is the event with its length,
    [evb] the bytes of the event, [token] the text for the log. *)
Definition request_tail {E} (e : env) (c : ctx) (ce : codec E) (funder author withdrawal : key)
  (rls : rl_settings) (rr : relay_round) (ts lt : Z) (conf : key) (ev : E) (evb : bytes)
  (pn : option Z) (epoch : Z) (token : bytes) (recipient : key) (amount : Z) : M unit :=
  let h := e_hash e evb in
  let sd := sd_proposal (rr_number rr) ts lt conf h in
  '(wk, wn) <- lift (find_pda e sd (c_pid c)) ;;
  guard (keqb wk withdrawal) InvalidArgument ;;;
  a <- get withdrawal ;;
  if lam a =? 0 then
    invoke_create e c funder withdrawal (Z.max 1 (rent_min e TP_LEN)) TP_LEN (c_pid c)
      (with_bump sd wn) ;;;
    pack_at c (c_prop ce (c_withlen c_wmeta)) TP_LEN withdrawal
      (Prop_ true (KProposal wn pn) author (rr_number rr) (required_votes rls rr) (Pda ts lt conf)
         ev (wmeta_new 0 epoch) (repeat VNone (length (rr_relays rr)))) ;;;
    emit (enc c_ev_request (EvRequest wk token recipient amount ts lt conf (kb h) 0)) ;;;
    invoke_transfer c funder withdrawal (wrap64 (RELAY_REPARATION * blen (rr_relays rr)))
  else ret tt.

(** processor.rs:950-1169 *)
Definition tp_withdraw_ever_request (e : env) (c : ctx) (ts lt : Z) (conf : key) (token : ever)
  (name symbol : bytes) (decimals : Z) (recipient : key) (amount : Z) (payload : bytes)
  (attached : Z) : M unit :=
  match c_keys c with
  | funder :: author :: withdrawal :: rlsk :: rrk :: sysk :: rent :: clock :: rest =>
    check_rent rent ;;;
    t <- check_clock clock ;;
    guard (c_sg c author) MissingRequiredSignature ;;;
    guard (blen name <=? MAX_NAME_LEN) (Custom 11) ;;;
    guard (blen symbol <=? MAX_SYMBOL_LEN) (Custom 12) ;;;
    rls <- tp_valid_rl_settings e rlsk ;;
    rr <- tp_valid_round e rrk ;;
    guard (wrap32 t <? rr_end rr) (Custom 2) ;;;
    pn <- request_proxy e c payload
            (rbind (find_pda e (sd_mint (token_hash e token)) (c_pid c)) (fun '(k, _) => Ok k))
            recipient funder sysk attached rest ;;
    let ev := WEverEvent token name symbol decimals amount recipient payload in
    request_tail e c (c_withlen c_wever_event) funder author withdrawal rls rr ts lt conf
      (wever_event_new ev) (enc c_wever_event ev) pn (epoch_of t) (ever_to_string token)
      recipient amount
  | _ => NotEnough
  end.

(** processor.rs:1172-1393 *)
Definition tp_withdraw_sol_request (e : env) (c : ctx) (ts lt : Z) (conf : key)
  (recipient : key) (amount : Z) (payload : bytes) (attached : Z) : M unit :=
  match c_keys c with
  | funder :: author :: withdrawal :: tsk :: rlsk :: rrk :: sysk :: rent :: clock :: rest =>
    check_rent rent ;;;
    t <- check_clock clock ;;
    guard (c_sg c author) MissingRequiredSignature ;;;
    '(_, mint, _, _) <- valid_ts_sol e c tsk ;;
    rls <- tp_valid_rl_settings e rlsk ;;
    rr <- tp_valid_round e rrk ;;
    guard (wrap32 t <? rr_end rr) (Custom 2) ;;;
    pn <- request_proxy e c payload (Ok mint) recipient funder sysk attached rest ;;
    let ev := WSolEvent mint amount recipient payload in
    request_tail e c (c_withlen c_wsol_event) funder author withdrawal rls rr ts lt conf
      (wsol_event_new ev) (enc c_wsol_event ev) pn (epoch_of t) (e_b58 e mint) recipient amount
  | _ => NotEnough
  end.

(** ** Voting: processor.rs:1395-1479, through the kind-agnostic view; [signers[index]] panics when
    out of range; [pack_into_slice] does not check the length.  The hashed bytes are
    [event.try_to_vec()?[4..]], i.e. the event without its length. *)
Definition tp_vote (e : env) (c : ctx) (v : vote) : M unit :=
  match c_keys c with
  | relay :: withdrawal :: rrk :: _ =>
    guard (c_sg c relay) MissingRequiredSignature ;;;
    guard (negb (vote_eqb v VNone)) (Custom 13) ;;;
    d <- data withdrawal ;;
    w <- lift (unpack_from_slice c_gprop d) ;;
    tp_valid_prop e c withdrawal w (e_hash e (p_event w)) ;;;
    rr <- relay_round_at rrk ;;
    n <- lift (into_relay_round (rr_kind rr)) ;;
    lift (validate_pda e rl_id (sd_relay_round (p_round w)) n rrk) ;;;
    i <- lift (ok_or (position relay (rr_relays rr)) (Custom 4)) ;;
    old <- lift (ok_or (nth_error (p_signers w) i) Panic) ;;
    if vote_eqb old VNone then
      d' <- lift (pack_into_slice c_gprop (p_with_signers w (set_nth i v (p_signers w))) d) ;;
      set_data c withdrawal d' ;;;
      move_lam c withdrawal relay RELAY_REPARATION
    else ret tt
  | _ => NotEnough
  end.

(** ** Execution of Ever withdrawals *)

(** processor.rs:4516-4550 *)
Definition make_ever_transfer (e : env) (c : ctx) (mint recipient : key) (token : ever) (mn : Z)
  (amount : Z) : M unit :=
  p <- pda_signer e c (with_bump (sd_mint (token_hash e token)) mn) ;;
  invoke_tok_mint_to c mint recipient mint amount [p].

(** processor.rs:4552-4586 *)
Definition make_sol_transfer (e : env) (c : ctx) (vault recipient mint : key) (vn : Z)
  (amount : Z) : M unit :=
  p <- pda_signer e c (with_bump (sd_vault mint) vn) ;;
  invoke_tok_transfer c vault recipient vault amount [p].

(** "Validate Recipient Account" (e.g. processor.rs:1763-1772). *)
Definition check_recipient (k owner : key) : M unit :=
  r <- tacc_at k ;; guard (keqb (ta_owner r) owner) InvalidArgument.

(** "Validate Proxy Account" (e.g. processor.rs:1786-1799). *)
Definition check_proxy (e : env) (c : ctx) (kind : account_kind) (mint owner k : key) : M unit :=
  '(_, pn) <- lift (into_proposal kind) ;;
  n <- lift (ok_or pn (Custom 1)) ;;
  lift (validate_pda e (c_pid c) (sd_proxy mint owner) n k) ;;;
  ret tt.

(** Mint the amount to the recipient or their proxy (processor.rs:1761-1812, 2957-3013); returns the
    next status. *)
Definition pay_ever (e : env) (c : ctx) (w : wever) (mint recipient : key) (token : ever) (mn : Z)
  (amount : Z) : M wstatus :=
  let ev := wl_data (p_event w) in
  if nil_b (wee_payload ev) then
    check_recipient recipient (wee_recipient ev) ;;;
    make_ever_transfer e c mint recipient token mn amount ;;;
    ret WProcessed
  else
    check_proxy e c (p_kind w) mint (wee_recipient ev) recipient ;;;
    make_ever_transfer e c mint recipient token mn amount ;;;
    ret WWaitExecute.

(** Registration of an Ever token (processor.rs:1550-1664). *)
Definition register_ever (e : env) (c : ctx) (funder mint tsk : key) (ev : wever_event) : M unit :=
  let h := token_hash e (wee_token ev) in
  let sol_dec := if 9 <? wee_decimals ev then 9 else wee_decimals ev in
  '(mk, mn) <- lift (find_pda e (sd_mint h) (c_pid c)) ;;
  guard (keqb mk mint) InvalidArgument ;;;
  invoke_create e c funder mint (Z.max 1 (rent_min e TMINT_LEN)) TMINT_LEN spl_id
    (with_bump (sd_mint h) mn) ;;;
  p <- pda_signer e c (with_bump (sd_mint h) mn) ;;
  invoke_init_mint e c mint mint None sol_dec [p] ;;;
  invoke_ata_create e c funder (wee_recipient ev) mint ;;;
  '(tk, tn) <- lift (find_pda e (sd_ts_ever h) (c_pid c)) ;;
  guard (keqb tk tsk) InvalidArgument ;;;
  invoke_create e c funder tsk (Z.max 1 (rent_min e TP_LEN)) TP_LEN (c_pid c)
    (with_bump (sd_ts_ever h) tn) ;;;
  emit (enc c_ev_token (EvToken tk (wee_symbol ev) (wee_name ev) mint None (Some (wee_decimals ev))
          (Some sol_dec) (Some (wee_token ev)) default_fee)) ;;;
  pack_at c c_token_settings TP_LEN tsk
    (new_token_settings (KTokenSettings tn mn) (TKEver mint (wee_token ev) (wee_decimals ev))
       (wee_name ev) (wee_symbol ev)).

(** Reset of the daily counter on a new day (processor.rs:1716-1719, 1951-1954). *)
Definition roll_day (ts : token_settings) (epoch : Z) : token_settings :=
  if tk_wepoch ts =? epoch then ts else tk_set_daily ts epoch 0.

(** Rust [==] on EverAddress. *)
Definition ever_eqb (a b : ever) : bool := (ev_wc a =? ev_wc b) && keqb (ev_addr a) (ev_addr b).

(** processor.rs:1666-1831: everything after the registration block *)
Definition withdraw_ever_exec (e : env) (c : ctx) (w : wever) (wk : key)
  (withdrawal mint recipient tsk : key) (now_ : Z) : M unit :=
  let ev := wl_data (p_event w) in
  '(ts, token, _, mn) <- valid_ts_ever e c tsk ;;
  token_live ts ;;;
  lift (validate_pda e (c_pid c) (sd_mint (token_hash e token)) mn mint) ;;;
  guard (ever_eqb token (wee_token ev)) InvalidArgument ;;;
  m <- tmint_at mint ;;
  if (p_required w <=? wrap32 (confirms (p_signers w))) && wstatus_eqb (w_status w) WNew then
    let ts1 := roll_day ts (epoch_of now_) in
    amount <- lift (get_withdrawal_amount (wee_amount ev) (wee_decimals ev) (tm_decimals m)) ;;
    fee <- lift (fee_of u64max (tk_fee_wdr ts1) amount) ;;
    fs <- lift (cadd u64max (tk_fee_supply ts1) fee) ;;
    net <- lift (csub amount fee) ;;
    daily <- lift (cadd u64max (tk_wdamount ts1) net) ;;
    let ts2 := tk_set_daily (tk_set_fee_supply ts1 fs) (tk_wepoch ts1) daily in
    st <- (if (tk_wlimit ts <? net) || (tk_wdlimit ts <? daily) then ret WWaitApprove
           else pay_ever e c w mint recipient token mn net) ;;
    pack_at c c_token_settings TP_LEN tsk ts2 ;;;
    emit (enc c_ev_status (EvStatus wk st)) ;;;
    pack_at c c_wever TP_LEN withdrawal (w_set_status w st)
  else ret tt.

(** processor.rs:1481-1834 *)
Definition tp_withdraw_ever (e : env) (c : ctx) : M unit :=
  match c_keys c with
  | withdrawal :: mint :: recipient :: tsk :: settings :: _system :: _token :: rent :: clock
    :: rest =>
    check_rent rent ;;;
    t <- check_clock clock ;;
    tp_live_settings e c settings ;;;
    '(w, wk) <- valid_wever e c withdrawal ;;
    a <- get tsk ;;
    if lam a =? 0 then
      match rest with
      | [] => ret tt
      | funder :: _ =>
        register_ever e c funder mint tsk (wl_data (p_event w)) ;;;
        withdraw_ever_exec e c w wk withdrawal mint recipient tsk t
      end
    else withdraw_ever_exec e c w wk withdrawal mint recipient tsk t
  | _ => NotEnough
  end.

(** ** Execution of Solana withdrawals *)

(** Pay from the vault if it has enough, otherwise leave pending (processor.rs:1976-2054, 2063-2131,
    3176-3245); [mint] is the key the proxy is derived from; returns the next status. *)
Definition pay_sol (e : env) (c : ctx) (w : wsol) (vault recipient mint smint : key) (vn : Z)
  (amount : Z) : M wstatus :=
  let ev := wl_data (p_event w) in
  if nil_b (wse_payload ev) then
    check_recipient recipient (wse_recipient ev) ;;;
    v <- tacc_at vault ;;
    if ta_amount v <? amount then ret WPending
    else make_sol_transfer e c vault recipient smint vn amount ;;; ret WProcessed
  else
    check_proxy e c (p_kind w) mint (wse_recipient ev) recipient ;;;
    v <- tacc_at vault ;;
    if ta_amount v <? amount then ret WPending
    else make_sol_transfer e c vault recipient smint vn amount ;;; ret WWaitExecute.

(** processor.rs:1836-2151 *)
Definition tp_withdraw_sol (e : env) (c : ctx) : M unit :=
  match c_keys c with
  | withdrawal :: vault :: recipient :: tsk :: mint :: settings :: _token :: clock :: _ =>
    t <- check_clock clock ;;
    tp_live_settings e c settings ;;;
    '(w, wk) <- valid_wsol e c withdrawal ;;
    '(ts, smint, _, vn) <- valid_ts_sol e c tsk ;;
    token_live ts ;;;
    lift (validate_pda e (c_pid c) (sd_vault smint) vn vault) ;;;
    let ev := wl_data (p_event w) in
    guard (keqb smint (wse_mint ev)) InvalidArgument ;;;
    if p_required w <=? wrap32 (confirms (p_signers w)) then
      let amount := wrap64 (wse_amount ev) in
      fee <- lift (fee_of u64max (tk_fee_wdr ts) amount) ;;
      net <- lift (csub amount fee) ;;
      st <- match w_status w with
            | WNew =>
              let ts1 := roll_day ts (epoch_of t) in
              daily <- lift (cadd u64max (tk_wdamount ts1) net) ;;
              fs <- lift (cadd u64max (tk_fee_supply ts1) fee) ;;
              let ts2 := tk_set_daily (tk_set_fee_supply ts1 fs) (tk_wepoch ts1) daily in
              st <- (if (tk_wlimit ts <? net) || (tk_wdlimit ts <? daily) then ret WWaitApprove
                     else pay_sol e c w vault recipient mint smint vn net) ;;
              pack_at c c_token_settings TP_LEN tsk ts2 ;;;
              ret st
            | WPending => pay_sol e c w vault recipient mint smint vn net
            | s => ret s
            end ;;
      emit (enc c_ev_status (EvStatus wk st)) ;;;
      pack_at c c_wsol TP_LEN withdrawal (w_set_status w st)
    else ret tt
  | _ => NotEnough
  end.

(** ** Payload execution *)

(** bincode (fixed-width little-endian integers, u64 lengths): [Vec<T>] with elements of at least one
    byte. *)
Definition c_vec8 {A} (c : codec A) : codec (list A) := Codec
  (fun l => le 8 (blen l) ++ flat_map (enc c) l)
  (fun b => match dec c_u64 b with
            | Some (n, r) => if n <=? blen r then dec_n c (Z.to_nat n) r else None
            | None => None end)
  (fun l => (blen l <? u64max) && forallb (okb c) l).
Definition c_byte : codec byte := Codec
  (fun b => [b]) (fun b => match b with x :: r => Some (x, r) | [] => None end) (fun _ => true).

(** solana_program::instruction::{AccountMeta, Instruction} under bincode *)
Definition c_meta : codec meta := c_iso
  (fun '(a, (b, c)) => Meta a b c) (fun m => (m_key m, (m_sg m, m_wr m)))
  (c_key ** c_bool ** c_bool).
Record instr := Instr { i_pid : key; i_metas : list meta; i_data : bytes }.
Definition c_instr : codec instr := c_iso
  (fun '(a, (b, c)) => Instr a b c) (fun i => (i_pid i, (i_metas i, i_data i)))
  (c_key ** c_vec8 c_meta ** c_vec8 c_byte).

(** [bincode::deserialize::<Vec<Instruction>>] (processor.rs:2174-2176, 2219-2221): trailing bytes
    are ignored. *)
Definition payload_instrs (payload : bytes) : res (list instr) :=
  match dec (c_vec8 c_instr) payload with
  | Some (l, _) => Ok l
  | None => Err (Custom 16)
  end.

(** What the invoked programs do is a parameter: [ext c' d] runs the program [c_pid c'] on the
    accounts and privileges of [c'] with instruction data [d]. *)
Definition extern := ctx -> bytes -> M unit.

(** [invoke_signed(&ix, accounts, &[proxy_signer_seeds])?] in a loop (processor.rs:2178-2180). *)
Fixpoint invoke_all (e : env) (ext : extern) (c : ctx) (seeds : bytes) (l : list instr) : M unit :=
  match l with
  | [] => ret tt
  | i :: r =>
    p <- pda_signer e c seeds ;;
    cpi c (c_keys c) (i_pid i) (i_metas i) [p] (fun c' => ext c' (i_data i)) ;;;
    invoke_all e ext c seeds r
  end.

(** Common body of processor.rs:2163-2193 and 2208-2238. *)
Definition execute_payload {E} (e : env) (ext : extern) (c : ctx) (cw : codec (prop E (withlen wmeta)))
  (withdrawal : key) (w : prop E (withlen wmeta)) (mintk : res key) (recipient : key)
  (payload : bytes) : M unit :=
  if wstatus_eqb (w_status w) WWaitExecute then
    mint <- lift mintk ;;
    '(_, pn) <- lift (into_proposal (p_kind w)) ;;
    l <- lift (payload_instrs payload) ;;
    invoke_all e ext c (with_bump (sd_proxy mint recipient) (opt_or pn 0)) l ;;;
    pack_at c cw TP_LEN withdrawal (w_set_status w WProcessed)
  else ret tt.

(** processor.rs:2153-2196: no ownership, address or vote check of the withdrawal account. *)
Definition tp_execute_payload_ever (e : env) (ext : extern) (c : ctx) : M unit :=
  match c_keys c with
  | withdrawal :: _ =>
    w <- wever_at withdrawal ;;
    let ev := wl_data (p_event w) in
    execute_payload e ext c c_wever withdrawal w
      (rbind (find_pda e (sd_mint (token_hash e (wee_token ev))) (c_pid c)) (fun '(k, _) => Ok k))
      (wee_recipient ev) (wee_payload ev)
  | _ => NotEnough
  end.

(** processor.rs:2198-2241 *)
Definition tp_execute_payload_sol (e : env) (ext : extern) (c : ctx) : M unit :=
  match c_keys c with
  | withdrawal :: _ =>
    w <- wsol_at withdrawal ;;
    let ev := wl_data (p_event w) in
    execute_payload e ext c c_wsol withdrawal w (Ok (wse_mint ev)) (wse_recipient ev)
      (wse_payload ev)
  | _ => NotEnough
  end.

(** ** Administration *)

(** Common body of processor.rs:2243-2291, 2293-2341, 2343-2391 and 2621-2668: upgrade authority
    changes the settings by [f]. *)
Definition admin_settings (e : env) (c : ctx) (f : tp_settings -> tp_settings) : M unit :=
  match c_keys c with
  | authority :: settings :: programdata :: _ =>
    guard (c_sg c authority) MissingRequiredSignature ;;;
    '(st, pn) <- tp_valid_settings e c settings ;;
    lift (validate_programdata e (c_pid c) pn programdata) ;;;
    d <- data programdata ;;
    lift (validate_initializer d authority) ;;;
    pack_at c c_tp_settings TP_LEN settings (f st)
  | _ => NotEnough
  end.

(** processor.rs:2243-2291 *)
Definition tp_change_guardian (e : env) (c : ctx) (k : key) : M unit :=
  admin_settings e c (fun st => gs_set st (gs_emergency st) k (gs_manager st) (gs_wmanager st)).
(** processor.rs:2293-2341 *)
Definition tp_change_manager (e : env) (c : ctx) (k : key) : M unit :=
  admin_settings e c (fun st => gs_set st (gs_emergency st) (gs_guardian st) k (gs_wmanager st)).
(** processor.rs:2343-2391 *)
Definition tp_change_withdrawal_manager (e : env) (c : ctx) (k : key) : M unit :=
  admin_settings e c (fun st => gs_set st (gs_emergency st) (gs_guardian st) (gs_manager st) k).
(** processor.rs:2621-2668 *)
Definition tp_disable_emergency (e : env) (c : ctx) : M unit :=
  admin_settings e c (fun st => gs_set st false (gs_guardian st) (gs_manager st) (gs_wmanager st)).

(** processor.rs:2566-2619 *)
Definition tp_enable_emergency (e : env) (c : ctx) : M unit :=
  match c_keys c with
  | authority :: settings :: rest =>
    guard (c_sg c authority) MissingRequiredSignature ;;;
    '(st, pn) <- tp_valid_settings e c settings ;;
    check_authority e c (gs_guardian st) authority pn rest ;;;
    pack_at c c_tp_settings TP_LEN settings
      (gs_set st true (gs_guardian st) (gs_manager st) (gs_wmanager st))
  | _ => NotEnough
  end.

(** Common body of processor.rs:2393-2474, 2476-2564, 2670-2752, 3270-3366 and 3368-3449: the holder
    of a role ([role]) or the upgrade authority changes the token settings by [f]; [f] may also emit
    a log record. *)
Definition admin_token (e : env) (c : ctx) (role : tp_settings -> key)
  (f : key -> token_settings -> M token_settings) : M unit :=
  match c_keys c with
  | authority :: tsk :: settings :: rest =>
    guard (c_sg c authority) MissingRequiredSignature ;;;
    '(st, pn) <- tp_valid_settings e c settings ;;
    check_authority e c (role st) authority pn rest ;;;
    '(ts, tk) <- valid_ts_any e c tsk ;;
    ts' <- f tk ts ;;
    pack_at c c_token_settings TP_LEN tsk ts'
  | _ => NotEnough
  end.

(** processor.rs:2393-2474 *)
Definition tp_change_deposit_limit (e : env) (c : ctx) (limit : Z) : M unit :=
  admin_token e c gs_manager
    (fun _ ts => ret (tk_set_limits ts limit (tk_wlimit ts) (tk_wdlimit ts))).
(** processor.rs:2476-2564 *)
Definition tp_change_withdrawal_limits (e : env) (c : ctx) (limit daily : option Z) : M unit :=
  admin_token e c gs_manager
    (fun _ ts => ret (tk_set_limits ts (tk_dlimit ts) (opt_or limit (tk_wlimit ts))
                        (opt_or daily (tk_wdlimit ts)))).
(** processor.rs:2670-2752 *)
Definition tp_enable_token_emergency (e : env) (c : ctx) : M unit :=
  admin_token e c gs_guardian (fun _ ts => ret (tk_set_emergency ts true)).
(** processor.rs:3270-3366; the log is written before the account *)
Definition tp_update_fee (e : env) (c : ctx) (t : fee_type) (mul div : Z) : M unit :=
  admin_token e c gs_manager
    (fun tk ts =>
       emit (enc c_ev_fee (EvFee tk t mul div)) ;;;
       ret (match t with
            | FDeposit => tk_set_fees ts (FeeInfo mul div) (tk_fee_wdr ts)
            | FWithdrawal => tk_set_fees ts (tk_fee_dep ts) (FeeInfo mul div) end)).
(** processor.rs:3368-3449: Ever tokens are refused with InvalidTokenKind.  (Rust refuses before the
    address check; only the error value of a doubly wrong call differs.) *)
Definition tp_update_token_name (e : env) (c : ctx) (symbol name : bytes) : M unit :=
  admin_token e c gs_manager
    (fun tk ts =>
       lift (into_solana (tk_kind ts)) ;;;
       emit (enc c_ev_name (EvName tk symbol name)) ;;;
       ret (tk_set_names ts name symbol)).

(** processor.rs:2754-2830 *)
Definition tp_disable_token_emergency (e : env) (c : ctx) : M unit :=
  match c_keys c with
  | authority :: tsk :: settings :: programdata :: _ =>
    guard (c_sg c authority) MissingRequiredSignature ;;;
    '(st, pn) <- tp_valid_settings e c settings ;;
    lift (validate_programdata e (c_pid c) pn programdata) ;;;
    d <- data programdata ;;
    lift (validate_initializer d authority) ;;;
    '(ts, _) <- valid_ts_any e c tsk ;;
    pack_at c c_token_settings TP_LEN tsk (tk_set_emergency ts false)
  | _ => NotEnough
  end.

(** ** Approval *)

(** "If withdrawal is in current epoch" (processor.rs:3016-3031, 3247-3260). *)
Definition release_daily {E} (c : ctx) (tsk : key) (ts : token_settings)
  (w : prop E (withlen wmeta)) (now_ net : Z) : M unit :=
  if wm_epoch (wl_data (p_meta w)) =? epoch_of now_ then
    daily <- lift (csub (tk_wdamount ts) net) ;;
    pack_at c c_token_settings TP_LEN tsk (tk_set_daily ts (tk_wepoch ts) daily)
  else ret tt.

(** processor.rs:2832-3048 *)
Definition tp_approve_ever (e : env) (c : ctx) : M unit :=
  match c_keys c with
  | authority :: mint :: withdrawal :: recipient :: tsk :: settings :: _token :: clock :: rest =>
    t <- check_clock clock ;;
    guard (c_sg c authority) MissingRequiredSignature ;;;
    '(st, pn) <- tp_live_settings e c settings ;;
    '(w, wk) <- valid_wever e c withdrawal ;;
    guard (wstatus_eqb (w_status w) WWaitApprove) (Custom 6) ;;;
    '(ts, token, _, mn) <- valid_ts_ever e c tsk ;;
    token_live ts ;;;
    lift (validate_pda e (c_pid c) (sd_mint (token_hash e token)) mn mint) ;;;
    let ev := wl_data (p_event w) in
    guard (ever_eqb token (wee_token ev)) InvalidArgument ;;;
    check_authority e c (gs_wmanager st) authority pn rest ;;;
    m <- tmint_at mint ;;
    amount <- lift (get_withdrawal_amount (wee_amount ev) (wee_decimals ev) (tm_decimals m)) ;;
    fee <- lift (fee_of u64max (tk_fee_wdr ts) amount) ;;
    net <- lift (csub amount fee) ;;
    s <- pay_ever e c w mint recipient token mn net ;;
    release_daily c tsk ts w t net ;;;
    emit (enc c_ev_status (EvStatus wk s)) ;;;
    pack_at c c_wever TP_LEN withdrawal (w_set_status w s)
  | _ => NotEnough
  end.

(** processor.rs:3050-3268; no log record *)
Definition tp_approve_sol (e : env) (c : ctx) : M unit :=
  match c_keys c with
  | authority :: vault :: withdrawal :: recipient :: tsk :: settings :: _token :: clock :: rest =>
    t <- check_clock clock ;;
    guard (c_sg c authority) MissingRequiredSignature ;;;
    '(st, pn) <- tp_live_settings e c settings ;;
    '(w, _) <- valid_wsol e c withdrawal ;;
    guard (wstatus_eqb (w_status w) WWaitApprove) (Custom 6) ;;;
    check_authority e c (gs_wmanager st) authority pn rest ;;;
    '(ts, smint, _, vn) <- valid_ts_sol e c tsk ;;
    token_live ts ;;;
    lift (validate_pda e (c_pid c) (sd_vault smint) vn vault) ;;;
    let ev := wl_data (p_event w) in
    guard (keqb smint (wse_mint ev)) InvalidArgument ;;;
    let amount := wrap64 (wse_amount ev) in
    fee <- lift (fee_of u64max (tk_fee_wdr ts) amount) ;;
    net <- lift (csub amount fee) ;;
    s <- pay_sol e c w vault recipient smint smint vn net ;;
    release_daily c tsk ts w t net ;;;
    pack_at c c_wsol TP_LEN withdrawal (w_set_status w s)
  | _ => NotEnough
  end.

(** ** Fees *)

(** processor.rs:3451-3564 *)
Definition tp_withdraw_ever_fee (e : env) (c : ctx) (amount : Z) : M unit :=
  match c_keys c with
  | authority :: mint :: recipient :: tsk :: settings :: _token :: rest =>
    guard (c_sg c authority) MissingRequiredSignature ;;;
    '(st, pn) <- tp_valid_settings e c settings ;;
    check_authority e c (gs_manager st) authority pn rest ;;;
    '(ts, token, _, mn) <- valid_ts_ever e c tsk ;;
    lift (validate_pda e (c_pid c) (sd_mint (token_hash e token)) mn mint) ;;;
    am <- get mint ;;
    guard (keqb (own am) spl_id) InvalidArgument ;;;
    ar <- get recipient ;;
    guard (keqb (own ar) spl_id) InvalidArgument ;;;
    guard (amount <=? tk_fee_supply ts) (Custom 7) ;;;
    make_ever_transfer e c mint recipient token mn amount ;;;
    fs <- lift (csub (tk_fee_supply ts) amount) ;;
    pack_at c c_token_settings TP_LEN tsk (tk_set_fee_supply ts fs)
  | _ => NotEnough
  end.

(** processor.rs:3566-3684 *)
Definition tp_withdraw_sol_fee (e : env) (c : ctx) (amount : Z) : M unit :=
  match c_keys c with
  | authority :: vault :: tsk :: recipient :: settings :: _token :: rest =>
    guard (c_sg c authority) MissingRequiredSignature ;;;
    '(st, pn) <- tp_valid_settings e c settings ;;
    check_authority e c (gs_manager st) authority pn rest ;;;
    '(ts, smint, _, vn) <- valid_ts_sol e c tsk ;;
    lift (validate_pda e (c_pid c) (sd_vault smint) vn vault) ;;;
    av <- get vault ;;
    guard (keqb (own av) spl_id) InvalidArgument ;;;
    ar <- get recipient ;;
    guard (keqb (own ar) spl_id) InvalidArgument ;;;
    guard (amount <=? tk_fee_supply ts) (Custom 7) ;;;
    v <- tacc_at vault ;;
    guard (amount <=? ta_amount v) (Custom 8) ;;;
    make_sol_transfer e c vault recipient smint vn amount ;;;
    fs <- lift (csub (tk_fee_supply ts) amount) ;;
    pack_at c c_token_settings TP_LEN tsk (tk_set_fee_supply ts fs)
  | _ => NotEnough
  end.

(** ** Pending Solana withdrawals *)

(** processor.rs:3686-3742 *)
Definition tp_change_bounty (e : env) (c : ctx) (bounty : Z) : M unit :=
  match c_keys c with
  | author :: withdrawal :: _ =>
    guard (c_sg c author) MissingRequiredSignature ;;;
    '(w, _) <- valid_wsol e c withdrawal ;;
    guard (wstatus_eqb (w_status w) WPending) (Custom 6) ;;;
    guard (keqb (p_author w) author || keqb (wse_recipient (wl_data (p_event w))) author)
      IllegalOwner ;;;
    pack_at c c_wsol TP_LEN withdrawal (w_set_bounty w bounty)
  | _ => NotEnough
  end.

(** processor.rs:3744-3978: the increased fee supply is computed but never stored; the log names the
    withdrawal account. *)
Definition tp_cancel (e : env) (c : ctx) (seed : Z) (recipient : ever) (value : Z) (evers : key)
  (payload : bytes) : M unit :=
  match c_keys c with
  | funder :: author :: mint :: withdrawal :: deposit :: settings :: tsk :: _system :: rent
    :: multivault :: _ =>
    check_rent rent ;;;
    guard (c_sg c author) MissingRequiredSignature ;;;
    tp_live_settings e c settings ;;;
    '(w, wk) <- valid_wsol e c withdrawal ;;
    guard (keqb (p_author w) author) IllegalOwner ;;;
    guard (wstatus_eqb (w_status w) WPending) (Custom 6) ;;;
    '(ts, smint, _, _) <- valid_ts_sol e c tsk ;;
    token_live ts ;;;
    valid_multivault e c multivault ;;;
    invoke_transfer c funder multivault value ;;;
    am <- get mint ;;
    guard (negb (negb (keqb mint smint) && negb (keqb (own am) spl_id))) InvalidArgument ;;;
    m <- tmint_at mint ;;
    guard (keqb smint (wse_mint (wl_data (p_event w)))) InvalidArgument ;;;
    '(_, dn) <- deposit_address e c seed deposit ;;
    create_deposit e c funder deposit seed dn ;;;
    let amount := wse_amount (wl_data (p_event w)) in
    fee <- lift (fee_of u128max (tk_fee_dep ts) amount) ;;
    guard (fee <? u64max) (Custom 10) ;;;
    lift (cadd u64max (tk_fee_supply ts) fee) ;;;
    amt <- lift (csub amount fee) ;;
    let ev := DSolEvent smint (tk_name ts) (tk_symbol ts) (tm_decimals m) amt recipient value evers
                payload in
    emit_deposit wk recipient amt seed value evers (e_hash e (enc c_dsol_event ev)) ;;;
    pack_at c c_dsol TP_LEN deposit
      (Dep true (KDeposit dn) author (dsol_event_new ev) (dep_meta_new seed)) ;;;
    emit (enc c_ev_status (EvStatus wk WCancelled)) ;;;
    pack_at c c_wsol TP_LEN withdrawal (w_set_status w WCancelled)
  | _ => NotEnough
  end.

(** One iteration of the loop of processor.rs:4093-4199; returns the fee and the amount without
    fee. *)
Definition fill_one (e : env) (c : ctx) (author author_token : key) (smint dk : key)
  (f : fee_info) (withdrawal rt : key) : M (Z * Z) :=
  '(w, wk) <- valid_wsol e c withdrawal ;;
  guard (wstatus_eqb (w_status w) WPending) (Custom 6) ;;;
  let ev := wl_data (p_event w) in
  guard (keqb smint (wse_mint ev)) InvalidArgument ;;;
  check_recipient rt (wse_recipient ev) ;;;
  ar <- get rt ;;
  guard (keqb (own ar) spl_id) InvalidArgument ;;;
  guard (wse_amount ev <? u64max) (Custom 10) ;;;
  fee <- lift (fee_of u64max f (wse_amount ev)) ;;
  net <- lift (csub (wse_amount ev) fee) ;;
  out <- lift (csub net (wm_bounty (wl_data (p_meta w)))) ;;
  invoke_tok_transfer c author_token rt author out [] ;;;
  emit (enc c_ev_status (EvStatus wk WProcessed)) ;;;
  pack_at c c_wsol TP_LEN withdrawal (w_set_status w WProcessed) ;;;
  emit (enc c_ev_liq (EvLiq dk wk)) ;;;
  ret (fee, net).

(** The loop: two accounts per iteration while at least two are left; the sums wrap (u64); returns
    the unread accounts. *)
Fixpoint fill_loop (e : env) (c : ctx) (author author_token : key) (smint dk : key) (f : fee_info)
  (fees nets : Z) (l : list key) : M (Z * Z * list key) :=
  match l with
  | withdrawal :: rt :: r =>
    '(fee, net) <- fill_one e c author author_token smint dk f withdrawal rt ;;
    fill_loop e c author author_token smint dk f (wrap64 (fees + fee)) (wrap64 (nets + net)) r
  | _ => ret (fees, nets, l)
  end.

(** processor.rs:3980-4310: token settings are not stored *)
Definition tp_fill (e : env) (c : ctx) (seed : Z) (recipient : ever) (amount value : Z)
  (evers : key) (payload : bytes) : M unit :=
  match c_keys c with
  | funder :: author :: author_token :: mint :: deposit :: settings :: _system :: tsk :: _token
    :: rent :: multivault :: rest =>
    check_rent rent ;;;
    guard (c_sg c author) MissingRequiredSignature ;;;
    tp_live_settings e c settings ;;;
    '(ts, smint, _, vn) <- valid_ts_sol e c tsk ;;
    token_live ts ;;;
    valid_multivault e c multivault ;;;
    invoke_transfer c funder multivault value ;;;
    am <- get mint ;;
    guard (negb (negb (keqb mint smint) && negb (keqb (own am) spl_id))) InvalidArgument ;;;
    m <- tmint_at mint ;;
    '(dk, dn) <- deposit_address e c seed deposit ;;
    '(fees, nets, unread) <-
      fill_loop e c author author_token smint dk (tk_fee_wdr ts) 0 0 rest ;;
    create_deposit e c funder deposit seed dn ;;;
    guard (wrap64 (fees + nets) <=? amount) InsufficientFunds ;;;
    match unread with
    | vault :: _ =>
      lift (validate_pda e (c_pid c) (sd_vault smint) vn vault) ;;;
      v <- tacc_at vault ;;
      total <- lift (cadd u64max (ta_amount v) amount) ;;
      guard (total <=? tk_dlimit ts) (Custom 0) ;;;
      invoke_tok_transfer c author_token vault author (wrap64 (amount - nets)) [] ;;;
      fee <- lift (fee_of u64max (tk_fee_wdr ts) amount) ;;
      amt <- lift (csub amount fee) ;;
      let ev := DSolEvent smint (tk_name ts) (tk_symbol ts) (tm_decimals m) amt recipient value
                  evers payload in
      emit_deposit dk recipient amt seed value evers (e_hash e (enc c_dsol_event ev)) ;;;
      pack_at c c_dsol TP_LEN deposit
        (Dep true (KDeposit dn) author (dsol_event_new ev) (dep_meta_new seed))
    | [] => NotEnough
    end
  | _ => NotEnough
  end.

(** ** Proxy, closing, multi-vault *)

(** processor.rs:4312-4362 *)
Definition tp_withdraw_proxy (e : env) (c : ctx) (amount : Z) : M unit :=
  match c_keys c with
  | creator :: recipient :: proxy :: mint :: _ =>
    guard (c_sg c creator) MissingRequiredSignature ;;;
    '(pk, n) <- lift (find_pda e (sd_proxy mint creator) (c_pid c)) ;;
    guard (keqb pk proxy) InvalidArgument ;;;
    p <- pda_signer e c (with_bump (sd_proxy mint creator) n) ;;
    invoke_tok_transfer c proxy recipient proxy amount [p]
  | _ => NotEnough
  end.

(** processor.rs:4364-4397, through the kind-agnostic view, without length or initialized check *)
Definition tp_close_deposit (e : env) (c : ctx) : M unit :=
  match c_keys c with
  | author :: deposit :: _ =>
    guard (c_sg c author) MissingRequiredSignature ;;;
    d <- data deposit ;;
    x <- lift (unpack_from_slice c_gdep d) ;;
    seed <- lift (ok_or (try_from_slice c_u128 (d_meta x)) BorshIo) ;;
    n <- lift (into_deposit (d_kind x)) ;;
    lift (validate_pda e (c_pid c) (sd_deposit seed) n deposit) ;;;
    guard (keqb author (d_author x)) InvalidArgument ;;;
    delete_account c deposit author
  | _ => NotEnough
  end.

(** processor.rs:4399-4444 *)
Definition tp_close_withdrawal (e : env) (c : ctx) : M unit :=
  match c_keys c with
  | withdrawal :: author :: _ =>
    d <- data withdrawal ;;
    w <- lift (unpack_from_slice c_gprop d) ;;
    tp_valid_prop e c withdrawal w (e_hash e (p_event w)) ;;;
    guard (keqb author (p_author w)) InvalidArgument ;;;
    m <- lift (ok_or (try_from_slice c_wmeta (p_meta w)) BorshIo) ;;
    guard (wstatus_eqb (wm_status m) WProcessed || wstatus_eqb (wm_status m) WCancelled)
      (Custom 6) ;;;
    delete_account c withdrawal author
  | _ => NotEnough
  end.

(** processor.rs:4446-4513 *)
Definition tp_withdraw_multi_vault (e : env) (c : ctx) (amount : Z) : M unit :=
  match c_keys c with
  | authority :: recipient :: multivault :: settings :: rest =>
    guard (c_sg c authority) MissingRequiredSignature ;;;
    '(st, pn) <- tp_valid_settings e c settings ;;
    check_authority e c (gs_manager st) authority pn rest ;;;
    valid_multivault e c multivault ;;;
    move_lam c multivault recipient amount
  | _ => NotEnough
  end.

(** processor.rs:23-300: dispatch on a decoded instruction *)
Definition tp_exec (e : env) (ext : extern) (c : ctx) (i : tp_ix) : M unit :=
  match i with
  | TpVote v => tp_vote e c v
  | TpWithdrawEver => tp_withdraw_ever e c
  | TpWithdrawSol => tp_withdraw_sol e c
  | TpExecutePayloadEver => tp_execute_payload_ever e ext c
  | TpExecutePayloadSol => tp_execute_payload_sol e ext c
  | TpInitialize a b d => tp_initialize e c a b d
  | TpDepositEver a b d f g h => tp_deposit_ever e c a b d f g h
  | TpDepositSol a b d f g h i j => tp_deposit_sol e c a b d f g h i j
  | TpWithdrawEverRequest a b d f g h i j k l m =>
      tp_withdraw_ever_request e c a b d f g h i j k l m
  | TpWithdrawSolRequest a b d f g h i => tp_withdraw_sol_request e c a b d f g h i
  | TpChangeGuardian k => tp_change_guardian e c k
  | TpChangeManager k => tp_change_manager e c k
  | TpChangeWithdrawalManager k => tp_change_withdrawal_manager e c k
  | TpChangeDepositLimit a => tp_change_deposit_limit e c a
  | TpChangeWithdrawalLimits a b => tp_change_withdrawal_limits e c a b
  | TpEnableEmergency => tp_enable_emergency e c
  | TpDisableEmergency => tp_disable_emergency e c
  | TpEnableTokenEmergency => tp_enable_token_emergency e c
  | TpDisableTokenEmergency => tp_disable_token_emergency e c
  | TpApproveEver => tp_approve_ever e c
  | TpApproveSol => tp_approve_sol e c
  | TpUpdateFee t a b => tp_update_fee e c t a b
  | TpUpdateTokenName a b => tp_update_token_name e c a b
  | TpWithdrawEverFee a => tp_withdraw_ever_fee e c a
  | TpWithdrawSolFee a => tp_withdraw_sol_fee e c a
  | TpChangeBounty a => tp_change_bounty e c a
  | TpCancel a b d f g => tp_cancel e c a b d f g
  | TpFill a b d f g h => tp_fill e c a b d f g h
  | TpWithdrawProxy a => tp_withdraw_proxy e c a
  | TpCloseDeposit => tp_close_deposit e c
  | TpCloseWithdrawal => tp_close_withdrawal e c
  | TpWithdrawMultiVault a => tp_withdraw_multi_vault e c a
  end.

(** processor.rs:23-28: [try_from_slice(instruction_data)?] then dispatch *)
Definition tp_process (e : env) (ext : extern) (c : ctx) (d : bytes) : M unit :=
  i <- lift (ok_or (try_from_slice c_tp_ix d) BorshIo) ;; tp_exec e ext c i.
