(** The SPL token program (spl-token 4.0.0) and the associated-token-account program
    (spl-associated-token-account 2.2.0), as far as /repo calls them.

    External code: modelled from the published processors, part of the trusted base.  Token accounts
    and mints are kept in their real 165- and 82-byte layouts. *)

From Verif Require Export Runtime.

(** ** Layouts *)

(** [COption<T>]: a 4-byte tag 0/1 followed by the body.  [unpack] ignores and [pack] preserves the
    body of a [None], so the body is kept in the value. *)
Definition c_tag4 : codec bool := Codec
  (fun x : bool => if x then [x01; x00; x00; x00] else [x00; x00; x00; x00])
  (fun b => match b with
            | x00 :: x00 :: x00 :: x00 :: r => Some (false, r)
            | x01 :: x00 :: x00 :: x00 :: r => Some (true, r)
            | _ => None end)
  (fun _ => true).
Definition c_coption {A} (c : codec A) : codec (bool * A) := c_tag4 ** c.
Definition copt {A} (o : bool * A) : option A := if fst o then Some (snd o) else None.

(** spl_token::state::AccountState *)
Inductive tstate := TUninit | TInit | TFrozen.
Definition c_tstate : codec tstate := Codec
  (fun v => match v with TUninit => [x00] | TInit => [x01] | TFrozen => [x02] end)
  (dec_enum [alt c_unit (fun _ => TUninit); alt c_unit (fun _ => TInit);
             alt c_unit (fun _ => TFrozen)])
  (fun _ => true).

(** spl_token::state::Account, 165 bytes *)
Record tacc := TAcc {
  ta_mint : key; ta_owner : key; ta_amount : Z; ta_delegate : bool * key; ta_state : tstate;
  ta_native : bool * Z; ta_damount : Z; ta_close : bool * key }.
Definition c_tacc : codec tacc := c_iso
  (fun '(a, (b, (c, (d, (e, (f, (g, h))))))) => TAcc a b c d e f g h)
  (fun t => (ta_mint t, (ta_owner t, (ta_amount t, (ta_delegate t, (ta_state t, (ta_native t,
     (ta_damount t, ta_close t))))))))
  (c_key ** c_key ** c_u64 ** c_coption c_key ** c_tstate ** c_coption c_u64 ** c_u64 **
   c_coption c_key).
Definition TACC_LEN : Z := 165.
Definition ta_init (t : tacc) : bool := match ta_state t with TUninit => false | _ => true end.
Definition ta_frozen (t : tacc) : bool := match ta_state t with TFrozen => true | _ => false end.

(** spl_token::state::Mint, 82 bytes *)
Record tmint := TMint {
  tm_auth : bool * key; tm_supply : Z; tm_decimals : Z; tm_init : bool; tm_freeze : bool * key }.
Definition c_tmint : codec tmint := c_iso
  (fun '(a, (b, (c, (d, e)))) => TMint a b c d e)
  (fun t => (tm_auth t, (tm_supply t, (tm_decimals t, (tm_init t, tm_freeze t)))))
  (c_coption c_key ** c_u64 ** c_u8 ** c_bool ** c_coption c_key).
Definition TMINT_LEN : Z := 82.

(** [Pack::unpack_unchecked] / [unpack] of the token program: decoding errors are
    InvalidAccountData. *)
Definition spl_unpack_unchecked {A} (c : codec A) (LEN : Z) (d : bytes) : res A :=
  match unpack_unchecked c LEN d with Ok a => Ok a | Err _ => Err InvalidAccountData end.
Definition spl_unpack {A} (c : codec A) (LEN : Z) (i : A -> bool) (d : bytes) : res A :=
  match unpack c LEN i d with
  | Ok a => Ok a
  | Err UninitializedAccount => Err UninitializedAccount
  | Err _ => Err InvalidAccountData end.

(** [spl_token::state::Account::unpack(&info.data.borrow())?] (also called by token-proxy) *)
Definition tacc_at (k : key) : M tacc := d <- data k ;; lift (spl_unpack c_tacc TACC_LEN ta_init d).
(** [spl_token::state::Mint::unpack(&info.data.borrow())?] *)
Definition tmint_at (k : key) : M tmint :=
  d <- data k ;; lift (spl_unpack c_tmint TMINT_LEN tm_init d).

(** ** Instructions of the token program; [c] is the token program's own context. *)

(** [Processor::validate_owner].  For a multisig owner the real check demands at least one signature
    of a key listed as signer of the CPI; the builders used by /repo list only the authority itself,
    so the real check implies this one. *)
Definition validate_owner (c : ctx) (expected auth : key) : M unit :=
  guard (keqb expected auth) (TokErr 4) ;;; guard (c_sg c auth) MissingRequiredSignature.

(** [Processor::check_account_owner] *)
Definition check_owner (k : key) : M unit :=
  a <- get k ;; guard (keqb (own a) spl_id) IncorrectProgramId.

Definition ta_with (t : tacc) (amount : Z) (delegate : bool * key) (damount : Z) : tacc :=
  TAcc (ta_mint t) (ta_owner t) amount delegate (ta_state t) (ta_native t) damount (ta_close t).
Definition tm_with_supply (m : tmint) (supply : Z) : tmint :=
  TMint (tm_auth m) supply (tm_decimals m) (tm_init m) (tm_freeze m).

(** Spending right of [auth] over token account [t]: as delegate (allowance is reduced) or as owner.
    Returns the new delegate fields.  Part of [process_transfer] and [process_burn]. *)
Definition spend (c : ctx) (t : tacc) (auth : key) (amount : Z) : M ((bool * key) * Z) :=
  if fst (ta_delegate t) && keqb auth (snd (ta_delegate t)) then
    validate_owner c (snd (ta_delegate t)) auth ;;;
    guard (amount <=? ta_damount t) (TokErr 1) ;;;
    ret (if ta_damount t - amount =? 0 then (false, snd (ta_delegate t)) else ta_delegate t,
         ta_damount t - amount)
  else
    validate_owner c (ta_owner t) auth ;;; ret (ta_delegate t, ta_damount t).

(** [Processor::process_transfer] (TokenInstruction::Transfer) *)
Definition tok_transfer (c : ctx) (src dst auth : key) (amount : Z) : M unit :=
  a <- tacc_at src ;;
  b <- tacc_at dst ;;
  guard (negb (ta_frozen a || ta_frozen b)) (TokErr 17) ;;;
  guard (amount <=? ta_amount a) (TokErr 1) ;;;
  guard (keqb (ta_mint a) (ta_mint b)) (TokErr 3) ;;;
  '(dl, da) <- spend c a auth amount ;;
  (if keqb src dst || (amount =? 0) then check_owner src ;;; check_owner dst else ret tt) ;;;
  if keqb src dst then ret tt
  else
    guard (ta_amount b + amount <? u64max) (TokErr 14) ;;;
    (if fst (ta_native a) then
       x <- get src ;;
       guard (amount <=? lam x) (TokErr 14) ;;;
       set_lam c src (lam x - amount) ;;;
       y <- get dst ;;
       guard (lam y + amount <? u64max) (TokErr 14) ;;;
       set_lam c dst (lam y + amount)
     else ret tt) ;;;
    pack_at c c_tacc TACC_LEN src (ta_with a (ta_amount a - amount) dl da) ;;;
    pack_at c c_tacc TACC_LEN dst (ta_with b (ta_amount b + amount) (ta_delegate b) (ta_damount b)).

(** [Processor::process_mint_to] *)
Definition tok_mint_to (c : ctx) (mint dst auth : key) (amount : Z) : M unit :=
  b <- tacc_at dst ;;
  guard (negb (ta_frozen b)) (TokErr 17) ;;;
  guard (negb (fst (ta_native b))) (TokErr 10) ;;;
  guard (keqb mint (ta_mint b)) (TokErr 3) ;;;
  m <- tmint_at mint ;;
  (match copt (tm_auth m) with
   | Some k => validate_owner c k auth
   | None => fail (TokErr 5) end) ;;;
  (if amount =? 0 then check_owner mint ;;; check_owner dst else ret tt) ;;;
  guard (ta_amount b + amount <? u64max) (TokErr 14) ;;;
  guard (tm_supply m + amount <? u64max) (TokErr 14) ;;;
  pack_at c c_tacc TACC_LEN dst (ta_with b (ta_amount b + amount) (ta_delegate b) (ta_damount b)) ;;;
  pack_at c c_tmint TMINT_LEN mint (tm_with_supply m (tm_supply m + amount)).

(** [Processor::process_burn] *)
Definition tok_burn (c : ctx) (src mint auth : key) (amount : Z) : M unit :=
  a <- tacc_at src ;;
  m <- tmint_at mint ;;
  guard (negb (ta_frozen a)) (TokErr 17) ;;;
  guard (negb (fst (ta_native a))) (TokErr 10) ;;;
  guard (amount <=? ta_amount a) (TokErr 1) ;;;
  guard (keqb mint (ta_mint a)) (TokErr 3) ;;;
  '(dl, da) <- (if keqb (ta_owner a) sys_id || keqb (ta_owner a) incinerator_id
                then ret (ta_delegate a, ta_damount a) else spend c a auth amount) ;;
  (if amount =? 0 then check_owner src ;;; check_owner mint else ret tt) ;;;
  guard (amount <=? tm_supply m) (TokErr 14) ;;;
  pack_at c c_tacc TACC_LEN src (ta_with a (ta_amount a - amount) dl da) ;;;
  pack_at c c_tmint TMINT_LEN mint (tm_with_supply m (tm_supply m - amount)).

(** [Processor::process_initialize_mint] without freeze authority change: sets authority, decimals,
    freeze authority. *)
Definition tok_init_mint (e : env) (c : ctx) (mint rent auth : key) (freeze : option key)
  (decimals : Z) : M unit :=
  check_rent rent ;;;
  a <- get mint ;;
  m <- lift (spl_unpack_unchecked c_tmint TMINT_LEN (dat a)) ;;
  guard (negb (tm_init m)) (TokErr 6) ;;;
  guard (rent_min e TMINT_LEN <=? lam a) (TokErr 0) ;;;
  pack_at c c_tmint TMINT_LEN mint
    (TMint (true, auth) (tm_supply m) decimals true
       (match freeze with Some f => (true, f) | None => (false, snd (tm_freeze m)) end)).

(** [Processor::process_initialize_account3] *)
Definition tok_init_account3 (e : env) (c : ctx) (k mint owner : key) : M unit :=
  a <- get k ;;
  t <- lift (spl_unpack_unchecked c_tacc TACC_LEN (dat a)) ;;
  guard (negb (ta_init t)) (TokErr 6) ;;;
  guard (rent_min e TACC_LEN <=? lam a) (TokErr 0) ;;;
  (if keqb mint native_mint then ret tt
   else check_owner mint ;;;
        d <- data mint ;;
        guard (is_ok (spl_unpack c_tmint TMINT_LEN tm_init d)) (TokErr 2)) ;;;
  '(nat_, amt) <-
    (if keqb mint native_mint then
       guard (rent_min e TACC_LEN <=? lam a) (TokErr 14) ;;;
       ret ((true, rent_min e TACC_LEN), lam a - rent_min e TACC_LEN)
     else ret ((false, snd (ta_native t)), 0)) ;;
  pack_at c c_tacc TACC_LEN k
    (TAcc mint owner amt (false, snd (ta_delegate t)) TInit nat_ 0 (false, snd (ta_close t))).

(** [Processor::process_initialize_immutable_owner]: only checks that the account is not yet
    initialized. *)
Definition tok_init_immutable (k : key) : M unit :=
  d <- data k ;;
  t <- lift (spl_unpack_unchecked c_tacc TACC_LEN d) ;;
  guard (negb (ta_init t)) (TokErr 6).

(** [Processor::process_get_account_data_size]: the mint must be valid. *)
Definition tok_account_size (mint : key) : M unit :=
  check_owner mint ;;;
  d <- data mint ;;
  guard (is_ok (spl_unpack c_tmint TMINT_LEN tm_init d)) (TokErr 2).

(** [Processor::process_sync_native] *)
Definition tok_sync_native (c : ctx) (k : key) : M unit :=
  check_owner k ;;;
  t <- tacc_at k ;;
  guard (fst (ta_native t)) (TokErr 11) ;;;
  a <- get k ;;
  guard (snd (ta_native t) <=? lam a) (TokErr 14) ;;;
  guard (ta_amount t <=? lam a - snd (ta_native t)) (TokErr 13) ;;;
  pack_at c c_tacc TACC_LEN k
    (ta_with t (lam a - snd (ta_native t)) (ta_delegate t) (ta_damount t)).

(** ** The builders of spl_token::instruction, invoked with the given infos and PDA signers.
    The single-element signer list makes the authority a signer of the CPI. *)
Definition invoke_tok_transfer (c : ctx) (src dst auth : key) (amount : Z) (pdas : list key)
  : M unit :=
  cpi c (c_keys c) spl_id
    [Meta src false true; Meta dst false true; Meta auth false false; Meta auth true false] pdas
    (fun c' => tok_transfer c' src dst auth amount).
Definition invoke_tok_mint_to (c : ctx) (mint dst auth : key) (amount : Z) (pdas : list key)
  : M unit :=
  cpi c (c_keys c) spl_id
    [Meta mint false true; Meta dst false true; Meta auth false false; Meta auth true false] pdas
    (fun c' => tok_mint_to c' mint dst auth amount).
Definition invoke_tok_burn (c : ctx) (src mint auth : key) (amount : Z) : M unit :=
  cpi c (c_keys c) spl_id
    [Meta src false true; Meta mint false true; Meta auth false false; Meta auth true false] []
    (fun c' => tok_burn c' src mint auth amount).
Definition invoke_init_mint (e : env) (c : ctx) (mint auth : key) (freeze : option key)
  (decimals : Z) (pdas : list key) : M unit :=
  cpi c (c_keys c) spl_id [Meta mint false true; Meta rent_id false false] pdas
    (fun c' => tok_init_mint e c' mint rent_id auth freeze decimals).
Definition invoke_init_account3 (e : env) (c : ctx) (infos : list key) (k mint owner : key)
  (pdas : list key) : M unit :=
  cpi c infos spl_id [Meta k false true; Meta mint false false] pdas
    (fun c' => tok_init_account3 e c' k mint owner).
Definition invoke_init_immutable (c : ctx) (infos : list key) (k : key) : M unit :=
  cpi c infos spl_id [Meta k false true] [] (fun _ => tok_init_immutable k).
Definition invoke_account_size (c : ctx) (mint : key) : M unit :=
  cpi c (c_keys c) spl_id [Meta mint false false] [] (fun _ => tok_account_size mint).
Definition invoke_sync_native (c : ctx) (k : key) : M unit :=
  cpi c (c_keys c) spl_id [Meta k false true] [] (fun c' => tok_sync_native c' k).

(** ** spl_associated_token_account *)

(** tools/account.rs [create_pda_account]: tops up, allocates and assigns an address that already
    holds lamports, otherwise creates it. *)
Definition create_pda_account (e : env) (c : ctx) (payer : key) (space : Z) (owner sysinfo k : key)
  (seeds : bytes) : M unit :=
  a <- get k ;;
  if 0 <? lam a then
    (let req := Z.max (rent_min e space) 1 - lam a in
     if 0 <? req then
       cpi c [payer; k; sysinfo] sys_id [Meta payer true true; Meta k false true] []
         (fun c' => sys_transfer c' payer k req)
     else ret tt) ;;;
    p <- pda_signer e c seeds ;;
    cpi c [k; sysinfo] sys_id [Meta k true true] [p] (fun c' => sys_allocate c' k space) ;;;
    cpi c [k; sysinfo] sys_id [Meta k true true] [p] (fun c' => sys_assign c' k owner)
  else
    p <- pda_signer e c seeds ;;
    cpi c [payer; k; sysinfo] sys_id [Meta payer true true; Meta k true true] [p]
      (fun c' => sys_create c' payer k (Z.max (rent_min e space) 1) space owner).

(** Seeds of an associated token account (without bump). *)
Definition ata_seeds (wallet mint : key) : bytes := kb wallet ++ kb spl_id ++ kb mint.

(** processor.rs [process_create_associated_token_account] (create, not idempotent); [c] is the
    associated-token-account program's context. *)
Definition ata_create (e : env) (c : ctx) (funder ata wallet mint sysk tokk : key) : M unit :=
  '(k, bump) <- lift (find_pda e (kb wallet ++ kb tokk ++ kb mint) (c_pid c)) ;;
  guard (keqb k ata) InvalidSeeds ;;;
  a <- get ata ;;
  guard (keqb (own a) sys_id) IllegalOwner ;;;
  guard (keqb tokk spl_id) IncorrectProgramId ;;;
  invoke_account_size c mint ;;;
  create_pda_account e c funder TACC_LEN tokk sysk ata
    (kb wallet ++ kb tokk ++ kb mint ++ [zb bump]) ;;;
  invoke_init_immutable c [ata; tokk] ata ;;;
  invoke_init_account3 e c [ata; mint; wallet; tokk] ata mint wallet [].

(** The builder [create_associated_token_account] with [invoke]. *)
Definition invoke_ata_create (e : env) (c : ctx) (funder wallet mint : key) : M unit :=
  '(ata, _) <- lift (find_pda e (ata_seeds wallet mint) ata_id) ;;
  cpi c (c_keys c) ata_id
    [Meta funder true true; Meta ata false true; Meta wallet false false; Meta mint false false;
     Meta sys_id false false; Meta spl_id false false] []
    (fun c' => ata_create e c' funder ata wallet mint sys_id spl_id).
