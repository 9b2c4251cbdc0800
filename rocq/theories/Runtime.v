(** The Solana runtime as seen by a program.

    Models what /repo takes from solana_program 1.16 (account infos, CPI, program derived addresses,
    sysvars) and the rules the runtime enforces on every instruction.  No bridge logic here. *)

From Verif Require Export Types.

(** ** Well-known addresses, decoded from base58 *)

(** round-loader/src/lib.rs:28: "roundAsiEM445bGEp7ZwPWXUmWAHh6rpLEndJUKP1V4" *)
Definition rl_id : key := Key
  [x0c;xc2;x80;x46;xc2;xad;xd7;xa6;x25;x6a;xa2;xdb;xad;x33;xc1;x39;x96;x9d;xf0;x99;xd3;x05;x32;x62;x33;x7b;xe6;xd0;x39;xf6;x10;x0b] eq_refl.
(** token-proxy/src/lib.rs:20: "octuswa5MD5hrTwcNBKvdxDvDQoz7C7M9sk2cRRvZfg" *)
Definition tp_id : key := Key
  [x0b;xf1;x4d;xc9;x88;x25;x2a;xb9;x7b;x15;x02;x7a;x46;x55;xf6;xcc;xde;x90;x0b;x4c;x88;xc0;x05;x9f;x0a;x14;xc2;x88;xc4;x09;xfc;x4b] eq_refl.
(** native-proxy/src/lib.rs:16: "WrapR8ncp6aGqux2TACyJh4MUxcHAHTW9eYzzeXuTJA" *)
Definition np_id : key := Key
  [x07;xa5;xe8;x3e;xd2;xe2;x38;x38;x61;x66;x3b;xc9;x27;xdc;x4c;xe2;x01;x67;xaa;x94;xa7;x09;xfe;xfb;x7f;xbe;xd8;x9a;x5f;xe6;x55;x6b] eq_refl.
(** spl_token::id(): "TokenkegQfeZyiNwAJbNbGKPFXCWuBvf9Ss623VQ5DA" *)
Definition spl_id : key := Key
  [x06;xdd;xf6;xe1;xd7;x65;xa1;x93;xd9;xcb;xe1;x46;xce;xeb;x79;xac;x1c;xb4;x85;xed;x5f;x5b;x37;x91;x3a;x8c;xf5;x85;x7e;xff;x00;xa9] eq_refl.
(** sysvar::rent::id(): "SysvarRent111111111111111111111111111111111" *)
Definition rent_id : key := Key
  [x06;xa7;xd5;x17;x19;x2c;x5c;x51;x21;x8c;xc9;x4c;x3d;x4a;xf1;x7f;x58;xda;xee;x08;x9b;xa1;xfd;x44;xe3;xdb;xd9;x8a;x00;x00;x00;x00] eq_refl.
(** sysvar::clock::id(): "SysvarC1ock11111111111111111111111111111111" *)
Definition clock_id : key := Key
  [x06;xa7;xd5;x17;x18;xc7;x74;xc9;x28;x56;x63;x98;x69;x1d;x5e;xb6;x8b;x5e;xb8;xa3;x9b;x4b;x6d;x5c;x73;x55;x5b;x21;x00;x00;x00;x00] eq_refl.
(** bpf_loader_upgradeable::id(): "BPFLoaderUpgradeab1e11111111111111111111111" *)
Definition loader_id : key := Key
  [x02;xa8;xf6;x91;x4e;x88;xa1;xb0;xe2;x10;x15;x3e;xf7;x63;xae;x2b;x00;xc2;xb9;x3d;x16;xc1;x24;xd2;xc0;x53;x7a;x10;x04;x80;x00;x00] eq_refl.
(** spl_associated_token_account::id(): "ATokenGPvbdGVxr1b2hvZbsiqW5xWH25efTNsLJA8knL" *)
Definition ata_id : key := Key
  [x8c;x97;x25;x8f;x4e;x24;x89;xf1;xbb;x3d;x10;x29;x14;x8e;x0d;x83;x0b;x5a;x13;x99;xda;xff;x10;x84;x04;x8e;x7b;xd8;xdb;xe9;xf8;x59] eq_refl.
(** spl_token::native_mint::id(): "So11111111111111111111111111111111111111112" *)
Definition native_mint : key := Key
  [x06;x9b;x88;x57;xfe;xab;x81;x84;xfb;x68;x7f;x63;x46;x18;xc0;x35;xda;xc4;x39;xdc;x1a;xeb;x3b;x55;x98;xa0;xf0;x00;x00;x00;x00;x01] eq_refl.
(** solana_program::incinerator::id(): "1nc1nerator11111111111111111111111111111111" *)
Definition incinerator_id : key := Key
  [x00;x33;x90;x72;x8d;x34;x11;x60;x79;xbd;xc9;x11;xbf;xff;x00;xdb;xd4;x4d;x2e;xcd;xcc;xf7;x9c;xa6;xe1;x00;x38;xe1;x00;x00;x00;x00] eq_refl.

(** [system_program::id()] *)
Definition sys_id : key := key0.

(** ** Accounts and states *)

(** A Solana account: lamports, owning program, data.  The executable flag and rent epoch are not
    modelled. *)
Record acct := Acct { lam : Z; own : key; dat : bytes }.

(** An address that holds no account. *)
Definition acct0 : acct := Acct 0 sys_id [].

(** The ledger, the records emitted by [sol_log_data] so far, and the clock's [unix_timestamp]. *)
Record state := St { accs : key -> acct; logs : list bytes; now : Z }.

Definition upd (f : key -> acct) (k : key) (a : acct) : key -> acct :=
  fun k' => if keqb k' k then a else f k'.
Definition put (s : state) (k : key) (a : acct) : state := St (upd (accs s) k a) (logs s) (now s).
Definition put_dat (s : state) (k : key) (d : bytes) : state :=
  put s k (Acct (lam (accs s k)) (own (accs s k)) d).
Definition put_lam (s : state) (k : key) (z : Z) : state :=
  put s k (Acct z (own (accs s k)) (dat (accs s k))).
Definition put_own (s : state) (k : key) (o : key) : state :=
  put s k (Acct (lam (accs s k)) o (dat (accs s k))).
Definition put_log (s : state) (b : bytes) : state := St (accs s) (logs s ++ [b]) (now s).

(** ** Environment

    Functions the programs call but that are not theirs.  Theorems quantify over all of them. *)
Record env := Env {
  e_pda : bytes -> key -> option key;
     (* [Pubkey::create_program_address]: hash of the concatenated seeds and the program id, [None]
        if the result lies on the curve.  All seeds used in /repo are at most 32 bytes long. *)
  e_hash : bytes -> key;          (* [solana_program::hash::hash] (SHA-256) *)
  e_rent : Z -> Z;                (* [Rent::minimum_balance] *)
  e_b58 : key -> bytes            (* base58 text of a key ([Pubkey::to_string], log records only) *)
}.

(** [Rent::minimum_balance] yields a u64. *)
Definition rent_min (e : env) (n : Z) : Z := wrap64 (e_rent e n).

(** [Pubkey::find_program_address]: bump seeds 255, 254, ..., 1 in this order. *)
Fixpoint find_from (e : env) (seeds : bytes) (pid : key) (bump : nat) : option (key * Z) :=
  match bump with
  | O => None
  | S b => match e_pda e (seeds ++ [zb (Z.of_nat bump)]) pid with
           | Some k => Some (k, Z.of_nat bump)
           | None => find_from e seeds pid b
           end
  end.
Definition find_pda (e : env) (seeds : bytes) (pid : key) : res (key * Z) :=
  ok_or (find_from e seeds pid 255) Panic.

(** ** Instructions *)

(** What a running instruction sees: its program, the account list and the flags per account
    (duplicates of an account share their flags). *)
Record ctx := Ctx { c_pid : key; c_keys : list key; c_sg : key -> bool; c_wr : key -> bool }.

(** Account list entry of an instruction ([AccountMeta]). *)
Record meta := Meta { m_key : key; m_sg : bool; m_wr : bool }.

(** The context an instruction with these metas runs in. *)
Definition ctx_of (pid : key) (ms : list meta) : ctx :=
  Ctx pid (map m_key ms)
    (fun k => existsb (fun m => keqb (m_key m) k && m_sg m) ms)
    (fun k => existsb (fun m => keqb (m_key m) k && m_wr m) ms).

(** ** Computations: a state transformer that may fail; failure discards the state. *)
Definition M (A : Type) : Type := state -> res (A * state).

Definition ret {A} (a : A) : M A := fun s => Ok (a, s).
Definition fail {A} (e : err) : M A := fun _ => Err e.
Definition bind {A B} (m : M A) (f : A -> M B) : M B :=
  fun s => match m s with Ok (a, s') => f a s' | Err e => Err e end.
Definition lift {A} (r : res A) : M A :=
  fun s => match r with Ok a => Ok (a, s) | Err e => Err e end.
Definition guard (b : bool) (e : err) : M unit :=
  fun s => if b then Ok (tt, s) else Err e.
Definition get (k : key) : M acct := fun s => Ok (accs s k, s).
Definition emit (b : bytes) : M unit := fun s => Ok (tt, put_log s b).

Notation "x <- m ;; k" := (bind m (fun x => k))
  (at level 61, m at next level, right associativity).
Notation "' p <- m ;; k" := (bind m (fun x => let p := x in k))
  (at level 61, p pattern, m at next level, right associativity).
Notation "m ;;; k" := (bind m (fun _ => k)) (at level 61, right associativity).

Definition all0 (b : bytes) : bool := forallb (Byte.eqb x00) b.

(** Runtime rule for data: a program may change the data of a writable account it owns; writing
    unchanged bytes is harmless (the runtime compares the bytes). *)
Definition set_data (c : ctx) (k : key) (d : bytes) : M unit := fun s =>
  if beqb (dat (accs s k)) d || (keqb (own (accs s k)) (c_pid c) && c_wr c k)
  then Ok (tt, put_dat s k d) else Err Runtime.

(** Runtime rule for lamports: only writable accounts change, only the owner debits.  Lamports are a
    u64, so there are no negative balances. *)
Definition set_lam (c : ctx) (k : key) (z : Z) : M unit := fun s =>
  if (0 <=? z)
     && ((z =? lam (accs s k))
         || (c_wr c k && ((lam (accs s k) <? z) || keqb (own (accs s k)) (c_pid c))))
  then Ok (tt, put_lam s k z) else Err Runtime.

(** Runtime rule for the owner: the owner may hand over a writable account whose data is zeroed. *)
Definition set_own (c : ctx) (k : key) (o : key) : M unit := fun s =>
  if keqb (own (accs s k)) o
     || (keqb (own (accs s k)) (c_pid c) && c_wr c k && all0 (dat (accs s k)))
  then Ok (tt, put_own s k o) else Err Runtime.

(** Borrow the data of an account. *)
Definition data (k : key) : M bytes := a <- get k ;; ret (dat a).

(** [T::unpack(&info.data.borrow())?] *)
Definition unpack_at {A} (c : codec A) (LEN : Z) (is_init : A -> bool) (k : key) : M A :=
  d <- data k ;; lift (unpack c LEN is_init d).
(** [T::pack(x, &mut info.data.borrow_mut())?] *)
Definition pack_at {A} (cx : ctx) (c : codec A) (LEN : Z) (k : key) (x : A) : M unit :=
  d <- data k ;; d' <- lift (pack c LEN x d) ;; set_data cx k d'.

(** ** Cross-program invocation

    [invoke_signed]: every account of the instruction must be among the passed infos, the callee
    must be among the caller's accounts, and privileges may not be escalated: a signer of the callee
    must be a signer of the caller or an address derived from the given seeds, a writable account
    must be writable for the caller. *)
Definition inb (k : key) (l : list key) : bool := existsb (keqb k) l.

Definition meta_ok (c : ctx) (infos : list key) (pdas : list key) (m : meta) : bool :=
  inb (m_key m) infos && inb (m_key m) (c_keys c)
  && (negb (m_sg m) || c_sg c (m_key m) || inb (m_key m) pdas)
  && (negb (m_wr m) || c_wr c (m_key m)).

Definition cpi (c : ctx) (infos : list key) (pid : key) (ms : list meta) (pdas : list key)
  (f : ctx -> M unit) : M unit :=
  guard (inb pid (c_keys c)) CpiDenied ;;;
  guard (forallb (meta_ok c infos pdas) ms) CpiDenied ;;;
  f (ctx_of pid ms).

(** Address signed for by seeds: [create_program_address(seeds, caller)]. *)
Definition pda_signer (e : env) (c : ctx) (seeds : bytes) : M key :=
  lift (ok_or (e_pda e seeds (c_pid c)) InvalidSeeds).

(** ** Sysvars: [Rent::from_account_info] and [Clock::from_account_info] check the key. *)
Definition check_rent (k : key) : M unit := guard (keqb k rent_id) InvalidArgument.
Definition check_clock (k : key) : M Z :=
  guard (keqb k clock_id) InvalidArgument ;;; fun s => Ok (now s, s).

(** ** A whole instruction

    After the program returned the runtime checks that the lamports of the instruction's accounts
    (each counted once) add up to the same sum as before. *)
Fixpoint dedup (l : list key) : list key :=
  match l with
  | [] => []
  | k :: r => if inb k r then dedup r else k :: dedup r
  end.
Definition lam_sum (l : list key) (s : state) : Z :=
  fold_right (fun k z => lam (accs s k) + z) 0 (dedup l).
Definition run (c : ctx) (m : M unit) (s : state) : res state :=
  match m s with
  | Ok (_, s') => if lam_sum (c_keys c) s =? lam_sum (c_keys c) s' then Ok s' else Err Runtime
  | Err e => Err e
  end.

(** ** The system program (solana-program-runtime 1.16, system_processor) *)

(** [SystemInstruction::Transfer] *)
Definition sys_transfer (c : ctx) (from to : key) (amt : Z) : M unit :=
  guard (c_sg c from) MissingRequiredSignature ;;;
  a <- get from ;;
  guard (blen (dat a) =? 0) InvalidArgument ;;;
  guard (amt <=? lam a) (SysErr 1) ;;;
  set_lam c from (lam a - amt) ;;;
  b <- get to ;;
  guard (lam b + amt <? u64max) Runtime ;;;
  set_lam c to (lam b + amt).

Definition MAX_DATA : Z := 10 * 1024 * 1024.

(** [SystemInstruction::Allocate] *)
Definition sys_allocate (c : ctx) (k : key) (space : Z) : M unit :=
  guard (c_sg c k) MissingRequiredSignature ;;;
  a <- get k ;;
  guard ((blen (dat a) =? 0) && keqb (own a) sys_id) (SysErr 0) ;;;
  guard (space <=? MAX_DATA) (SysErr 3) ;;;
  set_data c k (repeat x00 (Z.to_nat space)).

(** [SystemInstruction::Assign] *)
Definition sys_assign (c : ctx) (k owner : key) : M unit :=
  a <- get k ;;
  if keqb (own a) owner then ret tt
  else guard (c_sg c k) MissingRequiredSignature ;;; set_own c k owner.

(** [SystemInstruction::CreateAccount] *)
Definition sys_create (c : ctx) (from to : key) (lamports space : Z) (owner : key) : M unit :=
  a <- get to ;;
  guard (negb (0 <? lam a)) (SysErr 0) ;;;
  sys_allocate c to space ;;;
  sys_assign c to owner ;;;
  sys_transfer c from to lamports.

(** The builders of solana_program::system_instruction used with [invoke]/[invoke_signed]. *)
Definition invoke_create (e : env) (c : ctx) (from to : key) (lamports space : Z) (owner : key)
  (seeds : bytes) : M unit :=
  p <- pda_signer e c seeds ;;
  cpi c (c_keys c) sys_id [Meta from true true; Meta to true true] [p]
    (fun c' => sys_create c' from to lamports space owner).

Definition invoke_transfer (c : ctx) (from to : key) (amt : Z) : M unit :=
  cpi c (c_keys c) sys_id [Meta from true true; Meta to false true] []
    (fun c' => sys_transfer c' from to amt).
