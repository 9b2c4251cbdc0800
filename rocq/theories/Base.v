(** Bytes, fixed-size integers and 32-byte keys.

    Shared vocabulary of the model.  Nothing here models bridge logic; the definitions give the
    meaning of Rust's [u8], [[u8]], [uN::to_le_bytes], [Pubkey]/[Hash]/[[u8; 32]] that the code in
    /repo uses everywhere. *)

From Coq Require Export List ZArith Bool Lia.
From Coq Require Export Strings.Byte.
From Coq Require Import Eqdep_dec.
Export ListNotations.
Open Scope Z_scope.

(** A Rust byte slice / byte vector. *)
Notation bytes := (list byte).

(** [u8] as a number (Rust [u8 as u64]). *)
Definition bz (b : byte) : Z := Z.of_N (Byte.to_N b).

(** A number truncated to a byte (Rust [x as u8]). *)
Definition zb (z : Z) : byte :=
  match Byte.of_N (Z.to_N (z mod 256)) with Some b => b | None => x00 end.

(** Length of a byte string as a number (Rust [slice.len()]; [usize] is 64 bits on SBF). *)
Definition blen {A} (b : list A) : Z := Z.of_nat (length b).

(** Rust [uN::to_le_bytes] for N = 8*n: the low n bytes, least significant first.  Values outside
    the range are reduced modulo 256^n, as Rust's wrapping arithmetic has already done. *)
Fixpoint le (n : nat) (z : Z) : bytes :=
  match n with
  | O => []
  | S n' => zb z :: le n' (z / 256)
  end.

(** Rust [uN::from_le_bytes]. *)
Fixpoint unle (b : bytes) : Z :=
  match b with
  | [] => 0
  | x :: r => bz x + 256 * unle r
  end.

(** Equality test on byte strings (Rust [==] on slices). *)
Fixpoint beqb (a b : bytes) : bool :=
  match a, b with
  | [], [] => true
  | x :: a', y :: b' => Byte.eqb x y && beqb a' b'
  | _, _ => false
  end.

(** [Pubkey], [Hash] and [[u8; 32]]: exactly 32 bytes. *)
Record key := Key { kb : bytes; kb_len : Nat.eqb (length kb) 32 = true }.

(** Rust [==] on [Pubkey]. *)
Definition keqb (a b : key) : bool := beqb (kb a) (kb b).

(** [<[u8; 32]>::try_from(slice)] *)
Definition mkkey (b : bytes) : option key :=
  match Nat.eqb (length b) 32 as t return (Nat.eqb (length b) 32 = t -> option key) with
  | true => fun H => Some (Key b H)
  | false => fun _ => None
  end eq_refl.

(** The all-zero key: [Pubkey::default()], which is also [system_program::id()]
    ("11111111111111111111111111111111"). *)
Definition key0 : key := Key (repeat x00 32) eq_refl.


Lemma le_length n z : length (le n z) = n.
Proof. revert z; induction n as [|n IH]; intros z; cbn [le length]; [|rewrite IH]; reflexivity. Qed.

(** Test keys: the 32-byte little-endian encoding of a number (used by examples only). *)
Definition knum (z : Z) : key :=
  match mkkey (le 32 z) with Some k => k | None => key0 end.

(** Wrap-around of unsigned arithmetic in a release build (no overflow checks; Cargo.toml of the
    workspace does not enable them). *)
Definition u8max : Z := 2 ^ 8.
Definition u32max : Z := 2 ^ 32.
Definition u64max : Z := 2 ^ 64.
Definition u128max : Z := 2 ^ 128.
Definition wrap32 (z : Z) : Z := z mod u32max.
Definition wrap64 (z : Z) : Z := z mod u64max.
Definition wrap128 (z : Z) : Z := z mod u128max.

(** [ProgramError] values that occur, Rust panics, and aborts by the runtime.  [Custom n] are the
    codes of bridge-utils/src/errors.rs:43-47 and of the system / token programs. *)
Inductive err :=
| InvalidArgument | InvalidInstructionData | InvalidAccountData | AccountDataTooSmall
| InsufficientFunds | IncorrectProgramId | MissingRequiredSignature | AccountAlreadyInitialized
| UninitializedAccount | NotEnoughAccountKeys | IllegalOwner | InvalidSeeds | BorshIo
| Custom (n : Z)
| Panic                    (* Rust panic: index out of range, unwrap of None, split_at_mut *)
| Runtime                  (* the runtime rejects the instruction: write to a foreign or read-only
                              account, unbalanced lamports *)
| CpiDenied                (* missing account, signer or writable privilege in a CPI *)
| SysErr (n : Z)           (* error of the system program *)
| TokErr (n : Z)           (* error of the SPL token program *)
.

(** Rust [Result<A, ProgramError>], panics included. *)
Inductive res (A : Type) := Ok (a : A) | Err (e : err).
Arguments Ok {A} a.
Arguments Err {A} e.

Definition rbind {A B} (r : res A) (f : A -> res B) : res B :=
  match r with Ok a => f a | Err e => Err e end.

Definition is_ok {A} (r : res A) : bool := match r with Ok _ => true | Err _ => false end.

(** Rust [Option::ok_or]. *)
Definition ok_or {A} (o : option A) (e : err) : res A :=
  match o with Some a => Ok a | None => Err e end.
