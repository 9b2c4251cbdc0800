(** Text form of Everscale addresses and 256-bit values (bridge-utils/src/types.rs).

    A Rust [&str] is its UTF-8 bytes.  The parsers below only distinguish ASCII bytes, which never
    occur inside a multi-byte UTF-8 sequence, so working on bytes is exact. *)

From Verif Require Export Types.

(** [char::from_digit(d, 16)] in lower case, as used by [hex::encode]. *)
Definition hex_char (d : Z) : byte := if d <? 10 then zb (48 + d) else zb (87 + d).

(** [hex::encode] (crate hex 0.4) *)
Definition hex_encode (b : bytes) : bytes :=
  flat_map (fun x => [hex_char (bz x / 16); hex_char (bz x mod 16)]) b.

(** Value of a hexadecimal digit, both cases (hex 0.4 [val]). *)
Definition hex_val (c : byte) : option Z :=
  let z := bz c in
  if (48 <=? z) && (z <=? 57) then Some (z - 48)
  else if (97 <=? z) && (z <=? 102) then Some (z - 87)
  else if (65 <=? z) && (z <=? 70) then Some (z - 55)
  else None.

(** [hex::decode]: odd length and non-digits are errors. *)
Fixpoint hex_decode (s : bytes) : option bytes :=
  match s with
  | [] => Some []
  | [_] => None
  | a :: b :: r =>
    match hex_val a, hex_val b, hex_decode r with
    | Some x, Some y, Some t => Some (zb (16 * x + y) :: t)
    | _, _, _ => None
    end
  end.

(** Decimal digits of 0 <= n < 1000 without leading zeros. *)
Definition dec_chars (n : Z) : bytes :=
  if n <? 10 then [zb (48 + n)]
  else if n <? 100 then [zb (48 + n / 10); zb (48 + n mod 10)]
  else [zb (48 + n / 100); zb (48 + n / 10 mod 10); zb (48 + n mod 10)].

(** [i8] with [{}] *)
Definition show_i8 (z : Z) : bytes := if z <? 0 then x2d :: dec_chars (- z) else dec_chars z.

(** Value of a string of decimal digits. *)
Fixpoint dec_val (acc : Z) (s : bytes) : option Z :=
  match s with
  | [] => Some acc
  | c :: r => let d := bz c - 48 in
              if (0 <=? d) && (d <? 10) then dec_val (10 * acc + d) r else None
  end.

(** [str::parse::<i8>]: optional sign, at least one digit, range check. *)
Definition parse_i8 (s : bytes) : option Z :=
  let fin (neg : bool) (r : bytes) :=
    match r with
    | [] => None
    | _ => match dec_val 0 r with
           | Some n => let v := if neg then - n else n in
                       if (-128 <=? v) && (v <=? 127) then Some v else None
           | None => None
           end
    end in
  match s with
  | [] => None
  | c :: r => if Byte.eqb c x2d then fin true r       (* '-' *)
              else if Byte.eqb c x2b then fin false r (* '+' *)
              else fin false s
  end.

(** [str::split(':')] *)
Fixpoint split_colon (s : bytes) : list bytes :=
  match s with
  | [] => [[]]
  | c :: r => if Byte.eqb c x3a then [] :: split_colon r
              else match split_colon r with
                   | p :: ps => (c :: p) :: ps
                   | [] => [[c]]
                   end
  end.

(** bridge-utils/src/types.rs:51-59 *)
Definition ever_to_string (a : ever) : bytes :=
  show_i8 (ev_wc a) ++ x3a :: hex_encode (kb (ev_addr a)).

(** bridge-utils/src/types.rs:32-49 *)
Definition ever_from_string (s : bytes) : option ever :=
  match firstn 4 (split_colon s) with
  | [w; a] =>
    match parse_i8 w, hex_decode a with
    | Some z, Some b => match mkkey b with Some k => Some (AddrStd z k) | None => None end
    | _, _ => None
    end
  | _ => None
  end.

(** bridge-utils/src/types.rs:134-141: [value[i]] goes to position [i + 32 - len] for the first
    [min(len, 32)] bytes; the rest of the array is zero. *)
Definition be_pad (v : bytes) : bytes :=
  repeat x00 (32 - Nat.min (length v) 32) ++ firstn (Nat.min (length v) 32) v.

(** bridge-utils/src/types.rs:161-173 *)
Definition uint256_from_string (s : bytes) : option key :=
  match hex_decode s with Some b => mkkey b | None => None end.

(** ** Error codes: bridge-utils/src/errors.rs *)

(** bridge-utils/src/errors.rs:5-41 *)
Inductive bridge_error :=
| EDepositLimit | EInvalidTokenKind | ERelayRoundExpired | EInvalidRelayRound | EInvalidRelay
| EEmergencyEnabled | EInvalidWithdrawalStatus | EInsufficientBalance | EInsufficientVaultBalance
| ERelayAlreadyVoted | EOverflow | ETokenNameLenLimit | ETokenSymbolLenLimit | EInvalidVote
| EVotesOverflow | EInvalidTokenSettingsName | EDeserializePayload.

(** [self as u32] (bridge-utils/src/errors.rs:43-47): declaration index. *)
Definition error_code (x : bridge_error) : Z :=
  match x with
  | EDepositLimit => 0 | EInvalidTokenKind => 1 | ERelayRoundExpired => 2 | EInvalidRelayRound => 3
  | EInvalidRelay => 4 | EEmergencyEnabled => 5 | EInvalidWithdrawalStatus => 6
  | EInsufficientBalance => 7 | EInsufficientVaultBalance => 8 | ERelayAlreadyVoted => 9
  | EOverflow => 10 | ETokenNameLenLimit => 11 | ETokenSymbolLenLimit => 12 | EInvalidVote => 13
  | EVotesOverflow => 14 | EInvalidTokenSettingsName => 15 | EDeserializePayload => 16
  end.

(** bridge-utils/src/errors.rs:49-71 [TryFrom<u32>] *)
Definition error_of_code (z : Z) : option bridge_error :=
  match z with
  | 0 => Some EDepositLimit
  | 1 => Some EInvalidTokenKind
  | 2 => Some ERelayRoundExpired
  | 3 => Some EInvalidRelayRound
  | 4 => Some EInvalidRelay
  | 5 => Some EEmergencyEnabled
  | 6 => Some EInvalidWithdrawalStatus
  | 7 => Some EInsufficientVaultBalance
  | 8 => Some ERelayAlreadyVoted
  | 9 => Some EOverflow
  | 10 => Some ETokenNameLenLimit
  | 11 => Some ETokenSymbolLenLimit
  | 12 => Some EInvalidVote
  | 13 => Some EVotesOverflow
  | _ => None
  end.
