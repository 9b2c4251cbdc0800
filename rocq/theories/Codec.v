(** Borsh codecs.

    Models the [BorshSerialize]/[BorshDeserialize] derives used throughout /repo (borsh 0.10):
    integers little-endian, [bool] one byte 0/1, [Option] tag byte 0/1, [Vec]/[String] a u32
    little-endian length followed by the elements, enums a u8 tag in declaration order, structs
    their fields in declaration order.  A codec packs encoder, decoder and the range check of the
    Rust type ([okb]: exactly the values the Rust type can hold). *)

From Verif Require Export Base.

Record codec (A : Type) := Codec {
  enc : A -> bytes;
  dec : bytes -> option (A * bytes);   (* value and unread rest: [T::deserialize(&mut &[u8])] *)
  okb : A -> bool
}.
Arguments Codec {A} enc dec okb.
Arguments enc {A} c a : rename.
Arguments dec {A} c b : rename.
Arguments okb {A} c a : rename.

(** Reads exactly n bytes. *)
Fixpoint take_bytes (n : nat) (b : bytes) : option (bytes * bytes) :=
  match n with
  | O => Some ([], b)
  | S n' => match b with
            | [] => None
            | x :: r => match take_bytes n' r with
                        | Some (h, t) => Some (x :: h, t)
                        | None => None
                        end
            end
  end.

(** u8/u16/u32/u64/u128: n bytes. *)
Definition c_uint (n : nat) : codec Z := Codec
  (fun z => le n z)
  (fun b => match take_bytes n b with Some (h, t) => Some (unle h, t) | None => None end)
  (fun z => (0 <=? z) && (z <? 256 ^ Z.of_nat n)).

(** i8/i64: n bytes, two's complement. *)
Definition c_int (n : nat) : codec Z := Codec
  (fun z => le n (z mod 256 ^ Z.of_nat n))
  (fun b => match take_bytes n b with
            | Some (h, t) =>
                let u := unle h in
                Some ((if u <? 256 ^ Z.of_nat n / 2 then u else u - 256 ^ Z.of_nat n), t)
            | None => None end)
  (fun z => (- (256 ^ Z.of_nat n / 2) <=? z) && (z <? 256 ^ Z.of_nat n / 2)).

Definition c_u8 := c_uint 1.
Definition c_u32 := c_uint 4.
Definition c_u64 := c_uint 8.
Definition c_u128 := c_uint 16.
Definition c_i8 := c_int 1.
Definition c_i64 := c_int 8.

(** bool: only 0 and 1 are accepted. *)
Definition c_bool : codec bool := Codec
  (fun x : bool => [if x then x01 else x00])
  (fun b => match b with x00 :: r => Some (false, r) | x01 :: r => Some (true, r) | _ => None end)
  (fun _ => true).

(** Pubkey, Hash, [u8; 32] *)
Definition c_key : codec key := Codec
  (fun k => kb k)
  (fun b => match take_bytes 32 b with
            | Some (h, t) => match mkkey h with Some k => Some (k, t) | None => None end
            | None => None end)
  (fun _ => true).

(** Two fields in sequence. *)
Definition c_pair {A B} (ca : codec A) (cb : codec B) : codec (A * B) := Codec
  (fun x => enc ca (fst x) ++ enc cb (snd x))
  (fun b => match dec ca b with
            | Some (a, r) => match dec cb r with Some (y, r') => Some ((a, y), r') | None => None end
            | None => None end)
  (fun x => okb ca (fst x) && okb cb (snd x)).
Infix "**" := c_pair (at level 60, right associativity).

(** A struct presented as the tuple of its fields. *)
Definition c_iso {A B} (f : A -> B) (g : B -> A) (c : codec A) : codec B := Codec
  (fun x => enc c (g x))
  (fun b => match dec c b with Some (a, r) => Some (f a, r) | None => None end)
  (fun x => okb c (g x)).

(** The empty sequence of fields. *)
Definition c_unit : codec unit := Codec (fun _ => []) (fun b => Some (tt, b)) (fun _ => true).

(** Option *)
Definition c_option {A} (c : codec A) : codec (option A) := Codec
  (fun x => match x with None => [x00] | Some a => x01 :: enc c a end)
  (fun b => match b with
            | x00 :: r => Some (None, r)
            | x01 :: r => match dec c r with Some (a, r') => Some (Some a, r') | None => None end
            | _ => None end)
  (fun x => match x with None => true | Some a => okb c a end).

(** n elements. *)
Fixpoint dec_n {A} (c : codec A) (n : nat) (b : bytes) : option (list A * bytes) :=
  match n with
  | O => Some ([], b)
  | S n' => match dec c b with
            | Some (a, r) => match dec_n c n' r with
                             | Some (l, r') => Some (a :: l, r')
                             | None => None end
            | None => None end
  end.

(** Vec<T>: every element type used here occupies at least one byte, so a length larger than the
    number of remaining bytes fails without reading (the Rust loop would fail at the first missing
    element). *)
Definition c_vec {A} (c : codec A) : codec (list A) := Codec
  (fun l => le 4 (blen l) ++ flat_map (enc c) l)
  (fun b => match dec c_u32 b with
            | Some (n, r) => if n <=? blen r then dec_n c (Z.to_nat n) r else None
            | None => None end)
  (fun l => (blen l <? u32max) && forallb (okb c) l).

(** Vec<u8> *)
Definition c_bytes : codec bytes := Codec
  (fun l => le 4 (blen l) ++ l)
  (fun b => match dec c_u32 b with
            | Some (n, r) => if n <=? blen r then take_bytes (Z.to_nat n) r else None
            | None => None end)
  (fun l => blen l <? u32max).

(** UTF-8 validity as checked by [core::str::from_utf8] (Unicode 15 table 3-7). *)
Definition in_rng (lo hi : Z) (b : byte) : bool := (lo <=? bz b) && (bz b <=? hi).
Definition cont (b : byte) : bool := in_rng 128 191 b.
Fixpoint utf8_fuel (fuel : nat) (b : bytes) : bool :=
  match fuel with
  | O => match b with [] => true | _ => false end
  | S f =>
    match b with
    | [] => true
    | x :: r =>
      if bz x <=? 127 then utf8_fuel f r
      else if in_rng 194 223 x then
        match r with c1 :: r' => cont c1 && utf8_fuel f r' | _ => false end
      else if in_rng 224 239 x then
        match r with
        | c1 :: c2 :: r' =>
            (if bz x =? 224 then in_rng 160 191 c1
             else if bz x =? 237 then in_rng 128 159 c1 else cont c1) && cont c2 && utf8_fuel f r'
        | _ => false end
      else if in_rng 240 244 x then
        match r with
        | c1 :: c2 :: c3 :: r' =>
            (if bz x =? 240 then in_rng 144 191 c1
             else if bz x =? 244 then in_rng 128 143 c1 else cont c1)
            && cont c2 && cont c3 && utf8_fuel f r'
        | _ => false end
      else false
    end
  end.
Definition utf8 (b : bytes) : bool := utf8_fuel (length b) b.

(** String: UTF-8 bytes behind a u32 length; invalid UTF-8 is rejected. *)
Definition c_string : codec bytes := Codec
  (enc c_bytes)
  (fun b => match dec c_bytes b with
            | Some (s, r) => if utf8 s then Some (s, r) else None
            | None => None end)
  (fun s => okb c_bytes s && utf8 s).

(** One alternative of an enum: its payload codec and constructor. *)
Definition alt {A B} (c : codec A) (inj : A -> B) : bytes -> option (B * bytes) :=
  fun b => match dec c b with Some (a, r) => Some (inj a, r) | None => None end.

(** Enum: u8 tag selecting one of the alternatives. *)
Definition dec_enum {B} (alts : list (bytes -> option (B * bytes))) (b : bytes)
  : option (B * bytes) :=
  match b with
  | [] => None
  | t :: r => match nth_error alts (Z.to_nat (bz t)) with Some f => f r | None => None end
  end.

(** Borsh [T::try_from_slice]: all bytes must be consumed. *)
Definition try_from_slice {A} (c : codec A) (b : bytes) : option A :=
  match dec c b with Some (a, []) => Some a | _ => None end.

(** ** Pack (solana_program::program_pack::Pack with the derive of bridge-derive/src/lib.rs:25-40)

    [LEN] is the [bridge_pack(length = ...)] attribute. *)

(** bridge-derive/src/lib.rs:29-33 (and bridge-utils/src/state.rs:23-27, token-proxy/src/state.rs:
    128-132): [split_at_mut] panics if the encoding is longer than the slice; otherwise the prefix
    is overwritten and the tail keeps its old bytes. *)
Definition pack_into_slice {A} (c : codec A) (x : A) (dst : bytes) : res bytes :=
  if blen (enc c x) <=? blen dst then Ok (enc c x ++ skipn (length (enc c x)) dst) else Err Panic.

(** [Pack::pack]: destination must have exactly LEN bytes. *)
Definition pack {A} (c : codec A) (LEN : Z) (x : A) (dst : bytes) : res bytes :=
  if blen dst =? LEN then pack_into_slice c x dst else Err InvalidAccountData.

(** bridge-derive/src/lib.rs:35-38: decode a prefix, ignore the rest. *)
Definition unpack_from_slice {A} (c : codec A) (src : bytes) : res A :=
  match dec c src with Some (x, _) => Ok x | None => Err BorshIo end.

(** [Pack::unpack_unchecked] *)
Definition unpack_unchecked {A} (c : codec A) (LEN : Z) (src : bytes) : res A :=
  if blen src =? LEN then unpack_from_slice c src else Err InvalidAccountData.

(** [Pack::unpack]: additionally requires the [is_initialized] flag. *)
Definition unpack {A} (c : codec A) (LEN : Z) (is_init : A -> bool) (src : bytes) : res A :=
  rbind (unpack_unchecked c LEN src) (fun x => if is_init x then Ok x else Err UninitializedAccount).
