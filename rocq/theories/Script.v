(** The text forms that the JavaScript bindings (wasm/src/lib.rs, round-loader/src/wasm.rs) read and write.

    A JavaScript string arrives as UTF-8 bytes.  The functions below are those of the libraries the bindings call:
    [Pubkey::from_str] and [Pubkey::to_string] (solana-program 1.16 with bs58), [u128::from_str] and
    [to_string], [Uuid::from_str] (uuid 1.x), [general_purpose::STANDARD.decode] (base64 0.21), modelled from their
    documented behaviour; the parsers only tell ASCII bytes apart. *)

From Coq Require Import String.
From Verif Require Export Text Bindings.
Import ListNotations.
Open Scope Z_scope.

(** Digits of [z] to base [b], most significant first, none for 0; at most [n] of them. *)
Fixpoint digits (b : Z) (n : nat) (z : Z) : list Z :=
  match n with
  | O => []
  | S n' => if z =? 0 then [] else digits b n' (z / b) ++ [z mod b]
  end.

(** The number with these digits. *)
Definition undigits (b : Z) (l : list Z) : Z := fold_left (fun a d => b * a + d) l 0.

(** Position of a byte in an alphabet. *)
Fixpoint index_of (c : byte) (l : bytes) : option Z :=
  match l with
  | [] => None
  | x :: r => if Byte.eqb c x then Some 0
              else match index_of c r with Some i => Some (i + 1) | None => None end
  end.
(** The byte at a position of an alphabet. *)
Definition symbol (l : bytes) (i : Z) : byte := nth (Z.to_nat i) l x00.

Fixpoint all_some {A} (l : list (option A)) : option (list A) :=
  match l with
  | [] => Some []
  | Some a :: r => match all_some r with Some t => Some (a :: t) | None => None end
  | None :: _ => None
  end.

(** ** Public keys: base58 *)

(** The Bitcoin alphabet of bs58. *)
Definition b58 : bytes := str "123456789ABCDEFGHJKLMNPQRSTUVWXYZabcdefghijkmnopqrstuvwxyz".

(** How many leading elements are zero. *)
Fixpoint zeros (l : list Z) : nat :=
  match l with
  | [] => 0%nat
  | d :: r => if d =? 0 then S (zeros r) else 0%nat
  end.

(** [bs58::decode(s).into_vec()]: one zero byte per leading '1', then the value of the rest without leading zero bytes.
    Used on at most 44 characters, whose value has at most 33 bytes. *)
Definition b58_decode (s : bytes) : option bytes :=
  match all_some (map (fun c => index_of c b58) s) with
  | Some ds => Some (repeat x00 (zeros ds) ++ map zb (digits 256 33 (undigits 58 ds)))
  | None => None
  end.

(** [bs58::encode(b).into_string()] for at most 32 bytes, which need at most 44 characters *)
Definition b58_encode (b : bytes) : bytes :=
  repeat (symbol b58 0) (zeros (map bz b)) ++ map (symbol b58) (digits 58 44 (undigits 256 (map bz b))).

(** [Pubkey::from_str]: at most 44 characters, 32 bytes *)
Definition key_of_string (s : bytes) : option key :=
  if (44 <? length s)%nat then None
  else match b58_decode s with Some b => mkkey b | None => None end.

(** [Pubkey::to_string] *)
Definition string_of_key (k : key) : bytes := b58_encode (kb k).

(** ** Numbers: decimal *)

(** [u64::to_string], [u128::to_string], and [i64::to_string] of a number that is not negative; at most 39 digits *)
Definition string_of_num (z : Z) : bytes :=
  match digits 10 39 z with
  | [] => str "0"
  | l => map (fun d => zb (48 + d)) l
  end.

(** [u128::from_str]: an optional plus sign, at least one digit, below 2^128 *)
Definition u128_of_string (s : bytes) : option Z :=
  let t := match s with c :: r => if Byte.eqb c x2b then r else s | [] => [] end in
  match t with
  | [] => None
  | _ => match dec_val 0 t with
         | Some n => if n <? u128max then Some n else None
         | None => None
         end
  end.

(** ** UUIDs *)

(** Sixteen bytes in 32 hexadecimal digits, as a big-endian number ([Uuid::as_u128]) *)
Definition uuid_simple (s : bytes) : option Z :=
  match hex_decode s with
  | Some b => if (length b =? 16)%nat then Some (undigits 256 (map bz b)) else None
  | None => None
  end.

(** 8-4-4-4-12 digits with hyphens *)
Definition uuid_hyphenated (s : bytes) : option Z :=
  if Byte.eqb (nth 8 s x00) x2d && Byte.eqb (nth 13 s x00) x2d && Byte.eqb (nth 18 s x00) x2d && Byte.eqb (nth 23 s x00) x2d
  then uuid_simple (firstn 8 s ++ firstn 4 (skipn 9 s) ++ firstn 4 (skipn 14 s) ++ firstn 4 (skipn 19 s) ++ skipn 24 s)
  else None.

(** [Uuid::from_str]: 32 digits; or 36 characters with hyphens, also in braces or after "urn:uuid:" *)
Definition uuid_of_string (s : bytes) : option Z :=
  if (length s =? 32)%nat then uuid_simple s
  else if (length s =? 36)%nat then uuid_hyphenated s
  else if (length s =? 38)%nat then
    if Byte.eqb (nth 0 s x00) x7b && Byte.eqb (nth 37 s x00) x7d then uuid_hyphenated (firstn 36 (skipn 1 s)) else None
  else if (length s =? 45)%nat then
    if beqb (firstn 9 s) (str "urn:uuid:") then uuid_hyphenated (skipn 9 s) else None
  else None.

(** [Uuid::to_string]: the hyphenated form with lower-case digits *)
Definition string_of_uuid (z : Z) : bytes :=
  let h := hex_encode (rev (le 16 z)) in
  firstn 8 h ++ x2d :: firstn 4 (skipn 8 h) ++ x2d :: firstn 4 (skipn 12 h) ++ x2d :: firstn 4 (skipn 16 h) ++
  x2d :: skipn 20 h.

(** ** Payloads: base64 *)

(** The standard alphabet. *)
Definition b64 : bytes := str "ABCDEFGHIJKLMNOPQRSTUVWXYZabcdefghijklmnopqrstuvwxyz0123456789+/".

(** [general_purpose::STANDARD.decode]: padding to a multiple of four is required, the unused bits of the last character
    must be zero. *)
Fixpoint b64_decode (s : bytes) : option bytes :=
  match s with
  | [] => Some []
  | a :: b :: c :: d :: r =>
    match index_of a b64, index_of b b64, index_of c b64, index_of d b64 with
    | Some x, Some y, Some z, Some w =>
      match b64_decode r with
      | Some t => let n := 262144 * x + 4096 * y + 64 * z + w in Some (zb (n / 65536) :: zb (n / 256) :: zb n :: t)
      | None => None
      end
    | Some x, Some y, Some z, None =>
      if nil_b r && Byte.eqb d x3d && (z mod 4 =? 0)
      then let n := 4096 * x + 64 * y + z in Some [zb (n / 1024); zb (n / 4)] else None
    | Some x, Some y, None, None =>
      if nil_b r && Byte.eqb c x3d && Byte.eqb d x3d && (y mod 16 =? 0)
      then Some [zb ((64 * x + y) / 16)] else None
    | _, _, _, _ => None
    end
  | _ => None
  end.

(** [general_purpose::STANDARD.encode] *)
Fixpoint b64_encode (s : bytes) : bytes :=
  match s with
  | [] => []
  | [a] => let n := bz a * 16 in [symbol b64 (n / 64); symbol b64 (n mod 64); x3d; x3d]
  | [a; b] => let n := (bz a * 256 + bz b) * 4 in
              [symbol b64 (n / 4096); symbol b64 (n / 64 mod 64); symbol b64 (n mod 64); x3d]
  | a :: b :: c :: r => let n := (bz a * 256 + bz b) * 256 + bz c in
              symbol b64 (n / 262144) :: symbol b64 (n / 4096 mod 64) :: symbol b64 (n / 64 mod 64) ::
              symbol b64 (n mod 64) :: b64_encode r
  end.

(** token-proxy/src/state.rs:509-519 *)
Definition fee_type_of_string (s : bytes) : option fee_type :=
  if beqb s (str "Deposit") then Some FDeposit
  else if beqb s (str "Withdrawal") then Some FWithdrawal else None.
