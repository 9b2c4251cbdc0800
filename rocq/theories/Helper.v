(** bridge-utils/src/helper.rs and the address helpers of both programs. *)

From Coq Require Import Strings.String.
From Verif Require Export Runtime.
Open Scope Z_scope.

Definition str (s : string) : bytes := list_byte_of_string s.

(** ** Seeds (without bump) of every derived address *)

(** bridge-utils/src/helper.rs:9 (program id under the loader) *)
Definition sd_programdata (pid : key) : bytes := kb pid.
(** bridge-utils/src/helper.rs:13, 89; token-proxy/src/utils.rs:9 *)
Definition sd_settings : bytes := str "settings".
(** bridge-utils/src/helper.rs:17; round-loader/src/utils.rs:12 *)
Definition sd_relay_round (n : Z) : bytes := str "relay_round" ++ le 4 n.
(** bridge-utils/src/helper.rs:28-38, 113-123 *)
Definition sd_proposal (round ts lt : Z) (conf h : key) : bytes :=
  str "proposal" ++ le 4 round ++ le 4 ts ++ le 8 lt ++ kb conf ++ kb h.
(** token-proxy/src/utils.rs:13, 144 *)
Definition sd_multivault : bytes := str "multivault".
(** token-proxy/src/utils.rs:20-21, 64-67: [h] is the hash of the token address *)
Definition sd_ts_ever (h : key) : bytes := str "settings" ++ kb h.
(** token-proxy/src/utils.rs:25, 87 *)
Definition sd_ts_sol (mint : key) : bytes := str "settings" ++ kb mint.
(** token-proxy/src/utils.rs:29-30, 54-55, 106-109 *)
Definition sd_mint (h : key) : bytes := str "mint" ++ kb h.
(** token-proxy/src/utils.rs:34, 129 *)
Definition sd_vault (mint : key) : bytes := str "vault" ++ kb mint.
(** token-proxy/src/utils.rs:38; bridge-utils/src/helper.rs:143 *)
Definition sd_deposit (seed : Z) : bytes := str "deposit" ++ le 16 seed.
(** token-proxy/src/utils.rs:47-48, 167-168 *)
Definition sd_proxy (mint recipient : key) : bytes := str "proxy" ++ kb mint ++ kb recipient.

(** Seeds with bump, as used for signing: [&[..., &[nonce]]]. *)
Definition with_bump (sd : bytes) (bump : Z) : bytes := sd ++ [zb bump].

(** [hash(&token.try_to_vec()?)] *)
Definition token_hash (e : env) (t : ever) : key := e_hash e (enc c_ever t).

(** ** Validation helpers *)

(** The common body of bridge-utils/src/helper.rs:84-100, 103-134, 136-154, token-proxy/src/utils.rs:
    58-78, 80-97, 99-119, 121-138, 140-155, 157-181 and round-loader/src/utils.rs:5-23: derive the
    address, compare key, compare nonce, both failing with InvalidArgument; returns the address. *)
Definition validate_pda (e : env) (pid : key) (sd : bytes) (nonce : Z) (k : key) : res key :=
  rbind (find_pda e sd pid) (fun '(a, n) =>
  if negb (keqb a k) then Err InvalidArgument
  else if negb (n =? nonce) then Err InvalidArgument
  else Ok a).

(** bridge-utils/src/helper.rs:42-59 *)
Definition validate_programdata (e : env) (pid : key) (nonce : Z) (k : key) : res unit :=
  rbind (find_pda e (sd_programdata pid) loader_id) (fun '(a, n) =>
  if negb (keqb a k) then Err InvalidSeeds
  else if negb (n =? nonce) then Err InvalidArgument
  else Ok tt).

(** The upgrade authority recorded in a program-data account: bincode of [UpgradeableLoaderState]
    (u32 variant 3 = ProgramData, u64 slot, Option<Pubkey>); trailing bytes (the program) are
    ignored. *)
Definition upgrade_authority (d : bytes) : option key :=
  match dec (c_u32 ** c_u64 ** c_option c_key) d with
  | Some ((3, (_, Some k)), _) => Some k
  | _ => None
  end.

(** bridge-utils/src/helper.rs:61-82: both [unwrap]s panic. *)
Definition validate_initializer (d : bytes) (k : key) : res unit :=
  match upgrade_authority d with
  | None => Err Panic
  | Some a => if keqb a k then Ok tt else Err IllegalOwner
  end.

(** bridge-utils/src/helper.rs:156-161 with the lamports part of token-proxy/src/processor.rs:
    4628-4642: move all lamports to the author, wipe the data, give the account to the system
    program. *)
Definition delete_account (c : ctx) (k author : key) : M unit :=
  a <- get k ;;
  b <- get author ;;
  guard (lam b + lam a <? u64max) (Custom 10) ;;;
  set_lam c author (lam b + lam a) ;;;
  set_lam c k 0 ;;;
  set_data c k (repeat x00 (length (dat a))) ;;;
  set_own c k sys_id.

(** Direct lamport transfer with [checked_sub]/[checked_add] (Overflow): round-loader/src/processor.rs:
    646-656; token-proxy/src/processor.rs:1465-1475, 4501-4509. *)
Definition move_lam (c : ctx) (from to : key) (amt : Z) : M unit :=
  a <- get from ;;
  guard (amt <=? lam a) (Custom 10) ;;;
  set_lam c from (lam a - amt) ;;;
  b <- get to ;;
  guard (lam b + amt <? u64max) (Custom 10) ;;;
  set_lam c to (lam b + amt).

(** ** Small list functions *)

(** [iter().position(|x| x == k)] *)
Fixpoint position (k : key) (l : list key) : option nat :=
  match l with
  | [] => None
  | x :: r => if keqb x k then Some O else option_map S (position k r)
  end.

(** [v[i] = x] for an index in range *)
Fixpoint set_nth {A} (i : nat) (x : A) (l : list A) : list A :=
  match l, i with
  | [], _ => []
  | _ :: r, O => x :: r
  | y :: r, S j => y :: set_nth j x r
  end.

(** [iter().filter(|vote| **vote == Vote::Confirm).count()] *)
Definition confirms (l : list vote) : Z := blen (filter (vote_eqb VConfirm) l).

(** bridge-utils/src/types.rs: RELAY_REPARATION *)
Definition RELAY_REPARATION : Z := 20000.
