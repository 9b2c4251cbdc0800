(** native-proxy/src/processor.rs. *)

From Coq Require Import Strings.String.
From Verif Require Export TokenProxy.
Open Scope Z_scope.

(** native-proxy/src/processor.rs:14-15 *)
Definition WSOL_SYMBOL : bytes := str "wSOL".
Definition WSOL_NAME : bytes := str "Wrapped SOL".

Definition fst_r {A B} (r : res (A * B)) : res A := rbind r (fun '(a, _) => Ok a).

(** token-proxy/src/bindings.rs:202-259 ([deposit_multi_token_sol_ix]): accounts and decoded
    instruction. *)
Definition deposit_sol_metas (e : env) (funder author author_token mint : key) (seed : Z)
  : res (list meta) :=
  rbind (fst_r (find_pda e (sd_vault mint) tp_id)) (fun vault =>
  rbind (fst_r (find_pda e sd_settings tp_id)) (fun settings =>
  rbind (fst_r (find_pda e sd_multivault tp_id)) (fun multivault =>
  rbind (fst_r (find_pda e (sd_ts_sol mint) tp_id)) (fun tsk =>
  rbind (fst_r (find_pda e (sd_deposit seed) tp_id)) (fun deposit =>
  Ok [Meta funder true true; Meta author true true; Meta author_token false true;
      Meta vault false true; Meta deposit false true; Meta mint false true;
      Meta multivault false true; Meta tsk false true; Meta settings false false;
      Meta sys_id false false; Meta spl_id false false; Meta rent_id false false]))))).

(** A nested call of a program is checked by the runtime like a whole instruction. *)
Definition as_nested (m : ctx -> M unit) (c : ctx) : M unit := fun s =>
  rbind (run c (m c) s) (fun s' => Ok (tt, s')).

(** native-proxy/src/processor.rs:51-128.  The data built for the token proxy is decoded by it again
    ([tp_process] on the encoding). *)
Definition np_deposit (e : env) (ext : extern) (c : ctx) (seed amount : Z) (recipient : ever)
  (value : Z) (evers : key) (payload : bytes) : M unit :=
  match c_keys c with
  | funder :: creator :: creator_token :: _vault :: _deposit :: mint :: _ =>
    guard (keqb mint native_mint) InvalidArgument ;;;
    '(ata, _) <- lift (find_pda e (ata_seeds creator native_mint) ata_id) ;;
    guard (keqb ata creator_token) InvalidArgument ;;;
    a <- get creator_token ;;
    (if lam a =? 0 then invoke_ata_create e c funder creator native_mint else ret tt) ;;;
    invoke_transfer c creator ata amount ;;;
    invoke_sync_native c ata ;;;
    ms <- lift (deposit_sol_metas e funder creator creator_token native_mint seed) ;;
    cpi c (c_keys c) tp_id ms []
      (as_nested (fun c' => tp_process e ext c'
         (enc c_tp_ix (TpDepositSol seed WSOL_NAME WSOL_SYMBOL amount recipient value evers payload))))
  | _ => NotEnough
  end.

(** native-proxy/src/processor.rs:19-48 *)
Definition np_process (e : env) (ext : extern) (c : ctx) (d : bytes) : M unit :=
  i <- lift (ok_or (try_from_slice c_np_ix d) BorshIo) ;;
  match i with
  | NpDeposit seed amount recipient value evers payload =>
      np_deposit e ext c seed amount recipient value evers payload
  end.
