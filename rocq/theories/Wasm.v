(** The JavaScript bindings: wasm/src/lib.rs (token proxy and native proxy) and round-loader/src/wasm.rs, function by
    function.

    Strings are UTF-8 bytes, a thrown JavaScript error is the error [InvalidArgument], a trap of the module (panic) the
    error [Panic].  Numbers arrive as u8, u32 or u64 (wasm-bindgen reduces a BigInt modulo 2^64 before the function is
    called).  [serde_wasm_bindgen::to_value] of an [Instruction] or [Pubkey] does not fail; the JavaScript form of the
    result is not modelled. *)

From Verif Require Export Script.
Open Scope Z_scope.

(** [X::from_str(s).handle_error()?] (wasm/src/lib.rs:1796-1808) *)
Definition js {A} (o : option A) : res A := ok_or o InvalidArgument.
(** [Pubkey::from_str(s.as_str()).handle_error()?] *)
Definition jkey (s : bytes) : res key := js (key_of_string s).
(** [EverAddress::from_str(&s).handle_error()?] *)
Definition jever (s : bytes) : res ever := js (ever_from_string s).
(** [general_purpose::STANDARD.decode(s).handle_error()?] *)
Definition jb64 (s : bytes) : res bytes := js (b64_decode s).
(** [u128::from_str(&s).handle_error()?] *)
Definition ju128 (s : bytes) : res Z := js (u128_of_string s).
(** [uuid::Uuid::from_str(&s).handle_error()?.as_u128()] *)
Definition juuid (s : bytes) : res Z := js (uuid_of_string s).
(** [UInt256::from_be_bytes(z.to_be_bytes().as_slice())], e.g. wasm/src/lib.rs:393 *)
Definition jevers (z : Z) : res key := ok_or (mkkey (be_pad (rev (le 8 z)))) Panic.

(** wasm/src/lib.rs:18-23 *)
Definition js_mint_address (e : env) (token : bytes) : res key :=
  token <~ jever token ; tp_mint_addr e token.

(** wasm/src/lib.rs:25-35; the same choice in 744-750, 783-789, 891-897, 925-931, 959-965 and 1077-1083 *)
Definition js_token_settings_address (e : env) (token : bytes) (is_sol : bool) : res key :=
  if is_sol then mint <~ jkey token ; tp_token_sol_addr e mint
  else token <~ jever token ; tp_token_ever_addr e token.

(** wasm/src/lib.rs:37-78; the last two arguments are in the other order than in the Rust bindings *)
Definition js_initialize_settings (e : env) (funder initializer guardian wmanager manager : bytes) : res instr :=
  settings <~ tp_settings_addr e ;
  programdata <~ tp_programdata e ;
  guardian <~ jkey guardian ;
  wmanager <~ jkey wmanager ;
  manager <~ jkey manager ;
  funder <~ jkey funder ;
  initializer <~ jkey initializer ;
  multivault <~ tp_multivault_addr e ;
  tp_build [mw funder true; mw initializer true; mw settings false; mw multivault false; mr programdata false;
            mr sys_id false; mr rent_id false]
    (TpInitialize guardian manager wmanager).

(** wasm/src/lib.rs:80-169 *)
Definition js_withdrawal_ever_request (e : env) (funder author name symbol : bytes) (decimals ts lt : Z)
  (conf token recipient amount : bytes) (round : Z) (payload : bytes) (attached : Z) : res instr :=
  funder <~ jkey funder ;
  author <~ jkey author ;
  recipient <~ jkey recipient ;
  conf <~ jkey conf ;
  token <~ jever token ;
  payload <~ jb64 payload ;
  amount <~ ju128 amount ;
  rr <~ rl_round_addr e round ;
  withdrawal <~ tp_withdrawal_ever_addr e round ts lt conf
                  (WEverEvent token name symbol decimals amount recipient payload) ;
  rls <~ rl_settings_addr e ;
  extra <~ (if nil_b payload then Ok []
            else mint <~ tp_mint_addr e token ;
                 proxy <~ tp_proxy_addr e mint recipient ;
                 Ok [mw proxy false; mw mint false; mw spl_id false]) ;
  tp_build ([mw funder true; mw author true; mw withdrawal false; mr rls false; mr rr false; mr sys_id false;
             mr rent_id false; mr clock_id false] ++ extra)
    (TpWithdrawEverRequest ts lt conf token name symbol decimals recipient amount payload attached).

(** wasm/src/lib.rs:171-251 *)
Definition js_withdrawal_sol_request (e : env) (funder author mint : bytes) (ts lt : Z) (conf recipient amount : bytes)
  (round : Z) (payload : bytes) (attached : Z) : res instr :=
  funder <~ jkey funder ;
  author <~ jkey author ;
  mint <~ jkey mint ;
  recipient <~ jkey recipient ;
  conf <~ jkey conf ;
  tsk <~ tp_token_sol_addr e mint ;
  payload <~ jb64 payload ;
  amount <~ ju128 amount ;
  rr <~ rl_round_addr e round ;
  withdrawal <~ tp_withdrawal_sol_addr e round ts lt conf (WSolEvent mint amount recipient payload) ;
  rls <~ rl_settings_addr e ;
  extra <~ (if nil_b payload then Ok []
            else proxy <~ tp_proxy_addr e mint recipient ;
                 Ok [mw proxy false; mw mint false; mw spl_id false]) ;
  tp_build ([mw funder true; mw author true; mw withdrawal false; mr tsk false; mr rls false; mr rr false;
             mr sys_id false; mr rent_id false; mr clock_id false] ++ extra)
    (TpWithdrawSolRequest ts lt conf recipient amount payload attached).

(** wasm/src/lib.rs:253-289 *)
Definition js_withdrawal_ever (e : env) (withdrawal recipient_token token : bytes) : res instr :=
  withdrawal <~ jkey withdrawal ;
  recipient_token <~ jkey recipient_token ;
  token <~ jever token ;
  settings <~ tp_settings_addr e ;
  mint <~ tp_mint_addr e token ;
  tsk <~ tp_token_ever_addr e token ;
  tp_build [mw withdrawal false; mw mint false; mw recipient_token false; mw tsk false; mr settings false;
            mr sys_id false; mr spl_id false; mr rent_id false; mr clock_id false]
    TpWithdrawEver.

(** wasm/src/lib.rs:291-335 *)
Definition js_create_ever_token (e : env) (funder withdrawal recipient token : bytes) : res instr :=
  funder <~ jkey funder ;
  withdrawal <~ jkey withdrawal ;
  recipient <~ jkey recipient ;
  token <~ jever token ;
  settings <~ tp_settings_addr e ;
  mint <~ tp_mint_addr e token ;
  tsk <~ tp_token_ever_addr e token ;
  rt <~ ata_addr e recipient mint ;
  tp_build [mw withdrawal false; mw mint false; mw rt false; mw tsk false; mr settings false;
            mr sys_id false; mr spl_id false; mr rent_id false; mr clock_id false;
            mw funder true; mr recipient false; mr ata_id false]
    TpWithdrawEver.

(** wasm/src/lib.rs:337-372 *)
Definition js_withdrawal_sol (e : env) (withdrawal recipient_token mint : bytes) : res instr :=
  withdrawal <~ jkey withdrawal ;
  mint <~ jkey mint ;
  recipient_token <~ jkey recipient_token ;
  settings <~ tp_settings_addr e ;
  vault <~ tp_vault_addr e mint ;
  tsk <~ tp_token_sol_addr e mint ;
  tp_build [mw withdrawal false; mw vault false; mw recipient_token false; mw tsk false; mr mint false;
            mr settings false; mr spl_id false; mr clock_id false]
    TpWithdrawSol.

(** wasm/src/lib.rs:374-442 *)
Definition js_deposit_native_sol (e : env) (funder author seed : bytes) (amount : Z) (recipient : bytes)
  (value evers : Z) (payload : bytes) : res instr :=
  seed <~ juuid seed ;
  funder <~ jkey funder ;
  author <~ jkey author ;
  recipient <~ jever recipient ;
  evers <~ jevers evers ;
  author_token <~ ata_addr e author native_mint ;
  vault <~ tp_vault_addr e native_mint ;
  settings <~ tp_settings_addr e ;
  multivault <~ tp_multivault_addr e ;
  tsk <~ tp_token_sol_addr e native_mint ;
  deposit <~ tp_deposit_addr e seed ;
  payload <~ jb64 payload ;
  Ok (Instr np_id
        [mw funder true; mw author true; mw author_token false; mw vault false; mw deposit false;
         mw native_mint false; mw multivault false; mw tsk false; mr settings false; mr sys_id false;
         mr spl_id false; mr rent_id false; mr tp_id false; mr ata_id false]
        (enc c_np_ix (NpDeposit seed amount recipient value evers payload))).

(** wasm/src/lib.rs:444-507 *)
Definition js_deposit_ever (e : env) (funder author author_token token seed : bytes) (amount : Z) (recipient : bytes)
  (value evers : Z) (payload : bytes) : res instr :=
  seed <~ juuid seed ;
  funder <~ jkey funder ;
  author <~ jkey author ;
  recipient <~ jever recipient ;
  token <~ jever token ;
  author_token <~ jkey author_token ;
  evers <~ jevers evers ;
  mint <~ tp_mint_addr e token ;
  settings <~ tp_settings_addr e ;
  multivault <~ tp_multivault_addr e ;
  tsk <~ tp_token_ever_addr e token ;
  deposit <~ tp_deposit_addr e seed ;
  payload <~ jb64 payload ;
  tp_build [mw funder true; mw author true; mw author_token false; mw deposit false; mw mint false;
            mw multivault false; mw tsk false; mr settings false; mr sys_id false; mr spl_id false;
            mr rent_id false]
    (TpDepositEver seed amount recipient value evers payload).

(** wasm/src/lib.rs:509-578 *)
Definition js_deposit_sol (e : env) (funder author author_token mint seed name symbol : bytes) (amount : Z)
  (recipient : bytes) (value evers : Z) (payload : bytes) : res instr :=
  seed <~ juuid seed ;
  mint <~ jkey mint ;
  funder <~ jkey funder ;
  author <~ jkey author ;
  author_token <~ jkey author_token ;
  recipient <~ jever recipient ;
  evers <~ jevers evers ;
  vault <~ tp_vault_addr e mint ;
  settings <~ tp_settings_addr e ;
  multivault <~ tp_multivault_addr e ;
  tsk <~ tp_token_sol_addr e mint ;
  deposit <~ tp_deposit_addr e seed ;
  payload <~ jb64 payload ;
  tp_build [mw funder true; mw author true; mw author_token false; mw vault false; mw deposit false; mw mint false;
            mw multivault false; mw tsk false; mr settings false; mr sys_id false; mr spl_id false;
            mr rent_id false]
    (TpDepositSol seed name symbol amount recipient value evers payload).

(** wasm/src/lib.rs:580-610 *)
Definition js_execute_payload_sol (e : env) (withdrawal recipient mint recipient_token : bytes) : res instr :=
  withdrawal <~ jkey withdrawal ;
  recipient <~ jkey recipient ;
  mint <~ jkey mint ;
  proxy <~ tp_proxy_addr e mint recipient ;
  recipient_token <~ jkey recipient_token ;
  tp_build [mw withdrawal false; mw proxy false; mw recipient_token false; mr spl_id false] TpExecutePayloadSol.

(** wasm/src/lib.rs:612-642 *)
Definition js_execute_payload_ever (e : env) (withdrawal recipient mint recipient_token : bytes) : res instr :=
  withdrawal <~ jkey withdrawal ;
  recipient <~ jkey recipient ;
  mint <~ jkey mint ;
  proxy <~ tp_proxy_addr e mint recipient ;
  recipient_token <~ jkey recipient_token ;
  tp_build [mw withdrawal false; mw proxy false; mw recipient_token false; mr spl_id false] TpExecutePayloadEver.

(** wasm/src/lib.rs:644-673 *)
Definition js_vote (e : env) (authority withdrawal : bytes) (round : Z) : res instr :=
  authority <~ jkey authority ;
  withdrawal <~ jkey withdrawal ;
  rr <~ rl_round_addr e round ;
  tp_build [mw authority true; mw withdrawal false; mr rr false] (TpVote VConfirm).

(** wasm/src/lib.rs:675-701 *)
Definition js_change_guardian (e : env) (authority new : bytes) : res instr :=
  settings <~ tp_settings_addr e ;
  programdata <~ tp_programdata e ;
  authority <~ jkey authority ;
  new <~ jkey new ;
  tp_build [mw authority true; mw settings false; mr programdata false] (TpChangeGuardian new).

(** wasm/src/lib.rs:703-732 *)
Definition js_change_withdrawal_manager (e : env) (authority new : bytes) : res instr :=
  settings <~ tp_settings_addr e ;
  programdata <~ tp_programdata e ;
  authority <~ jkey authority ;
  new <~ jkey new ;
  tp_build [mw authority true; mw settings false; mr programdata false] (TpChangeWithdrawalManager new).

(** wasm/src/lib.rs:734-770 *)
Definition js_change_deposit_limit (e : env) (authority token : bytes) (is_sol : bool) (limit : Z) : res instr :=
  settings <~ tp_settings_addr e ;
  authority <~ jkey authority ;
  tsk <~ js_token_settings_address e token is_sol ;
  programdata <~ tp_programdata e ;
  tp_build [mw authority true; mw tsk false; mr settings false; mr programdata false] (TpChangeDepositLimit limit).

(** wasm/src/lib.rs:772-812 *)
Definition js_change_withdrawal_limits (e : env) (authority token : bytes) (is_sol : bool) (limit daily : option Z)
  : res instr :=
  settings <~ tp_settings_addr e ;
  tsk <~ js_token_settings_address e token is_sol ;
  programdata <~ tp_programdata e ;
  authority <~ jkey authority ;
  tp_build [mw authority true; mw tsk false; mr settings false; mr programdata false]
    (TpChangeWithdrawalLimits limit daily).

(** wasm/src/lib.rs:814-834 *)
Definition js_enable_emergency (e : env) (authority : bytes) : res instr :=
  settings <~ tp_settings_addr e ;
  authority <~ jkey authority ;
  tp_build [mw authority true; mw settings false] TpEnableEmergency.

(** wasm/src/lib.rs:836-858 *)
Definition js_enable_emergency_by_owner (e : env) (authority : bytes) : res instr :=
  settings <~ tp_settings_addr e ;
  programdata <~ tp_programdata e ;
  authority <~ jkey authority ;
  tp_build [mw authority true; mw settings false; mr programdata false] TpEnableEmergency.

(** wasm/src/lib.rs:860-882 *)
Definition js_disable_emergency (e : env) (authority : bytes) : res instr :=
  settings <~ tp_settings_addr e ;
  programdata <~ tp_programdata e ;
  authority <~ jkey authority ;
  tp_build [mw authority true; mw settings false; mr programdata false] TpDisableEmergency.

(** wasm/src/lib.rs:884-916 *)
Definition js_enable_token_emergency (e : env) (authority token : bytes) (is_sol : bool) : res instr :=
  settings <~ tp_settings_addr e ;
  tsk <~ js_token_settings_address e token is_sol ;
  authority <~ jkey authority ;
  tp_build [mw authority true; mr settings false; mw tsk false] TpEnableTokenEmergency.

(** wasm/src/lib.rs:918-952 *)
Definition js_enable_token_emergency_by_owner (e : env) (authority token : bytes) (is_sol : bool) : res instr :=
  settings <~ tp_settings_addr e ;
  tsk <~ js_token_settings_address e token is_sol ;
  programdata <~ tp_programdata e ;
  authority <~ jkey authority ;
  tp_build [mw authority true; mr settings false; mw tsk false; mr programdata false] TpEnableTokenEmergency.

(** wasm/src/lib.rs:954-986 *)
Definition js_disable_token_emergency (e : env) (authority token : bytes) (is_sol : bool) : res instr :=
  tsk <~ js_token_settings_address e token is_sol ;
  programdata <~ tp_programdata e ;
  authority <~ jkey authority ;
  tp_build [mw authority true; mw tsk false; mr programdata false] TpDisableTokenEmergency.

(** wasm/src/lib.rs:988-1019 *)
Definition js_withdrawal_proxy (e : env) (recipient recipient_token mint : bytes) (amount : Z) : res instr :=
  mint <~ jkey mint ;
  recipient <~ jkey recipient ;
  recipient_token <~ jkey recipient_token ;
  proxy <~ tp_proxy_addr e mint recipient ;
  tp_build [mw recipient true; mw recipient_token false; mw proxy false; mr mint false; mr spl_id false]
    (TpWithdrawProxy amount).

(** wasm/src/lib.rs:1021-1040 *)
Definition js_close_deposit (e : env) (author deposit : bytes) : res instr :=
  author <~ jkey author ;
  deposit <~ jkey deposit ;
  tp_build [mw author true; mw deposit false] TpCloseDeposit.

(** wasm/src/lib.rs:1042-1065 *)
Definition js_close_withdrawal (e : env) (withdrawal author : bytes) : res instr :=
  withdrawal <~ jkey withdrawal ;
  author <~ jkey author ;
  tp_build [mw withdrawal false; mw author false] TpCloseWithdrawal.

(** wasm/src/lib.rs:1067-1106 *)
Definition js_update_fee (e : env) (authority token : bytes) (is_sol : bool) (t : bytes) (mul div : Z) : res instr :=
  authority <~ jkey authority ;
  tsk <~ js_token_settings_address e token is_sol ;
  settings <~ tp_settings_addr e ;
  t <~ js (fee_type_of_string t) ;
  tp_build [mw authority true; mw tsk false; mr settings false] (TpUpdateFee t mul div).

(** wasm/src/lib.rs:1108-1138: for Solana tokens only *)
Definition js_update_token_name (e : env) (authority token symbol name : bytes) : res instr :=
  authority <~ jkey authority ;
  mint <~ jkey token ;
  tsk <~ tp_token_sol_addr e mint ;
  settings <~ tp_settings_addr e ;
  tp_build [mw authority true; mw tsk false; mr settings false] (TpUpdateTokenName symbol name).

(** wasm/src/lib.rs:1140-1178 *)
Definition js_approve_withdrawal_ever (e : env) (authority withdrawal recipient_token mint token : bytes) : res instr :=
  authority <~ jkey authority ;
  withdrawal <~ jkey withdrawal ;
  recipient_token <~ jkey recipient_token ;
  mint <~ jkey mint ;
  settings <~ tp_settings_addr e ;
  token <~ jever token ;
  tsk <~ tp_token_ever_addr e token ;
  tp_build [mw authority true; mw mint false; mw withdrawal false; mw recipient_token false; mw tsk false;
            mr settings false; mr spl_id false; mr clock_id false]
    TpApproveEver.

(** wasm/src/lib.rs:1180-1217 *)
Definition js_approve_withdrawal_sol (e : env) (authority withdrawal recipient_token mint : bytes) : res instr :=
  authority <~ jkey authority ;
  withdrawal <~ jkey withdrawal ;
  recipient_token <~ jkey recipient_token ;
  mint <~ jkey mint ;
  settings <~ tp_settings_addr e ;
  vault <~ tp_vault_addr e mint ;
  tsk <~ tp_token_sol_addr e mint ;
  tp_build [mw authority true; mw vault false; mw withdrawal false; mw recipient_token false; mw tsk false;
            mr settings false; mr spl_id false; mr clock_id false]
    TpApproveSol.

(** wasm/src/lib.rs:1219-1278 *)
Definition js_cancel_withdrawal_sol (e : env) (funder author withdrawal mint seed recipient : bytes) (value evers : Z)
  (payload : bytes) : res instr :=
  seed <~ juuid seed ;
  mint <~ jkey mint ;
  funder <~ jkey funder ;
  author <~ jkey author ;
  recipient <~ jever recipient ;
  withdrawal <~ jkey withdrawal ;
  settings <~ tp_settings_addr e ;
  multivault <~ tp_multivault_addr e ;
  deposit <~ tp_deposit_addr e seed ;
  tsk <~ tp_token_sol_addr e mint ;
  evers <~ jevers evers ;
  payload <~ jb64 payload ;
  tp_build [mw funder true; mw author true; mw mint false; mw withdrawal false; mw deposit false; mr settings false;
            mr tsk false; mr sys_id false; mr rent_id false; mw multivault false]
    (TpCancel seed recipient value evers payload).

(** wasm/src/lib.rs:1350-1359: two accounts per withdrawal *)
Fixpoint js_fill_metas (e : env) (mint : key) (l : list (bytes * bytes)) : res (list meta) :=
  match l with
  | [] => Ok []
  | (withdrawal, to) :: r =>
    withdrawal <~ jkey withdrawal ;
    to <~ jkey to ;
    rt <~ ata_addr e to mint ;
    ms <~ js_fill_metas e mint r ;
    Ok (mw withdrawal false :: mw rt false :: ms)
  end.

(** wasm/src/lib.rs:1280-1367; the list elements are objects with two strings (1280-1285) *)
Definition js_fill_withdrawal_sol (e : env) (funder author mint seed recipient : bytes) (amount : Z)
  (withdrawals : list (bytes * bytes)) (vault : option bytes) (value evers : Z) (payload : bytes) : res instr :=
  seed <~ juuid seed ;
  mint <~ jkey mint ;
  funder <~ jkey funder ;
  author <~ jkey author ;
  recipient <~ jever recipient ;
  author_token <~ ata_addr e author mint ;
  settings <~ tp_settings_addr e ;
  multivault <~ tp_multivault_addr e ;
  deposit <~ tp_deposit_addr e seed ;
  tsk <~ tp_token_sol_addr e mint ;
  evers <~ jevers evers ;
  payload <~ jb64 payload ;
  ms <~ js_fill_metas e mint withdrawals ;
  last <~ match vault with Some v => k <~ jkey v ; Ok [mw k false] | None => Ok [] end ;
  tp_build ([mw funder true; mw author true; mw author_token false; mw mint false; mw deposit false;
             mr settings false; mr sys_id false; mr tsk false; mr spl_id false; mr rent_id false;
             mw multivault false] ++ ms ++ last)
    (TpFill seed recipient amount value evers payload).

(** wasm/src/lib.rs:1369-1392 *)
Definition js_change_bounty (e : env) (author withdrawal : bytes) (bounty : Z) : res instr :=
  author <~ jkey author ;
  withdrawal <~ jkey withdrawal ;
  tp_build [mw author true; mw withdrawal false] (TpChangeBounty bounty).

(** wasm/src/lib.rs:1394-1423 *)
Definition js_withdrawal_multi_vault (e : env) (authority recipient : bytes) (amount : Z) : res instr :=
  authority <~ jkey authority ;
  recipient <~ jkey recipient ;
  settings <~ tp_settings_addr e ;
  multivault <~ tp_multivault_addr e ;
  tp_build [mw authority true; mw recipient false; mw multivault false; mr settings false; mr sys_id false]
    (TpWithdrawMultiVault amount).

(** wasm/src/lib.rs:1425-1461 *)
Definition js_withdrawal_ever_fee (e : env) (authority mint recipient_token token : bytes) (amount : Z) : res instr :=
  authority <~ jkey authority ;
  mint <~ jkey mint ;
  recipient_token <~ jkey recipient_token ;
  settings <~ tp_settings_addr e ;
  token <~ jever token ;
  tsk <~ tp_token_ever_addr e token ;
  tp_build [mw authority true; mw mint false; mw recipient_token false; mw tsk false; mr settings false;
            mr spl_id false]
    (TpWithdrawEverFee amount).

(** wasm/src/lib.rs:1463-1497 *)
Definition js_withdrawal_sol_fee (e : env) (authority recipient_token mint : bytes) (amount : Z) : res instr :=
  authority <~ jkey authority ;
  recipient_token <~ jkey recipient_token ;
  mint <~ jkey mint ;
  settings <~ tp_settings_addr e ;
  vault <~ tp_vault_addr e mint ;
  tsk <~ tp_token_sol_addr e mint ;
  tp_build [mw authority true; mw vault false; mw tsk false; mw recipient_token false; mr settings false;
            mr spl_id false]
    (TpWithdrawSolFee amount).

(** wasm/src/lib.rs:1513-1544 *)
Definition js_proposal_sol_address (e : env) (round ts lt : Z) (conf mint recipient amount payload : bytes) : res key :=
  recipient <~ jkey recipient ;
  conf <~ jkey conf ;
  amount <~ ju128 amount ;
  mint <~ jkey mint ;
  payload <~ jb64 payload ;
  tp_withdrawal_sol_addr e round ts lt conf (WSolEvent mint amount recipient payload).

(** wasm/src/lib.rs:1546-1555 *)
Definition js_proxy_address (e : env) (mint recipient : bytes) : res key :=
  recipient <~ jkey recipient ;
  mint <~ jkey mint ;
  tp_proxy_addr e mint recipient.

(** wasm/src/lib.rs:1557-1594 *)
Definition js_proposal_ever_address (e : env) (round ts lt : Z) (conf token recipient amount name symbol : bytes)
  (decimals : Z) (payload : bytes) : res key :=
  recipient <~ jkey recipient ;
  conf <~ jkey conf ;
  amount <~ ju128 amount ;
  token <~ jever token ;
  payload <~ jb64 payload ;
  tp_withdrawal_ever_addr e round ts lt conf (WEverEvent token name symbol decimals amount recipient payload).

(** ** Records for JavaScript *)

(** wasm/src/lib.rs:1499-1511, 1689-1695 *)
Record js_settings := JsSettings { js_emergency : bool; js_guardian : key; js_wmanager : key; js_manager : key }.
Definition js_unpack_settings (d : bytes) : res js_settings :=
  s <~ unpack c_tp_settings TP_LEN gs_init d ;
  Ok (JsSettings (gs_emergency s) (gs_guardian s) (gs_wmanager s) (gs_manager s)).

(** wasm/src/lib.rs:1762-1794 (WasmTokenKind and its conversion) *)
Inductive js_kind := JKEver (mint token : bytes) (decimals : Z) | JKSol (mint vault : bytes).
Definition js_kind_of (k : token_kind) : js_kind :=
  match k with
  | TKEver mint token d => JKEver (string_of_key mint) (ever_to_string token) d
  | TKSol mint vault => JKSol (string_of_key mint) (string_of_key vault)
  end.

(** [i64::to_string] *)
Definition string_of_i64 (z : Z) : bytes := if z <? 0 then x2d :: string_of_num (- z) else string_of_num z.

(** wasm/src/lib.rs:1596-1618, 1697-1713 *)
Record js_token := JsToken {
  jt_init : bool; jt_akind : account_kind; jt_kind : js_kind; jt_dlimit : bytes; jt_wlimit : bytes; jt_wdlimit : bytes;
  jt_wdamount : bytes; jt_wepoch : bytes; jt_emergency : bool; jt_name : bytes; jt_symbol : bytes; jt_fee_supply : Z;
  jt_fee_dep : fee_info; jt_fee_wdr : fee_info }.
Definition js_unpack_token_settings (d : bytes) : res js_token :=
  t <~ unpack c_token_settings TP_LEN tk_init d ;
  Ok (JsToken (tk_init t) (tk_akind t) (js_kind_of (tk_kind t)) (string_of_num (tk_dlimit t)) (string_of_num (tk_wlimit t))
        (string_of_num (tk_wdlimit t)) (string_of_num (tk_wdamount t)) (string_of_i64 (tk_wepoch t)) (tk_emergency t)
        (tk_name t) (tk_symbol t) (tk_fee_supply t) (tk_fee_dep t) (tk_fee_wdr t)).

(** wasm/src/lib.rs:1658-1672 (Ever), 1674-1688 (Solana), 1741-1760: event and seed of a deposit *)
Definition js_unpack_deposit_ever (d : bytes) : res (withlen dever_event * bytes) :=
  x <~ unpack c_dever TP_LEN d_init d ;
  Ok (d_event x, string_of_num (wl_data (d_meta x))).
Definition js_unpack_deposit_sol (d : bytes) : res (withlen dsol_event * bytes) :=
  x <~ unpack c_dsol TP_LEN d_init d ;
  Ok (d_event x, string_of_num (wl_data (d_meta x))).

(** ** round-loader/src/wasm.rs *)

(** round-loader/src/wasm.rs:18-24 *)
Definition js_relay_round_address (e : env) (round : Z) : res key := rl_round_addr e round.

(** round-loader/src/wasm.rs:26-67 *)
Definition js_rl_initialize (e : env) (funder initializer : bytes) (genesis : Z) (submitter : bytes)
  (min_votes ttl : Z) : res instr :=
  funder <~ jkey funder ;
  initializer <~ jkey initializer ;
  submitter <~ jkey submitter ;
  settings <~ rl_settings_addr e ;
  programdata <~ rl_programdata e ;
  rl_build [mw funder true; mw initializer true; mw settings false; mr programdata false; mr sys_id false;
            mr rent_id false]
    (RlInitialize genesis submitter min_votes ttl).

(** round-loader/src/wasm.rs:69-109 *)
Definition js_rl_update_settings (e : env) (author : bytes) (current : option Z) (submitter : option bytes)
  (min_votes ttl : option Z) : res instr :=
  author <~ jkey author ;
  settings <~ rl_settings_addr e ;
  programdata <~ rl_programdata e ;
  submitter <~ match submitter with Some s => k <~ jkey s ; Ok (Some k) | None => Ok None end ;
  rl_build [mw author true; mw settings false; mr programdata false]
    (RlUpdateSettings current submitter min_votes ttl).

(** round-loader/src/wasm.rs:127-131: [map(|x| Pubkey::from_str(x).unwrap()).collect()] *)
Fixpoint js_relays (l : list bytes) : res (list key) :=
  match l with
  | [] => Ok []
  | s :: r => k <~ ok_or (key_of_string s) Panic ; ks <~ js_relays r ; Ok (k :: ks)
  end.

(** round-loader/src/wasm.rs:111-155 *)
Definition js_rl_create_relay_round (e : env) (funder creator : bytes) (round round_end : Z) (relays : list bytes)
  : res instr :=
  funder <~ jkey funder ;
  creator <~ jkey creator ;
  settings <~ rl_settings_addr e ;
  rr <~ rl_round_addr e round ;
  relays <~ js_relays relays ;
  rl_build [mw funder true; mw creator true; mw settings false; mw rr false; mr sys_id false; mr rent_id false]
    (RlCreateRelayRound round relays round_end).

(** round-loader/src/wasm.rs:157-189 *)
Definition js_rl_execute (e : env) (funder proposal : bytes) (round : Z) : res instr :=
  funder <~ jkey funder ;
  proposal <~ jkey proposal ;
  settings <~ rl_settings_addr e ;
  rr <~ rl_round_addr e round ;
  rl_build [mw funder true; mw settings false; mw proposal false; mw rr false; mr sys_id false; mr rent_id false]
    RlExecute.

(** round-loader/src/wasm.rs:191-226 *)
Definition js_rl_execute_by_admin (e : env) (funder creator proposal : bytes) (round : Z) : res instr :=
  funder <~ jkey funder ;
  creator <~ jkey creator ;
  proposal <~ jkey proposal ;
  settings <~ rl_settings_addr e ;
  rr <~ rl_round_addr e round ;
  rl_build [mw funder true; mw creator true; mw settings false; mw proposal false; mw rr false; mr sys_id false;
            mr rent_id false]
    RlExecuteByAdmin.
