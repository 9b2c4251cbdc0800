(** The client side: token-proxy/src/bindings.rs, round-loader/src/bindings.rs, native-proxy/src/bindings.rs and
    solana-bridge/src/instructions.rs, function by function.

    A builder yields an [Instruction]; it panics only if no bump seed gives an address.  References are passed as
    values.  [try_to_vec().expect("pack")] does not fail on a vector. *)

From Verif Require Export NativeProxy.
Open Scope Z_scope.

(** [AccountMeta::new] and [AccountMeta::new_readonly] *)
Definition mw (k : key) (sg : bool) : meta := Meta k sg true.
Definition mr (k : key) (sg : bool) : meta := Meta k sg false.

Notation "x <~ r ; k" := (rbind r (fun x => k)) (at level 61, r at next level, right associativity).

(** [Pubkey::find_program_address(...).0] *)
Definition addr (e : env) (sd : bytes) (pid : key) : res key := fst_r (find_pda e sd pid).

(** ** token-proxy/src/bindings.rs *)

(** token-proxy/src/bindings.rs:11-14; bridge-utils/src/helper.rs:8-10 *)
Definition tp_programdata (e : env) : res key := addr e (sd_programdata tp_id) loader_id.
(** token-proxy/src/bindings.rs:16-19 *)
Definition tp_settings_addr (e : env) : res key := addr e sd_settings tp_id.
(** token-proxy/src/bindings.rs:21-24 *)
Definition tp_multivault_addr (e : env) : res key := addr e sd_multivault tp_id.
(** token-proxy/src/bindings.rs:26-29 *)
Definition tp_token_ever_addr (e : env) (token : ever) : res key := addr e (sd_ts_ever (token_hash e token)) tp_id.
(** token-proxy/src/bindings.rs:31-34 *)
Definition tp_token_sol_addr (e : env) (mint : key) : res key := addr e (sd_ts_sol mint) tp_id.
(** token-proxy/src/bindings.rs:36-39 *)
Definition tp_mint_addr (e : env) (token : ever) : res key := addr e (sd_mint (token_hash e token)) tp_id.
(** token-proxy/src/bindings.rs:41-44 *)
Definition tp_vault_addr (e : env) (mint : key) : res key := addr e (sd_vault mint) tp_id.
(** token-proxy/src/bindings.rs:46-49 *)
Definition tp_deposit_addr (e : env) (seed : Z) : res key := addr e (sd_deposit seed) tp_id.
(** token-proxy/src/bindings.rs:51-54 *)
Definition tp_proxy_addr (e : env) (mint recipient : key) : res key := addr e (sd_proxy mint recipient) tp_id.
(** token-proxy/src/bindings.rs:56-95 *)
Definition tp_withdrawal_ever_addr (e : env) (round ts lt : Z) (conf : key) (ev : wever_event) : res key :=
  addr e (sd_proposal round ts lt conf (e_hash e (enc c_wever_event ev))) tp_id.
(** token-proxy/src/bindings.rs:97-130 *)
Definition tp_withdrawal_sol_addr (e : env) (round ts lt : Z) (conf : key) (ev : wsol_event) : res key :=
  addr e (sd_proposal round ts lt conf (e_hash e (enc c_wsol_event ev))) tp_id.

(** bridge-utils/src/helper.rs:12-18 with the round loader's id *)
Definition rl_settings_addr (e : env) : res key := addr e sd_settings rl_id.
Definition rl_round_addr (e : env) (round : Z) : res key := addr e (sd_relay_round round) rl_id.

(** spl_associated_token_account::get_associated_token_address *)
Definition ata_addr (e : env) (wallet mint : key) : res key := addr e (ata_seeds wallet mint) ata_id.

(** An instruction for the token proxy. *)
Definition tp_build (ms : list meta) (i : tp_ix) : res instr := Ok (Instr tp_id ms (enc c_tp_ix i)).

(** token-proxy/src/bindings.rs:132-164 *)
Definition initialize_settings_ix (e : env) (funder initializer guardian manager wmanager : key) : res instr :=
  settings <~ tp_settings_addr e ;
  programdata <~ tp_programdata e ;
  multivault <~ tp_multivault_addr e ;
  tp_build [mw funder true; mw initializer true; mw settings false; mw multivault false; mr programdata false;
            mr sys_id false; mr rent_id false]
    (TpInitialize guardian manager wmanager).

(** token-proxy/src/bindings.rs:166-213 *)
Definition deposit_multi_token_ever_ix (e : env) (funder author author_token : key) (token : ever) (seed amount : Z)
  (recipient : ever) (value : Z) (evers : key) (payload : bytes) : res instr :=
  mint <~ tp_mint_addr e token ;
  settings <~ tp_settings_addr e ;
  multivault <~ tp_multivault_addr e ;
  tsk <~ tp_token_ever_addr e token ;
  deposit <~ tp_deposit_addr e seed ;
  tp_build [mw funder true; mw author true; mw author_token false; mw deposit false; mw mint false;
            mw multivault false; mw tsk false; mr settings false; mr sys_id false; mr spl_id false;
            mr rent_id false]
    (TpDepositEver seed amount recipient value evers payload).

(** token-proxy/src/bindings.rs:215-268 *)
Definition deposit_multi_token_sol_ix (e : env) (funder author author_token mint : key) (seed : Z)
  (name symbol : bytes) (amount : Z) (recipient : ever) (value : Z) (evers : key) (payload : bytes) : res instr :=
  vault <~ tp_vault_addr e mint ;
  settings <~ tp_settings_addr e ;
  multivault <~ tp_multivault_addr e ;
  tsk <~ tp_token_sol_addr e mint ;
  deposit <~ tp_deposit_addr e seed ;
  tp_build [mw funder true; mw author true; mw author_token false; mw vault false; mw deposit false; mw mint false;
            mw multivault false; mw tsk false; mr settings false; mr sys_id false; mr spl_id false;
            mr rent_id false]
    (TpDepositSol seed name symbol amount recipient value evers payload).

(** token-proxy/src/bindings.rs:316-323, 392-398: the three accounts added for a payload *)
Definition proxy_metas (e : env) (payload : bytes) (mintr : res key) (recipient : key) : res (list meta) :=
  if nil_b payload then Ok []
  else mint <~ mintr ;
       proxy <~ tp_proxy_addr e mint recipient ;
       Ok [mw proxy false; mw mint false; mw spl_id false].

(** token-proxy/src/bindings.rs:270-346 *)
Definition withdrawal_multi_token_ever_request_ix (e : env) (funder author : key) (round ts lt : Z) (conf : key)
  (token : ever) (name symbol : bytes) (decimals : Z) (recipient : key) (amount : Z) (payload : bytes)
  (attached : Z) : res instr :=
  withdrawal <~ tp_withdrawal_ever_addr e round ts lt conf
                  (WEverEvent token name symbol decimals amount recipient payload) ;
  rls <~ rl_settings_addr e ;
  rr <~ rl_round_addr e round ;
  extra <~ proxy_metas e payload (tp_mint_addr e token) recipient ;
  tp_build ([mw funder true; mw author true; mw withdrawal false; mr rls false; mr rr false; mr sys_id false;
             mr rent_id false; mr clock_id false] ++ extra)
    (TpWithdrawEverRequest ts lt conf token name symbol decimals recipient amount payload attached).

(** token-proxy/src/bindings.rs:348-417 *)
Definition withdrawal_multi_token_sol_request_ix (e : env) (funder author : key) (ts lt : Z) (conf mint : key)
  (round : Z) (recipient : key) (amount : Z) (payload : bytes) (attached : Z) : res instr :=
  withdrawal <~ tp_withdrawal_sol_addr e round ts lt conf (WSolEvent mint amount recipient payload) ;
  tsk <~ tp_token_sol_addr e mint ;
  rls <~ rl_settings_addr e ;
  rr <~ rl_round_addr e round ;
  extra <~ proxy_metas e payload (Ok mint) recipient ;
  tp_build ([mw funder true; mw author true; mw withdrawal false; mr tsk false; mr rls false; mr rr false;
             mr sys_id false; mr rent_id false; mr clock_id false] ++ extra)
    (TpWithdrawSolRequest ts lt conf recipient amount payload attached).

(** token-proxy/src/bindings.rs:419-441 *)
Definition vote_for_withdrawal_request_ix (e : env) (voter withdrawal : key) (round : Z) (v : vote) : res instr :=
  rr <~ rl_round_addr e round ;
  tp_build [mw voter true; mw withdrawal false; mr rr false] (TpVote v).

(** token-proxy/src/bindings.rs:443-471 *)
Definition withdrawal_ever_ix (e : env) (withdrawal recipient_token : key) (token : ever) : res instr :=
  settings <~ tp_settings_addr e ;
  mint <~ tp_mint_addr e token ;
  tsk <~ tp_token_ever_addr e token ;
  tp_build [mw withdrawal false; mw mint false; mw recipient_token false; mw tsk false; mr settings false;
            mr sys_id false; mr spl_id false; mr rent_id false; mr clock_id false]
    TpWithdrawEver.

(** token-proxy/src/bindings.rs:473-503 *)
Definition withdrawal_ever_with_payload_ix (e : env) (withdrawal recipient : key) (token : ever) : res instr :=
  settings <~ tp_settings_addr e ;
  mint <~ tp_mint_addr e token ;
  tsk <~ tp_token_ever_addr e token ;
  proxy <~ tp_proxy_addr e mint recipient ;
  tp_build [mw withdrawal false; mw mint false; mw proxy false; mw tsk false; mr settings false;
            mr sys_id false; mr spl_id false; mr rent_id false; mr clock_id false]
    TpWithdrawEver.

(** token-proxy/src/bindings.rs:505-541 *)
Definition create_ever_token_ix (e : env) (funder withdrawal recipient : key) (token : ever) : res instr :=
  settings <~ tp_settings_addr e ;
  mint <~ tp_mint_addr e token ;
  tsk <~ tp_token_ever_addr e token ;
  rt <~ ata_addr e recipient mint ;
  tp_build [mw withdrawal false; mw mint false; mw rt false; mw tsk false; mr settings false;
            mr sys_id false; mr spl_id false; mr rent_id false; mr clock_id false;
            mw funder true; mr recipient false; mr ata_id false]
    TpWithdrawEver.

(** token-proxy/src/bindings.rs:543-582 *)
Definition create_ever_token_with_payload_ix (e : env) (funder withdrawal recipient : key) (token : ever)
  : res instr :=
  settings <~ tp_settings_addr e ;
  mint <~ tp_mint_addr e token ;
  tsk <~ tp_token_ever_addr e token ;
  proxy <~ tp_proxy_addr e mint recipient ;
  rt <~ ata_addr e recipient mint ;
  tp_build [mw withdrawal false; mw mint false; mw proxy false; mw tsk false; mr settings false;
            mr sys_id false; mr spl_id false; mr rent_id false; mr clock_id false;
            mw funder true; mw rt false; mr recipient false; mr ata_id false]
    TpWithdrawEver.

(** token-proxy/src/bindings.rs:584-611 *)
Definition withdrawal_sol_ix (e : env) (withdrawal recipient_token mint : key) : res instr :=
  settings <~ tp_settings_addr e ;
  vault <~ tp_vault_addr e mint ;
  tsk <~ tp_token_sol_addr e mint ;
  tp_build [mw withdrawal false; mw vault false; mw recipient_token false; mw tsk false; mr mint false;
            mr settings false; mr spl_id false; mr clock_id false]
    TpWithdrawSol.

(** token-proxy/src/bindings.rs:613-642 *)
Definition withdrawal_sol_with_payload_ix (e : env) (withdrawal recipient mint : key) : res instr :=
  settings <~ tp_settings_addr e ;
  vault <~ tp_vault_addr e mint ;
  tsk <~ tp_token_sol_addr e mint ;
  proxy <~ tp_proxy_addr e mint recipient ;
  tp_build [mw withdrawal false; mw vault false; mw proxy false; mw tsk false; mr mint false;
            mr settings false; mr spl_id false; mr clock_id false]
    TpWithdrawSol.

(** The account list shared by token-proxy/src/bindings.rs:644-661, 663-680, 682-701, 820-837 and 839-856 *)
Definition owner_settings_ix (e : env) (owner : key) (i : tp_ix) : res instr :=
  settings <~ tp_settings_addr e ;
  programdata <~ tp_programdata e ;
  tp_build [mw owner true; mw settings false; mr programdata false] i.
(** token-proxy/src/bindings.rs:644-661 *)
Definition change_guardian_ix (e : env) (owner new : key) : res instr := owner_settings_ix e owner (TpChangeGuardian new).
(** token-proxy/src/bindings.rs:663-680 *)
Definition change_manager_ix (e : env) (owner new : key) : res instr := owner_settings_ix e owner (TpChangeManager new).
(** token-proxy/src/bindings.rs:682-701 *)
Definition change_withdrawal_manager_ix (e : env) (owner new : key) : res instr :=
  owner_settings_ix e owner (TpChangeWithdrawalManager new).
(** token-proxy/src/bindings.rs:820-837 *)
Definition enable_emergency_by_owner_ix (e : env) (owner : key) : res instr := owner_settings_ix e owner TpEnableEmergency.
(** token-proxy/src/bindings.rs:839-856 *)
Definition disable_emergency_ix (e : env) (owner : key) : res instr := owner_settings_ix e owner TpDisableEmergency.

(** token-proxy/src/bindings.rs:803-818 *)
Definition enable_emergency_ix (e : env) (guardian : key) : res instr :=
  settings <~ tp_settings_addr e ;
  tp_build [mw guardian true; mw settings false] TpEnableEmergency.

(** The account list shared by token-proxy/src/bindings.rs:703-723, 725-749, 858-877, 985-1011 and 1013-1034 *)
Definition role_token_ix (e : env) (role tsk : key) (i : tp_ix) : res instr :=
  settings <~ tp_settings_addr e ;
  tp_build [mw role true; mw tsk false; mr settings false] i.
(** The account list shared by token-proxy/src/bindings.rs:751-773, 775-801, 879-900 and 902-923 *)
Definition owner_token_ix (e : env) (owner tsk : key) (i : tp_ix) : res instr :=
  settings <~ tp_settings_addr e ;
  programdata <~ tp_programdata e ;
  tp_build [mw owner true; mw tsk false; mr settings false; mr programdata false] i.
(** token-proxy/src/bindings.rs:703-723 *)
Definition change_deposit_limit_ix (e : env) (manager tsk : key) (limit : Z) : res instr :=
  role_token_ix e manager tsk (TpChangeDepositLimit limit).
(** token-proxy/src/bindings.rs:725-749 *)
Definition change_withdrawal_limits_ix (e : env) (manager tsk : key) (limit daily : option Z) : res instr :=
  role_token_ix e manager tsk (TpChangeWithdrawalLimits limit daily).
(** token-proxy/src/bindings.rs:751-773 *)
Definition change_deposit_limit_by_owner_ix (e : env) (owner tsk : key) (limit : Z) : res instr :=
  owner_token_ix e owner tsk (TpChangeDepositLimit limit).
(** token-proxy/src/bindings.rs:775-801 *)
Definition change_withdrawal_limits_by_owner_ix (e : env) (owner tsk : key) (limit daily : option Z) : res instr :=
  owner_token_ix e owner tsk (TpChangeWithdrawalLimits limit daily).
(** token-proxy/src/bindings.rs:858-877 *)
Definition enable_emergency_token_ix (e : env) (guardian tsk : key) : res instr :=
  role_token_ix e guardian tsk TpEnableTokenEmergency.
(** token-proxy/src/bindings.rs:879-900 *)
Definition enable_emergency_token_by_owner_ix (e : env) (owner tsk : key) : res instr :=
  owner_token_ix e owner tsk TpEnableTokenEmergency.
(** token-proxy/src/bindings.rs:902-923 *)
Definition disable_emergency_token_ix (e : env) (owner tsk : key) : res instr :=
  owner_token_ix e owner tsk TpDisableTokenEmergency.
(** token-proxy/src/bindings.rs:985-1011 *)
Definition update_fee_ix (e : env) (authority tsk : key) (t : fee_type) (mul div : Z) : res instr :=
  role_token_ix e authority tsk (TpUpdateFee t mul div).
(** token-proxy/src/bindings.rs:1013-1034 *)
Definition update_token_name_ix (e : env) (authority tsk : key) (symbol name : bytes) : res instr :=
  role_token_ix e authority tsk (TpUpdateTokenName symbol name).

(** token-proxy/src/bindings.rs:925-953 *)
Definition approve_withdrawal_ever_ix (e : env) (authority withdrawal recipient_token mint : key) (token : ever)
  : res instr :=
  settings <~ tp_settings_addr e ;
  tsk <~ tp_token_ever_addr e token ;
  tp_build [mw authority true; mw mint false; mw withdrawal false; mw recipient_token false; mw tsk false;
            mr settings false; mr spl_id false; mr clock_id false]
    TpApproveEver.

(** token-proxy/src/bindings.rs:955-983 *)
Definition approve_withdrawal_sol_ix (e : env) (authority withdrawal recipient_token mint : key) : res instr :=
  settings <~ tp_settings_addr e ;
  vault <~ tp_vault_addr e mint ;
  tsk <~ tp_token_sol_addr e mint ;
  tp_build [mw authority true; mw vault false; mw withdrawal false; mw recipient_token false; mw tsk false;
            mr settings false; mr spl_id false; mr clock_id false]
    TpApproveSol.

(** token-proxy/src/bindings.rs:1036-1062 *)
Definition withdrawal_ever_fee_ix (e : env) (authority mint recipient_token : key) (token : ever) (amount : Z)
  : res instr :=
  settings <~ tp_settings_addr e ;
  tsk <~ tp_token_ever_addr e token ;
  tp_build [mw authority true; mw mint false; mw recipient_token false; mw tsk false; mr settings false;
            mr spl_id false]
    (TpWithdrawEverFee amount).

(** token-proxy/src/bindings.rs:1064-1090 *)
Definition withdrawal_sol_fee_ix (e : env) (authority recipient_token mint : key) (amount : Z) : res instr :=
  settings <~ tp_settings_addr e ;
  vault <~ tp_vault_addr e mint ;
  tsk <~ tp_token_sol_addr e mint ;
  tp_build [mw authority true; mw vault false; mw tsk false; mw recipient_token false; mr settings false;
            mr spl_id false]
    (TpWithdrawSolFee amount).

(** token-proxy/src/bindings.rs:1092-1109 *)
Definition change_bounty_for_withdrawal_sol_ix (e : env) (author withdrawal : key) (bounty : Z) : res instr :=
  tp_build [mw author true; mw withdrawal false] (TpChangeBounty bounty).

(** token-proxy/src/bindings.rs:1111-1153 *)
Definition cancel_withdrawal_sol_ix (e : env) (funder author withdrawal mint : key) (seed : Z) (recipient : ever)
  (value : Z) (evers : key) (payload : bytes) : res instr :=
  settings <~ tp_settings_addr e ;
  multivault <~ tp_multivault_addr e ;
  deposit <~ tp_deposit_addr e seed ;
  tsk <~ tp_token_sol_addr e mint ;
  tp_build [mw funder true; mw author true; mw mint false; mw withdrawal false; mw deposit false; mr settings false;
            mr tsk false; mr sys_id false; mr rent_id false; mw multivault false]
    (TpCancel seed recipient value evers payload).

(** token-proxy/src/bindings.rs:1201-1207: two accounts per withdrawal *)
Fixpoint fill_metas (e : env) (mint : key) (l : list (key * key)) : res (list meta) :=
  match l with
  | [] => Ok []
  | (withdrawal, to) :: r =>
    rt <~ ata_addr e to mint ;
    ms <~ fill_metas e mint r ;
    Ok (mw withdrawal false :: mw rt false :: ms)
  end.

(** token-proxy/src/bindings.rs:1155-1218 *)
Definition fill_withdrawal_sol_ix (e : env) (funder author mint : key) (seed : Z) (recipient : ever) (amount : Z)
  (withdrawals : list (key * key)) (vault : option key) (value : Z) (evers : key) (payload : bytes) : res instr :=
  author_token <~ ata_addr e author mint ;
  settings <~ tp_settings_addr e ;
  multivault <~ tp_multivault_addr e ;
  deposit <~ tp_deposit_addr e seed ;
  tsk <~ tp_token_sol_addr e mint ;
  ms <~ fill_metas e mint withdrawals ;
  tp_build ([mw funder true; mw author true; mw author_token false; mw mint false; mw deposit false;
             mr settings false; mr sys_id false; mr tsk false; mr spl_id false; mr rent_id false;
             mw multivault false] ++ ms ++ match vault with Some v => [mw v false] | None => [] end)
    (TpFill seed recipient amount value evers payload).

(** token-proxy/src/bindings.rs:1220-1243 *)
Definition withdrawal_proxy_ix (e : env) (recipient recipient_token mint : key) (amount : Z) : res instr :=
  proxy <~ tp_proxy_addr e mint recipient ;
  tp_build [mw recipient true; mw recipient_token false; mw proxy false; mr mint false; mr spl_id false]
    (TpWithdrawProxy amount).

(** token-proxy/src/bindings.rs:1245-1258 *)
Definition close_deposit_ix (e : env) (author deposit : key) : res instr :=
  tp_build [mw author true; mw deposit false] TpCloseDeposit.

(** token-proxy/src/bindings.rs:1260-1276 *)
Definition close_withdrawal_ix (e : env) (withdrawal author : key) : res instr :=
  tp_build [mw withdrawal false; mw author false] TpCloseWithdrawal.

(** token-proxy/src/bindings.rs:1278-1301 *)
Definition withdrawal_multi_vault_ix (e : env) (authority recipient : key) (amount : Z) : res instr :=
  settings <~ tp_settings_addr e ;
  multivault <~ tp_multivault_addr e ;
  tp_build [mw authority true; mw recipient false; mw multivault false; mr settings false; mr sys_id false]
    (TpWithdrawMultiVault amount).

(** ** round-loader/src/bindings.rs *)

(** round-loader/src/bindings.rs:11-14 *)
Definition rl_programdata (e : env) : res key := addr e (sd_programdata rl_id) loader_id.
(** round-loader/src/bindings.rs:26-45 *)
Definition rl_proposal_address (e : env) (round ts lt : Z) (conf : key) (event : bytes) : res key :=
  addr e (sd_proposal round ts lt conf (e_hash e event)) rl_id.

Definition rl_build (ms : list meta) (i : rl_ix) : res instr := Ok (Instr rl_id ms (enc c_rl_ix i)).

(** round-loader/src/bindings.rs:47-79 *)
Definition rl_initialize_ix (e : env) (funder initializer : key) (genesis : Z) (submitter : key) (min_votes ttl : Z)
  : res instr :=
  settings <~ rl_settings_addr e ;
  programdata <~ rl_programdata e ;
  rl_build [mw funder true; mw initializer true; mw settings false; mr programdata false; mr sys_id false;
            mr rent_id false]
    (RlInitialize genesis submitter min_votes ttl).

(** round-loader/src/bindings.rs:81-109 *)
Definition rl_update_settings_ix (e : env) (author : key) (current : option Z) (submitter : option key)
  (min_votes ttl : option Z) : res instr :=
  settings <~ rl_settings_addr e ;
  programdata <~ rl_programdata e ;
  rl_build [mw author true; mw settings false; mr programdata false] (RlUpdateSettings current submitter min_votes ttl).

(** round-loader/src/bindings.rs:111-141 *)
Definition rl_create_relay_round_ix (e : env) (funder creator : key) (round round_end : Z) (relays : list key)
  : res instr :=
  settings <~ rl_settings_addr e ;
  rr <~ rl_round_addr e round ;
  rl_build [mw funder true; mw creator true; mw settings false; mw rr false; mr sys_id false; mr rent_id false]
    (RlCreateRelayRound round relays round_end).

(** round-loader/src/bindings.rs:143-183 *)
Definition rl_create_proposal_ix (e : env) (funder creator : key) (round ts lt : Z) (conf : key) (event : bytes)
  : res instr :=
  proposal <~ rl_proposal_address e round ts lt conf event ;
  rl_build [mw funder true; mw creator true; mw proposal false; mr sys_id false; mr rent_id false]
    (RlCreateProposal round ts lt conf (e_hash e event)).

(** round-loader/src/bindings.rs:185-195 *)
Definition rl_write_proposal_ix (e : env) (proposal : key) (offset : Z) (b : bytes) : res instr :=
  rl_build [mw proposal false] (RlWriteProposal offset b).

(** round-loader/src/bindings.rs:197-220 *)
Definition rl_finalize_proposal_ix (e : env) (funder proposal : key) (round : Z) : res instr :=
  settings <~ rl_settings_addr e ;
  rr <~ rl_round_addr e round ;
  rl_build [mw funder true; mw proposal false; mr settings false; mr rr false; mr sys_id false] RlFinalize.

(** round-loader/src/bindings.rs:222-243 *)
Definition rl_vote_for_proposal_ix (e : env) (voter proposal : key) (round : Z) (v : vote) : res instr :=
  rr <~ rl_round_addr e round ;
  rl_build [mw voter true; mw proposal false; mr rr false] (RlVote v).

(** round-loader/src/bindings.rs:245-269 *)
Definition rl_execute_proposal_ix (e : env) (funder proposal : key) (round : Z) : res instr :=
  settings <~ rl_settings_addr e ;
  rr <~ rl_round_addr e round ;
  rl_build [mw funder true; mw settings false; mw proposal false; mw rr false; mr sys_id false; mr rent_id false]
    RlExecute.

(** round-loader/src/bindings.rs:271-297 *)
Definition rl_execute_proposal_by_admin_ix (e : env) (funder creator proposal : key) (round : Z) : res instr :=
  settings <~ rl_settings_addr e ;
  rr <~ rl_round_addr e round ;
  rl_build [mw funder true; mw creator true; mw settings false; mw proposal false; mw rr false; mr sys_id false;
            mr rent_id false]
    RlExecuteByAdmin.

(** ** native-proxy/src/bindings.rs:9-62 *)
Definition np_deposit_ix (e : env) (funder author : key) (seed amount : Z) (recipient : ever) (value : Z)
  (evers : key) (payload : bytes) : res instr :=
  author_token <~ ata_addr e author native_mint ;
  vault <~ tp_vault_addr e native_mint ;
  settings <~ tp_settings_addr e ;
  multivault <~ tp_multivault_addr e ;
  tsk <~ tp_token_sol_addr e native_mint ;
  deposit <~ tp_deposit_addr e seed ;
  Ok (Instr np_id
        [mw funder true; mw author true; mw author_token false; mw vault false; mw deposit false;
         mw native_mint false; mw multivault false; mw tsk false; mr settings false; mr sys_id false;
         mr spl_id false; mr rent_id false; mr tp_id false; mr ata_id false]
        (enc c_np_ix (NpDeposit seed amount recipient value evers payload))).

(** ** solana-bridge/src/instructions.rs *)

(** solana-bridge/src/instructions.rs:8-14 ([VoteForProposal]): the data of the generic vote *)
Definition g_vote_data (instruction : Z) (v : vote) : bytes := enc (c_u8 ** c_vote) (instruction, v).
(** solana-bridge/src/instructions.rs:16-20, 22-26 ([ExecuteProposal], [ExecutePayload]) *)
Definition g_execute_data (instruction : Z) : bytes := enc c_u8 instruction.

(** solana-bridge/src/instructions.rs:28-51 *)
Definition g_vote_ix (e : env) (pid : key) (instruction : Z) (voter proposal : key) (round : Z) (v : vote)
  : res instr :=
  rr <~ rl_round_addr e round ;
  Ok (Instr pid [mw voter true; mw proposal false; mr rr false] (g_vote_data instruction v)).

(** solana-bridge/src/instructions.rs:67-73, 97-103: (account, read_only, is_signer) to a meta *)
Definition g_meta (t : key * bool * bool) : meta :=
  let '(k, read_only, is_signer) := t in if negb read_only then mw k is_signer else mr k is_signer.

(** solana-bridge/src/instructions.rs:53-81 *)
Definition g_execute_ix (e : env) (pid : key) (instruction : Z) (proposal : key) (accounts : list (key * bool * bool))
  : res instr :=
  Ok (Instr pid (map g_meta ((proposal, false, false) :: accounts)) (g_execute_data instruction)).

(** solana-bridge/src/instructions.rs:83-111 *)
Definition g_execute_payload_ix (e : env) (pid : key) (instruction : Z) (proposal : key)
  (accounts : list (key * bool * bool)) : res instr :=
  Ok (Instr pid (map g_meta ((proposal, false, false) :: accounts)) (g_execute_data instruction)).

(** solana-bridge/src/instructions.rs:113-171 *)
Definition g_withdrawal_ever_request_ix (e : env) (pid creator withdrawal : key) (round ts lt : Z) (conf : key)
  (ev : wever_event) (attached : Z) : res instr :=
  rls <~ rl_settings_addr e ;
  rr <~ rl_round_addr e round ;
  extra <~ proxy_metas e (wee_payload ev) (tp_mint_addr e (wee_token ev)) (wee_recipient ev) ;
  Ok (Instr pid
        ([mw creator true; mw creator true; mw withdrawal false; mr rls false; mr rr false; mr sys_id false;
          mr rent_id false; mr clock_id false] ++ extra)
        (enc c_tp_ix (TpWithdrawEverRequest ts lt conf (wee_token ev) (wee_name ev) (wee_symbol ev) (wee_decimals ev)
           (wee_recipient ev) (wee_amount ev) (wee_payload ev) attached))).

(** solana-bridge/src/instructions.rs:173-230 *)
Definition g_withdrawal_sol_request_ix (e : env) (pid creator withdrawal : key) (round ts lt : Z) (conf : key)
  (ev : wsol_event) (attached : Z) : res instr :=
  tsk <~ addr e (sd_ts_sol (wse_mint ev)) pid ;
  rls <~ rl_settings_addr e ;
  rr <~ rl_round_addr e round ;
  extra <~ proxy_metas e (wse_payload ev) (Ok (wse_mint ev)) (wse_recipient ev) ;
  Ok (Instr pid
        ([mw creator true; mw creator true; mw withdrawal false; mr tsk false; mr rls false; mr rr false;
          mr sys_id false; mr rent_id false; mr clock_id false] ++ extra)
        (enc c_tp_ix (TpWithdrawSolRequest ts lt conf (wse_recipient ev) (wse_amount ev) (wse_payload ev) attached))).
