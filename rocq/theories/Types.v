(** Record and instruction types of the programs with their Borsh codecs.

    A Rust struct is a Coq record with the fields in the same order; its codec is the sequence of
    the field codecs.  A Rust enum is an inductive type; its codec writes the declaration index as a
    byte followed by the fields.  Structs that only differ in the type of the event are instances of
    one parametric record; the citation names each of them. *)

From Verif Require Export Codec.

(** ** bridge-utils *)

(** bridge-utils/src/types.rs:10-17 *)
Inductive vote := VNone | VConfirm | VReject.

Definition c_vote : codec vote := Codec
  (fun v => match v with VNone => [x00] | VConfirm => [x01] | VReject => [x02] end)
  (dec_enum [alt c_unit (fun _ => VNone); alt c_unit (fun _ => VConfirm);
             alt c_unit (fun _ => VReject)])
  (fun _ => true).

(** Rust [==] on Vote (derived). *)
Definition vote_eqb (a b : vote) : bool :=
  match a, b with
  | VNone, VNone | VConfirm, VConfirm | VReject, VReject => true
  | _, _ => false
  end.

(** bridge-utils/src/types.rs:19-24 (enum EverAddress with its only variant AddrStd) and 61-67
    (struct MsgAddrStd): workchain i8 and 32-byte address. *)
Record ever := AddrStd { ev_wc : Z; ev_addr : key }.

Definition c_ever : codec ever := Codec
  (fun a => x00 :: enc (c_i8 ** c_key) (ev_wc a, ev_addr a))
  (dec_enum [alt (c_i8 ** c_key) (fun '(w, k) => AddrStd w k)])
  (fun a => okb (c_i8 ** c_key) (ev_wc a, ev_addr a)).

(** bridge-utils/src/state.rs:43-62 *)
Inductive account_kind :=
| KSettings (a b : Z)
| KDeposit (a : Z)
| KProposal (a : Z) (p : option Z)
| KRelayRound (a : Z)
| KMultiVault (a : Z)
| KTokenSettings (a b : Z).

Definition c_kind : codec account_kind := Codec
  (fun k => match k with
            | KSettings a b => x00 :: enc (c_u8 ** c_u8) (a, b)
            | KDeposit a => x01 :: enc c_u8 a
            | KProposal a p => x02 :: enc (c_u8 ** c_option c_u8) (a, p)
            | KRelayRound a => x03 :: enc c_u8 a
            | KMultiVault a => x04 :: enc c_u8 a
            | KTokenSettings a b => x05 :: enc (c_u8 ** c_u8) (a, b)
            end)
  (dec_enum [alt (c_u8 ** c_u8) (fun '(a, b) => KSettings a b);
             alt c_u8 KDeposit;
             alt (c_u8 ** c_option c_u8) (fun '(a, p) => KProposal a p);
             alt c_u8 KRelayRound;
             alt c_u8 KMultiVault;
             alt (c_u8 ** c_u8) (fun '(a, b) => KTokenSettings a b)])
  (fun k => match k with
            | KSettings a b => okb (c_u8 ** c_u8) (a, b)
            | KDeposit a => okb c_u8 a
            | KProposal a p => okb (c_u8 ** c_option c_u8) (a, p)
            | KRelayRound a => okb c_u8 a
            | KMultiVault a => okb c_u8 a
            | KTokenSettings a b => okb (c_u8 ** c_u8) (a, b)
            end).

(** enum_as_inner accessors [into_settings] etc. (bridge-utils/src/state.rs:50), mapped by every
    caller to [SolanaBridgeError::InvalidTokenKind] (code 1). *)
Definition into_settings (k : account_kind) : res (Z * Z) :=
  match k with KSettings a b => Ok (a, b) | _ => Err (Custom 1) end.
Definition into_deposit (k : account_kind) : res Z :=
  match k with KDeposit a => Ok a | _ => Err (Custom 1) end.
Definition into_proposal (k : account_kind) : res (Z * option Z) :=
  match k with KProposal a p => Ok (a, p) | _ => Err (Custom 1) end.
Definition into_relay_round (k : account_kind) : res Z :=
  match k with KRelayRound a => Ok a | _ => Err (Custom 1) end.
Definition into_multi_vault (k : account_kind) : res Z :=
  match k with KMultiVault a => Ok a | _ => Err (Custom 1) end.
Definition into_token_settings (k : account_kind) : res (Z * Z) :=
  match k with KTokenSettings a b => Ok (a, b) | _ => Err (Custom 1) end.

(** bridge-utils/src/state.rs:36-41 *)
Record pda := Pda { pd_ts : Z; pd_lt : Z; pd_conf : key }.
Definition c_pda : codec pda := c_iso
  (fun '(a, (b, c)) => Pda a b c) (fun p => (pd_ts p, (pd_lt p, pd_conf p)))
  (c_u32 ** c_u64 ** c_key).

(** The [...WithLen] structs: a u32 length followed by the data (round-loader/src/state.rs:103-107,
    127-131; token-proxy/src/state.rs:179-183, 249-253, 283-287, 331-335, 398-402, 425-429). *)
Record withlen (A : Type) := WithLen { wl_len : Z; wl_data : A }.
Arguments WithLen {A} wl_len wl_data.
Arguments wl_len {A} w : rename.
Arguments wl_data {A} w : rename.
Definition c_withlen {A} (c : codec A) : codec (withlen A) := c_iso
  (fun '(n, x) => WithLen n x) (fun w => (wl_len w, wl_data w)) (c_u32 ** c).

(** The shape shared by RelayRoundProposal (round-loader/src/state.rs:74-86, event
    RelayRoundProposalEventWithLen, meta RelayRoundProposalMetaWithLen), WithdrawalMultiTokenEver
    (token-proxy/src/state.rs:298-310), WithdrawalMultiTokenSol (token-proxy/src/state.rs:368-380)
    and the kind-agnostic Proposal (bridge-utils/src/state.rs:10-21, event and meta [Vec<u8>]):
    the four structs have the same fields in the same order, E and M are the event and meta field
    types. *)
Record prop (E M : Type) := Prop_ {
  p_init : bool; p_kind : account_kind; p_author : key; p_round : Z; p_required : Z; p_pda : pda;
  p_event : E; p_meta : M; p_signers : list vote }.
Arguments Prop_ {E M} p_init p_kind p_author p_round p_required p_pda p_event p_meta p_signers.
Arguments p_init {E M} p : rename.
Arguments p_kind {E M} p : rename.
Arguments p_author {E M} p : rename.
Arguments p_round {E M} p : rename.
Arguments p_required {E M} p : rename.
Arguments p_pda {E M} p : rename.
Arguments p_event {E M} p : rename.
Arguments p_meta {E M} p : rename.
Arguments p_signers {E M} p : rename.

Definition c_prop {E M} (ce : codec E) (cm : codec M) : codec (prop E M) := c_iso
  (fun '(a, (b, (c, (d, (e, (f, (g, (h, i)))))))) => Prop_ a b c d e f g h i)
  (fun p => (p_init p, (p_kind p, (p_author p, (p_round p, (p_required p, (p_pda p, (p_event p,
             (p_meta p, p_signers p)))))))))
  (c_bool ** c_kind ** c_key ** c_u32 ** c_u32 ** c_pda ** ce ** cm ** c_vec c_vote).

(** bridge-utils/src/state.rs:10-21 *)
Definition gprop := prop bytes bytes.
Definition c_gprop : codec gprop := c_prop c_bytes c_bytes.

(** ** round-loader *)

(** round-loader/src/state.rs:37-46, packed length 100 *)
Record rl_settings := RlSettings {
  rs_init : bool; rs_kind : account_kind; rs_current : Z; rs_submitter : key; rs_min_votes : Z;
  rs_ttl : Z }.
Definition c_rl_settings : codec rl_settings := c_iso
  (fun '(a, (b, (c, (d, (e, f))))) => RlSettings a b c d e f)
  (fun s => (rs_init s, (rs_kind s, (rs_current s, (rs_submitter s, (rs_min_votes s, rs_ttl s))))))
  (c_bool ** c_kind ** c_u32 ** c_key ** c_u32 ** c_u32).
Definition RL_SETTINGS_LEN : Z := 100.

(** round-loader/src/state.rs:56-64, packed length 3215 *)
Record relay_round := RelayRound {
  rr_init : bool; rr_kind : account_kind; rr_number : Z; rr_end : Z; rr_relays : list key }.
Definition c_relay_round : codec relay_round := c_iso
  (fun '(a, (b, (c, (d, e)))) => RelayRound a b c d e)
  (fun s => (rr_init s, (rr_kind s, (rr_number s, (rr_end s, rr_relays s)))))
  (c_bool ** c_kind ** c_u32 ** c_u32 ** c_vec c_key).
Definition RELAY_ROUND_LEN : Z := 3215.

(** round-loader/src/state.rs:96-101 *)
Record rl_event := RlEvent { re_round : Z; re_relays : list key; re_end : Z }.
Definition c_rl_event : codec rl_event := c_iso
  (fun '(a, (b, c)) => RlEvent a b c) (fun s => (re_round s, (re_relays s, re_end s)))
  (c_u32 ** c_vec c_key ** c_u32).

(** round-loader/src/state.rs:150-156 *)
Inductive pstatus := PNew | PExecuted.
Definition c_pstatus : codec pstatus := Codec
  (fun v => match v with PNew => [x00] | PExecuted => [x01] end)
  (dec_enum [alt c_unit (fun _ => PNew); alt c_unit (fun _ => PExecuted)])
  (fun _ => true).
Definition pstatus_eqb (a b : pstatus) : bool :=
  match a, b with PNew, PNew | PExecuted, PExecuted => true | _, _ => false end.

(** round-loader/src/state.rs:74-86, packed length 3415; the meta data struct (122-125) has the
    status as its only field. *)
Definition rl_proposal := prop (withlen rl_event) (withlen pstatus).
Definition c_rl_proposal : codec rl_proposal := c_prop (c_withlen c_rl_event) (c_withlen c_pstatus).
Definition RL_PROPOSAL_LEN : Z := 3415.

(** round-loader/src/state.rs:17-32 *)
Definition LOAD_DATA_BEGIN : Z := 88.
Definition LOAD_DATA_END : Z := 88 + 4 + 4 + (4 + 32 * 100) + 4.

(** round-loader/src/instruction.rs:6-102 *)
Inductive rl_ix :=
| RlVote (v : vote)
| RlInitialize (genesis : Z) (submitter : key) (min_votes ttl : Z)
| RlUpdateSettings (current : option Z) (submitter : option key) (min_votes ttl : option Z)
| RlCreateRelayRound (round : Z) (relays : list key) (round_end : Z)
| RlCreateProposal (round ts lt : Z) (conf : key) (event_hash : key)
| RlWriteProposal (offset : Z) (data : bytes)
| RlFinalize
| RlExecute
| RlExecuteByAdmin.

Definition c_rl_1 := c_u32 ** c_key ** c_u32 ** c_u32.
Definition c_rl_2 := c_option c_u32 ** c_option c_key ** c_option c_u32 ** c_option c_u32.
Definition c_rl_3 := c_u32 ** c_vec c_key ** c_u32.
Definition c_rl_4 := c_u32 ** c_u32 ** c_u64 ** c_key ** c_key.
Definition c_rl_5 := c_u32 ** c_bytes.

Definition c_rl_ix : codec rl_ix := Codec
  (fun i => match i with
   | RlVote v => x00 :: enc c_vote v
   | RlInitialize a b c d => x01 :: enc c_rl_1 (a, (b, (c, d)))
   | RlUpdateSettings a b c d => x02 :: enc c_rl_2 (a, (b, (c, d)))
   | RlCreateRelayRound a b c => x03 :: enc c_rl_3 (a, (b, c))
   | RlCreateProposal a b c d e => x04 :: enc c_rl_4 (a, (b, (c, (d, e))))
   | RlWriteProposal a b => x05 :: enc c_rl_5 (a, b)
   | RlFinalize => [x06]
   | RlExecute => [x07]
   | RlExecuteByAdmin => [x08]
   end)
  (dec_enum [
     alt c_vote RlVote;
     alt c_rl_1 (fun '(a, (b, (c, d))) => RlInitialize a b c d);
     alt c_rl_2 (fun '(a, (b, (c, d))) => RlUpdateSettings a b c d);
     alt c_rl_3 (fun '(a, (b, c)) => RlCreateRelayRound a b c);
     alt c_rl_4 (fun '(a, (b, (c, (d, e)))) => RlCreateProposal a b c d e);
     alt c_rl_5 (fun '(a, b) => RlWriteProposal a b);
     alt c_unit (fun _ => RlFinalize);
     alt c_unit (fun _ => RlExecute);
     alt c_unit (fun _ => RlExecuteByAdmin)])
  (fun i => match i with
   | RlVote v => okb c_vote v
   | RlInitialize a b c d => okb c_rl_1 (a, (b, (c, d)))
   | RlUpdateSettings a b c d => okb c_rl_2 (a, (b, (c, d)))
   | RlCreateRelayRound a b c => okb c_rl_3 (a, (b, c))
   | RlCreateProposal a b c d e => okb c_rl_4 (a, (b, (c, (d, e))))
   | RlWriteProposal a b => okb c_rl_5 (a, b)
   | RlFinalize | RlExecute | RlExecuteByAdmin => true
   end).

(** ** token-proxy *)

Definition TP_LEN : Z := 1000.

(** token-proxy/src/state.rs:57-66, packed length 1000 (as all token-proxy records) *)
Record tp_settings := TpSettings {
  gs_init : bool; gs_kind : account_kind; gs_emergency : bool; gs_guardian : key;
  gs_manager : key; gs_wmanager : key }.
Definition c_tp_settings : codec tp_settings := c_iso
  (fun '(a, (b, (c, (d, (e, f))))) => TpSettings a b c d e f)
  (fun s => (gs_init s, (gs_kind s, (gs_emergency s, (gs_guardian s, (gs_manager s, gs_wmanager s))))))
  (c_bool ** c_kind ** c_bool ** c_key ** c_key ** c_key).

(** token-proxy/src/state.rs:76-81 *)
Record multi_vault := MultiVault { mv_init : bool; mv_kind : account_kind }.
Definition c_multi_vault : codec multi_vault := c_iso
  (fun '(a, b) => MultiVault a b) (fun s => (mv_init s, mv_kind s)) (c_bool ** c_kind).

(** token-proxy/src/state.rs:450-472 *)
Inductive token_kind :=
| TKEver (mint : key) (token : ever) (decimals : Z)
| TKSol (mint vault : key).
Definition c_token_kind : codec token_kind := Codec
  (fun k => match k with
            | TKEver a b c => x00 :: enc (c_key ** c_ever ** c_u8) (a, (b, c))
            | TKSol a b => x01 :: enc (c_key ** c_key) (a, b) end)
  (dec_enum [alt (c_key ** c_ever ** c_u8) (fun '(a, (b, c)) => TKEver a b c);
             alt (c_key ** c_key) (fun '(a, b) => TKSol a b)])
  (fun k => match k with
            | TKEver a b c => okb (c_key ** c_ever ** c_u8) (a, (b, c))
            | TKSol a b => okb (c_key ** c_key) (a, b) end).

(** enum_as_inner accessors of TokenKind, errors mapped by callers to InvalidTokenKind. *)
Definition into_ever (k : token_kind) : res (key * ever * Z) :=
  match k with TKEver a b c => Ok (a, b, c) | _ => Err (Custom 1) end.
Definition into_solana (k : token_kind) : res (key * key) :=
  match k with TKSol a b => Ok (a, b) | _ => Err (Custom 1) end.

(** token-proxy/src/state.rs:486-492, default 494-501 *)
Record fee_info := FeeInfo { fi_mul : Z; fi_div : Z }.
Definition c_fee_info : codec fee_info := c_iso
  (fun '(a, b) => FeeInfo a b) (fun s => (fi_mul s, fi_div s)) (c_u64 ** c_u64).
Definition default_fee : fee_info := FeeInfo 5 10000.

(** token-proxy/src/state.rs:91-108 *)
Record token_settings := TokenSettings {
  tk_init : bool; tk_akind : account_kind; tk_kind : token_kind; tk_name : bytes; tk_symbol : bytes;
  tk_dlimit : Z; tk_wlimit : Z; tk_wdlimit : Z; tk_wdamount : Z; tk_wepoch : Z;
  tk_emergency : bool; tk_fee_supply : Z; tk_fee_dep : fee_info; tk_fee_wdr : fee_info }.
Definition c_token_settings : codec token_settings := c_iso
  (fun '(a, (b, (c, (d, (e, (f, (g, (h, (i, (j, (k, (l, (m, n))))))))))))) =>
     TokenSettings a b c d e f g h i j k l m n)
  (fun t => (tk_init t, (tk_akind t, (tk_kind t, (tk_name t, (tk_symbol t, (tk_dlimit t,
     (tk_wlimit t, (tk_wdlimit t, (tk_wdamount t, (tk_wepoch t, (tk_emergency t, (tk_fee_supply t,
     (tk_fee_dep t, tk_fee_wdr t))))))))))))))
  (c_bool ** c_kind ** c_token_kind ** c_string ** c_string ** c_u64 ** c_u64 ** c_u64 ** c_u64 **
   c_i64 ** c_bool ** c_u64 ** c_fee_info ** c_fee_info).

(** DepositMultiTokenSol (token-proxy/src/state.rs:148-156), DepositMultiTokenEver (221-229) and the
    kind-agnostic Deposit (118-125, event and meta [Vec<u8>]). *)
Record dep (E M : Type) := Dep {
  d_init : bool; d_kind : account_kind; d_author : key; d_event : E; d_meta : M }.
Arguments Dep {E M} d_init d_kind d_author d_event d_meta.
Arguments d_init {E M} d : rename.
Arguments d_kind {E M} d : rename.
Arguments d_author {E M} d : rename.
Arguments d_event {E M} d : rename.
Arguments d_meta {E M} d : rename.
Definition c_dep {E M} (ce : codec E) (cm : codec M) : codec (dep E M) := c_iso
  (fun '(a, (b, (c, (d, e)))) => Dep a b c d e)
  (fun p => (d_init p, (d_kind p, (d_author p, (d_event p, d_meta p)))))
  (c_bool ** c_kind ** c_key ** ce ** cm).

(** token-proxy/src/state.rs:118-125 *)
Definition gdep := dep bytes bytes.
Definition c_gdep : codec gdep := c_dep c_bytes c_bytes.

(** token-proxy/src/state.rs:166-177; [UInt256] is 32 bytes *)
Record dsol_event := DSolEvent {
  dse_base : key; dse_name : bytes; dse_symbol : bytes; dse_decimals : Z; dse_amount : Z;
  dse_recipient : ever; dse_value : Z; dse_evers : key; dse_payload : bytes }.
Definition c_dsol_event : codec dsol_event := c_iso
  (fun '(a, (b, (c, (d, (e, (f, (g, (h, i)))))))) => DSolEvent a b c d e f g h i)
  (fun x => (dse_base x, (dse_name x, (dse_symbol x, (dse_decimals x, (dse_amount x,
     (dse_recipient x, (dse_value x, (dse_evers x, dse_payload x)))))))))
  (c_key ** c_string ** c_string ** c_u8 ** c_u128 ** c_ever ** c_u64 ** c_key ** c_bytes).

(** token-proxy/src/state.rs:185-219 *)
Definition dsol_event_new (x : dsol_event) : withlen dsol_event :=
  WithLen (wrap32 ((32 + 1 + 16 + 8 + 32 + (1 + 1 + 32)) + 4 + blen (dse_name x) + 4
           + blen (dse_symbol x) + 4 + blen (dse_payload x))) x.

(** token-proxy/src/state.rs:239-247 *)
Record dever_event := DEverEvent {
  dee_token : ever; dee_amount : Z; dee_recipient : ever; dee_value : Z; dee_evers : key;
  dee_payload : bytes }.
Definition c_dever_event : codec dever_event := c_iso
  (fun '(a, (b, (c, (d, (e, f))))) => DEverEvent a b c d e f)
  (fun x => (dee_token x, (dee_amount x, (dee_recipient x, (dee_value x, (dee_evers x,
     dee_payload x))))))
  (c_ever ** c_u128 ** c_ever ** c_u64 ** c_key ** c_bytes).

(** token-proxy/src/state.rs:255-276 *)
Definition dever_event_new (x : dever_event) : withlen dever_event :=
  WithLen (wrap32 ((1 + 1 + 32 + 16 + 8 + 32 + (1 + 1 + 32)) + 4 + blen (dee_payload x))) x.

(** token-proxy/src/state.rs:278-296: the meta data struct has the seed as its only field. *)
Definition dep_meta_new (seed : Z) : withlen Z := WithLen 16 seed.

Definition dsol := dep (withlen dsol_event) (withlen Z).
Definition c_dsol : codec dsol := c_dep (c_withlen c_dsol_event) (c_withlen c_u128).
Definition dever := dep (withlen dever_event) (withlen Z).
Definition c_dever : codec dever := c_dep (c_withlen c_dever_event) (c_withlen c_u128).

(** token-proxy/src/state.rs:474-484 *)
Inductive wstatus := WNew | WProcessed | WCancelled | WPending | WWaitApprove | WWaitExecute.
Definition c_wstatus : codec wstatus := Codec
  (fun v => match v with WNew => [x00] | WProcessed => [x01] | WCancelled => [x02]
            | WPending => [x03] | WWaitApprove => [x04] | WWaitExecute => [x05] end)
  (dec_enum [alt c_unit (fun _ => WNew); alt c_unit (fun _ => WProcessed);
             alt c_unit (fun _ => WCancelled); alt c_unit (fun _ => WPending);
             alt c_unit (fun _ => WWaitApprove); alt c_unit (fun _ => WWaitExecute)])
  (fun _ => true).
Definition wstatus_eqb (a b : wstatus) : bool :=
  match a, b with
  | WNew, WNew | WProcessed, WProcessed | WCancelled, WCancelled | WPending, WPending
  | WWaitApprove, WWaitApprove | WWaitExecute, WWaitExecute => true
  | _, _ => false end.

(** token-proxy/src/state.rs:418-423 *)
Record wmeta := WMeta { wm_status : wstatus; wm_bounty : Z; wm_epoch : Z }.
Definition c_wmeta : codec wmeta := c_iso
  (fun '(a, (b, c)) => WMeta a b c) (fun m => (wm_status m, (wm_bounty m, wm_epoch m)))
  (c_wstatus ** c_u64 ** c_i64).

(** token-proxy/src/state.rs:431-448 *)
Definition wmeta_new (bounty epoch : Z) : withlen wmeta := WithLen 17 (WMeta WNew bounty epoch).

(** token-proxy/src/state.rs:320-329 *)
Record wever_event := WEverEvent {
  wee_token : ever; wee_name : bytes; wee_symbol : bytes; wee_decimals : Z; wee_amount : Z;
  wee_recipient : key; wee_payload : bytes }.
Definition c_wever_event : codec wever_event := c_iso
  (fun '(a, (b, (c, (d, (e, (f, g)))))) => WEverEvent a b c d e f g)
  (fun x => (wee_token x, (wee_name x, (wee_symbol x, (wee_decimals x, (wee_amount x,
     (wee_recipient x, wee_payload x)))))))
  (c_ever ** c_string ** c_string ** c_u8 ** c_u128 ** c_key ** c_bytes).

(** token-proxy/src/state.rs:337-366 *)
Definition wever_event_new (x : wever_event) : withlen wever_event :=
  WithLen (wrap32 ((1 + 1 + 32 + 1 + 16 + 32) + 4 + blen (wee_name x) + 4 + blen (wee_symbol x) + 4
           + blen (wee_payload x))) x.

(** token-proxy/src/state.rs:390-396 *)
Record wsol_event := WSolEvent {
  wse_mint : key; wse_amount : Z; wse_recipient : key; wse_payload : bytes }.
Definition c_wsol_event : codec wsol_event := c_iso
  (fun '(a, (b, (c, d))) => WSolEvent a b c d)
  (fun x => (wse_mint x, (wse_amount x, (wse_recipient x, wse_payload x))))
  (c_key ** c_u128 ** c_key ** c_bytes).

(** token-proxy/src/state.rs:404-416 *)
Definition wsol_event_new (x : wsol_event) : withlen wsol_event :=
  WithLen (wrap32 ((32 + 16 + 32) + 4 + blen (wse_payload x))) x.

Definition wever := prop (withlen wever_event) (withlen wmeta).
Definition c_wever : codec wever := c_prop (c_withlen c_wever_event) (c_withlen c_wmeta).
Definition wsol := prop (withlen wsol_event) (withlen wmeta).
Definition c_wsol : codec wsol := c_prop (c_withlen c_wsol_event) (c_withlen c_wmeta).

(** token-proxy/src/state.rs:503-507 *)
Inductive fee_type := FDeposit | FWithdrawal.
Definition c_fee_type : codec fee_type := Codec
  (fun v => match v with FDeposit => [x00] | FWithdrawal => [x01] end)
  (dec_enum [alt c_unit (fun _ => FDeposit); alt c_unit (fun _ => FWithdrawal)])
  (fun _ => true).

(** token-proxy/src/instruction.rs:8-386 *)
Inductive tp_ix :=
| TpVote (v : vote)
| TpWithdrawEver
| TpWithdrawSol
| TpExecutePayloadEver
| TpExecutePayloadSol
| TpInitialize (guardian manager wmanager : key)
| TpDepositEver (seed amount : Z) (recipient : ever) (value : Z) (evers : key) (payload : bytes)
| TpDepositSol (seed : Z) (name symbol : bytes) (amount : Z) (recipient : ever) (value : Z)
    (evers : key) (payload : bytes)
| TpWithdrawEverRequest (ts lt : Z) (conf : key) (token : ever) (name symbol : bytes)
    (decimals : Z) (recipient : key) (amount : Z) (payload : bytes) (attached : Z)
| TpWithdrawSolRequest (ts lt : Z) (conf : key) (recipient : key) (amount : Z) (payload : bytes)
    (attached : Z)
| TpChangeGuardian (k : key)
| TpChangeManager (k : key)
| TpChangeWithdrawalManager (k : key)
| TpChangeDepositLimit (limit : Z)
| TpChangeWithdrawalLimits (limit daily : option Z)
| TpEnableEmergency
| TpDisableEmergency
| TpEnableTokenEmergency
| TpDisableTokenEmergency
| TpApproveEver
| TpApproveSol
| TpUpdateFee (t : fee_type) (mul div : Z)
| TpUpdateTokenName (symbol name : bytes)
| TpWithdrawEverFee (amount : Z)
| TpWithdrawSolFee (amount : Z)
| TpChangeBounty (bounty : Z)
| TpCancel (seed : Z) (recipient : ever) (value : Z) (evers : key) (payload : bytes)
| TpFill (seed : Z) (recipient : ever) (amount value : Z) (evers : key) (payload : bytes)
| TpWithdrawProxy (amount : Z)
| TpCloseDeposit
| TpCloseWithdrawal
| TpWithdrawMultiVault (amount : Z).

Definition c_tp_5 := c_key ** c_key ** c_key.
Definition c_tp_6 := c_u128 ** c_u64 ** c_ever ** c_u64 ** c_key ** c_bytes.
Definition c_tp_7 :=
  c_u128 ** c_string ** c_string ** c_u64 ** c_ever ** c_u64 ** c_key ** c_bytes.
Definition c_tp_8 := c_u32 ** c_u64 ** c_key ** c_ever ** c_string ** c_string ** c_u8 ** c_key **
  c_u128 ** c_bytes ** c_u64.
Definition c_tp_9 := c_u32 ** c_u64 ** c_key ** c_key ** c_u128 ** c_bytes ** c_u64.
Definition c_tp_14 := c_option c_u64 ** c_option c_u64.
Definition c_tp_21 := c_fee_type ** c_u64 ** c_u64.
Definition c_tp_22 := c_string ** c_string.
Definition c_tp_26 := c_u128 ** c_ever ** c_u64 ** c_key ** c_bytes.
Definition c_tp_27 := c_u128 ** c_ever ** c_u64 ** c_u64 ** c_key ** c_bytes.

Definition c_tp_ix : codec tp_ix := Codec
  (fun i => match i with
   | TpVote v => x00 :: enc c_vote v
   | TpWithdrawEver => [x01]
   | TpWithdrawSol => [x02]
   | TpExecutePayloadEver => [x03]
   | TpExecutePayloadSol => [x04]
   | TpInitialize a b c => x05 :: enc c_tp_5 (a, (b, c))
   | TpDepositEver a b c d e f => x06 :: enc c_tp_6 (a, (b, (c, (d, (e, f)))))
   | TpDepositSol a b c d e f g h => x07 :: enc c_tp_7 (a, (b, (c, (d, (e, (f, (g, h)))))))
   | TpWithdrawEverRequest a b c d e f g h i j k =>
       x08 :: enc c_tp_8 (a, (b, (c, (d, (e, (f, (g, (h, (i, (j, k))))))))))
   | TpWithdrawSolRequest a b c d e f g => x09 :: enc c_tp_9 (a, (b, (c, (d, (e, (f, g))))))
   | TpChangeGuardian k => x0a :: enc c_key k
   | TpChangeManager k => x0b :: enc c_key k
   | TpChangeWithdrawalManager k => x0c :: enc c_key k
   | TpChangeDepositLimit a => x0d :: enc c_u64 a
   | TpChangeWithdrawalLimits a b => x0e :: enc c_tp_14 (a, b)
   | TpEnableEmergency => [x0f]
   | TpDisableEmergency => [x10]
   | TpEnableTokenEmergency => [x11]
   | TpDisableTokenEmergency => [x12]
   | TpApproveEver => [x13]
   | TpApproveSol => [x14]
   | TpUpdateFee a b c => x15 :: enc c_tp_21 (a, (b, c))
   | TpUpdateTokenName a b => x16 :: enc c_tp_22 (a, b)
   | TpWithdrawEverFee a => x17 :: enc c_u64 a
   | TpWithdrawSolFee a => x18 :: enc c_u64 a
   | TpChangeBounty a => x19 :: enc c_u64 a
   | TpCancel a b c d e => x1a :: enc c_tp_26 (a, (b, (c, (d, e))))
   | TpFill a b c d e f => x1b :: enc c_tp_27 (a, (b, (c, (d, (e, f)))))
   | TpWithdrawProxy a => x1c :: enc c_u64 a
   | TpCloseDeposit => [x1d]
   | TpCloseWithdrawal => [x1e]
   | TpWithdrawMultiVault a => x1f :: enc c_u64 a
   end)
  (dec_enum [
     alt c_vote TpVote;
     alt c_unit (fun _ => TpWithdrawEver);
     alt c_unit (fun _ => TpWithdrawSol);
     alt c_unit (fun _ => TpExecutePayloadEver);
     alt c_unit (fun _ => TpExecutePayloadSol);
     alt c_tp_5 (fun '(a, (b, c)) => TpInitialize a b c);
     alt c_tp_6 (fun '(a, (b, (c, (d, (e, f))))) => TpDepositEver a b c d e f);
     alt c_tp_7 (fun '(a, (b, (c, (d, (e, (f, (g, h))))))) => TpDepositSol a b c d e f g h);
     alt c_tp_8 (fun '(a, (b, (c, (d, (e, (f, (g, (h, (i, (j, k)))))))))) =>
       TpWithdrawEverRequest a b c d e f g h i j k);
     alt c_tp_9 (fun '(a, (b, (c, (d, (e, (f, g)))))) => TpWithdrawSolRequest a b c d e f g);
     alt c_key TpChangeGuardian;
     alt c_key TpChangeManager;
     alt c_key TpChangeWithdrawalManager;
     alt c_u64 TpChangeDepositLimit;
     alt c_tp_14 (fun '(a, b) => TpChangeWithdrawalLimits a b);
     alt c_unit (fun _ => TpEnableEmergency);
     alt c_unit (fun _ => TpDisableEmergency);
     alt c_unit (fun _ => TpEnableTokenEmergency);
     alt c_unit (fun _ => TpDisableTokenEmergency);
     alt c_unit (fun _ => TpApproveEver);
     alt c_unit (fun _ => TpApproveSol);
     alt c_tp_21 (fun '(a, (b, c)) => TpUpdateFee a b c);
     alt c_tp_22 (fun '(a, b) => TpUpdateTokenName a b);
     alt c_u64 TpWithdrawEverFee;
     alt c_u64 TpWithdrawSolFee;
     alt c_u64 TpChangeBounty;
     alt c_tp_26 (fun '(a, (b, (c, (d, e)))) => TpCancel a b c d e);
     alt c_tp_27 (fun '(a, (b, (c, (d, (e, f))))) => TpFill a b c d e f);
     alt c_u64 TpWithdrawProxy;
     alt c_unit (fun _ => TpCloseDeposit);
     alt c_unit (fun _ => TpCloseWithdrawal);
     alt c_u64 TpWithdrawMultiVault])
  (fun i => match i with
   | TpVote v => okb c_vote v
   | TpInitialize a b c => okb c_tp_5 (a, (b, c))
   | TpDepositEver a b c d e f => okb c_tp_6 (a, (b, (c, (d, (e, f)))))
   | TpDepositSol a b c d e f g h => okb c_tp_7 (a, (b, (c, (d, (e, (f, (g, h)))))))
   | TpWithdrawEverRequest a b c d e f g h i j k =>
       okb c_tp_8 (a, (b, (c, (d, (e, (f, (g, (h, (i, (j, k))))))))))
   | TpWithdrawSolRequest a b c d e f g => okb c_tp_9 (a, (b, (c, (d, (e, (f, g))))))
   | TpChangeDepositLimit a => okb c_u64 a
   | TpChangeWithdrawalLimits a b => okb c_tp_14 (a, b)
   | TpUpdateFee a b c => okb c_tp_21 (a, (b, c))
   | TpUpdateTokenName a b => okb c_tp_22 (a, b)
   | TpWithdrawEverFee a => okb c_u64 a
   | TpWithdrawSolFee a => okb c_u64 a
   | TpChangeBounty a => okb c_u64 a
   | TpCancel a b c d e => okb c_tp_26 (a, (b, (c, (d, e))))
   | TpFill a b c d e f => okb c_tp_27 (a, (b, (c, (d, (e, f)))))
   | TpWithdrawProxy a => okb c_u64 a
   | TpWithdrawMultiVault a => okb c_u64 a
   | _ => true
   end).

(** ** native-proxy *)

(** native-proxy/src/instruction.rs:4-21 *)
Inductive np_ix :=
| NpDeposit (seed amount : Z) (recipient : ever) (value : Z) (evers : key) (payload : bytes).

Definition c_np_ix : codec np_ix := Codec
  (fun i => match i with NpDeposit a b c d e f => x00 :: enc c_tp_6 (a, (b, (c, (d, (e, f))))) end)
  (dec_enum [alt c_tp_6 (fun '(a, (b, (c, (d, (e, f))))) => NpDeposit a b c d e f)])
  (fun i => match i with NpDeposit a b c d e f => okb c_tp_6 (a, (b, (c, (d, (e, f))))) end).

(** ** Log records (token-proxy/src/state.rs:520-584), written with [sol_log_data] *)

(** token-proxy/src/state.rs:522-531 *)
Record ev_deposit := EvDeposit {
  ed_account : key; ed_recipient : ever; ed_amount : Z; ed_seed : Z; ed_value : Z; ed_evers : key;
  ed_data : bytes }.
Definition c_ev_deposit : codec ev_deposit := c_iso
  (fun '(a, (b, (c, (d, (e, (f, g)))))) => EvDeposit a b c d e f g)
  (fun x => (ed_account x, (ed_recipient x, (ed_amount x, (ed_seed x, (ed_value x, (ed_evers x,
     ed_data x)))))))
  (c_key ** c_ever ** c_u128 ** c_u128 ** c_u64 ** c_key ** c_bytes).

(** token-proxy/src/state.rs:533-544 *)
Record ev_request := EvRequest {
  er_account : key; er_token : bytes; er_recipient : key; er_amount : Z; er_ts : Z; er_lt : Z;
  er_conf : key; er_data : bytes; er_bounty : Z }.
Definition c_ev_request : codec ev_request := c_iso
  (fun '(a, (b, (c, (d, (e, (f, (g, (h, i)))))))) => EvRequest a b c d e f g h i)
  (fun x => (er_account x, (er_token x, (er_recipient x, (er_amount x, (er_ts x, (er_lt x,
     (er_conf x, (er_data x, er_bounty x)))))))))
  (c_key ** c_string ** c_key ** c_u128 ** c_u32 ** c_u64 ** c_key ** c_bytes ** c_i64).

(** token-proxy/src/state.rs:546-557 *)
Record ev_token := EvToken {
  et_account : key; et_symbol : bytes; et_name : bytes; et_mint : key; et_vault : option key;
  et_ever_dec : option Z; et_sol_dec : option Z; et_root : option ever; et_fee : fee_info }.
Definition c_ev_token : codec ev_token := c_iso
  (fun '(a, (b, (c, (d, (e, (f, (g, (h, i)))))))) => EvToken a b c d e f g h i)
  (fun x => (et_account x, (et_symbol x, (et_name x, (et_mint x, (et_vault x, (et_ever_dec x,
     (et_sol_dec x, (et_root x, et_fee x)))))))))
  (c_key ** c_string ** c_string ** c_key ** c_option c_key ** c_option c_u8 ** c_option c_u8 **
   c_option c_ever ** c_fee_info).

(** token-proxy/src/state.rs:559-563 *)
Record ev_status := EvStatus { es_account : key; es_status : wstatus }.
Definition c_ev_status : codec ev_status := c_iso
  (fun '(a, b) => EvStatus a b) (fun x => (es_account x, es_status x)) (c_key ** c_wstatus).

(** token-proxy/src/state.rs:565-571 *)
Record ev_fee := EvFee { ef_settings : key; ef_type : fee_type; ef_mul : Z; ef_div : Z }.
Definition c_ev_fee : codec ev_fee := c_iso
  (fun '(a, (b, (c, d))) => EvFee a b c d)
  (fun x => (ef_settings x, (ef_type x, (ef_mul x, ef_div x))))
  (c_key ** c_fee_type ** c_u64 ** c_u64).

(** token-proxy/src/state.rs:573-578 *)
Record ev_name := EvName { en_settings : key; en_symbol : bytes; en_name : bytes }.
Definition c_ev_name : codec ev_name := c_iso
  (fun '(a, (b, c)) => EvName a b c) (fun x => (en_settings x, (en_symbol x, en_name x)))
  (c_key ** c_string ** c_string).

(** token-proxy/src/state.rs:580-584 *)
Record ev_liq := EvLiq { el_deposit : key; el_withdrawal : key }.
Definition c_ev_liq : codec ev_liq := c_iso
  (fun '(a, b) => EvLiq a b) (fun x => (el_deposit x, el_withdrawal x)) (c_key ** c_key).
