# Formal model of octusbridge-solana-contracts

This file says what is modelled, how each property of `properties.jsonl` is proved, what is
trusted, and what was found.  Source line numbers refer to `/repo`.

## 1. Shape of the model (`rocq/theories`)

### What is modelled, and where

| source (in `/repo`) | model | remarks |
|---|---|---|
| bridge-utils `types.rs`, `state.rs`, `errors.rs`; bridge-derive | `Base.v`, `Codec.v`, `Types.v`, `Text.v` | Borsh encoder and decoder per type; `Pack` with its length checks, its panic and its stale tail; text forms of addresses and 256-bit numbers |
| bridge-utils `helper.rs`; round-loader/token-proxy `utils.rs` | `Helper.v` | seeds, address checks, roles |
| round-loader `state.rs`, `instruction.rs`, `processor.rs` | `Types.v`, `RoundLoader.v` | all nine instructions |
| token-proxy `state.rs`, `instruction.rs`, `processor.rs` | `Types.v`, `TokenProxy.v` | all thirty-two instructions |
| native-proxy `instruction.rs`, `processor.rs` | `NativeProxy.v` | calls the token proxy of the model |
| round-loader, token-proxy, native-proxy `bindings.rs`; solana-bridge `instructions.rs` | `Bindings.v` | account lists and data of all builders |
| wasm `lib.rs`; round-loader `wasm.rs` | `Script.v`, `Wasm.v` | the JavaScript bindings: all builders and address functions, `unpackSettings`, `unpackTokenSettings` and `unpackDeposit*` of the token proxy; base58, base64, UUID and decimal texts |
| Solana runtime | `Runtime.v`, `World.v` | see section 3 |
| SPL token, associated token account, system program | `Spl.v`, `Runtime.v` | the instructions the programs call, on the real 165- and 82-byte layouts |

One Gallina function per Rust function, same order of checks, same error values.  Arithmetic that wraps in a
release build wraps in the model (`mod 2^64`, ...).  Panics are an error value.  Every definition cites its lines.

A transaction that fails has no effect, hence a history of successful instructions covers every
history; a transaction of several instructions is a sequence of them (its atomicity only removes
histories).

### Files with proofs

* Laws of single functions: `RuntimeLaws`, `CodecLaws`, `CodecFacts`, `TypesLaws`, `SplLaws`, `HelperLaws`, `RlLaws`,
  `TpOk`, `TpValid`, `TpAdmin`, `TpDeposit`, `TpRequest`, `TpPay`, `TpPending`, `TpMisc`, `BindLaws`: for each handler one inversion
  lemma "if the call succeeds, then these checks held and the state afterwards is exactly this".
* Invariants: `RlEffects`, `RlOrigin`, `RlWorld` (round loader), `TpEffects`, `TpWorld`, `TpReq`, `TpFlow` (token proxy),
  `Nested` (an instruction with nested self-calls as a list of calls), `Filed`, `Life` (the record of a request through such lists), `Selfless` (requests whose records do not contain their own address),
  `Frames`, `Touch`, `Vacant` (what does not change).
* Specifications in terms of accounts: `TpSpec` (`token_at`, `settings_at`, `tp_addr`, ...), `World`.
* Concrete executions for examples and refutations: `Demo`, `DemoLaws`, `TpDemo`, `TpDemoLaws`.
* Properties: `Prop*.v`; section 3 lists the theorems of each file.  Each file ends with `Print Assumptions`.

### Environment (not axioms: a record the theorems quantify over)

* `sha256` and `create_program_address` are arbitrary functions.  Where a property needs collision
  resistance it is an explicit hypothesis about the *particular* address ("this address has one
  preimage", `no_collision`), never a global injectivity (which no function into 32 bytes satisfies).  Every such
  theorem has an example environment that satisfies the hypothesis.
* program ids, rent function, clock, upgrade authority lookup.
* `ext : extern`: the programs a payload calls, an arbitrary function from call context, data and state to a result.
  Theorems that need the called programs to obey the runtime's rules say so in a hypothesis: `ext_outside` (does not
  change accounts of the token proxy), `ext_tokens` (obeys the token program's rules, `token_rules`), `ext_keeps`, `ext_ro`
  (leaves read-only accounts alone), `tp_ext e n` (other programs and at most `n` nested levels of the token proxy itself).
* Histories (`hist`, `req_hist`, `day_hist`): any sequence of successful instructions with arbitrary account lists and data,
  clock ticks, removal of zero-lamport accounts (`purge`), and steps of other programs (`foreign`, `foreign_with`), which may not
  change data of accounts they do not own, nor debit them, nor create accounts at the program's derived addresses.
* `nest`, `deep`, `steps`, `trace`: an instruction whose payloads call the token proxy again, to any depth, is a list of calls
  without payload, calls of other programs, and write-backs of payload executions (`deep_steps`, proved); a `trace` is a history
  with all its calls.
* `hist_in G`: a history in which `G` holds of every state in which the token proxy is called, also by a payload.  `unnamed k`
  says that the record at `k` does not contain the bytes of `k`.
* `request_only`: the address of the request is derived from request seeds only (no other PDA of the token proxy or associated
  token account collides with it).
* `payload_checked`: in some theorems about requests payloads are executed on accounts that are requests.  Without it their
  claims are false (F19), which is why it is visible in the statements.

### Not modelled

Compute budget, transaction size, CPI depth, rent-state checks, SPL multisig owners, Token-2022,
`msg!` texts (only `sol_log_data` records are), serde forms and the conversion of results to JavaScript values, the functions
of the JavaScript bindings that only call `unpack` (`unpackWithdrawal*`, `unpackRelayRound*`, `unpackSettings` of the round loader), tests, network.  Leaving out
a limit only *adds* behaviours to the model, so the universally quantified theorems cover the real
program; witnesses of refutations are checked to be well below the limits.

## 2. Plan per property

| id | how |
|---|---|
| C01-C03 | round-trip and canonicity lemma for every codec by composition; `pack`/`unpack` lemmas over arbitrary stale content |
| C04 | decode of the generic view of a typed encoding, using the exact length of each encoded event |
| C05 | seed strings are compared by length and prefix; all pairs |
| C06 | refutation witness: a Sol event whose bytes are an Ever event |
| C07 | finite table; refuted from code 7 on, proved below |
| C08, C09 | direct functions over byte strings |
| C10-C12, C14, C16, C18, C20-C23, C25, C31-C34, C36-C40, C44, C45, C47, C48, C50, C63, C64, C67 | per-instruction theorems: inversion of the successful run of the handler for all account lists, data and states |
| C13, C17, C19-C21, C30, C33, C38, C43, C46, C49, C51, C52, C56, C57, C59, C65, C66 | the claim is false of the code: concrete state and instruction(s) evaluated by `vm_compute` (`..._refuted`), plus a `_partial` theorem for the part that holds |
| C15, C26-C29, C41, C42, C60-C62 | invariants over histories: induction over the steps of the world, one preservation lemma per handler |
| C35 | induction over histories with a ledger of approvals; Ever tokens proved, Solana tokens refuted |
| C24 | for every gated handler: emergency flag set in the settings account implies the handler cannot succeed |
| C53-C55 | models of the builders compared with models of the processors |
| C68 | JavaScript builders compared with the Rust builders, function by function; refuted for the token emergency |
| C69 | positional notation: digits of a number and number of digits are inverse; refuted for deposit seeds |
| C70 | progress: forward symbolic execution of the handlers from the record invariant (settings and token records persist, by induction over histories); changes only the one record |
| C71 | progress of the vote instruction from the funding invariant; completion of a quorum by induction over the votes missing |
| C72 | forward execution of the withdrawal and approval instructions, including the calls into the token program; outcome from C63 |
| C73 | forward execution of all round-loader instructions, including account creation and the transfer of the reparation; refutation with a round address that holds one lamport |
| C74 | progress of bounty, cancel, close, proxy, fee and multi-vault withdrawals |
| C75 | arithmetic of the fee for fair settings; inversion of the six calls that charge a fee; refutation with the demo state after UpdateFee |
| C76 | forward execution of deposits and of the registration; inversion of create_account for the obstacle; witness with one lamport at the vault address |
| C77 | inversion of each instruction up to its sysvar checks |
| C78 | invariant dusty over all histories incl. nested calls (Dust.v), then inversion of deposit and withdrawal |
| C79 | forward execution through create_account, initialize_mint, associated token account creation (AtaGo.v), settings and payment; outcome from C67; refutation by C78_withdraw on a demo history |
| C80 | forward execution through the creation of the proxy account and the record; size of the record for the bound |
| C81 | forward execution of the loop by induction over the list: the invariant keeps the provider able to pay what is left, all token accounts usable and the other requests untouched; outcome by the inversion theorem C44_partial |
| C82 | induction over histories and over the calls of nested payloads; the entry of one call from the flow relation of C41/C42 together with C31, C37, C38 and C40 |
| C83 | request -> any quorum in any order -> execution, for Solana tokens, registered and new Ever tokens: net paid, rest of the token program's accounts unchanged |
| C84 | handover from a round to the next goes through from filing to execution with any quorum in any order |
| C85 | C72 composed: the execution above the limits changes only the request and the token settings (inversion of the effect lemmas), so the hypotheses of the approval hold afterwards; counted amount computed; refuted on a demo state moved to the next day |
| C86 | invariant over req_hist: New is kept because the only moves out of New are executions, whose fee of at least 1 exceeds the amount 0 |
| C87 | native proxy, progress: prepared (the wrapped-SOL account is made and filled), np_go (nested call), with C76_sol and C76_first_partial; C87_blocked from C53 |
| C88 | forward execution of invoke_all over the list of calls; transfer_go for the transfer; C88_stuck by induction over the history with req_change |
| C89 | a list of faults as an inductive specification, and for each the error code with which every call that has it is refused; too few accounts; a missing signature (PropErrors.v) |
| C90 | Invariant over day histories: the list of waiting requests of the day is covered by the counter (day_step of C35); then C72. Refuted for a fee that is lowered in between. |
| C91 | the order of votes: permutation theorem over sequences of votes (PropOrder.v), by swapping neighbours; no axiom of extensionality, ledgers are compared account by account |
| C92 | the order of votes on a proposal: permutation theorem if all voters show one round; refuted otherwise (PropOrderRl.v) |
| C93 | locality: a relation between two runs on ledgers that agree on the accounts of the call, proved for every handler of the three programs along its structure (Local.v); commutation by swapping neighbours (PropLocal.v) |
| C94 | the end of a round: inversion of the two request handlers; refuted for votes and for the round loader by witnesses (PropTime.v) |
| C95 | independence of the time: two runs at different times, for every handler of the three programs (Timeless.v, PropTime.v) |
| C96 | monotonicity in the privileges: two runs with two lists of flags, for every handler of the three programs (Grow.v, PropGrow.v) |
| C97 | a list of accounts and a longer one: two runs of every handler, along the structure of the code (Extra.v, PropExtra.v); refuted for the two instructions that look whether accounts are left |
| C58 | arithmetic |

## 3. Trusted base

* Coq 8.16.1's kernel, including `vm_compute` (used in examples and refutations).
* The reading of the Rust code into the definitions listed above (each cites its lines and says what it simplifies).
* The model of the Solana runtime (`Runtime.v`): only the owner changes data or debits lamports, read-only accounts do not change,
  the lamport sum is conserved (`run`), privileges of cross-program calls (`cpi`), derived addresses (`find_pda`), `create_account`;
  lamports and balances are nonnegative integers.  Of the system program, the token program (spl-token 4.0.0) and the
  associated-token-account program (2.2.0) only the instructions that are called, as read from their sources.
* The codecs of borsh 0.10 and bincode 1.3 for the types that occur.
* The parts listed as not modelled.
* No axioms: `Print Assumptions` reports "Closed under the global context" for each of the following theorems.

  * `PropApproval.v`: `C85_sol_partial`, `C85_ever_partial`, `C85_refuted`
  * `PropBasics.v`: `C05_seeds_distinct`, `C06_refuted`, `C06_partial`, `C07_partial`, `C07_codes`, `C07_refuted`, `C08_text_form`, `C09_be_bytes`, `C58_no_value_created`
  * `PropBindings.v`: `C54_data`, `C54_same`, `C54_execute_idle`
  * `PropBridge.v`: `C83_sol`, `C83_ever`, `C83_first`
  * `PropClient.v`: `C55_round_loader_partial`, `C55_token_proxy_partial`, `C55_native_proxy`, `C55_fill_without_vault`, `C55_refuted`
  * `PropCodec.v`: `C01_pack_unpack`, `C01_ranges`, `C01_fits`, `C02_canonical`, `C03_instructions`, `C03_unknown_tags`, `C04_withdrawal_views`, `C04_deposit_views`
  * `PropDeposits.v`: `C76_sol`, `C76_first_partial`, `C76_ever`, `C76_blocked`, `C76_blocked_settings`, `C76_refuted`
  * `PropDust.v`: `C78_tp`, `C78_rl`, `C78_deposit`, `C78_withdraw`
  * `PropErrors.v`: `C89`, `C89_rl`, `C89_short`, `C89_unsigned`
  * `PropExec.v`: `C72_sol`, `C72_sol_again`, `C72_ever`, `C72_approve_sol`, `C72_approve_ever`
  * `PropExits.v`: `C74_bounty`, `C74_close`, `C74_close_deposit`, `C74_proxy`, `C74_multivault`, `C74_sol_fee`, `C74_ever_fee`, `C74_cancel`
  * `PropExtra.v`: `C97_partial`, `C97_ever`, `C97_refuted`
  * `PropFees.v`: `C75_partial`, `C75_sol`, `C75_approve_sol`, `C75_ever`, `C75_approve_ever`, `C75_deposit_ever`, `C75_deposit_sol`, `C75_cancel`, `C75_refuted`
  * `PropFill.v`: `C81_fill`, `C81_limit`, `C81_refuted`
  * `PropFirst.v`: `C79_first_partial`, `C79_payload_blocked`, `C79_refuted`
  * `PropFrames.v`: `C61_token_proxy`, `C61_round_loader`
  * `PropGrow.v`: `C96`, `C96_refused`
  * `PropHandover.v`: `C84_handover`
  * `PropKinds.v`: `C60_token_proxy`, `C60_kept`, `C60_round_loader_partial`, `C60_rl_kept`, `C60_refuted`
  * `PropLedger.v`: `C82_vault`, `C82_mint`, `C82_backed`
  * `PropLife.v`: `C26`, `C28`, `C28_reads`
  * `PropLive.v`: `C70`, `C70_token_lasts`
  * `PropLocal.v`: `C93_local`, `C93_refused`, `C93_order`, `C93_payloads`
  * `PropNested.v`: `C41`, `C41_locked`, `C42`, `C29_refuted`
  * `PropOrder.v`: `C91`
  * `PropOrderRl.v`: `C92_partial`, `C92_refuted`
  * `PropPaid.v`: `C29_nested_partial`, `C29_paid_partial`
  * `PropPayload.v`: `C88_sol`, `C88_ever`, `C88_send_sol`, `C88_send_ever`, `C88_stuck`
  * `PropRelease.v`: `C90_ever_partial`, `C90_sol_partial`, `C90_blocked_sol`, `C90_blocked_ever`, `C90_refuted`
  * `PropRequest.v`: `C80_ever`, `C80_ever_payload`, `C80_sol`, `C80_sol_payload`, `C80_bound`, `C80_long`, `C80_long_sol`, `C80_refuted`
  * `PropRoundLoader.v`: `C10_initialize`, `C10_initialize_once`, `C10_update`, `C10_settings_step`, `C10_frozen_without_authority`, `C11_round_origin`, `C12_finalize`, `C12_always`, `C12_no_quorum`, `C13_refuted`, `C13_full_false`, `C13_partial`, `C14_upload`, `C14_unsigned`, `C15_frozen`, `C15_committed`, `C16_vote`, `C16_votes_stay`, `C16_votes_origin`, `C17_refuted`, `C17_partial`, `C18_executed_once`, `C19_refuted`, `C19_full_false`, `C19_partial`, `C19_follows`, `C20_refuted`, `C20_full_false`, `C20_partial`, `C21_refuted`, `C21_full_false`, `C21_partial`, `C22_stored`, `C22_create`, `C22_execute`, `C22_execute_by_admin`
  * `PropRounds.v`: `C73_owner`, `C73_submitter_partial`, `C73_execute_partial`, `C73_admin_partial`, `C73_finalize`, `C73_vote`, `C73_file_partial`, `C73_blocked`, `C73_refuted`
  * `PropScript.v`: `C69_texts_partial`, `C69_tokens_partial`, `C69_seed_never`, `C69_refuted`
  * `PropSigners.v`: `C55_signers`
  * `PropStuck.v`: `C86_sol`, `C86_ever`, `C86_dust`
  * `PropSysvars.v`: `C77_tp`, `C77_rl`
  * `PropTime.v`: `C94_partial`, `C94_refuted`, `C94_refuted_rounds`, `C95_loader`, `C95_proxy`, `C95_day`, `C95_clock`, `C95_payloads`
  * `PropTpAdmin.v`: `C23_initialize`, `C23_once`, `C23_role`, `C23_only`, `C24_global`, `C24_switch`, `C24_switch_effect`, `C24_token_partial`, `C24_token_switch`, `C24_token_refuted`, `C25_change`, `C25_only`
  * `PropTpDaily.v`: `C35_ever_partial`, `C35_refuted`
  * `PropTpFlow.v`: `C26_payment`, `C29_step`, `C29_history_partial`, `C41_call`, `C42_call`, `C45`
  * `PropTpHist.v`: `C30_partial`, `C30_rounds_refuted`, `C30_closed_refuted`, `C49_partial`, `C49_refuted`, `C59_partial`, `C59_refuted`
  * `PropTpMisc.v`: `C27_refuted`, `C46_others`, `C46_partial`, `C46_refuted`, `C51_partial`, `C51_round_loader_partial`, `C51_refuted`, `C51_round_loader_refuted`, `C52_blocked`, `C52_refuted`, `C53`
  * `PropTpMoney.v`: `C37_partial`, `C37_refuted`, `C38_partial`, `C38_refuted`, `C39_partial`, `C39_refuted`, `C40_ever`, `C40_sol`, `C44_partial`, `C44_refuted`, `C48_value`, `C48_withdraw`, `C48_only`, `C56_partial`, `C56_refuted`, `C57_partial`, `C57_cancel_refuted`, `C57_fill_refuted`
  * `PropTpOutcome.v`: `C63_ever`, `C63_sol`, `C63_sol_again`, `C63_approve_ever`, `C63_approve_sol`, `C64_cancel`, `C65_partial`, `C65_cancel_refuted`, `C65_fill_refuted`, `C66_partial`, `C66_refuted`, `C67_sol`, `C67_ever`
  * `PropTpPay.v`: `C31_ever_partial`, `C31_sol_partial`, `C32_ever`, `C32_sol`, `C34_ever`, `C34_sol_partial`, `C33_sol_refuted`, `C33_ever_refuted`, `C34_refuted`, `C32_refuted`
  * `PropTpReq.v`: `C26_leave_new`, `C26_history_partial`, `C26_required`, `C27_vote`, `C27_history_partial`, `C27_votes`, `C28_step`, `C28_who`, `C28_history_partial`, `C36_released`, `C36_approve`, `C43_cancel_partial`, `C43_bounty_partial`, `C43_refuted`, `C43_bounty_refuted`, `C47_close_withdrawal`, `C47_close_deposit`, `C50_untouched`, `C50_created`, `C62_rounds`, `C62_settings`, `C62_required`, `C62_history_partial`
  * `PropVotes.v`: `C71_made`, `C71_vote`, `C71_quorum`
  * `PropWasm.v`: `C68_same_partial`, `C68_token_emergency_never`, `C68_refuted`
  * `PropWrap.v`: `C87_deposit_partial`, `C87_first_partial`, `C87_blocked`, `C87_refuted`

## 4. Findings

Each finding is a theorem whose statement exhibits concrete states, instructions and results; the
theorem is checked by the kernel.  "Anybody" means: no signature of a privileged key is needed.

| # | Theorem | What the code does |
|---|---------|--------------------|
| F1 | `C13_refuted` | **Critical.** `WriteProposal` (round-loader/src/processor.rs:450-476) accepts any account of the program that does not decode as a finalized proposal.  A relay-round account is such an account: anybody can overwrite the relays from the third on (bytes 88 ff.) without a signature.  In a round of 12 relays 9 become the attacker's, which is the quorum for every token-proxy withdrawal. |
| F2 | `C17_refuted` | The round-loader vote (575-660) takes the relay's position from whatever valid relay-round account is presented, not from the proposal's round: relays of another round vote, and a relay that sits at different positions in two rounds votes twice. |
| F3 | `C19_refuted` | Execution (662-786, 788-886) stores the event's round number as current round without comparing: an old proposal brings the bridge back to an old round. |
| F4 | `C20_refuted` | `round_end + round_ttl` wraps in u32: a round requested to end late expires at once. |
| F5 | `C21_refuted` | `FinalizeProposal` (478-573) accepts any relay round and overwrites the proposal's round number; the address check of vote/execute then fails for ever.  Anybody can so kill a proposal. |
| F6 | `C07_refuted` | `SolanaBridgeError` codes from 7 on convert back to the wrong error. |
| F7 | `C06_refuted` | The same bytes are an Ever-token withdrawal event and a Solana-token withdrawal event. |
| F8 | `C24_token_refuted` | `DepositSol` (token-proxy/src/processor.rs:797-808) rejects a wrong vault or mint only if the account is *also* not owned by the token program (`&&` for `\|\|`).  A token stopped by its own emergency flag can be deposited with another token's settings account, so the stop, limits and fees of the other token apply. |
| F9 | `C43_refuted`, `C43_bounty_refuted` | `WithdrawEverRequest`/`WithdrawSolRequest` make whoever submits the request its author (anyone can: the event is public); `CancelWithdrawSol` and `ChangeBountyForWithdrawSol` accept the author's signature instead of the recipient's.  A stranger who submits first redirects a pending withdrawal, or gives all of it away as bounty. |
| F10 | `C33_sol_refuted`, `C33_ever_refuted` | Withdrawal executions and approvals cut the 128-bit amount to 64 bits with `as u64` (token-proxy/src/processor.rs:1937, 3165, 4603).  A confirmed event over 2^64 + 40000 tokens is paid as one over 40000 and is finished. |
| F11 | `C34_refuted` | A Solana withdrawal parked as *pending* (vault too small) is paid later without any limit check, even if the limits were lowered in between. |
| F12 | `C32_refuted` | Paying a pending Solana withdrawal withholds the fee configured at that moment, not the one recorded at its first execution; the difference stays in the vault and is recorded nowhere. |
| F13 | `C38_refuted` | **Critical.** By the same `&&` as in F8 `DepositSol` accepts any token account as the vault and any tokens (token-proxy/src/processor.rs:797, 805).  A stranger deposits 800000 tokens of a mint of their own into their own account; the deposit is recorded as 799600 genuine tokens, which the relays would release on Everscale; no genuine token moves. |
| F14 | `C39_refuted` | By F13 the deposit limit is checked against the account passed as vault; deposits go on while the true vault exceeds the limit.  (No balance is ever *raised* above the limit: `C39_partial`.) |
| F15 | `C37_refuted` | `10u128.pow` wraps in a release build (4594-4599, 4614-4619).  For a token of 95 decimals a deposit of 9 units is recorded as 9·(10^86 mod 2^128). |
| F16 | `C44_refuted` | `FillWithdrawSol` adds up fees and amounts with wrapping `+=` (4159, 4166): two pending withdrawals of 2^63 are filled with an amount of 1. |
| F17 | `C56_refuted` | The deposit log entry of `CancelWithdrawSol` names the withdrawal account (3948-3957), not the deposit. |
| F18 | `C57_cancel_refuted`, `C57_fill_refuted` | `CancelWithdrawSol` computes the increased fee supply but never writes the token settings (3917-3920); `FillWithdrawSol` withholds fees twice and records neither.  The fees stay in the vault and cannot be withdrawn as fees. |
| F19 | `C46_refuted` (critical) | `ExecutePayload{Ever,Sol}` (2153-2241) checks neither the owner nor the address nor the votes of the account it is given.  An account of the attacker's own program, whose data decode as a request waiting for execution, lends the attacker the signature of any recipient's proxy account; the final write of the status is accepted because the attacker's program has already written the same bytes in a nested call.  No signature is needed. |
| F20 | `C27_refuted` | A payload may call the token proxy itself.  The outer call then writes back the copy of the request it read before: votes cast in the nested call are lost although their reparation was paid.  The payload must name the address of its own request, which is derived from the hash of the event with that payload: the witness uses an environment with such a fixed point; with SHA-256 nobody knows how to find one. |
| F21 | `C51_refuted`, `C51_round_loader_refuted` | Requests and proposals are created only `if lamports == 0` (1106, 1332; round-loader 411).  Whoever sends one lamport to the derived address stops the request: the instruction succeeds and creates nothing. |
| F22 | `C52_refuted`, `C52_blocked` | `create_proxy_account` (4644-4724) insists on a proxy owned by the system program and makes it a token account, so that the second payload withdrawal of a token for one recipient cannot be requested. |
| F23 | `C30_rounds_refuted`, `C30_closed_refuted` | A request's address contains the relay round, and `CloseWithdrawal` (4399-4444) needs no signature and leaves no trace.  The same Everscale event can be requested, confirmed and paid again in a later round, or again in the same round after its request was closed; only the relays' own memory prevents the second payout. |
| F24 | `C49_refuted` | `WithdrawEver` registers the token (1544-1700) before it looks at the votes (1710).  Anybody can request an event that never happened and register a token with name, symbol and decimals of their choice, without a single vote; the settings and the mint are then fixed for ever. |
| F25 | `C59_refuted` | Withdrawal fees are recorded as fees whether or not the tokens are in the vault: executing a withdrawal needs only the net amount in the vault.  A pending withdrawal empties the vault while 749 tokens of fees are recorded. |
| F26 | `C60_refuted` | `WriteProposal` (round-loader/src/processor.rs:450-476) never looks at the account kind; an account with the kind byte of a relay round is accepted and overwritten from byte 88 on (same defect as F-C13). All other instructions check the kind byte (`C60_token_proxy`, `C60_round_loader_partial`); `ExecuteByAdmin` only through the length of the account. |
| F27 | C54_execute_idle | `solana-bridge/src/instructions.rs` `execute_proposal_ix` lists the proposal as first account, the round loader's `ExecuteProposal` expects the signing funder there (then settings, then the proposal). With the generic builder a confirmed relay-round proposal can never be executed: the call fails or changes nothing, whatever further accounts are listed. Its data is correct (C54_data), the account order is not. |
| F28 | `C55_refuted`, `C55_fill_without_vault` | `fill_withdrawal_sol_ix` (token-proxy/src/bindings.rs:1155-1218) takes the vault as an option and lists it only when given; the processor (processor.rs:3980-4310) always reads it after the pairs of withdrawals, so the instruction built with `None` fails in every state. Besides, `UpdateFee`, `UpdateTokenName`, the two approvals, the two fee withdrawals and `WithdrawMultiVault` accept the upgrade authority with the program data account appended, but have no "by owner" builder, and payload execution has only the generic builder (`tp_covered` lists what no builder offers). |
| F29 | `C35_refuted` | A withdrawal of a Solana token that the vault cannot pay is counted against the daily limit on the day of its first execution (and becomes pending). When the vault is filled on a later day, anyone repeats the execution and the whole amount is paid on that day without being counted (token-proxy/src/processor.rs:1836-2151). With a limit of 720000, 749625 are paid without approval on one day. For Ever tokens, which are minted, the limit holds (`C35_ever_partial`). |
| F30 | `C65_cancel_refuted`, `C65_fill_refuted` | `CancelWithdrawSol` (token-proxy/src/processor.rs:3863) and `FillWithdrawSol` (4070-4078) reject a wrong mint only if it is also not owned by the token program (`&&` for `\|\|`, as in F8).  The deposit they record names the true token but carries the decimals of whatever mint was passed: a token of 6 decimals is announced to Everscale as one of 9. |
| F31 | `C66_refuted` | `ApproveWithdrawSol` (3050-3268) changes the status of the withdrawal without the `UpdateWithdrawalStatusEvent` that all other status changes emit (1821, 2138, 3036, 3966, 4188); so does the execution of payloads (2153-2241). |
| F32 | `C29_refuted` | **Double payout.**  Payload execution (token-proxy/src/processor.rs:2153-2241) does not check that the account is a request of its kind.  The record of a Solana withdrawal whose mint begins with a zero byte also reads as the record of an Ever withdrawal; for a request made on a day whose number ends in byte 5, with suitable votes missing, the supposed status is *waiting for execution* and the supposed payload lies inside the real one, which the withdrawing user chose on Everscale.  `ExecutePayloadEver` runs that payload, which calls `WithdrawSol` for the same request: the amount is paid.  Then the record read before is written back, the request is *new* again, and `WithdrawSol` pays once more.  In the witness an event over 50000 tokens, confirmed by 7 of 10 relays, is paid 2 x 49975 (the rest are fees).  As in F20 the payload must name the address of its own request, so the witness needs a fixed point of the hash function; with SHA-256 this is a gap in the program's own checks rather than a practical attack.  Such a record must contain its own address, which is a hash of the record.  `C29_nested_partial` and `C29_paid_partial` show that a request is paid at most once, for nested calls of any depth, as long as no token-proxy call finds the request's address inside the request's record. |
| F33 | `C68_refuted`, `C68_token_emergency_never` | **The JavaScript bindings cannot stop a token.**  `enableTokenEmergency` and `enableTokenEmergencyByOwner` (wasm/src/lib.rs:884-952) list the settings before the token's settings, the processor (token-proxy/src/processor.rs:2670-2752) reads them the other way round; `disableTokenEmergency` (954-986) leaves the settings out.  No state accepts what these three functions build, for any signer and token.  The Rust bindings are right. |
| F34 | `C69_refuted`, `C69_seed_never` | `unpackDepositEver` and `unpackDepositSol` (wasm/src/lib.rs:1658-1688) show the seed of a deposit in decimal, every function that takes a seed reads a UUID (hexadecimal).  No shown seed is read back as the seed: shorter ones are refused, one of 32 digits is read as another seed. |
| F35 | `C73_refuted`, `C73_blocked` | Relay rounds are created with the system program's `create_account` (round-loader/src/processor.rs:313-357, 724-775, 827-877), which refuses an address that holds lamports.  The address of a round follows from its number.  Whoever sends one lamport to the address of the next round stops `CreateRelayRound`, `Execute` and `ExecuteByAdmin` for that round for good; no instruction of the program clears the address.  A later round number still works until it is blocked as well. |
| F36 | `C75_refuted` | `UpdateFee` (token-proxy/src/processor.rs:3270-3366) accepts any multiplier and divisor.  With divisor 0, or a multiplier above the divisor, every execution, approval, deposit and cancellation of the token fails with an overflow error, for all users, until the fee is changed again.  A zero amount always fails, because the fee is at least 1. |
| F37 | `C76_refuted`, `C76_blocked`, `C76_blocked_settings` | The first deposit of a Solana token creates the vault and the settings account of the token with `create_account` (token-proxy/src/processor.rs:667-769), which refuses an address that holds lamports; and it takes the token for registered if the settings address holds lamports (668).  Both addresses follow from the mint.  Whoever sends one lamport to either of them stops every deposit that names the settings of the token: the token cannot be bridged.  (Using transfer, allocate and assign for accounts that hold lamports, as the associated-token-account program does, would avoid it.) |
| F38 | C78_withdraw, C78_deposit, C78_tp, C78_rl | The first withdrawal of an Ever token creates the token's mint and settings with `system_instruction::create_account` (processor.rs 1550-1664). Whoever sends one lamport to either address beforehand (both are computable from the public token address) makes every withdrawal of the token end without effect, forever: no instruction of the program can move the lamport away, so the remedy is an upgrade of the program. The same holds for first deposits of Solana tokens (F37) and relay rounds (F35). |
| F39 | `C79_payload_blocked`, `C79_refuted` | A withdrawal request with payload for an Ever token that is not registered yet cannot be filed: the request creates the recipient's proxy account (token-proxy/src/processor.rs:4644-4724), whose initialisation needs the mint, and the mint is only created by executing a first withdrawal.  The first withdrawal of a token must therefore be one without payload.  (Besides, only the JavaScript function `createMultiTokenEver` offers the account list of a first withdrawal; the Rust bindings have none with the funder accounts.) |
| F40 | `C80_long`, `C80_long_sol`, `C80_bound`, `C80_refuted` | The record of a withdrawal request has 1000 bytes (token-proxy/src/state.rs), of which event and votes can use at most 883.  A withdrawal of a Solana token with a payload of more than 799 bytes, or of an Ever token whose name, symbol and payload have more than 788 bytes (less one byte per relay), can never be requested, although the instruction and the Everscale side do not limit the payload: the tokens locked or burned on Everscale for it are not recoverable through the program. |
| F41 | `C81_refuted`, `C81_limit` | `FillWithdrawSol` (token-proxy/src/processor.rs:3980-4310) compares the deposit limit with the vault's balance plus the whole `amount`, although only `amount` less the net amounts of the filled withdrawals enters the vault.  Providers are refused although the vault would stay far below the limit; a pending withdrawal larger than the limit cannot be filled while the limit stands. |
| F42 | `C85_refuted` | An execution above the limits adds its net amount to the amount of the day (token-proxy/src/processor.rs:1481-2151); the approval takes it back only if the request was filed on the same day (2832-3268 compare the `epoch` of the request, which is the day of filing).  A large withdrawal that was filed on an earlier day, executed and approved today, uses up the limit of today: every further withdrawal of the token, whatever its amount, then has to be approved by hand. |
| F43 | `C86_sol`, `C86_ever` | A request whose amount comes to 0 units (dust below one unit of the mint, or a multiple of 2^64) can be filed and confirmed, but then neither executed nor closed: the minimum fee of 1 exceeds it.  The account and its rent are lost. |
| F44 | `C87_refuted`, `C87_blocked` | native-proxy/src/processor.rs:83 makes the wrapped-SOL account of the depositor only if its address holds **no lamports**. Anybody can send one lamport to that address (it is derived from the user's wallet) before the account exists; from then on the transfer arrives at an address without token account, `SyncNative` refuses it, and every deposit of that user through the native proxy fails. The user gets out by making the account with the associated-token-account program, which copes with lamports at the address. |
| F45 | `C88_stuck` | The payload of a withdrawal is not looked at when the withdrawal is requested, confirmed or paid.  If it is not the encoding of calls (token-proxy/src/processor.rs:2179-2181 and 2224-2226 read it only in `ExecutePayload`), the paid request waits for the execution for ever: it can be neither processed nor closed, and its rent is lost.  The tokens lie on the recipient's proxy account, from which the recipient can take them with `WithdrawProxy`, but that account also stops every later withdrawal with payload of this token for this recipient (F22). |
| F46 | `C90_refuted`, `C90_blocked_sol`, `C90_blocked_ever` | An approval computes the net amount with the withdrawal fee **of the moment of the approval** and subtracts it, checked, from the daily counter if the request is of the same day (token-proxy/src/processor.rs:3016-3031, 3247-3260). The counter was raised by the net amount with the fee **of the execution**. If the manager lowers the fee in between, the subtraction can underflow and no approval of the request succeeds until the next day; if they raise it, the counter keeps the difference. With an unchanged fee the counter always suffices (`C90_ever_partial`, `C90_sol_partial`). |
| F47 | `C92_refuted` | Round loader: because a vote is accepted with any relay round (C17), two keys of different rounds can share one position of a proposal. The first of the two votes is recorded; the second succeeds, changes nothing and is not paid. The outcome of the votes depends on their order (round-loader/src/processor.rs:622-650). |
| F48 | `C94_refuted`, `C94_refuted_rounds` | The end of a relay round is checked when a withdrawal is requested, but neither when relays vote (token proxy and round loader) nor when a withdrawal or a relay-round proposal is executed: relays of a round that is over still confirm withdrawals requested in time, and still appoint new rounds. |
| F49 | `C97_refuted` | `WithdrawEver` for a token that is not registered answers `Ok` and does nothing if it is called with nine accounts (token-proxy/src/processor.rs:1544-1548: `Err(_) => return Ok(())`).  A client that takes success for payment is mistaken; the same call with further accounts registers the token and pays. |
