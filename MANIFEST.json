{
 "claims": [
  {
   "property": "C01",
   "status": "proved",
   "theorems": [
    "C01_pack_unpack",
    "C01_ranges",
    "C01_fits"
   ],
   "note": "All ten record types, arbitrary stale content."
  },
  {
   "property": "C02",
   "status": "proved",
   "theorems": [
    "C02_canonical"
   ],
   "note": "All record types and both kind-agnostic views."
  },
  {
   "property": "C03",
   "status": "proved",
   "theorems": [
    "C03_instructions",
    "C03_unknown_tags"
   ],
   "note": "All three programs."
  },
  {
   "property": "C04",
   "status": "proved",
   "theorems": [
    "C04_withdrawal_views",
    "C04_deposit_views"
   ],
   "note": "Typed and generic view agree; voting through the generic view changes one vote only."
  },
  {
   "property": "C05",
   "status": "proved",
   "theorems": [
    "C05_seeds_distinct"
   ],
   "note": "Iff over all pairs of families; the bump byte is included."
  },
  {
   "property": "C06",
   "status": "partial",
   "theorems": [
    "C06_partial",
    "C06_refuted"
   ],
   "note": "The full statement is FALSE of the code: C06_refuted gives an Ever event and a Solana event with equal bytes. C06_partial shows a collision needs a mint whose first 32 bytes are an encoded Everscale address (first byte 0)."
  },
  {
   "property": "C07",
   "status": "partial",
   "theorems": [
    "C07_partial",
    "C07_refuted",
    "C07_codes"
   ],
   "note": "The full statement is FALSE of the code: from code 7 on no error converts back to itself (C07_refuted); codes 0-6 do (C07_partial). C07_codes: the codes of different errors differ."
  },
  {
   "property": "C08",
   "status": "proved",
   "theorems": [
    "C08_text_form"
   ],
   "note": "Round trip and exact description of accepted strings."
  },
  {
   "property": "C09",
   "status": "proved",
   "theorems": [
    "C09_be_bytes"
   ],
   "note": ""
  },
  {
   "property": "C10",
   "status": "proved",
   "theorems": [
    "C10_initialize",
    "C10_initialize_once",
    "C10_update",
    "C10_settings_step",
    "C10_frozen_without_authority"
   ],
   "note": "Per instruction and over all histories."
  },
  {
   "property": "C11",
   "status": "proved",
   "theorems": [
    "C11_round_origin"
   ],
   "note": "Any instruction in any reachable state."
  },
  {
   "property": "C12",
   "status": "proved",
   "theorems": [
    "C12_finalize",
    "C12_always",
    "C12_no_quorum"
   ],
   "note": "Quorum at finalization, invariant over histories, execution without quorum is a no-op."
  },
  {
   "property": "C13",
   "status": "partial",
   "theorems": [
    "C13_partial",
    "C13_refuted",
    "C13_full_false"
   ],
   "note": "The full statement is FALSE of the code: an unsigned WriteProposal overwrites relays of a relay-round account (C13_refuted). C13_partial: number, expiry, relay count and first two relays never change; without an upload into the account nothing changes."
  },
  {
   "property": "C14",
   "status": "proved",
   "theorems": [
    "C14_upload",
    "C14_unsigned"
   ],
   "note": ""
  },
  {
   "property": "C15",
   "status": "proved",
   "theorems": [
    "C15_frozen",
    "C15_committed"
   ],
   "note": ""
  },
  {
   "property": "C16",
   "status": "proved",
   "theorems": [
    "C16_vote",
    "C16_votes_stay",
    "C16_votes_origin"
   ],
   "note": ""
  },
  {
   "property": "C17",
   "status": "partial",
   "theorems": [
    "C17_partial",
    "C17_refuted"
   ],
   "note": "The full statement is FALSE of the code: votes are accepted through any relay round, one key fills two positions (C17_refuted). C17_partial: holds in histories in which votes present the proposal's own round and nobody uploads into relay rounds."
  },
  {
   "property": "C18",
   "status": "proved",
   "theorems": [
    "C18_executed_once"
   ],
   "note": ""
  },
  {
   "property": "C19",
   "status": "partial",
   "theorems": [
    "C19_partial",
    "C19_follows",
    "C19_refuted",
    "C19_full_false"
   ],
   "note": "The full statement is FALSE of the code: executing a proposal for an old round lowers the current round (C19_refuted). C19_partial: nothing else except the authority's update lowers it. C19_follows: whenever a relay round comes into being its number becomes the current one and nothing else of the settings changes."
  },
  {
   "property": "C20",
   "status": "partial",
   "theorems": [
    "C20_partial",
    "C20_refuted",
    "C20_full_false"
   ],
   "note": "The full statement is FALSE of the code: u32 wrap-around (C20_refuted). C20_partial: sum modulo 2^32, exact when it fits."
  },
  {
   "property": "C21",
   "status": "partial",
   "theorems": [
    "C21_partial",
    "C21_refuted",
    "C21_full_false"
   ],
   "note": "The full statement is FALSE of the code: finalizing with another round's account bricks the proposal for ever (C21_refuted). C21_partial: finalized with its own round it stays votable in every later state (progress theorem)."
  },
  {
   "property": "C22",
   "status": "proved",
   "theorems": [
    "C22_stored",
    "C22_create",
    "C22_execute",
    "C22_execute_by_admin"
   ],
   "note": ""
  },
  {
   "property": "C23",
   "status": "proved",
   "theorems": [
    "C23_initialize",
    "C23_once",
    "C23_role",
    "C23_only"
   ],
   "note": "Initialisation needs the upgrade authority's signature and happens at most once in any history (any depth of nested calls); role changes set exactly the named role; no other instruction changes a role."
  },
  {
   "property": "C24",
   "status": "partial",
   "theorems": [
    "C24_global",
    "C24_switch",
    "C24_switch_effect",
    "C24_token_partial",
    "C24_token_switch",
    "C24_token_refuted"
   ],
   "note": "The global flag is proved. The per-token flag: every instruction given the stopped token's own settings fails (or, for WithdrawEver, does nothing). The full statement is FALSE of the code: a stopped Solana token can still be deposited with another token's settings account (C24_token_refuted)."
  },
  {
   "property": "C25",
   "status": "proved",
   "theorems": [
    "C25_change",
    "C25_only"
   ],
   "note": "Each instruction changes exactly its fields, with the manager's or upgrade authority's signature; nothing else changes a parameter."
  },
  {
   "property": "C26",
   "status": "proved",
   "theorems": [
    "C26",
    "C26_leave_new",
    "C26_payment",
    "C26_history_partial",
    "C26_required"
   ],
   "note": "C26: over all histories - nested self-calls to any depth, payload execution on any account - a request exists only after a call made it with more than two thirds of the round's relays required, and it has left its first status only if a later call executed it with that many confirmations. C26_leave_new, C26_payment: per instruction, including that an execution which lowers any balance or raises any supply has the quorum. C26_required: required number and positions come from the named round. Assumed of the address oracle: no two event byte strings give the address (no_collision), it is derived from request seeds only (request_only)."
  },
  {
   "property": "C27",
   "status": "partial",
   "theorems": [
    "C27_vote",
    "C27_votes",
    "C27_history_partial",
    "C27_refuted"
   ],
   "note": "The vote instruction completely; permanence of recorded votes per instruction and over histories in which payload execution is applied to genuine requests of its kind and without nested self-calls. The full statement is FALSE of the code: C27_refuted, a vote cast by a payload's nested call is lost when the outer call writes back its stale copy. (The witness payload names the address of its own request, i.e. it needs a fixed point of the hash function.)"
  },
  {
   "property": "C28",
   "status": "proved",
   "theorems": [
    "C28",
    "C28_reads",
    "C28_step",
    "C28_who",
    "C28_history_partial"
   ],
   "note": "C28: over all histories - nested self-calls to any depth, payload execution on any account - the record keeps its head and event length and its status moves along the graph between the start and the end of every instruction, until a call closes it or its account has no lamports. C28_step, C28_who: which instruction takes which edge."
  },
  {
   "property": "C29",
   "status": "partial",
   "theorems": [
    "C29_step",
    "C29_history_partial",
    "C29_nested_partial",
    "C29_paid_partial",
    "C29_refuted"
   ],
   "note": "C29_step: each payment (mint, vault transfer, fill, conversion into a deposit) finds the request unpaid and leaves it paid. C29_nested_partial and C29_paid_partial: over all histories, with payloads that call the token proxy again to any depth and payload execution on any account, at most one call pays a request until it is closed or its account loses its last lamport, provided the account never contains its own address (which is derived from the hash of the event in it). C29_history_partial: without that proviso if payloads do not call back into the token proxy and payload execution is applied to validated requests only. The full statement is FALSE of the code: C29_refuted, a request is given to the payload execution of the other kind, whose misread payload executes the request; the stale record is written back and the request is paid again. (The witness payload names the address of its own request, i.e. it needs a fixed point of the hash function.)"
  },
  {
   "property": "C30",
   "status": "partial",
   "theorems": [
    "C30_partial",
    "C30_rounds_refuted",
    "C30_closed_refuted"
   ],
   "note": "The full statement is FALSE of the code: an event is paid again through a request of another round, or after its request was closed (finding F23). Proved: at most one payout per round while the request is not closed."
  },
  {
   "property": "C31",
   "status": "partial",
   "theorems": [
    "C31_ever_partial",
    "C31_sol_partial",
    "C33_sol_refuted",
    "C33_ever_refuted"
   ],
   "note": "Full statement is FALSE of the code (amounts are truncated to 64 bits after scaling, finding F10). The partial theorems give the exact amount paid for every execution whose scaled amount fits 64 bits and whose decimals differ by at most 38."
  },
  {
   "property": "C32",
   "status": "partial",
   "theorems": [
    "C32_ever",
    "C32_sol",
    "C32_refuted"
   ],
   "note": "C32_ever/C32_sol: fee withheld by an execution is max(1, amount/divisor*multiplier), never exceeds the amount, and is recorded in the fee supply, for all executions of New requests; C32_refuted: a pending request is paid less the then-current fee, and this fee is recorded nowhere (finding F12), so the full statement is FALSE of the code."
  },
  {
   "property": "C33",
   "status": "partial",
   "theorems": [
    "C31_ever_partial",
    "C31_sol_partial",
    "C33_sol_refuted",
    "C33_ever_refuted"
   ],
   "note": "Full statement is FALSE of the code: the scaled amount is cut to 64 bits with `as u64` (finding F10). Below 2^64 the partial theorems give the exact amount."
  },
  {
   "property": "C34",
   "status": "partial",
   "theorems": [
    "C34_ever",
    "C34_sol_partial",
    "C34_refuted"
   ],
   "note": "C34_ever is full for Ever tokens. For Solana tokens a pending withdrawal is paid without any limit check (C34_refuted, finding F11); C34_sol_partial covers requests that are New."
  },
  {
   "property": "C35",
   "status": "partial",
   "theorems": [
    "C35_ever_partial",
    "C35_refuted"
   ],
   "note": "Proved for Ever tokens over histories of any length (foreign steps, purges, approvals, requests of other days included) in which fee and limit of the token stay the same, payloads do not call back into the token proxy and payloads are run on checked requests. FALSE of the code for Solana tokens (C35_refuted, finding F29): a pending payment is counted on the day of its first execution and paid, uncounted, on a later day."
  },
  {
   "property": "C36",
   "status": "proved",
   "theorems": [
    "C36_released",
    "C36_approve"
   ],
   "note": ""
  },
  {
   "property": "C37",
   "status": "partial",
   "theorems": [
    "C37_partial",
    "C37_refuted"
   ],
   "note": "All deposits of Ever tokens: burn, fee, record, multi-vault, what does not change. The full statement is FALSE of the code: for decimals differing by 39 or more the recorded amount is computed modulo 2^128 (C37_refuted)."
  },
  {
   "property": "C38",
   "status": "partial",
   "theorems": [
    "C38_partial",
    "C38_refuted"
   ],
   "note": "Facts about the vault account of the account list. The full statement is FALSE of the code: that account need not be the bridge's vault (C38_refuted)."
  },
  {
   "property": "C39",
   "status": "partial",
   "theorems": [
    "C39_partial",
    "C38_partial",
    "C44_partial",
    "C39_refuted"
   ],
   "note": "No deposit raises any token account's balance above the limit. Literally the statement is FALSE of the code: a deposit can succeed while the vault is above a lowered limit (C39_refuted)."
  },
  {
   "property": "C40",
   "status": "proved",
   "theorems": [
    "C40_ever",
    "C40_sol"
   ],
   "note": "For all states and account lists."
  },
  {
   "property": "C41",
   "status": "proved",
   "theorems": [
    "C41",
    "C41_locked",
    "C41_call"
   ],
   "note": "All instructions and states, and payloads whose nested calls - of other programs and of the token proxy itself, to any depth - do whatever the token program's rules allow: if the balance of a vault (a token account that only the vault itself can spend, as the token proxy makes it) goes down, one of the token-proxy calls made by the instruction lowers it and is a withdrawal execution with quorum, an approval or a fee withdrawal under its own conditions. C41_locked: a vault stays one. C41_call: the same for a single call."
  },
  {
   "property": "C42",
   "status": "proved",
   "theorems": [
    "C42",
    "C42_call"
   ],
   "note": "As C41, for the supply of a mint of the bridge, starting from an unused address or a mint only it can mint from (as the token proxy makes it)."
  },
  {
   "property": "C43",
   "status": "partial",
   "theorems": [
    "C43_cancel_partial",
    "C43_bounty_partial",
    "C43_refuted",
    "C43_bounty_refuted"
   ],
   "note": "FALSE of the code as stated: the submitter of the request (anyone) may redirect it; proved: author or recipient must sign."
  },
  {
   "property": "C44",
   "status": "partial",
   "theorems": [
    "C44_partial",
    "C44_refuted"
   ],
   "note": "Any number of withdrawals, duplicates impossible. Missing: that the filled requests are covered by the given amount when their sum reaches 2^64, which is FALSE of the code (C44_refuted)."
  },
  {
   "property": "C45",
   "status": "proved",
   "theorems": [
    "C45"
   ],
   "note": "All callers and states: exact amount, only from the proxy derived for the signer, nothing else changes."
  },
  {
   "property": "C46",
   "status": "partial",
   "theorems": [
    "C46_others",
    "C46_partial",
    "C46_refuted"
   ],
   "note": "C46_others: no other instruction calls a chosen program. C46_partial: under the missing check (payload_checked), over all histories the nested instructions are those of a confirmed request and the proxy is that of its token and recipient. The full statement is FALSE of the code: C46_refuted, a forged account owned by another program drains a proxy account without any signature."
  },
  {
   "property": "C47",
   "status": "proved",
   "theorems": [
    "C47_close_withdrawal",
    "C47_close_deposit"
   ],
   "note": ""
  },
  {
   "property": "C48",
   "status": "proved",
   "theorems": [
    "C48_value",
    "C48_withdraw",
    "C48_only"
   ],
   "note": "C48_only assumes that programs called by payloads do not debit the token proxy's account (rule of the runtime)."
  },
  {
   "property": "C49",
   "status": "partial",
   "theorems": [
    "C49_partial",
    "C49_refuted"
   ],
   "note": "The full statement is FALSE of the code: tokens are registered before the votes are counted (finding F24). Proved: settings and mint come only from executing a stored request, with that request's metadata, fresh, with the mint as its own authority."
  },
  {
   "property": "C50",
   "status": "proved",
   "theorems": [
    "C50_untouched",
    "C50_created"
   ],
   "note": ""
  },
  {
   "property": "C51",
   "status": "partial",
   "theorems": [
    "C51_partial",
    "C51_round_loader_partial",
    "C51_refuted",
    "C51_round_loader_refuted"
   ],
   "note": "Holds if the address has no lamports (both programs). The full statement is FALSE of the code: one lamport at the address suffices and nothing is created although the instruction succeeds."
  },
  {
   "property": "C52",
   "status": "partial",
   "theorems": [
    "C52_blocked",
    "C52_refuted"
   ],
   "note": "The full statement is FALSE of the code: C52_blocked, every payload request needs a proxy address owned by the system program and leaves one owned by the token program; C52_refuted, in a reachable state no second payload request for the pair succeeds, for any accounts and data."
  },
  {
   "property": "C53",
   "status": "proved",
   "theorems": [
    "C53"
   ],
   "note": "All states, contexts, amounts; the deposit that follows is the token proxy's (C37-C39)."
  },
  {
   "property": "C54",
   "status": "proved",
   "theorems": [
    "C54_data",
    "C54_same",
    "C54_execute_idle"
   ],
   "note": "Data of the generic builders decodes to the intended instruction in both programs, for every instruction number; vote and request builders equal the programs' own builders. C54_execute_idle is a finding: the generic execute builder puts the proposal where the round loader expects the signing funder, so it can never execute a round proposal."
  },
  {
   "property": "C55",
   "status": "partial",
   "theorems": [
    "C55_round_loader_partial",
    "C55_token_proxy_partial",
    "C55_native_proxy",
    "C55_fill_without_vault",
    "C55_refuted",
    "C55_signers"
   ],
   "note": "For every account list and instruction data that a processor accepts in any state, some builder's instruction (same data, the builder's own account list) is accepted in that state with the same result, so the builders' derived addresses, order and flags are those the processor requires. Not covered: payload execution, role instructions signed by the upgrade authority where no by-owner builder exists, a foreign mint or vault where the processor does not insist on the token's own, other than associated recipient accounts in a fill (tp_covered), and proposal hashes without known preimage (rl_covered). The full statement is FALSE of the code: the fill builder called without a vault lists accounts that no state makes the processor accept (C55_refuted, C55_fill_without_vault). C55_signers: the builders ask for the signatures of those who pay or act and of nobody else."
  },
  {
   "property": "C56",
   "status": "partial",
   "theorems": [
    "C56_partial",
    "C56_refuted"
   ],
   "note": "Deposits and fills. The full statement is FALSE of the code for cancellations (C56_refuted)."
  },
  {
   "property": "C57",
   "status": "partial",
   "theorems": [
    "C57_partial",
    "C32_ever",
    "C32_sol",
    "C57_cancel_refuted",
    "C57_fill_refuted"
   ],
   "note": "Deposits and executions record their fee. The full statement is FALSE of the code for cancelling and filling."
  },
  {
   "property": "C58",
   "status": "proved",
   "theorems": [
    "C58_no_value_created"
   ],
   "note": "Includes the exact loss."
  },
  {
   "property": "C59",
   "status": "partial",
   "theorems": [
    "C59_partial",
    "C59_refuted"
   ],
   "note": "The full statement is FALSE of the code (finding F25). Proved: every instruction preserves 'fees <= vault balance' except deposits into a false vault and withdrawals whose gross amount is not in the vault on top of the fees."
  },
  {
   "property": "C60",
   "status": "partial",
   "theorems": [
    "C60_token_proxy",
    "C60_kept",
    "C60_round_loader_partial",
    "C60_rl_kept",
    "C60_refuted"
   ],
   "note": "The full statement is FALSE of the code: WriteProposal of the round loader does not look at the kind byte and writes into a relay-round account (C60_refuted). Proved: every other instruction of both programs finds the expected kind byte at each place where it reads a record (C60_token_proxy: or changes nothing; C60_round_loader_partial: in all histories, the proposal given to ExecuteByAdmin only if it is the round loader's account), and records never change their kind (C60_kept, without nested calls of the token proxy; C60_rl_kept)."
  },
  {
   "property": "C61",
   "status": "proved",
   "theorems": [
    "C61_token_proxy",
    "C61_round_loader"
   ],
   "note": "Accounts not at the listed places keep owner and data and are not debited, for every instruction of both programs, token-proxy calls made by payloads included; read-only accounts never change."
  },
  {
   "property": "C62",
   "status": "proved",
   "theorems": [
    "C62_rounds",
    "C62_settings",
    "C62_required",
    "C62_history_partial"
   ],
   "note": ""
  },
  {
   "property": "C63",
   "status": "proved",
   "theorems": [
    "C63_ever",
    "C63_sol",
    "C63_sol_again",
    "C63_approve_ever",
    "C63_approve_sol"
   ],
   "note": "Execution and approval, Ever and Solana tokens, repeated execution of a pending request.  Amounts are the 64-bit ones the code computes (see C33)."
  },
  {
   "property": "C64",
   "status": "proved",
   "theorems": [
    "C64_cancel"
   ],
   "note": "All account lists and states."
  },
  {
   "property": "C65",
   "status": "partial",
   "theorems": [
    "C65_partial",
    "C65_cancel_refuted",
    "C65_fill_refuted"
   ],
   "note": "The full statement is FALSE of the code: cancelling and filling accept any mint account (finding F30). Proved: the decimals are those of the mint account passed, and a deposit names that mint."
  },
  {
   "property": "C66",
   "status": "partial",
   "theorems": [
    "C66_partial",
    "C66_refuted"
   ],
   "note": "The full statement is FALSE of the code: the approval of Solana withdrawals and the execution of payloads log nothing (finding F31). Proved for all other instructions."
  },
  {
   "property": "C67",
   "status": "proved",
   "theorems": [
    "C67_sol",
    "C67_ever"
   ],
   "note": "All account lists and states; C49 has the mint and addresses."
  },
  {
   "property": "C68",
   "status": "partial",
   "theorems": [
    "C68_same_partial",
    "C68_token_emergency_never",
    "C68_refuted"
   ],
   "note": "The full statement is FALSE of the code (C68_refuted, finding F33): the three functions for the emergency of a token build instructions that no state accepts (C68_token_emergency_never, for all states, signers and tokens). C68_same_partial: every other builder and address function succeeds exactly if its arguments can be read and returns exactly what the Rust bindings return for the values read (equivalence, 42 functions)."
  },
  {
   "property": "C69",
   "status": "partial",
   "theorems": [
    "C69_texts_partial",
    "C69_tokens_partial",
    "C69_seed_never",
    "C69_refuted"
   ],
   "note": "The full statement is FALSE of the code for the seed of a deposit (C69_refuted; C69_seed_never: for no seed at all is the shown text read back as the seed, finding F34). C69_texts_partial: round trip and meaning of the texts of keys, payloads, amounts and UUIDs for all values and all texts. C69_tokens_partial: the texts of every token record are read back as the stored values."
  },
  {
   "property": "C70",
   "status": "proved",
   "theorems": [
    "C70",
    "C70_token_lasts"
   ],
   "note": "Progress (converse of C23-C25): the instruction succeeds in every state of every history after the initialisation, for payloads and nested calls of any depth; hypothesis clock_ok: the clock is within the range of an i64 timestamp."
  },
  {
   "property": "C71",
   "status": "proved",
   "theorems": [
    "C71_made",
    "C71_vote",
    "C71_quorum"
   ],
   "note": "Hypotheses besides those in the statement: no_collision (no two event byte strings give this request address), the round account holds the round in the current state (C13), relays are distinct from the request account and their balances stay below 2^64. With payloads that call the token proxy again the history part is false (C27_refuted)."
  },
  {
   "property": "C72",
   "status": "proved",
   "theorems": [
    "C72_sol",
    "C72_sol_again",
    "C72_ever",
    "C72_approve_sol",
    "C72_approve_ever"
   ],
   "note": "Progress: sufficient conditions for success, with the outcome of C63. For requests to mint the token must be registered already (the registration path is the subject of C36 and C54). A destination must differ from the vault."
  },
  {
   "property": "C73",
   "status": "partial",
   "theorems": [
    "C73_owner",
    "C73_submitter_partial",
    "C73_execute_partial",
    "C73_admin_partial",
    "C73_finalize",
    "C73_vote",
    "C73_file_partial",
    "C73_blocked",
    "C73_refuted"
   ],
   "note": "The full statement is FALSE of the code (F35): one lamport at the address of a round makes the round impossible, and no instruction of the program clears the address. The _partial theorems assume that the address to be created is vacant."
  },
  {
   "property": "C74",
   "status": "proved",
   "theorems": [
    "C74_bounty",
    "C74_close",
    "C74_close_deposit",
    "C74_proxy",
    "C74_multivault",
    "C74_sol_fee",
    "C74_ever_fee",
    "C74_cancel"
   ],
   "note": "Progress theorems: the call succeeds and its effect is stated. Hypotheses name what must hold: balances in range, accounts not frozen, fees defined and not above the amount."
  },
  {
   "property": "C75",
   "status": "partial",
   "theorems": [
    "C75_partial",
    "C75_sol",
    "C75_ever",
    "C75_approve_sol",
    "C75_approve_ever",
    "C75_deposit_ever",
    "C75_deposit_sol",
    "C75_cancel",
    "C75_refuted"
   ],
   "note": "The full statement is FALSE of the code (C75_refuted, finding F36): after UpdateFee with divisor 0 or with 2/1 no call executes a confirmed withdrawal. C75_partial is the part for fair fees; C75_sol .. C75_cancel show that a defined fee of at most the amount is needed. With C72 and C74 it is also enough."
  },
  {
   "property": "C76",
   "status": "partial",
   "theorems": [
    "C76_sol",
    "C76_ever",
    "C76_first_partial",
    "C76_blocked",
    "C76_blocked_settings",
    "C76_refuted"
   ],
   "note": "Proved: deposits of registered Solana tokens (C76_sol) and Ever tokens (C76_ever) succeed from every state meeting the conditions, and so do first deposits if the addresses of vault and settings hold no lamports (C76_first_partial). The full statement is FALSE of the code: one lamport sent by anybody to the address of the vault or of the settings stops every first deposit of the token (C76_blocked, C76_blocked_settings; witness C76_refuted, finding F37), because create_account refuses addresses that hold lamports."
  },
  {
   "property": "C77",
   "status": "proved",
   "theorems": [
    "C77_tp",
    "C77_rl"
   ],
   "note": "The places of the sysvars are those of the client bindings. Rent::get() (close helper, 4681) reads no account."
  },
  {
   "property": "C78",
   "status": "proved",
   "theorems": [
    "C78_tp",
    "C78_rl",
    "C78_deposit",
    "C78_withdraw"
   ],
   "note": "This is a weakness of the code (findings F37, F38) made precise: the code creates accounts with system create_account, which fails for an address that already has lamports, and nothing in the programs can sign the lamports away. Signers of top-level calls are assumed not to be derived addresses (C78_rl, ordinary)."
  },
  {
   "property": "C79",
   "status": "partial",
   "theorems": [
    "C79_first_partial",
    "C79_payload_blocked",
    "C79_refuted"
   ],
   "note": "The full statement is FALSE of the code (C79_refuted): one lamport at the address of the token's settings stops the withdrawal for everybody (F38). C79_first_partial proves it for vacant mint and settings addresses (the token account may hold lamports), decimals at most 47, names and symbols of at most 32 bytes and an empty payload. With payload the request cannot even be filed before the token has a mint (C79_payload_blocked, F39)."
  },
  {
   "property": "C80",
   "status": "partial",
   "theorems": [
    "C80_ever",
    "C80_ever_payload",
    "C80_sol",
    "C80_sol_payload",
    "C80_bound",
    "C80_long",
    "C80_long_sol",
    "C80_refuted"
   ],
   "note": "The full statement is FALSE of the code (C80_refuted): an event whose payload (with name and symbol) does not fit the record of 1000 bytes can never be requested (C80_long, C80_long_sol, F40). Proved: every event without payload can be filed (C80_ever, C80_sol), and with payload if it fits, the mint exists and the recipient has no proxy account yet (C80_ever_payload, C80_sol_payload). Further obstacles are C51_refuted (a lamport at the address), C52_refuted (the proxy account exists) and C79_payload_blocked (no mint)."
  },
  {
   "property": "C81",
   "status": "partial",
   "theorems": [
    "C81_fill",
    "C81_limit",
    "C81_refuted"
   ],
   "note": "The full statement is FALSE of the code (C81_refuted): the deposit limit is checked as if all of `amount` entered the vault although only the part not paid out does; a fill that would leave 1375 tokens in a vault with limit 400000 is refused (F41). Proved: the statement holds for lists of any length whenever vault balance plus `amount` is within the limit (C81_fill), and that condition is necessary in every state (C81_limit)."
  },
  {
   "property": "C82",
   "status": "proved",
   "theorems": [
    "C82_vault",
    "C82_mint",
    "C82_backed"
   ],
   "note": "The ledger of every vault and of every bridge mint over all histories, nested calls included. That a request is not paid twice is C29 (and F32 refutes it for self-naming payloads): then each of the two payments has its own entry here."
  },
  {
   "property": "C83",
   "status": "proved",
   "theorems": [
    "C83_sol",
    "C83_ever",
    "C83_first"
   ],
   "note": "Composed of the filing (C80), an induction over the voters, and the execution (C72, C79); the hypotheses are all about the state before filing. Requests without payload; the calls follow each other, as no other transaction in between is assumed."
  },
  {
   "property": "C84",
   "status": "proved",
   "theorems": [
    "C84_handover"
   ],
   "note": "Composition of the progress theorems of C73 over the whole sequence of instructions; the quorum is any duplicate-free list of the round's relays."
  },
  {
   "property": "C85",
   "status": "partial",
   "theorems": [
    "C85_sol_partial",
    "C85_ever_partial",
    "C85_refuted"
   ],
   "note": "The full statement is FALSE of the code (finding F42): the approval takes the amount back only if the request was filed on the day of the approval. Proved: the two calls succeed, in that order, and pay; the fee is booked once; the amount of the day is as before if the request was filed on the day, and otherwise includes the approved amount. C85_refuted: a request filed yesterday, executed and approved today, leaves a day's limit exhausted, so that every further withdrawal needs an approval."
  },
  {
   "property": "C86",
   "status": "proved",
   "theorems": [
    "C86_sol",
    "C86_ever",
    "C86_dust"
   ],
   "note": "Finding F43. Histories without payload calls into the bridge that the request itself names (payload_checked), as in C27."
  },
  {
   "property": "C87",
   "status": "partial",
   "theorems": [
    "C87_deposit_partial",
    "C87_first_partial",
    "C87_blocked",
    "C87_refuted"
   ],
   "note": "The full statement is FALSE of the code: the native proxy makes the wrapped-SOL account only if its address holds no lamports (processor.rs:83), so one lamport sent to that address by anybody stops every deposit of that user through the native proxy until the account is made by other means (C87_blocked, C87_refuted). Proved: the deposit goes through for a token that is registered (C87_deposit_partial) and for the first deposit of wrapped SOL (C87_first_partial), with the wrapped-SOL account in order or its address empty."
  },
  {
   "property": "C88",
   "status": "proved",
   "theorems": [
    "C88_sol",
    "C88_ever",
    "C88_send_sol",
    "C88_send_ever",
    "C88_stuck"
   ],
   "note": "What the called programs do is a parameter (ext); the transfer theorems assume of it only that the SPL token program carries out transfers as modelled in Spl.v. C88_stuck: histories with the hypotheses of C17 (no hash collision at the request, payload execution only of checked requests)."
  },
  {
   "property": "C89",
   "status": "proved",
   "theorems": [
    "C89",
    "C89_rl",
    "C89_short",
    "C89_unsigned"
   ],
   "note": "The faults are the constructors of the inductive specification fault (PropErrors.v); each states only the earlier checks of the call. C89_short counts the accounts that are read before anything is checked: three instructions read the clock account after checking the rent account, so one account less is counted for them (tp_needs). C89_unsigned covers the instructions of tp_checks."
  },
  {
   "property": "C90",
   "status": "partial",
   "theorems": [
    "C90_ever_partial",
    "C90_sol_partial",
    "C90_blocked_ever",
    "C90_blocked_sol",
    "C90_refuted"
   ],
   "note": "The full statement is FALSE of the code: C90_refuted gives a reached state in which the manager lowers the withdrawal fee while a request waits; the net amount is computed with the new fee, exceeds what was counted with the old one, and no call approves the request on that day. C90_ever_partial and C90_sol_partial prove the claim for all histories in which the withdrawal fee of the token stays the same (and in which no request reads as one of the other kind, see C06). C90_blocked_ever and C90_blocked_sol: with a smaller counter no approval succeeds on that day, whatever the accounts and whoever signs."
  },
  {
   "property": "C91",
   "status": "proved",
   "theorems": [
    "C91"
   ],
   "note": "The relay and the round account of each vote must be other accounts than the request (fair in PropOrder.v). Votes that are repeated, i.e. of a relay that voted before the sequence starts, are included: they change nothing in any order."
  },
  {
   "property": "C92",
   "status": "partial",
   "theorems": [
    "C92_partial",
    "C92_refuted"
   ],
   "note": "The full statement is FALSE of the code (C92_refuted): voters may show any relay round (C17), so two keys of different rounds can share one position of the proposal, and whoever comes first decides it; the other's vote is accepted and ignored. C92_partial proves it for all voters that show the same round account."
  },
  {
   "property": "C93",
   "status": "proved",
   "theorems": [
    "C93_local",
    "C93_refused",
    "C93_order",
    "C93_payloads"
   ],
   "note": "PropLocal.v (Local.v: relation between two runs, along the structure of the code). Hypotheses on what payloads call: ext_local (depends on its own accounts only) and ext_ro (does not write read-only accounts); C93_payloads proves both for payloads that call the bridge programs to any depth."
  },
  {
   "property": "C94",
   "status": "partial",
   "theorems": [
    "C94_partial",
    "C94_refuted",
    "C94_refuted_rounds"
   ],
   "note": "The full statement is FALSE of the code (finding F48). Proved: a request succeeds only before the end of the round it names (C94_partial). Refuted: relays vote after the end of their round and the withdrawal is paid (C94_refuted); relays of ended rounds appoint the next round (C94_refuted_rounds). C95 shows that votes and the round loader do not depend on the time at all."
  },
  {
   "property": "C95",
   "status": "proved",
   "theorems": [
    "C95_loader",
    "C95_proxy",
    "C95_day",
    "C95_clock",
    "C95_payloads"
   ],
   "note": "PropTime.v (Timeless.v: two runs at different times, along the structure of the code). C95_payloads proves the hypothesis on payloads for payloads that call the bridge to any depth."
  },
  {
   "property": "C96",
   "status": "proved",
   "theorems": [
    "C96",
    "C96_refused"
   ],
   "note": "PropGrow.v (Grow.v: two runs with two lists of privileges, along the structure of the code). No hypothesis on what payloads call: nested calls get exactly the privileges named in the payload."
  },
  {
   "property": "C97",
   "status": "partial",
   "theorems": [
    "C97_partial",
    "C97_ever",
    "C97_refuted"
   ],
   "note": "The full statement is FALSE of the code: the execution of an Ever withdrawal of an unregistered token succeeds and does nothing with nine accounts, and registers the token and pays with more (C97_refuted); filling withdrawals reads pairs of accounts while there are any. C97_partial proves it for every other instruction of the three programs, and for the execution of Ever withdrawals with ten accounts or more; C97_ever for the execution of Ever withdrawals of registered tokens with any number; it assumes ext_ro (external programs write only writable accounts), which the bridge's own programs satisfy (C93_payloads)."
  }
 ]
}
