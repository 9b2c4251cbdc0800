{"id": "C01", "title": "Stored accounts read back exactly", "statement": "Writing any account record of the two programs (settings, relay round, relay-round proposal, multi-vault, token settings, both deposit records, both withdrawal records) into an account of the record's fixed size and reading it back yields the same record, whatever stale bytes the account held before; bytes behind the record are untouched; a record that does not fit aborts instead of being truncated; an account of another size is refused.", "quantifier": "every record value whose integers are in range and strings are UTF-8, and every previous account content", "why_tests_cant": "The stale tail left by a longer earlier record and all string/vector lengths form an unbounded input space.", "anchors": ["token-proxy/src/state.rs: Settings, MultiVault, TokenSettings, DepositMultiTokenSol, DepositMultiTokenEver, WithdrawalMultiTokenEver, WithdrawalMultiTokenSol", "round-loader/src/state.rs: Settings, RelayRound, RelayRoundProposal", "bridge-derive/src/lib.rs: impl_derive_bridge_pack"]}
{"id": "C02", "title": "Account decoding is canonical", "statement": "If an account's bytes decode to a record then the bytes begin with exactly that record's encoding, so no two different byte prefixes decode to the same record and re-writing an unmodified record changes no byte.", "quantifier": "every byte string and every record type", "why_tests_cant": "Needs all byte strings, including adversarial lengths and invalid UTF-8.", "anchors": ["token-proxy/src/state.rs", "round-loader/src/state.rs", "bridge-utils/src/state.rs: Proposal, AccountKind"]}
{"id": "C03", "title": "Instructions decode to what the client encoded", "statement": "For each program every encodable instruction decodes to itself, no two different instructions have the same encoding, and any accepted instruction data is exactly the encoding of the decoded instruction (unknown tags, truncated data and trailing bytes are rejected).", "quantifier": "every instruction value and every byte string", "why_tests_cant": "Injectivity over unbounded strings/vectors cannot be sampled.", "anchors": ["round-loader/src/instruction.rs: RoundLoaderInstruction", "token-proxy/src/instruction.rs: TokenProxyInstruction", "native-proxy/src/instruction.rs: NativeProxyInstruction"]}
{"id": "C04", "title": "Generic and typed views of deposits and withdrawals agree", "statement": "For every deposit or withdrawal record the token proxy writes, the kind-agnostic view used for voting and closing exposes exactly the typed record's author, round, votes, serialized event and serialized metadata; recording a vote through the generic view changes only that one vote in the typed view.", "quantifier": "every record built by the deposit/withdrawal instructions, every vote position", "why_tests_cant": "Agreement depends on hand-computed length prefixes for every string and payload length.", "anchors": ["bridge-utils/src/state.rs: Proposal", "token-proxy/src/state.rs: *WithLen::new, Deposit", "token-proxy/src/processor.rs: process_vote_for_withdraw_request, process_close_deposit, process_close_withdrawal"]}
{"id": "C05", "title": "Program-derived addresses of different accounts never share seeds", "statement": "The seed strings from which the token proxy and the round loader derive settings, multi-vault, token settings, mint, vault, deposit, proxy, withdrawal/proposal and relay-round addresses are pairwise different for different account families and for different parameters, except that an Ever-token settings address and a Solana-token settings address coincide exactly when the token hash equals the mint.", "quantifier": "all parameters of all families", "why_tests_cant": "Seed concatenation ambiguity is a statement about all parameter combinations.", "anchors": ["token-proxy/src/utils.rs: get_associated_*", "bridge-utils/src/helper.rs: get_associated_*, validate_proposal_account"]}
{"id": "C06", "title": "Ever and Solana withdrawal events cannot be confused", "statement": "No byte string is both the event of an Ever-token withdrawal and the event of a Solana-token withdrawal, so a request approved by relays for one kind can never be executed as the other kind.", "quantifier": "all event byte strings", "why_tests_cant": "A collision needs a crafted mint/amount pair that random tests never hit.", "anchors": ["token-proxy/src/state.rs: WithdrawalMultiTokenEverEvent, WithdrawalMultiTokenSolEvent", "token-proxy/src/processor.rs: process_withdraw_multi_token_ever, process_withdraw_multi_token_sol"]}
{"id": "C07", "title": "Custom error codes convert back to the error that produced them", "statement": "Converting any bridge error to its on-chain code and converting the code back yields the same error.", "quantifier": "all error variants", "why_tests_cant": "Finite, but the shift only shows on variants no test raises.", "anchors": ["bridge-utils/src/errors.rs: SolanaBridgeError, TryFrom<u32>"]}
{"id": "C08", "title": "Everscale address text form round-trips", "statement": "Printing any Everscale address and parsing the text gives the same address, and parsing accepts only strings of the form <workchain>:<64 hex digits> with the workchain in -128..127.", "quantifier": "all workchains, all 32-byte addresses, all strings", "why_tests_cant": "2^264 addresses and all strings.", "anchors": ["bridge-utils/src/types.rs: EverAddress::from_str, EverAddress::fmt"]}
{"id": "C09", "title": "Big-endian conversion to 256-bit values preserves the number", "statement": "Building a 256-bit value from at most 32 big-endian bytes preserves the number they denote; from more bytes it keeps exactly the first 32.", "quantifier": "all byte strings", "why_tests_cant": "All lengths and contents.", "anchors": ["bridge-utils/src/types.rs: UInt256::from_be_bytes"]}
{"id": "C10", "title": "Round-loader settings are controlled by the upgrade authority only", "statement": "Initialisation succeeds only with the signature of the program's upgrade authority and at most once; updating settings succeeds only with that signature and changes exactly the supplied fields and no other account.", "quantifier": "all callers, account lists, states and histories", "why_tests_cant": "All account substitutions by an attacker.", "anchors": ["round-loader/src/processor.rs: process_initialize, process_update_settings", "bridge-utils/src/helper.rs: validate_initializer_account, validate_programdata_account"]}
{"id": "C11", "title": "A relay round only comes into being by quorum or by the round submitter", "statement": "Whenever a successful instruction creates a relay-round account, either the configured round submitter signed, or a finalized, not yet executed proposal whose address commits to the new round's content carries at least the required number of confirmations; the stored round has exactly the relays and number of the instruction/proposal.", "quantifier": "all instructions, account lists, states", "why_tests_cant": "Attackers choose every account and byte.", "anchors": ["round-loader/src/processor.rs: process_create_relay_round, process_execute_proposal, process_execute_proposal_by_admin"]}
{"id": "C12", "title": "Relay-round quorum is more than two thirds", "statement": "Finalizing a proposal records a vote requirement that is more than two thirds of the relays in the round and at least the configured minimum; execution with fewer confirmations changes nothing.", "quantifier": "all relay counts and settings", "why_tests_cant": "All relay counts; arithmetic boundary cases.", "anchors": ["round-loader/src/processor.rs: process_finalize_proposal, process_execute_proposal"]}
{"id": "C13", "title": "A relay round's relay set never changes after creation", "statement": "Once a relay-round account is created, no instruction of the round loader ever changes its relays, round number or expiry.", "quantifier": "all histories of instructions by arbitrary parties", "why_tests_cant": "Needs all instructions with all (mis)matched accounts.", "anchors": ["round-loader/src/processor.rs: process_write_proposal, write_proposal_data"]}
{"id": "C14", "title": "Uploading proposal data is confined to the upload window of unfinalized proposals", "statement": "A successful data upload changes only bytes of the one given account inside the window [88,3304), copies exactly the supplied bytes to the supplied offset, needs no signature, and never changes an account that holds a finalized proposal.", "quantifier": "all offsets, byte strings and account contents", "why_tests_cant": "All offsets/lengths incl. overflow boundaries.", "anchors": ["round-loader/src/processor.rs: process_write_proposal, write_proposal_data", "round-loader/src/state.rs: LOAD_DATA_BEGIN_OFFSET, LOAD_DATA_END_OFFSET"]}
{"id": "C15", "title": "A finalized proposal's content is frozen and committed to by its address", "statement": "From finalization on, every instruction of the round loader leaves the proposal's event, author, required votes and number of votes unchanged, and at finalization the address commits (via hash) to the stored event.", "quantifier": "all histories", "why_tests_cant": "All histories by arbitrary parties.", "anchors": ["round-loader/src/processor.rs: process_finalize_proposal and all other handlers"]}
{"id": "C16", "title": "Round-loader votes are recorded once, by the signing relay, and paid once", "statement": "A successful vote instruction either changes nothing, or sets exactly one previously empty vote position - that of the signing relay in the presented relay round - to the given non-empty vote, moves exactly the fixed reparation from the proposal to the voter, and changes nothing else; recorded votes never change afterwards.", "quantifier": "all states, account lists, histories", "why_tests_cant": "All schedules of votes.", "anchors": ["round-loader/src/processor.rs: process_vote_for_proposal"]}
{"id": "C17", "title": "Only relays of a proposal's own round vote on it, each at most once", "statement": "Every recorded vote on a relay-round proposal was cast by a relay of the round the proposal was finalized for, and one relay key fills at most one vote position.", "quantifier": "all histories with several relay rounds", "why_tests_cant": "Requires two rounds with overlapping relays at different positions.", "anchors": ["round-loader/src/processor.rs: process_vote_for_proposal (relay round taken from the presented account)"]}
{"id": "C18", "title": "A relay-round proposal is executed at most once by quorum", "statement": "After a proposal has been executed by quorum, no later quorum execution of the same proposal creates a relay round or changes settings.", "quantifier": "all histories", "why_tests_cant": "All histories.", "anchors": ["round-loader/src/processor.rs: process_execute_proposal"]}
{"id": "C19", "title": "The current round number never decreases except by an explicit settings update", "statement": "Creating or executing relay rounds never lowers the current round number stored in the settings.", "quantifier": "all histories", "why_tests_cant": "Requires executing proposals out of order.", "anchors": ["round-loader/src/processor.rs: process_execute_proposal, process_create_relay_round"]}
{"id": "C20", "title": "A new relay round never expires earlier than requested", "statement": "The stored expiry of a new round is the requested end plus the configured time-to-live.", "quantifier": "all round ends and ttl values", "why_tests_cant": "u32 overflow boundary.", "anchors": ["round-loader/src/processor.rs: process_create_relay_round (round_end + round_ttl)"]}
{"id": "C21", "title": "A finalized proposal stays usable", "statement": "After a proposal has been successfully finalized it can still be voted on: the recorded data continue to match the proposal's address.", "quantifier": "all relay-round accounts presented at finalization", "why_tests_cant": "Needs finalization with another round's account.", "anchors": ["round-loader/src/processor.rs: process_finalize_proposal (round_number overwritten)"]}
{"id": "C22", "title": "Oversized relay sets are refused", "statement": "No successful instruction stores a relay round with more than 100 relays.", "quantifier": "all relay lists", "why_tests_cant": "Boundary over all sizes.", "anchors": ["round-loader/src/processor.rs: process_create_relay_round, process_execute_proposal", "round-loader/src/state.rs: MAX_RELAYS, RelayRound"]}
{"id": "C23", "title": "Token-proxy administration is reserved to the upgrade authority", "statement": "Initialisation succeeds only with the upgrade authority's signature and at most once; changing guardian, manager or withdrawal manager succeeds only with that signature, sets exactly the named role and changes nothing else.", "quantifier": "all callers, account lists, states", "why_tests_cant": "All account substitutions.", "anchors": ["token-proxy/src/processor.rs: process_initialize, process_change_guardian, process_change_manager, process_change_withdrawal_manager"]}
{"id": "C24", "title": "Emergency mode stops the bridge", "statement": "While the global emergency flag is set, no deposit, withdrawal execution, approval, cancellation or fill instruction succeeds; the same holds per token for the token's flag; the flags are switched on only by the guardian or upgrade authority and off only by the upgrade authority.", "quantifier": "all instructions, account lists, states", "why_tests_cant": "All instructions under all account substitutions.", "anchors": ["token-proxy/src/processor.rs: process_enable_emergency_mode, process_disable_emergency_mode, process_enable_token_emergency_mode, process_disable_token_emergency_mode and all gated handlers"]}
{"id": "C25", "title": "Token parameters change only by the manager", "statement": "Deposit limit, withdrawal limits, fees and token names change only with the signature of the manager or upgrade authority; each instruction changes exactly the fields it names; no other instruction changes them.", "quantifier": "all instructions, account lists, states", "why_tests_cant": "All instructions under all account substitutions.", "anchors": ["token-proxy/src/processor.rs: process_change_deposit_limit, process_change_withdrawal_limits, process_update_fee, process_token_name"]}
{"id": "C26", "title": "No withdrawal is executed without a two-thirds quorum", "statement": "A withdrawal request leaves its initial status, or causes tokens to be minted or paid from a vault, only if at least the required number of its vote positions are confirmations, and the required number recorded at request time is more than two thirds of the relays of the round named in the request.", "quantifier": "all instructions, account lists, states and histories", "why_tests_cant": "All histories with adversarial accounts.", "anchors": ["token-proxy/src/processor.rs: process_withdraw_multi_token_ever_request, process_withdraw_multi_token_sol_request, process_withdraw_multi_token_ever, process_withdraw_multi_token_sol"]}
{"id": "C27", "title": "Withdrawal votes are cast by the request round's relays, once each, and never change", "statement": "A successful vote instruction either changes nothing or fills exactly the signing relay's empty position of the request's own (unexpired or expired) round with the given vote and pays exactly the fixed reparation; recorded votes never change while the request exists.", "quantifier": "all states, account lists, histories", "why_tests_cant": "All schedules.", "anchors": ["token-proxy/src/processor.rs: process_vote_for_withdraw_request"]}
{"id": "C28", "title": "Withdrawal requests only move along the documented status graph", "statement": "Every instruction moves an existing withdrawal request only along New->{Processed,Pending,WaitingForApprove,WaitingForExecute}, WaitingForApprove->{Processed,Pending,WaitingForExecute}, Pending->{Processed,Cancelled,WaitingForExecute}, WaitingForExecute->Processed; Processed and Cancelled are final until the account is closed.", "quantifier": "all histories of instructions", "why_tests_cant": "All histories.", "anchors": ["token-proxy/src/processor.rs: all withdrawal handlers", "token-proxy/src/state.rs: WithdrawalTokenStatus"]}
{"id": "C29", "title": "A withdrawal request is paid out at most once while it exists", "statement": "Between creation and closing of a withdrawal-request account, at most one instruction pays its amount (mint, vault transfer, fill) or converts it back into a deposit.", "quantifier": "all histories", "why_tests_cant": "All histories and interleavings.", "anchors": ["token-proxy/src/processor.rs: process_withdraw_multi_token_*, process_approve_withdraw_*, process_fill_withdraw_sol, process_cancel_withdraw_sol"]}
{"id": "C30", "title": "An Everscale event is paid out at most once", "statement": "The same Everscale event (same timestamp, logical time, configuration and data) never leads to two payouts.", "quantifier": "all histories", "why_tests_cant": "Needs close-and-recreate or two rounds.", "anchors": ["token-proxy/src/processor.rs: process_close_withdrawal, process_withdraw_multi_token_*_request"]}
{"id": "C31", "title": "Payouts go to the recipient named in the event, in the event's token, for the event's amount less fee", "statement": "When a withdrawal execution or approval pays, the destination is a token account owned by the event's recipient (or the recipient's proxy account when a payload is attached), the minted/transferred token belongs to the event's token, and the amount is the decimals-scaled event amount minus the fee; no other token account changes.", "quantifier": "all events, settings, account lists", "why_tests_cant": "All account substitutions and amounts.", "anchors": ["token-proxy/src/processor.rs: process_withdraw_multi_token_*, process_approve_withdraw_*, make_ever_transfer, make_sol_transfer"]}
{"id": "C32", "title": "Fees are exact", "statement": "The fee taken is max(1, amount/divisor*multiplier); fee plus net amount equals the gross amount; an amount smaller than the fee is rejected rather than wrapped; every withdrawal execution that charges adds exactly the fee to the token's fee supply.", "quantifier": "all amounts and fee settings", "why_tests_cant": "64-bit boundary arithmetic.", "anchors": ["token-proxy/src/processor.rs: fee computation in deposit/withdraw handlers", "token-proxy/src/state.rs: FeeInfo"]}
{"id": "C33", "title": "Amounts are never silently truncated", "statement": "The paid amount of a withdrawal equals the decimals-scaled 128-bit event amount minus fee; events whose amount does not fit are rejected.", "quantifier": "all 128-bit amounts and decimals", "why_tests_cant": "Needs amounts above 2^64.", "anchors": ["token-proxy/src/processor.rs: process_withdraw_multi_token_sol, process_approve_withdraw_sol, get_withdrawal_amount"]}
{"id": "C34", "title": "Withdrawals above the limits need approval", "statement": "Executing a withdrawal whose amount exceeds the per-withdrawal limit or would push the day's total over the daily limit pays nothing and parks the request for approval.", "quantifier": "all amounts, limits, days", "why_tests_cant": "Boundary arithmetic across days.", "anchors": ["token-proxy/src/processor.rs: process_withdraw_multi_token_ever, process_withdraw_multi_token_sol"]}
{"id": "C35", "title": "Automatic payouts of one day stay within the daily limit", "statement": "Over any history with unchanged limits and fees, the total paid without approval per token and day is at most the daily limit.", "quantifier": "all histories", "why_tests_cant": "Unbounded histories.", "anchors": ["token-proxy/src/processor.rs: withdrawal_daily_amount, withdrawal_epoch handling"]}
{"id": "C36", "title": "Approval is reserved to the withdrawal manager", "statement": "A parked withdrawal is released only with the signature of the withdrawal manager or upgrade authority.", "quantifier": "all callers, states", "why_tests_cant": "All account substitutions.", "anchors": ["token-proxy/src/processor.rs: process_approve_withdraw_ever, process_approve_withdraw_sol"]}
{"id": "C37", "title": "Ever-token deposits burn exactly what they announce", "statement": "A successful Ever-token deposit burns exactly the given amount from the sender's token account, records a deposit whose amount is the decimals-scaled amount minus fee, adds the fee to the fee supply and transfers exactly the announced value in lamports.", "quantifier": "all amounts, states, account lists", "why_tests_cant": "All account substitutions.", "anchors": ["token-proxy/src/processor.rs: process_deposit_multi_token_ever"]}
{"id": "C38", "title": "Solana-token deposits lock exactly what they announce", "statement": "A successful Solana-token deposit increases the bridge's vault of that token by exactly the given amount and records a deposit of that token for the amount minus fee.", "quantifier": "all amounts, states, account lists", "why_tests_cant": "Attacker-chosen vault/mint accounts.", "anchors": ["token-proxy/src/processor.rs: process_deposit_multi_token_sol"]}
{"id": "C39", "title": "Deposit limit holds", "statement": "No Solana-token deposit leaves the bridge's vault with more tokens than the token's deposit limit.", "quantifier": "all amounts and states", "why_tests_cant": "Boundary arithmetic.", "anchors": ["token-proxy/src/processor.rs: process_deposit_multi_token_sol"]}
{"id": "C40", "title": "Fee withdrawal is limited to collected fees", "statement": "The manager can withdraw at most the recorded fee supply; the fee supply decreases by exactly the withdrawn amount and exactly this amount is minted / leaves the vault.", "quantifier": "all amounts and states", "why_tests_cant": "Boundary arithmetic, all accounts.", "anchors": ["token-proxy/src/processor.rs: process_withdraw_ever_fee, process_withdraw_sol_fee"]}
{"id": "C41", "title": "Vault tokens leave only by quorum payouts, approvals or fee withdrawals", "statement": "If an instruction lowers the token balance of a vault, it is a withdrawal execution, an approval or a fee withdrawal satisfying its own conditions.", "quantifier": "all instructions, account lists, states", "why_tests_cant": "Frame property over all instructions.", "anchors": ["token-proxy/src/processor.rs: all handlers"]}
{"id": "C42", "title": "Bridge-minted tokens are minted only by quorum withdrawals, approvals or fee withdrawals", "statement": "If an instruction raises the supply of a bridge mint, it is an Ever withdrawal execution, an Ever approval or an Ever fee withdrawal satisfying its own conditions.", "quantifier": "all instructions, account lists, states", "why_tests_cant": "Frame property over all instructions.", "anchors": ["token-proxy/src/processor.rs: all handlers"]}
{"id": "C43", "title": "A pending withdrawal can be redirected only with the recipient's consent", "statement": "A pending withdrawal is cancelled (turned into a deposit to a chosen Everscale address) or given a bounty only with the signature of the recipient named in the event.", "quantifier": "all callers, states", "why_tests_cant": "Needs a stranger submitting the request first.", "anchors": ["token-proxy/src/processor.rs: process_cancel_withdraw_sol, process_change_bounty_for_withdraw_sol, process_withdraw_multi_token_sol_request (author)"]}
{"id": "C44", "title": "Filling a pending withdrawal pays its recipient in the right token", "statement": "Each withdrawal filled by a liquidity provider pays its recipient exactly amount minus fee minus bounty in the withdrawal's token from the provider's account and becomes final; the provider's deposit is recorded for the filled amount minus fee.", "quantifier": "all sets of withdrawals, duplicates, amounts", "why_tests_cant": "Unbounded number of withdrawals per instruction.", "anchors": ["token-proxy/src/processor.rs: process_fill_withdraw_sol"]}
{"id": "C45", "title": "Proxy balances belong to the recipient", "statement": "The proxy withdrawal instruction moves tokens out of a proxy account only with the signature of the recipient for which the proxy was derived.", "quantifier": "all callers, states", "why_tests_cant": "All account substitutions.", "anchors": ["token-proxy/src/processor.rs: process_withdraw_proxy"]}
{"id": "C46", "title": "A proxy signs only the payload of a relay-approved withdrawal", "statement": "Executing a payload lends a recipient's proxy signature only to instructions contained in a withdrawal request that was created by the token proxy and confirmed by quorum.", "quantifier": "all callers, accounts", "why_tests_cant": "Needs a forged withdrawal account owned by another program.", "anchors": ["token-proxy/src/processor.rs: process_execute_payload_ever, process_execute_payload_sol"]}
{"id": "C47", "title": "Closing returns the rent to the author and only finished requests can be closed", "statement": "Closing a withdrawal succeeds only for finished requests, closing a deposit only with its author's signature; in both cases all lamports go to the author and the account is wiped.", "quantifier": "all states, account lists", "why_tests_cant": "All statuses and aliasing.", "anchors": ["token-proxy/src/processor.rs: process_close_deposit, process_close_withdrawal, delete_account", "bridge-utils/src/helper.rs: delete_account"]}
{"id": "C48", "title": "Multi-vault lamports are released only to the manager's choice and exactly", "statement": "Withdrawing from the multi-vault succeeds only with manager or upgrade-authority signature and moves exactly the amount to the recipient; cancel, fill and deposits only add the announced value.", "quantifier": "all amounts, states", "why_tests_cant": "Aliasing and boundary cases.", "anchors": ["token-proxy/src/processor.rs: process_withdraw_multi_vault"]}
{"id": "C49", "title": "Ever tokens are registered with relay-approved metadata only", "statement": "A token's settings and mint (name, symbol, decimals) come into existence only from a withdrawal event that has a quorum of confirmations.", "quantifier": "all histories", "why_tests_cant": "Needs execution of an unapproved request.", "anchors": ["token-proxy/src/processor.rs: process_withdraw_multi_token_ever"]}
{"id": "C50", "title": "Withdrawal requests are created faithfully and never overwritten", "statement": "A successful withdrawal request either leaves an existing account at that address untouched or creates a request with the given event, author, round and empty votes sized to the round's relays; it never modifies an existing request.", "quantifier": "all inputs and states", "why_tests_cant": "All states of the target account.", "anchors": ["token-proxy/src/processor.rs: process_withdraw_multi_token_ever_request, process_withdraw_multi_token_sol_request"]}
{"id": "C51", "title": "A successful request instruction leaves a usable request", "statement": "After a withdrawal-request (or relay-round proposal creation) instruction succeeds, the account at the derived address is a request owned by the program.", "quantifier": "all prior states of the address", "why_tests_cant": "Needs a pre-funded address.", "anchors": ["token-proxy/src/processor.rs: process_withdraw_multi_token_*_request", "round-loader/src/processor.rs: process_create_proposal"]}
{"id": "C52", "title": "Every recipient can receive several payload withdrawals of one token", "statement": "A payload-carrying withdrawal request can be created for a recipient and token irrespective of earlier payload withdrawals.", "quantifier": "all histories", "why_tests_cant": "Needs a second request for the same pair.", "anchors": ["token-proxy/src/processor.rs: create_proxy_account"]}
{"id": "C53", "title": "Native deposit wraps exactly the amount and deposits it", "statement": "A native-SOL deposit moves exactly the given amount of lamports from the sender into their wrapped-SOL account and then performs the Solana-token deposit of that amount.", "quantifier": "all amounts, states", "why_tests_cant": "All account substitutions.", "anchors": ["native-proxy/src/processor.rs: process_deposit"]}
{"id": "C54", "title": "Generic client builders produce instructions the programs understand", "statement": "For all arguments, the generic vote/execute builders produce data that both programs decode to the intended instruction.", "quantifier": "all arguments", "why_tests_cant": "All arguments.", "anchors": ["solana-bridge/src/instructions.rs"]}
{"id": "C55", "title": "Client bindings and processors agree on accounts", "statement": "For all arguments, each instruction builder lists the derived addresses, in the order and with the signer/writable flags the processor requires, and the addresses it derives are the ones the processor validates.", "quantifier": "all arguments", "why_tests_cant": "All arguments.", "anchors": ["token-proxy/src/bindings.rs", "round-loader/src/bindings.rs"]}
{"id": "C56", "title": "Cancellation is announced under the deposit's address", "statement": "The deposit log entry emitted by any deposit-creating instruction names the created deposit account.", "quantifier": "all inputs", "why_tests_cant": "Observable only in logs; tests do not read logs.", "anchors": ["token-proxy/src/processor.rs: process_cancel_withdraw_sol (DepositMultiTokenEvent.account)"]}
{"id": "C57", "title": "Every charged fee is recorded", "statement": "Each instruction that withholds a fee from a user adds this fee to the token's recorded fee supply.", "quantifier": "all inputs and states", "why_tests_cant": "Needs reading settings after cancel/fill.", "anchors": ["token-proxy/src/processor.rs: process_cancel_withdraw_sol, process_fill_withdraw_sol"]}
{"id": "C58", "title": "Decimals conversion never creates value", "statement": "Scaling a deposit to Everscale decimals and scaling it back for a withdrawal never yields more than the original amount, and yields exactly it when no precision is lost.", "quantifier": "all amounts and decimals up to 38 apart", "why_tests_cant": "u128 boundary arithmetic.", "anchors": ["token-proxy/src/processor.rs: get_deposit_amount, get_withdrawal_amount"]}
{"id": "C59", "title": "Collected fees stay covered by the vault", "statement": "The recorded fee supply of a Solana token never exceeds the vault's balance.", "quantifier": "all histories", "why_tests_cant": "Needs particular payout sizes.", "anchors": ["token-proxy/src/processor.rs: process_withdraw_multi_token_sol, process_withdraw_sol_fee"]}
{"id": "C60", "title": "Account kinds cannot be substituted for one another", "statement": "A record written by either program as one account kind is never accepted by an instruction that expects another kind (the two withdrawal kinds excepted, see C06).", "quantifier": "all records and instructions", "why_tests_cant": "All pairs of record contents.", "anchors": ["bridge-utils/src/state.rs: AccountKind", "token-proxy/src/processor.rs", "round-loader/src/processor.rs"]}
{"id": "C61", "title": "Instructions touch only their own accounts", "statement": "A successful instruction of the round loader or token proxy changes no account owned by the program other than the ones documented for the instruction, and never changes an account passed as read-only.", "quantifier": "all instructions, account lists, states", "why_tests_cant": "Frame property over all instructions.", "anchors": ["round-loader/src/processor.rs", "token-proxy/src/processor.rs"]}
{"id": "C62", "title": "Replacing relays does not affect running requests", "statement": "The required votes and vote positions of an existing request do not depend on later relay rounds or settings updates.", "quantifier": "all histories", "why_tests_cant": "All histories.", "anchors": ["round-loader/src/processor.rs", "token-proxy/src/processor.rs"]}
{"id": "C63", "title": "The outcome of executing or approving a withdrawal", "statement": "Executing a confirmed new withdrawal books its fee and net amount; it waits for approval (and no token moves) exactly if the net amount exceeds a limit, becomes pending exactly if a Solana token's vault holds too little, and otherwise pays exactly the net amount and ends as processed, or as waiting for its payload. Approval pays the same net amount and takes it out of the day's total if the request was made on that day; nothing else of the token's settings changes.", "quantifier": "all requests, amounts, limits, fees, days, vault balances, account lists and states", "why_tests_cant": "Four statuses, two limits, roll-over of the day, and fee interact; tests sample a few combinations only.", "anchors": ["token-proxy/src/processor.rs:1481-2151", "token-proxy/src/processor.rs:2832-3268"]}
{"id": "C64", "title": "The outcome of cancelling a withdrawal", "statement": "Cancelling succeeds only for a pending withdrawal and with its author's signature; it marks the withdrawal cancelled, records exactly one new deposit of the author over the withdrawal's amount less the deposit fee, moves no token and changes no other account's data; the only lamports that move are the value for the multi-vault and the deposit's rent, from the funder.", "quantifier": "all withdrawals, values, recipients, account lists and states", "why_tests_cant": "A frame claim over all other accounts.", "anchors": ["token-proxy/src/processor.rs:3744-3978"]}
{"id": "C65", "title": "Decimals of recorded deposits", "statement": "The decimals recorded in a deposit of a Solana token are those of the token's mint.", "quantifier": "all deposits, cancellations and fills, all account lists and states", "why_tests_cant": "Needs adversarial account lists (a foreign mint).", "anchors": ["token-proxy/src/processor.rs:797-808", "token-proxy/src/processor.rs:3863", "token-proxy/src/processor.rs:4070-4078"]}
{"id": "C66", "title": "Status changes are announced", "statement": "Whenever an instruction changes the status of a withdrawal, it emits a log record with the withdrawal's address and its new status.", "quantifier": "all instructions, account lists and states", "why_tests_cant": "Quantifies over all instructions and outcomes; tests do not read log records.", "anchors": ["token-proxy/src/processor.rs:1821", "token-proxy/src/processor.rs:2138", "token-proxy/src/processor.rs:3036", "token-proxy/src/processor.rs:3050-3268", "token-proxy/src/processor.rs:3966", "token-proxy/src/processor.rs:4188"]}
{"id": "C67", "title": "Newly registered tokens start with the defaults", "statement": "A token registered by its first deposit or withdrawal gets the kind, name, symbol, mint and vault of that deposit or event, no limits, fees of 5/10000, no emergency, and as only bookings the ones of the registering instruction; the first withdrawal of a newly registered token is therefore never held back by a limit. Names and symbols of deposits are at most 32 bytes long.", "quantifier": "all deposits and withdrawals of unregistered tokens, account lists and states", "why_tests_cant": "Registration and execution happen in the same instruction, for arbitrary events.", "anchors": ["token-proxy/src/processor.rs:607-790", "token-proxy/src/processor.rs:1544-1700"]}
{"id": "C68", "title": "JavaScript bindings build what the Rust bindings build", "statement": "Each function of the JavaScript bindings that builds an instruction or derives an address succeeds exactly if its text arguments can be read, and then returns what the Rust bindings return for the values read; an instruction built for the right signer is accepted where the one of the Rust bindings is.", "quantifier": "all exported builders, all argument strings and numbers, all environments and states", "why_tests_cant": "There are no tests of the JavaScript bindings; the account lists are written a second time by hand and a swapped entry shows only when a processor of the deployed program reads it.", "anchors": ["wasm/src/lib.rs:18-1594", "round-loader/src/wasm.rs:18-226", "token-proxy/src/bindings.rs:15-1301", "token-proxy/src/processor.rs:2670-2830"]}
{"id": "C69", "title": "Text forms can be read back", "statement": "Public keys, amounts, seeds and payloads shown by the JavaScript bindings are read back by them as the same value; two different texts of a key or of a payload are never read as the same value; the texts in an unpacked token record and deposit record name the stored values.", "quantifier": "all keys, numbers, byte strings and texts, all token and deposit records", "why_tests_cant": "Quantifies over all 2^256 keys and all texts; no test reads back what is shown.", "anchors": ["wasm/src/lib.rs:1596-1618", "wasm/src/lib.rs:1658-1688", "wasm/src/lib.rs:1697-1808", "token-proxy/src/state.rs:509-519"]}
{"id": "C70", "title": "The bridge can be stopped and administered at any time", "statement": "Once the token proxy is initialised, at any later time the guardian can stop the bridge and any registered token; the upgrade authority can stop and restart them and replace guardian, manager and withdrawal manager; the manager and the upgrade authority can change limits and fees of any registered token. Each such instruction succeeds whatever was executed before, changes exactly the one field asked for and touches no other account; the settings of a registered token stay registered.", "quantifier": "all environments, all histories of instructions with payloads and nested calls of any depth after the initialisation, all later clock values, all new values, all tokens", "why_tests_cant": "The claim is that no sequence of instructions (requests, payments, payloads, closing of accounts) can ever lock out the guardian or the owner; the number of sequences is unbounded, and safety tests only show that wrong callers are rejected.", "anchors": ["token-proxy/src/processor.rs:2243-2391", "token-proxy/src/processor.rs:2393-2564", "token-proxy/src/processor.rs:2566-2830", "token-proxy/src/processor.rs:3270-3366", "token-proxy/src/utils.rs"]}
{"id": "C71", "title": "Relays can always vote and complete a quorum", "statement": "A new withdrawal request carries 20000 lamports for the vote of each relay of its round. In every later state until it is closed, each relay of the request's round whose position is open can vote: the instruction succeeds, records the vote at that relay's position, pays the relay 20000 lamports and changes nothing else. As long as the rejections leave room for the required number, the relays that have not voted can complete the quorum by one vote each.", "quantifier": "all environments, all requests, all histories of token-proxy instructions, foreign instructions and transaction ends in which payloads do not call back into the token proxy and are executed on checked requests, all relay sets without duplicates, all votes cast so far", "why_tests_cant": "It is a statement about what stays possible after every sequence of instructions; tests only cast the votes of one fixed run.", "anchors": ["token-proxy/src/processor.rs:1395-1479", "token-proxy/src/processor.rs:950-1169", "token-proxy/src/processor.rs:1172-1393", "token-proxy/src/bindings.rs:419-441"]}
{"id": "C72", "title": "A confirmed withdrawal can be executed by anyone, and a waiting one approved", "statement": "A withdrawal request with the required confirmations can be executed with the account list of the bindings, which needs no signature, as long as bridge and token are not stopped, the token's fee is defined and not above the amount, the 64-bit counters have room and the destination can receive: the instruction succeeds and has exactly the outcome that limits and vault balance prescribe (paid, pending or waiting for approval). A pending request can be executed again under the same conditions. A request waiting for approval can be approved by the withdrawal manager or the upgrade authority.", "quantifier": "all environments, all states, all requests of both token kinds with or without payload, all amounts, fees and limits", "why_tests_cant": "It excludes that any of the checks on the way rejects a legitimate execution for some state, amount, fee or account data; tests execute a few fixed requests.", "anchors": ["token-proxy/src/processor.rs:1481-1834", "token-proxy/src/processor.rs:1836-2151", "token-proxy/src/processor.rs:2832-3048", "token-proxy/src/processor.rs:3050-3268", "token-proxy/src/bindings.rs:443-472", "token-proxy/src/bindings.rs:584-611", "token-proxy/src/bindings.rs:925-983"]}
{"id": "C73", "title": "The relay set can always be replaced", "statement": "A new relay round can always be installed: anyone can file a proposal and upload its event in pieces of any size, anyone can finalize it, every relay with an open position can vote and is paid, anyone can execute it once it has the required confirmations, the submitter can execute it without votes or create the round directly, and the upgrade authority can change the settings. Each succeeds with the account list of the bindings and has exactly the intended effect.", "quantifier": "all environments, all states (votes: all states reachable by round-loader instructions and foreign activity), all relays, rounds, events and piece sizes", "why_tests_cant": "It excludes that some check, size limit or arithmetic step rejects a legitimate step for some state, round number, relay set or cutting of the upload; tests walk one path with fixed values.", "anchors": ["round-loader/src/processor.rs:192-261", "round-loader/src/processor.rs:263-360", "round-loader/src/processor.rs:362-448", "round-loader/src/processor.rs:450-476", "round-loader/src/processor.rs:478-573", "round-loader/src/processor.rs:575-660", "round-loader/src/processor.rs:662-786", "round-loader/src/processor.rs:788-886", "round-loader/src/bindings.rs:81-297"]}
{"id": "C74", "title": "Nothing is locked in", "statement": "What belongs to somebody can be taken out by them. The author or recipient of a pending withdrawal can set any bounty; its author can cancel it into a deposit to any recipient while bridge and token run and the deposit fee is defined; anybody can close a finished request, whose lamports go to its author; the author of a deposit can close its record; everybody can take tokens out of their own proxy accounts; the manager or the upgrade authority can take collected fees of Solana and Ever tokens and the lamports of the multi-vault. With the account lists of the Rust bindings each of these calls succeeds and has the stated effect. A cancelled withdrawal needs name + symbol + payload of at most 806 bytes.", "quantifier": "all environments, states, records, amounts, callees' behaviour and account keys; the instruction built from the bindings' account list", "why_tests_cant": "A test shows that one cancellation or one pay-out works; that no combination of amounts, fees, balances and records leaves an owner without a working call is a statement about every state.", "anchors": ["token-proxy/src/processor.rs:3451-3564", "token-proxy/src/processor.rs:3566-3684", "token-proxy/src/processor.rs:3686-3742", "token-proxy/src/processor.rs:3744-3978", "token-proxy/src/processor.rs:4312-4362", "token-proxy/src/processor.rs:4364-4397", "token-proxy/src/processor.rs:4399-4444", "token-proxy/src/processor.rs:4446-4513", "token-proxy/src/bindings.rs:1036-1153", "token-proxy/src/bindings.rs:1220-1301"]}
{"id": "C75", "title": "Fee settings keep tokens movable", "statement": "Whatever fee the manager sets for a token, deposits, withdrawals, approvals and cancellations of every positive amount remain possible and cost at most the amount. (False: UpdateFee checks nothing. A divisor of 0, or a multiplier above the divisor, makes every such call fail. True is: each of these calls succeeds only if the fee is defined and at most the amount; and a fee with 0 < divisor and multiplier <= divisor is defined for every positive amount, takes at most the amount, and at most the named share unless it is the minimum of one unit.)", "quantifier": "all environments, states, callers, account lists, fee settings and amounts", "why_tests_cant": "Tests use the default fee; which fee settings are safe for every amount needs a proof over all multipliers, divisors and amounts.", "anchors": ["token-proxy/src/processor.rs:3270-3366", "token-proxy/src/processor.rs:535-545", "token-proxy/src/processor.rs:1725-1750", "token-proxy/src/processor.rs:1936-1960"]}
{"id": "C76", "title": "Every token can be deposited", "statement": "Whoever holds tokens of a registered Solana or Ever token can deposit them to any recipient, and whoever holds tokens of a mint the bridge does not know yet can register the mint by a first deposit, as long as bridge and token are not stopped, the funder can pay, the deposit limit is kept, the fee is defined and not above the amount, and name, symbol and payload fit into the record. The tokens go to the vault (or are burned), the fee counter grows by the fee, and the deposit record says what was instructed.", "quantifier": "All environments, states, tokens, users, amounts, recipients and payloads; for the obstacle, all account lists, signatures and instructions.", "why_tests_cant": "A test makes a deposit from a clean ledger. That it succeeds from every state that meets the stated conditions, and that a stranger's lamport at a predictable address stops every later attempt, are statements about all states and all calls.", "anchors": ["token-proxy/src/processor.rs:409-604", "token-proxy/src/processor.rs:607-947", "token-proxy/src/processor.rs:667-769", "token-proxy/src/bindings.rs:166-268"]}
{"id": "C77", "title": "Rent and time come from the genuine sysvar accounts", "statement": "Every call of the two programs that takes the rent or the clock sysvar from its account list succeeds only if the account in that place is the genuine sysvar account; a caller cannot supply a rent table or a time of their own.", "quantifier": "All environments, account lists, signatures, instructions with all arguments, and states.", "why_tests_cant": "Tests always pass the genuine accounts. That no substitute account is ever accepted, by any instruction, is a statement about all account lists.", "anchors": ["round-loader/src/processor.rs:118-886", "token-proxy/src/processor.rs:302-2151", "token-proxy/src/processor.rs:2832-3268", "token-proxy/src/processor.rs:3744-4310"]}
{"id": "C78", "title": "Lamports sent to an unused derived address can never be taken back, so the address is lost", "statement": "Once a bearer of lamports without data stands at an address derived for one of the two programs (for the token proxy: not a proxy account and not an associated token account), it stays one forever and never has fewer lamports, whatever calls, nested calls, foreign instructions and purges follow. Hence one lamport at the settings address of an unregistered Solana token makes every later deposit of the token fail forever, and one lamport at the settings or mint address of an unregistered Ever token makes every later withdrawal of that token end without any effect.", "quantifier": "All environments, addresses, amounts, states, later histories of any length with calls nested to any depth, and all account lists, signatures and arguments of the blocked call.", "why_tests_cant": "The claim is about every possible continuation of the history by every party; a test can only try some rescue attempts.", "anchors": ["token-proxy/src/processor.rs:667-769", "token-proxy/src/processor.rs:1550-1664", "token-proxy/src/processor.rs:2153-2241", "round-loader/src/processor.rs:263-448"]}
{"id": "C79", "title": "The first withdrawal of an Ever token can be executed", "statement": "A withdrawal of an unregistered Ever token that has its confirmations can be executed by any funder with enough lamports, using exactly the account list of createMultiTokenEver: the call succeeds, creates mint, settings and the recipient's token account, and pays the rescaled amount minus the default fee.", "quantifier": "All environments, states, requests, funders, recipients and addresses with the stated standing; the refutation is over all account lists and signatures.", "why_tests_cant": "Success for every token, amount, decimals, recipient and ledger has to be shown; a test runs a few, and the state in which the call is impossible for everybody looks like an ordinary one.", "anchors": ["token-proxy/src/processor.rs:1481-1834", "token-proxy/src/processor.rs:1550-1664", "token-proxy/src/processor.rs:4644-4724", "wasm/src/lib.rs:289-340"]}
{"id": "C80", "title": "Every Everscale event can be submitted by anyone", "statement": "While a relay round has not ended, anyone who can pay for it can file the withdrawal request of any event with exactly the account list of the bindings: the call succeeds, the record at the derived address holds exactly the event, the author, the round, no votes and the required number of votes, it holds the reparations of all relays, with a payload the recipient's proxy account is created and receives the attached lamports, and nothing else changes.", "quantifier": "All environments, states, events, rounds, relay sets, funders and authors with the stated standing; the bound on the event is over all states whatsoever.", "why_tests_cant": "Success for every event, round and ledger has to be shown, and that no state at all has a request for an event beyond the record size; tests use short payloads.", "anchors": ["token-proxy/src/processor.rs:950-1169", "token-proxy/src/processor.rs:1172-1393", "token-proxy/src/processor.rs:4644-4724", "token-proxy/src/bindings.rs:270-417"]}
{"id": "C81", "title": "Whoever has the tokens can fill pending withdrawals", "statement": "A liquidity provider whose token account holds `amount` tokens can fill any list of different pending withdrawals of the token whose amounts add up to `amount` or less, with exactly the account list of the bindings, whenever bridge and token run and the vault stays within the deposit limit: every request is finished, every recipient account gets its amount less fee less bounty, the rest goes to the vault, and `amount` less fee becomes a deposit of the provider.", "quantifier": "All environments, states, lists of requests of any length (recipient accounts may repeat), amounts, recipients and providers with the stated standing.", "why_tests_cant": "Success for lists of any length and for every ledger needs an induction over the loop; the tests fill one withdrawal with an unlimited vault.", "anchors": ["token-proxy/src/processor.rs:3980-4310", "token-proxy/src/bindings.rs:1155-1218"]}
{"id": "C82", "title": "The vault and the supply of the bridge mints are accounted for, call by call", "statement": "Over every history (token-proxy instructions with payloads that call other programs and the token proxy again to any depth, transactions of others that follow the token program's rules, passing time, removal of accounts without lamports) the balance of a vault is at least its former balance plus the sum of what the token proxy's calls did to it. A call lowers it only by paying a request of the vault's token - confirmed by the required number of relays, or waiting for an approval that the withdrawal manager signs - the request's amount less fee, after which the request is marked as paid; or by a fee withdrawal that the manager signs, of at most the recorded fees, which shrink by as much. A deposit into the vault adds exactly its amount. Likewise the supply of a bridge mint is at most its former supply plus the sum of what the calls did: a call raises it only for such requests of the mint's token, by the amount in the mint's decimals less fee (if the decimals differ by less than 39), or for recorded fees; only deposits lower it, each by exactly its amount. A mint whose address was not in use has at most the sum.", "quantifier": "every vault and every bridge mint, every state with a locked vault or an own mint, every history of any length and any nesting depth", "why_tests_cant": "the claim sums over histories of unbounded length in which payloads call arbitrary programs and the bridge itself; a test sees one finite history", "anchors": ["token-proxy/src/processor.rs:409-947", "token-proxy/src/processor.rs:1481-2241", "token-proxy/src/processor.rs:2832-3268", "token-proxy/src/processor.rs:3451-3684"]}
{"id": "C83", "title": "A withdrawal goes through from end to end with any quorum", "statement": "In every state in which the bridge runs (a relay round is open, bridge and token are not stopped, limits and vault suffice), a withdrawal can be carried through whole: anyone with the lamports files the event; any set of different relays with more than two thirds of the round (and at least the minimum the round loader asks for) confirms it, in any order; then anyone executes it. The recipient's token account has exactly the net amount more, the vault exactly that less (Solana tokens) or the supply that more (Ever tokens), every voter earned 20000 lamports, the request is Processed with the filed event, and no other account of the token program changed. The same holds for the first withdrawal of an Ever token of which nothing is known on Solana: mint, token settings and the recipient's token account come into being on the way.", "quantifier": "all states, events, funders, payers, relay rounds, quorums and orders of voting, token settings and recipients", "why_tests_cant": "A test carries one withdrawal through with one round, one set of voters and one order; that no combination of round, quorum and order gets stuck half way, with the lamports of the relays already spent, is a statement about all of them.", "anchors": ["token-proxy/src/processor.rs:950-1169", "token-proxy/src/processor.rs:1172-1393", "token-proxy/src/processor.rs:1395-1479", "token-proxy/src/processor.rs:1481-1834", "token-proxy/src/processor.rs:1836-2151", "token-proxy/src/bindings.rs:270-472"]}
{"id": "C84", "title": "The relays can hand over to the next round, whichever quorum of them confirms", "statement": "In a state with valid round loader settings and an account of the relays' round, for every event that names between 1 and 100 new relays and whose proposal address and round address are vacant: anyone with the lamports can file the proposal, upload the event in any pieces, and finalize it; any set of the round's relays that is more than two thirds of them and at least the minimum of the settings can confirm it in any order; and anyone can then execute it. Afterwards the account of the new round holds the event's number, its end plus the ttl and its relays, the settings name it as the current round, the proposal is executed and still holds the event, each voting relay has earned 20000 lamports by its vote, and every account other than the proposal, the new round and the settings has its owner and data unchanged.", "quantifier": "every environment, state, settings, round, event, split of the upload into pieces, quorum and order of the votes", "why_tests_cant": "the quorum, the order of the votes, the split of the upload and the event are unbounded choices; a test walks one path through the five instructions", "anchors": ["round-loader/src/processor.rs:362-786", "round-loader/src/bindings.rs:143-297"]}
{"id": "C85", "title": "A withdrawal above the limits is paid after one approval and then no longer counts against the limit of the day", "statement": "For every confirmed new withdrawal above the limits of its token, in a running bridge: anyone can execute it with the account list of the bindings, which moves no token, books the fee and leaves the request waiting for approval; the withdrawal manager or the upgrade authority can then approve it with the account list of the bindings, and the recipient gets exactly the net amount. The fee is booked once. The amount that the token's settings record for the day is afterwards what it was before the execution, so that approved withdrawals do not use up the limit of the day.", "quantifier": "every environment, state, request, token, amount, limits, fee, approver", "why_tests_cant": "the amount of the day depends on the day on which the request was filed, the day of the execution and the amounts executed before; tests run within one day and with one request", "anchors": ["token-proxy/src/processor.rs:1481-1834", "token-proxy/src/processor.rs:1836-2151", "token-proxy/src/processor.rs:2832-3268", "token-proxy/src/bindings.rs:443-472", "token-proxy/src/bindings.rs:584-611", "token-proxy/src/bindings.rs:925-983"]}
{"id": "C86", "title": "A withdrawal that comes to nothing can never be finished", "statement": "A new withdrawal request whose amount is 0 in 64-bit units of the Solana token (0 modulo 2^64 for tokens kept in a vault; below one unit of the mint after the change of decimals for Everscale tokens) stays new for ever: however the relays vote and whatever anybody calls, it is never paid, approved, cancelled, filled or closed, its event stays, and so do its lamports. The fee of at least one unit is more than the amount, so every execution fails, and all other exits need an execution first.", "quantifier": "all environments, requests, events of either kind that do not read as one of the other kind, and all histories of calls, foreign transactions and purges (for Everscale tokens: in which the mint keeps the amount below one unit)", "why_tests_cant": "A test can show that one execution fails; that no sequence of calls by anybody ever gets the request out of its state needs an invariant over all histories.", "anchors": ["token-proxy/src/processor.rs:1481-1834", "token-proxy/src/processor.rs:1836-2151", "token-proxy/src/processor.rs:4399-4444", "token-proxy/src/processor.rs:4588-4610"]}
{"id": "C87", "title": "Whoever has lamports can deposit them in one call of the native proxy", "statement": "A user with enough lamports can deposit native SOL with one call of the native proxy, with the account list of its own bindings: for every amount within the deposit limit, whether or not their wrapped-SOL account exists, whether or not wrapped SOL is known to the bridge, and whoever funds the call. The call succeeds, the vault of wrapped SOL grows by the amount, the multi-vault by the value, and a deposit record with the amount minus the fee appears. It must not be possible for a stranger to stop this.", "quantifier": "forall ledgers in which bridge and token run, all senders, funders, amounts, values, payloads, seeds, with the wrapped-SOL account present or absent", "why_tests_cant": "There is one happy-path test with a fresh wallet; the property speaks about every ledger, including those in which somebody has sent lamports to the address of the wrapped-SOL account, and about every combination of missing accounts, of funder and sender, and of fees.", "anchors": ["native-proxy/src/processor.rs:51-128", "native-proxy/src/bindings.rs:9-62", "token-proxy/src/processor.rs:607-947"]}
{"id": "C88", "title": "The payload of a paid withdrawal can be executed by anybody; one that is not a list of calls leaves the request open for ever", "statement": "When a withdrawal with a payload is paid, anybody who names the accounts that its calls need can have the calls executed with the signature of the recipient's proxy account, if none of them fails; the request is then processed. In particular a payload that sends the tokens from the proxy account on can be executed with the account list of the web client. A payload that is not the encoding of calls can never be executed: the request waits for ever, and can neither be processed nor closed.", "quantifier": "forall ledgers, requests of both kinds, payloads, lists of calls, worlds of called programs and account lists; and forall histories for the unreadable payload", "why_tests_cant": "The tests execute one payload with one transfer. The property speaks about every list of calls with every account list that covers it, and about every continuation of the history after an unreadable payload was paid.", "anchors": ["token-proxy/src/processor.rs:2153-2241", "wasm/src/lib.rs:580-642"]}
{"id": "C89", "title": "A refused instruction names the reason", "statement": "A call of the token proxy that has one of the listed faults - a vote that is no vote, a voter that is no relay of the round, a stopped bridge, a stopped token, a token of the wrong kind, a name or symbol above 32 bytes, a relay round that is over, a deposit above the limit or above 64 bits, a request in the wrong state, more fees than were collected or than the vault holds, a fee or a scaled amount that does not fit its type, a daily counter below the amount to be released, a payload that cannot be read - and whose earlier checks hold is refused with the error code of that fault, whatever the rest of the ledger and of the arguments is. The same for votes and new rounds of the round loader. A call with too few accounts is refused for that reason before anything else; a call that misses the signature of the account that has to sign is refused for that reason (or because accounts are missing, or the rent or clock account is not the real one).", "quantifier": "forall ledgers, account lists, instruction data that decodes to the instruction, argument values and worlds of called programs", "why_tests_cant": "The tests only run successful calls and hardly any refused one. The property speaks about every ledger and every argument with the fault, and fixes which of several reasons is reported.", "anchors": ["token-proxy/src/processor.rs:409-4513", "round-loader/src/processor.rs:263-360", "round-loader/src/processor.rs:575-660", "bridge-utils/src/errors.rs:5-71"]}
{"id": "C90", "title": "A withdrawal that waits for approval can be approved on every day", "statement": "When a withdrawal above the limits is executed it is added to the daily counter of its token and waits for approval; an approval on the day of the request takes the net amount out of the counter again by a checked subtraction. That subtraction never refuses: in every state the counter of the day is at least the sum of the net amounts of the waiting requests of that day, so that the withdrawal manager can approve each of them whenever the other conditions of an approval are met.", "quantifier": "every environment, every history of instructions of the bridge, other programs and ends of transactions since a state in which no request of the day existed, every waiting request to mint or to pay from a vault, every approver, every set of accounts", "why_tests_cant": "The counter is shared by all requests of a token and is changed by executions, approvals and the change of day; that it covers every waiting request is an invariant over unbounded histories. A test approves one request right after its execution and never changes the fee in between.", "anchors": ["token-proxy/src/processor.rs:3016-3031", "token-proxy/src/processor.rs:3247-3260", "token-proxy/src/processor.rs:1481-1834", "token-proxy/src/processor.rs:1836-2151"]}
{"id": "C91", "title": "The order of the votes does not matter", "statement": "If relays, each voting once, vote on a withdrawal request one after the other and every vote succeeds, then the same votes also succeed in every other order, and the ledger afterwards is the same: the same record with the same votes, the same lamports of every relay and of the request, the same log. (Of two votes of one relay only the first counts, so there the order does matter.)", "quantifier": "forall ledgers, requests, numbers of votes, orders of them (every permutation), votes for or against, account lists with the required first three accounts, worlds of called programs", "why_tests_cant": "The tests cast the votes of a request in one order. The property is about every number of relays and every permutation of their votes.", "anchors": ["token-proxy/src/processor.rs:1395-1479"]}
{"id": "C92", "title": "The order of the votes on a new relay round does not matter", "statement": "If keys, each voting once, vote on a relay-round proposal one after the other and every vote succeeds, then the same votes also succeed in every other order, and the ledger afterwards is the same.", "quantifier": "forall ledgers, proposals, numbers of votes, orders of them (every permutation), votes for or against, account lists with the required first three accounts", "why_tests_cant": "The tests cast the votes of a proposal in one order and with one round. The property is about every number of voters and every permutation of their votes.", "anchors": ["round-loader/src/processor.rs:575-660"]}
{"id": "C93", "title": "Instructions depend on their own accounts only and commute when they do not write each other's accounts", "statement": "What an instruction of the three programs does (refusal with which error, or success with which new contents of its accounts and which log) depends only on the contents of the accounts in its account list and on the clock. Hence any list of instructions of which none writes an account of another one succeeds in every order if it succeeds in one, with the same accounts at the end; and an instruction is refused with the same error whether or not such another instruction came before it.", "quantifier": "forall environments, ledgers, programs (round loader, token proxy, native proxy), account lists, instruction data (valid or not), numbers of instructions and permutations of them; payloads may call any program that itself depends on its own accounts only and respects the writable flags, e.g. the bridge itself to any depth", "why_tests_cant": "A test compares a few instructions in one order on one ledger. The property is about every pair of ledgers, every instruction and every order, which is what the parallel scheduler of the chain relies on.", "anchors": ["round-loader/src/processor.rs:21-116", "token-proxy/src/processor.rs:23-300", "native-proxy/src/processor.rs:18-128"]}
{"id": "C94", "title": "A relay round that is over has no say any more", "statement": "After the end of a relay round no withdrawal is requested from it, votes of its relays on withdrawals and on new relay rounds are refused, and nothing is paid on votes cast after the end.", "quantifier": "forall environments, ledgers, times, account lists, instructions of relays whose round has ended", "why_tests_cant": "The tests run within the lifetime of the one round they create; none moves the clock beyond the end of the round between a request and its votes.", "anchors": ["token-proxy/src/processor.rs:1395-1479", "round-loader/src/processor.rs:575-660", "token-proxy/src/processor.rs:950-1393"]}
{"id": "C95", "title": "Time enters through the clock account only", "statement": "An instruction whose account list does not contain the clock sysvar does the same at all times: it is refused with the same error or leaves the same accounts and log. The round loader never depends on the time, and in the token proxy only withdrawal requests, payouts and approvals do (and payloads if what they call does); payouts and approvals depend on the day only.", "quantifier": "forall environments, ledgers, pairs of times, programs, account lists, instruction data (valid or not); payloads may call any program with the same property, e.g. the bridge itself to any depth", "why_tests_cant": "A test runs an instruction at one time. The property compares all pairs of times for every instruction and every ledger.", "anchors": ["round-loader/src/processor.rs:21-116", "token-proxy/src/processor.rs:23-300", "native-proxy/src/processor.rs:18-128"]}
{"id": "C96", "title": "More signatures and more writable accounts do no harm", "statement": "An instruction of the three programs that succeeds also succeeds, with exactly the same ledger afterwards, if more of the accounts in its list sign or are writable: no check refuses a privilege too many and nothing is done differently because of one. Hence a call refused with more privileges is refused with fewer.", "quantifier": "forall environments, ledgers, programs (round loader, token proxy, native proxy), account lists of every length, instruction data, sets of additional privileges, behaviour of the programs payloads call", "why_tests_cant": "The tests build each instruction with one set of flags. The property is about every superset of the flags of every call.", "anchors": ["round-loader/src/processor.rs:21-116", "token-proxy/src/processor.rs:23-300", "native-proxy/src/processor.rs:18-128"]}
{"id": "C97", "title": "Accounts handed over beyond those an instruction needs do not matter", "statement": "An instruction of any of the three programs that succeeds with a list of accounts succeeds with the same ledger afterwards if further accounts follow, whatever they are, repeated or not, and whatever their privileges: nobody who assembles a transaction can change what a call does by adding accounts behind it.", "quantifier": "for all programs, instruction data, account lists, lists of further accounts with arbitrary privileges, ledgers, and external programs that write only what they may", "why_tests_cant": "the lists of further accounts are unbounded, and the claim compares two runs of every instruction", "anchors": ["round-loader/src/processor.rs:21-116", "token-proxy/src/processor.rs:23-300", "token-proxy/src/processor.rs:1544-1548", "token-proxy/src/processor.rs:4096", "native-proxy/src/processor.rs:18-128"]}
