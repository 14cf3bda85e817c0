{
 "C01": {
  "status": "partial",
  "note": "False of the code as written: RevertToSnapshot(i>=0) drops snapshot i from the stack, so one reverting inner frame loses every outer write (refuted, with a universal theorem). Proved when no inner frame fails, and in full for the repaired one-line version. C01_paths says for every trace what the snapshots do instead."
 },
 "C02": {
  "status": "partial",
  "note": "Proved up to the first revert to an inner snapshot; refuted for two; proved in full for the repaired code."
 },
 "C03": {
  "status": "partial",
  "note": "Proved for call trees without failing inner frames and for all command traces whose inner reverts do not use id -1; refuted when two inner frames fail first; proved for the repaired code."
 },
 "C04": {
  "note": "For every command history; accounts must exist before and after (reads of missing accounts are zero by definition)."
 },
 "C05": {
  "status": "partial",
  "note": "Refuted across contracts (the address is not part of the transient key); proved per contract and across executions."
 },
 "C06": {
  "note": "Wrap at 2^64 is part of the specification; C06_refund_counter_exact gives the unwrapped equation."
 },
 "C08": {
  "status": "partial",
  "note": "Complete and ordered for histories without inner reverts and after one reverted frame; refuted after two inner reverts (outer log lost)."
 },
 "C09": {
  "status": "partial",
  "note": "Proved unless an inner revert uses the outermost id (which defect C02 makes happen: refuted)."
 },
 "C10": {
  "status": "partial",
  "note": "Exact iff for executions without inner reverts; refuted after a failing inner frame (defect C01)."
 },
 "C14": {
  "status": "partial",
  "note": "False of the code: a call that fails with no gas left for any reason other than ErrOutOfGas is charged nothing (refuted); all other failures are charged exactly."
 },
 "C20": {
  "note": "Exact in every mode; the failure case assumes baseapp keeps the post handler's writes (DESIGN 5); C20_post_handler_writes_needed shows that the assumption is needed."
 },
 "C21": {
  "status": "partial",
  "note": "All histories with 20-byte EVM senders; refuted for MsgCreate from a 32-byte (secp256r1-style) account."
 },
 "C57": {
  "status": "partial",
  "note": "All histories of transactions that spell each sender one way; refuted otherwise (bech32 upper case)."
 },
 "C59": {
  "note": "Exact for decimals up to 246; C59_wraps_above_246_decimals shows the bound is sharp (the uint8 sum decimals+10 wraps)."
 },
 "C18": {
  "note": "Protected transactions of all three types, every chain id; unprotected ones are C80."
 },
 "C19": {
  "note": "Signature, nonce, gas limit, gas price caps, target, value, data and (typed transactions) access list are bound. Not bound, with refutations: the message kind when the code is not an EVM message, the fee amount, the access list of legacy transactions, value digits below the token's precision. Assumes unforgeability of signatures as a hypothesis.",
  "status": "partial"
 },
 "C22": {
  "note": "The two classifiers agree on every transaction with at most the expected messages; the stated exceptions are refuted.",
  "status": "partial"
 },
 "C23": {
  "note": "All reachable worlds of the token/registry model. That a token may have further spellings is C62."
 },
 "C24": {
  "note": "All reachable worlds, including adversarial contract calls and deployments."
 },
 "C25": {
  "note": "Exact transfer for tokens the module deployed; denominations without code are C63."
 },
 "C26": {
  "note": "Mint exact; burn exact for chain-created coins; contract-native coins are C64."
 },
 "C27": {
  "note": "Every gate proved for each denomination text; aliases of a token are C62."
 },
 "C30": {
  "note": "Also shows that the zero-address token passes the fee-denom test."
 },
 "C32": {
  "note": "Registered tokens, all pages, all existing accounts; accounts that no longer exist are C79."
 },
 "C33": {
  "note": "Long addresses: stable and unique unless two share the 20-byte tail, in which case the second is refused. Exceptions in C65."
 },
 "C34": {
  "note": "Window and opcode answers for every constant setting; which block's hash is stored is C66."
 },
 "C35": {
  "note": "Every well-formed store, any visiting order of the index."
 },
 "C37": {
  "note": "All creates; the text 0x is C67."
 },
 "C60": {
  "note": "Import adds the listed balances; exact from an EVM genesis without balances; refuted for the application's own export (balances doubled, or panic with contract-native holders).",
  "status": "partial"
 },
 "C38": {
  "note": "Read-only and gas claims for every input, caller, gas and gas schedule."
 },
 "C39": {
  "note": "Per call and for whole call trees; a message with no signers at all would pass the signer loop (the SDK refuses such messages when decoding). Caller identity as handed over by the EVM fork, which is not in the repository."
 },
 "C40": {
  "note": "Refuted twice (queued message, registration); the code ignores frame outcomes altogether (C40_outcomes_ignored); proved for trees without failing frames, static frames and a failing outermost frame.",
  "status": "partial"
 },
 "C55": {
  "note": "For every adaptive use of the cache context; static calls of the chain itself proved for the precompiles' effects."
 },
 "C61": {
  "note": "Refuted for every state: an account created in a frame and one created by the registry precompile get the same number. Proved when the precompile creates none and no inner frame fails.",
  "status": "partial"
 },
 "C41": {
  "note": "For every history of sets, cached deletes, commits, restarts and cache evictions; deletes of uncached keys are C69."
 },
 "C42": {
  "note": "Retrieval, block walk, headers and hash maps for every chain and every indexable block; deviations from Ethereum's conventions are C70."
 },
 "C43": {
  "note": "Exact for every range, filter and indexed chain, using only soundness of the bloom filter; exceptions in C71."
 },
 "C45": {
  "note": "All interleavings of all senders, any cache capacity, any broadcast outcomes; exceptions in C73."
 },
 "C46": {
  "note": "Every schedule of any number of requests; the unsynchronised read is C74."
 },
 "C44": {
  "note": "Every schedule of emitters, event loop, listeners, creations, polls, uninstalls and ticks; exceptions in C72."
 },
 "C47": {
  "note": "Every schedule of the four fetchers, with blocks being indexed and cache entries evicted or added by other requests meanwhile. Simplified: percentiles rational, float threshold a parameter. Exceptions in C75."
 },
 "C48": {
  "note": "For every store, transfer application, EVM behaviour, packet and memo; gas exhaustion is C76."
 },
 "C49": {
  "note": "For every store, transfer application, EVM behaviour, packet and memo; the intermediate sender up to hash collisions. Exceptions in C76, C77."
 },
 "C51": {
  "note": "Backing holds in every history of wraps, unwraps, callbacks, dispatches, token calls, chain transfers and re-entrant origin tokens of unknown code, as long as the channel and receiver texts contain no quote, backslash or control character; redeeming then always succeeds for the full worth. Refuted without that: a crafted receiver text drains locked tokens (also past a strict decoder). Also refuted: plain wraps are refused by the strict decoder, and the hook refund never succeeds. Missing: messages queued by reverted frames (C40) and origin tokens of unknown code."
 },
 "C52": {
  "note": "Reachable worlds; receivers with unknown code are excluded from the exact-effect theorems. Exceptions in C78."
 },
 "C62": {
  "note": "Refuted: evm/ denominations in another letter case name the same token; a disabled token can be sent under an alias. The true part is C23 and C27."
 },
 "C63": {
  "note": "Refuted for a denomination evm/<address without code>. The true part is C25."
 },
 "C64": {
  "note": "Refuted: the whole coin set is sent to the community pool when it contains a contract-native coin. The true part is C26."
 },
 "C65": {
  "note": "Refuted: the shorthand of a long address may be a 20-byte address that has not been used on chain yet, or an unused account (needs a 160-bit collision with a chosen key, or a fresh account). The true part is C33."
 },
 "C66": {
  "note": "Refuted: the value recorded for height h during the pre-block of h+1 is not block h's own hash. The true part is C34."
 },
 "C67": {
  "note": "Refuted: the text 0x passes the emptiness check. The true part is C37."
 },
 "C68": {
  "note": "Refuted: an account record is left behind. The true part is C38."
 },
 "C69": {
  "note": "Refuted (inverted error test; the indexer itself never deletes). The true part is C41."
 },
 "C70": {
  "note": "Refuted four ways: indices are 1-based and 0 is never found; log indices restart per transaction; a re-included failed transaction overwrites its receipt; block tags are cast to uint64. The true part is C42."
 },
 "C71": {
  "note": "Refuted: the zero hash answers with block 1's logs; a head not yet indexed gives an empty list. The true part is C43."
 },
 "C72": {
  "note": "Refuted: one emitter goroutine per block; fresh block and pending filters expire at the first tick; the block hash is ignored. The true part is C44."
 },
 "C73": {
  "note": "Refuted: the shared bounded queue evicts accepted submissions; a ready transaction waits for the sender's next call; an error can belong to another transaction. The true part is C45."
 },
 "C74": {
  "note": "Refuted: the release path reads the shared map without the mutex. The true part is C46."
 },
 "C75": {
  "note": "Refuted: rows may start at block 0 (showing block 1 twice); the base-fee column depends on fetcher order because this chain's base fee does not follow EIP-1559 (proved when it does: C75_base_fees_partial); head not yet indexed crashes the handler."
 },
 "C76": {
  "note": "Refuted: the callback gets all the transaction's gas; out of gas gives no acknowledgement; an application acknowledging later makes the handler crash. The true part is C48, C49."
 },
 "C77": {
  "note": "Proved for hexadecimal spellings; refuted for bech32: the tokens are approved to the zero address."
 },
 "C78": {
  "note": "Refuted: evm/<hex> aliases of recorded classes, where tokens get another number; many spellings of numeric token ids; operations on evm/<no code> report success; an approved account burns tokens it does not own; URIs survive burning. The true part is C52."
 },
 "C79": {
  "note": "Refuted: a self-destructed holder keeps its token balances but loses its account record. The true part is C32."
 },
 "C80": {
  "note": "Refuted on chain ids congruent 124 mod 128; proved refused when the low byte of the recovered V exceeds 3."
 },
 "C81": {
  "note": "Exact characterisation; OPinit's fee checker (not in the repository) is modelled by its documented rule."
 },
 "C82": {
  "note": "Every interleaving (the node is sampled at each step). eth_getBalance under an unchanged fee token."
 },
 "C83": {
  "note": "Refuted: blocks from the head on get the latest state; nonces at 'earliest' are the latest; the head block can be answered from the next one; balances of old blocks are in today's fee token. The true part is C82."
 },
 "C84": {
  "note": "The run is what is handed to the EVM; the interpreter itself is not modelled."
 },
 "C85": {
  "note": "Refuted for every transaction with value, to the zero address (run as creation), and for the access list of every call. The true part is C84."
 },
 "C86": {
  "note": "Decorator costs are parameters; executions are described by the peak of their gas use and their refund."
 },
 "C87": {
  "note": "Refuted: the fee decorator's infinite meter is used by all later decorators; large refunds exceed the margin. The true part is C86."
 },
 "C88": {
  "note": "20-byte senders (all Ethereum transactions)."
 },
 "C89": {
  "note": "Refuted for every token without 18 decimals and for every negative Cosmos message value. The true part is C88."
 },
 "C91": {
  "note": "Refuted: the event loop hands an event to each subscriber in turn over unbuffered channels, and a subscriber inside Notify does not receive; until the write returns or times out, nothing moves, and mempool insertion (CheckTx) waits too."
 },
 "C93": {
  "note": "Refuted: announced before the wrapped mempool is asked; conversion errors refuse a transaction only where JSON-RPC is on."
 },
 "C95": {
  "note": "Refuted as stated; the three ways it fails are theorems."
 },
 "C97": {
  "note": "Address codec, ABI, gRPC handlers and the whitelist are parameters."
 },
 "C98": {
  "note": "Signature schemes, addresses of keys and sign bytes are parameters; the SDK decorators in between are modelled from their published source."
 },
 "C99": {
  "note": "Refuted: C99_keyless_refuted and C99_other_message_refuted give transactions that the ante handler accepts and that stop the indexing; C99_goes_on_iff gives the exact condition under which a block is indexed."
 },
 "C100": {
  "note": "Refuted for EVM messages by C100_replay_refuted (any number of repetitions). C100_earlier_replay_refuted: with two spellings of the sender even a transaction that succeeded is included again after a later one ran out of gas. Proved: transactions without EVM messages, exact sequences of EVM transactions for each ending, and no replay over histories whose endings the post handler repairs."
 },
 "C102": {
  "note": "The hash of headers is a parameter without collisions among the headers of the chain; headers carry the fields that the lookups use."
 },
 "C103": {
  "note": "Refuted: the _refuted theorems; the parts that hold are C102."
 },
 "C104": {
  "note": "CollectionPaginate of the SDK is modelled from its published source (keys of equal length; listing supplies in ascending order)."
 },
 "C105": {
  "note": "Refuted: the _refuted theorems; what holds is C104."
 },
 "C107": {
  "note": "Refuted: C107_blocked_receives_refuted and C107_restriction_not_asked_refuted; the transfers that do ask are C27, C28."
 },
 "C109": {
  "note": "Refuted: C109_left_over_refuted (any pair names, any history), C109_nodes_disagree_refuted (concrete), C109_other_answer_refuted (concurrent calls). The true part is C108."
 },
 "C111": {
  "note": "Refuted by the C111_*_refuted theorems (for every chain, not only one). The true part is C110."
 },
 "C113": {
  "note": "Refuted by the C113_*_refuted theorems. The true part is C112."
 },
 "C115": {
  "note": "Refuted by the C115_*_refuted theorems. The true part is C114."
 },
 "C118": {
  "note": "The English claim is false of the code, and the theorems prove that: the fee is gas times fee cap plus one unit (computeGasFeeAmount), so with an 18-decimals fee token the payment of a whole balance is taken, always fails and loses its fee, and a failed transaction costs one wei more than gas times fee cap. What does hold is C117."
 },
 "C122": {
  "note": "The English claim is false of the code, and the theorems prove that: GASPRICE is the fee cap, 0 in queries (below BASEFEE when there is a minimum price); GASLIMIT is what is left of the transaction's gas; COINBASE is the zero address, which keeps what is paid to it. What does hold is C121."
 },
 "C114": {
  "note": "Exact (C114_commit) where no caller goes on after a failed call; what holds for arbitrary code is C114_nothing_made, C114_only_payers_lose and C114_storage_own. What is false is C115."
 },
 "C117": {
  "note": "C117_effects and C117_succeeds_iff are for code that does not go on after a failed call (C115 shows that no such statement holds otherwise); C117_any says what holds for arbitrary code."
 },
 "C120": {
  "note": "For constructors that do not go on after a failed call and do not destroy their contract."
 },
 "C127": {
  "status": "partial",
  "note": "Refuted: C127_waits_at_the_other_endpoint_refuted. What holds is C126."
 },
 "C128": {
  "status": "partial",
  "note": "Proved for init code in which no call fails; the full statement is false (C129); with the repaired RevertToSnapshot it holds in full (C128_create_repaired). Gas is not modelled."
 },
 "C129": {
  "status": "partial",
  "note": "Refuted: C129_what_is_kept_refuted, C129_no_contract_refuted, C129_no_code_refuted, C129_address_taken_refuted, C129_nonce_lost_refuted. What holds is C128."
 },
 "C130": {
  "note": "Answers of collections not made by the chain are arbitrary. Balances are modulo 2^256, like the contract's counter."
 },
 "C131": {
  "status": "partial",
  "note": "Refuted: C131_class_data_refuted, C131_token_data_refuted, C131_no_such_token_refuted. What holds is C130."
 },
 "C132": {
  "status": "partial",
  "note": "No panic and no wrap are proved for all programs; agreement with Ethereum as long as no call fails (otherwise false, C133). go-ethereum's gas rules are modelled from version 1.14.9; the fork used is not in the repository. The proof needs EIP-2200's floor of 2300 gas (C132_floor_needed)."
 },
 "C133": {
  "status": "partial",
  "note": "Refuted: C133_storage_gas_refuted. What holds is C132."
 },
 "C134": {
  "status": "partial",
  "note": "Refuted: C134_any_fee_refuted, C134_balance_lost_refuted. What holds: whatever the fee, the call is the signed one and the effects are the ledger's with that fee (C134_included_iff, C134_effects)."
 },
 "C136": {
  "status": "partial",
  "note": "Refuted for transactions included again: C136_moved_refuted, C136_logs_twice_refuted. For all others C136_kept."
 },
 "C137": {
  "status": "partial",
  "note": "The main part is proved (C137_answers, C137_all_wanted); the three exceptions named in the statement are C137_future_refuted, C137_block_zero_refuted, C137_not_a_use_refuted."
 },
 "C138": {
  "status": "partial",
  "note": "What can be read back and that nothing changes then is proved for everything (C138_big_numbers, C138_transaction, C138_converted, C138_same_answers). The expectation that every included transaction can be read back is refuted: C138_wallet_refuted (included whatever the tip cap) and C138_block_lost_refuted (what is lost)."
 },
 "C139": {
  "status": "proved",
  "note": "For one message of MsgCall or MsgCreate and one signature with a secp256k1 or ethsecp256k1 key; the fee in the fee denomination. The signature function and the sign bytes are parameters. The EVM run is the tree of calls of Model/CallTree.v."
 },
 "C140": {
  "status": "proved",
  "note": "The histories of C119 with Cosmos-signed transactions (C139) and Ethereum transactions submitted with another fee (C134) among them. One message and one ordinary key per transaction; constructors that catch failures or destroy their contract are excluded, as in C119."
 },
 "C141": {
  "status": "proved",
  "note": "Messages are MsgCall and MsgSend, every account written with one spelling and holding an ordinary key. C141_next_number_refuted is the finding: after a transaction with two or more calls of one account at sequence s a transaction with s+1 is refused, so a wallet that counts its transactions stalls. C141_single ties a one-message transaction to the model of C139."
 },
 "C142": {
  "status": "proved",
  "note": "All kinds are delivered by one model (Model/MultiMsg.v; C141_single identifies it with that of C140 on single messages). Multi-message transactions hold calls and sends, one spelling per account and ordinary keys; no sequence within the history may come near 2^64."
 },
 "C143": {
  "status": "proved",
  "note": "go-ethereum's MarshalBinary, UnmarshalBinary and hash are parameters; only canonical encodings parse. For transactions with replay protection (C80 for the others), as in C18."
 },
 "C144": {
  "status": "proved",
  "note": "Numbers of the memo written as plain digits; the scanning of the text and the reading of the message are parameters; Go's float64 parsing and shortest printing are modelled (integers)."
 },
 "C145": {
  "status": "proved",
  "note": "The reader is the last word before the fixed ending. go-ethereum's UnpackRevert is modelled for Error(string), its answer on Panic(uint256) is a parameter."
 },
 "C146": {
  "status": "proved",
  "note": "go-ethereum's Header JSON is modelled field by field; Header.Hash is a parameter, assumed not to collide on the headers that are made. Roots and bloom filter come with the block."
 },
 "C147": {
  "status": "proved",
  "note": "Reachable states as in C24. Store errors other than not-found do not happen."
 }
}