{"id": "C01", "title": "Commit publishes exactly the writes of the frames that were not reverted", "statement": "After an EVM execution succeeds, the persistent state equals the state before it plus the writes of every call frame that was not (transitively) reverted, no matter how deeply frames nest or how many inner frames reverted along the way.", "quantifier": "every tree of nested calls (any depth, any mix of succeeding and reverting inner calls), every initial state", "why_tests_cant": "the nesting of snapshots and reverts is unbounded; the repository's own tests only revert to the outermost snapshot", "anchors": ["x/evm/state/statedb.go:Snapshot", "x/evm/state/statedb.go:RevertToSnapshot", "x/evm/state/statedb.go:Commit", "x/evm/state/snapshot.go:NewSnapshot"]}
{"id": "C02", "title": "Revert restores the view at snapshot time", "statement": "RevertToSnapshot(id) with an id returned by Snapshot makes every later read return what it returned when that Snapshot was taken, and ids handed out before it stay usable.", "quantifier": "every sequence of reads, writes, snapshots and well-nested reverts", "why_tests_cant": "needs every interleaving of snapshots, writes and reverts", "anchors": ["x/evm/state/statedb.go:Snapshot", "x/evm/state/statedb.go:RevertToSnapshot"]}
{"id": "C03", "title": "A failed EVM call leaves persistent state untouched", "statement": "If a call or create returns an error, no write made through the state database during it reaches the chain's store, even though the writes were visible during execution.", "quantifier": "every operation sequence ending without Commit, every initial state", "why_tests_cant": "must hold for every way an execution can fail at every point", "anchors": ["x/evm/state/statedb.go:Commit", "x/evm/keeper/context.go:EVMCallWithTracer", "x/evm/keeper/context.go:EVMCreateWithTracer"]}
{"id": "C04", "title": "Contract storage is a per-(contract, slot) map", "statement": "A storage read returns the last value written to that contract and slot (zero if none); writing one slot never changes any other slot of any contract, nor any contract's code or code size.", "quantifier": "all addresses, slots, values, code hashes and operation histories", "why_tests_cant": "key collisions between code, code-size and storage records of different lengths can only be excluded for all keys by proof", "anchors": ["x/evm/state/statedb.go:GetState", "x/evm/state/statedb.go:SetState", "x/evm/state/statedb.go:GetCode", "x/evm/state/statedb.go:GetCodeSize", "x/evm/state/keys.go:stateKey", "x/evm/state/keys.go:codeKey", "x/evm/state/keys.go:codeSizeKey"]}
{"id": "C05", "title": "Transient storage is private to one contract and one transaction", "statement": "TLOAD by a contract returns the last value that same contract stored with TSTORE under that key in the same top-level execution (zero otherwise); other contracts and other executions cannot read or overwrite it.", "quantifier": "all contracts, keys, values, and all interleavings of executions", "why_tests_cant": "isolation is a statement about all pairs of contracts", "anchors": ["x/evm/state/statedb.go:SetTransientState", "x/evm/state/statedb.go:GetTransientState"]}
{"id": "C06", "title": "The refund counter is exact and never goes below zero", "statement": "The counter equals the refunds added minus the refunds subtracted since the execution began (modulo 2^64); subtracting more than it holds aborts instead of wrapping; it starts at zero for every execution.", "quantifier": "every sequence of additions and subtractions with 64-bit amounts", "why_tests_cant": "requires all histories and the wrap boundary", "anchors": ["x/evm/state/statedb.go:AddRefund", "x/evm/state/statedb.go:SubRefund", "x/evm/state/statedb.go:GetRefund", "x/evm/state/statedb.go:NewStateDB"]}
{"id": "C07", "title": "Access list: warm set is exact, slots imply addresses, executions do not share it", "statement": "An address or slot is warm iff it was added in this execution (or by Prepare); a warm slot's address is warm; entries of one execution are invisible to another.", "quantifier": "every sequence of additions over all addresses and slots and every access list passed to Prepare", "why_tests_cant": "the two kinds of entry share one key space and are told apart only by length", "anchors": ["x/evm/state/statedb.go:AddAddressToAccessList", "x/evm/state/statedb.go:AddSlotToAccessList", "x/evm/state/statedb.go:SlotInAccessList", "x/evm/state/statedb.go:AddressInAccessList", "x/evm/state/statedb.go:Prepare"]}
{"id": "C08", "title": "Logs come back complete and in emission order", "statement": "The logs of an execution are exactly those emitted by it, in emission order, without gaps or duplicates and without logs from other executions or from reverted frames.", "quantifier": "every number and order of emitted logs, any number of earlier executions in the block", "why_tests_cant": "needs every emission history", "anchors": ["x/evm/state/statedb.go:AddLog", "x/evm/state/statedb.go:Logs", "x/evm/state/statedb.go:NewStateDB"]}
{"id": "C09", "title": "Committed-state reads are constant during an execution", "statement": "GetCommittedState returns the value a slot had when the execution began regardless of the writes, snapshots and reverts made since.", "quantifier": "every operation sequence before the read", "why_tests_cant": "depends on the whole history of the execution", "anchors": ["x/evm/state/statedb.go:GetCommittedState"]}
{"id": "C10", "title": "Self-destruct only removes same-transaction contracts, and removes all of them and nothing else", "statement": "On commit, an account disappears iff it self-destructed and was created as a contract in the same execution; its storage, code and account record are all removed, and every other account keeps its storage, code and record.", "quantifier": "all sets of created and destroyed contracts, all prior states", "why_tests_cant": "prefix deletion must be shown not to touch any other of the 2^160 addresses", "anchors": ["x/evm/state/statedb.go:SelfDestruct", "x/evm/state/statedb.go:Selfdestruct6780", "x/evm/state/statedb.go:Commit"]}
{"id": "C11", "title": "Contract creation never overwrites an account in use", "statement": "Creating a contract at an address whose account has a nonzero nonce, a public key, code, or is a module account aborts; otherwise the account keeps its account number (or takes a fresh one) and becomes a contract account.", "quantifier": "all pre-existing account records", "why_tests_cant": "ranges over all account kinds and states", "anchors": ["x/evm/state/statedb.go:CreateContract", "x/evm/state/statedb.go:GetStorageRoot", "x/evm/types/auth.go:IsEmptyAccount"]}
{"id": "C12", "title": "Code, code hash and code size always describe the same bytes", "statement": "After code is set, reads of code, code hash and code size return that code, its Keccak hash and its length until it is set again or the account removed; accounts without code report the empty values.", "quantifier": "all addresses, codes and intervening operations on other addresses", "why_tests_cant": "the three are stored separately; agreement must hold for every history", "anchors": ["x/evm/state/statedb.go:SetCode", "x/evm/state/statedb.go:GetCode", "x/evm/state/statedb.go:GetCodeHash", "x/evm/state/statedb.go:GetCodeSize"]}
{"id": "C13", "title": "Gas charged stays within the limit and refunds within one fifth", "statement": "The gas charged for an execution is at most the gas limit and at least four fifths of what was consumed before refunds; the 64-bit arithmetic never underflows.", "quantifier": "all 64-bit gas limits, remaining gas not above the limit, and refund counters", "why_tests_cant": "boundary behaviour over the whole 64-bit range", "anchors": ["x/evm/types/gas.go:CalGasUsed"]}
{"id": "C14", "title": "Every failed EVM execution is charged for the gas it consumed", "statement": "When an EVM call fails, the transaction's gas meter is charged the gas the EVM consumed.", "quantifier": "all EVM outcomes (error kind, remaining gas)", "why_tests_cant": "ranges over every error kind and remaining gas value", "anchors": ["x/evm/keeper/context.go:EVMCallWithTracer", "x/evm/keeper/context.go:EVMCreateWithTracer"]}
{"id": "C15", "title": "Gas refund never exceeds the fee paid and is only given to successful Ethereum transactions", "statement": "The post-transaction refund is at most the fee charged for the gas, is paid from the fee collector to the fee payer, and is zero for failed, simulated, non-Ethereum transactions or when the ratio is zero.", "quantifier": "all gas limits, consumed gas, gas prices and ratios allowed by parameter validation", "why_tests_cant": "rounding across three decimal operations over unbounded amounts", "anchors": ["app/posthandler/gasrefund.go:PostHandle", "x/evm/ante/gas_prices.go:AnteHandle", "x/evm/types/params.go:Validate"]}
{"id": "C16", "title": "Converting between chain units and 18-decimals units is lossless upward and truncating downward", "statement": "Converting an amount to 18 decimals and back returns the amount; converting down truncates by less than one unit; both conversions are monotone.", "quantifier": "all amounts and all decimals 0..255", "why_tests_cant": "unbounded integers and 256 decimals values, including more than 18", "anchors": ["x/evm/types/decimals.go:ToEthersUint", "x/evm/types/decimals.go:FromEthersUnit"]}
{"id": "C17", "title": "The Cosmos fee attached to an Ethereum transaction covers its gas-fee cap", "statement": "The fee computed for an Ethereum transaction, in 18-decimal units, is at least gas limit times fee cap and exceeds it by at most one chain unit; a zero fee cap gives a zero fee.", "quantifier": "all fee caps, gas limits, decimals", "why_tests_cant": "rounding direction over unbounded integers", "anchors": ["x/evm/keeper/txutils.go:computeGasFeeAmount"]}
{"id": "C18", "title": "Ethereum transaction survives the round trip through the Cosmos encoding", "statement": "Wrapping a replay-protected (EIP-155 or typed) signed Ethereum transaction into a Cosmos transaction and converting it back yields the same Ethereum transaction: same type, chain id, nonce, recipient, value, gas, caps, data, access list and signature, and the same sender.", "quantifier": "all EIP-155 legacy, access-list and dynamic-fee transactions accepted by the first conversion, all chain ids", "why_tests_cant": "covers every field combination, including EIP-155 V values and rounding of the value", "anchors": ["x/evm/keeper/txutils.go:ConvertEthereumTxToCosmosTx", "x/evm/keeper/txutils.go:ConvertCosmosTxToEthereumTx", "x/evm/types/txutils.go:ConvertEthAccessListToCosmos"]}
{"id": "C19", "title": "An Ethereum signature authorises only the transaction content that was signed", "statement": "If two Cosmos transactions verify under the same Ethereum signature and signer, they carry the same messages and the same fee.", "quantifier": "all pairs of Cosmos transactions in Ethereum sign mode", "why_tests_cant": "quantifies over all transactions an attacker could craft", "anchors": ["x/evm/keeper/txutils.go:ConvertCosmosTxToEthereumTx", "app/ante/verify.go:verifySignature"]}
{"id": "C20", "title": "Every delivered transaction advances the signer's sequence exactly once", "statement": "A delivered transaction with one EVM call advances its sender's sequence by exactly one whether the execution succeeds or fails (for the failing case, given that the post handler's writes are kept), in every execution mode.", "quantifier": "all account sequences, both outcomes, all execution modes", "why_tests_cant": "depends on the composition of ante handler, message execution and post handler", "anchors": ["app/ante/sigverify.go:IncrementSequenceDecorator", "app/posthandler/sequence.go:PostHandle", "x/evm/keeper/msg_server.go:Call"]}
{"id": "C21", "title": "A signed transaction cannot be replayed", "statement": "Along any history of delivered transactions the sequence of an account never decreases across a transaction, and a transaction accepted once is rejected whenever it is submitted again.", "quantifier": "all histories of transactions from any set of accounts, with any number of EVM messages each, any outcomes", "why_tests_cant": "an invariant over unbounded histories", "anchors": ["app/ante/sigverify.go:SigVerificationDecorator", "app/ante/sigverify.go:IncrementSequenceDecorator", "app/posthandler/sequence.go:PostHandle"]}
{"id": "C22", "title": "Ethereum-transaction classification agrees with conversion", "statement": "A Cosmos transaction is classified as an Ethereum transaction iff it converts to one.", "quantifier": "all Cosmos transactions", "why_tests_cant": "two separately written decision procedures over all inputs", "anchors": ["x/evm/keeper/txutils.go:IsEthereumTx", "x/evm/keeper/txutils.go:ConvertCosmosTxToEthereumTx"]}
{"id": "C23", "title": "Denominations and ERC-20 contract addresses are in one-to-one correspondence", "statement": "Every contract has a denomination that resolves back to it, two different contracts never share one, a recorded plain denomination resolves back to itself, and an 'evm/<hex>' denomination always names the address the hex spells.", "quantifier": "all denominations and contracts, every history of ERC-20 creations and registrations", "why_tests_cant": "invariant of two separately updated maps plus a text encoding", "anchors": ["x/evm/types/denom.go:DenomToContractAddr", "x/evm/types/denom.go:ContractAddrToDenom", "x/evm/keeper/erc20.go:CreateERC20"]}
{"id": "C24", "title": "Total supply equals the sum of balances", "statement": "For every ERC-20 deployed by the chain the total supply equals the sum of all account balances after any sequence of mints, burns, transfers and chain-level (sudo) operations, and no operation overflows.", "quantifier": "all operation sequences by any callers with any amounts", "why_tests_cant": "invariant over unbounded histories and account sets", "anchors": ["x/evm/contracts/erc20/ERC20.sol", "x/evm/contracts/initia_erc20/InitiaERC20.sol"]}
{"id": "C25", "title": "Bank transfers move exactly the amount, or nothing", "statement": "A successful SendCoins of tokens whose contracts are the module's moves exactly each coin from sender to recipient and changes no other balance and no supply; if any coin cannot be moved it fails and the transaction changes nothing; if all are covered it succeeds.", "quantifier": "all coin sets, senders, recipients (including self-transfers), all ledgers", "why_tests_cant": "atomicity across many coins and conservation over all ledgers", "anchors": ["x/evm/keeper/erc20.go:SendCoins", "x/bank/keeper/send.go:SendCoins"]}
{"id": "C26", "title": "Module mint and burn change balance and supply by exactly the amount and require permission", "statement": "Only a module with minter (burner) permission can mint (burn); a mint, or a burn of coins the chain created, changes that module's balance and the supply of each coin by exactly its amount and nothing else; contract-native 'evm/' tokens cannot be minted.", "quantifier": "all module names, permissions, coin sets and ledgers", "why_tests_cant": "all coin sets mixing chain-native and contract-native tokens", "anchors": ["x/evm/keeper/erc20.go:MintCoins", "x/evm/keeper/erc20.go:BurnCoins", "x/bank/keeper/keeper.go:MintCoins", "x/bank/keeper/keeper.go:BurnCoins"]}
{"id": "C27", "title": "MsgSend respects send-enabled flags and blocked addresses", "statement": "A bank send succeeds only if every listed denomination text is send-enabled, the amount is valid and positive and the recipient is not blocked; otherwise no balance changes.", "quantifier": "all messages, flag tables and block lists", "why_tests_cant": "decision logic over every flag table and default", "anchors": ["x/bank/keeper/msg_server.go:Send", "x/bank/keeper/send.go:IsSendEnabledCoins"]}
{"id": "C28", "title": "Send restrictions compose in registration order and any refusal stops the transfer", "statement": "Appended restrictions run after, and prepended ones before, the existing ones; each receives the recipient chosen by its predecessor; the first error aborts; clearing removes all.", "quantifier": "every sequence of append, prepend and clear", "why_tests_cant": "ordering over unbounded compositions of arbitrary functions", "anchors": ["x/bank/keeper/send.go:sendRestriction"]}
{"id": "C29", "title": "SetSendEnabled sets exactly the listed flags and resets exactly the use-default list", "statement": "After an accepted SetSendEnabled each listed denomination has the given flag, each denomination in the use-default list follows the default, all others are unchanged; duplicates or a wrong authority are rejected with no change.", "quantifier": "all messages and flag tables", "why_tests_cant": "overlap and duplication cases over all lists", "anchors": ["x/bank/keeper/msg_server.go:SetSendEnabled", "x/bank/keeper/send.go:SetAllSendEnabled", "x/bank/keeper/send.go:DeleteSendEnabled"]}
{"id": "C30", "title": "Only the governance authority can change parameters, and only to valid ones", "statement": "Parameters in the store always satisfy validation; a message from any other address changes nothing.", "quantifier": "all histories of update messages", "why_tests_cant": "invariant over histories", "anchors": ["x/evm/keeper/msg_server.go:UpdateParams", "x/evm/types/params.go:Validate", "x/bank/keeper/msg_server.go:UpdateParams"]}
{"id": "C31", "title": "Token operations need the holder's, a spender's or the chain's authority", "statement": "An account's token balance decreases only by its own transfer/burn, by a spender within an allowance the account granted, by the token owner's burn of its own balance, or by the chain signer; allowances are decreased by what is spent.", "quantifier": "all callers, all call sequences", "why_tests_cant": "security property over all callers and histories", "anchors": ["x/evm/contracts/erc20/ERC20.sol", "x/evm/contracts/i_erc20/IERC20.sol"]}
{"id": "C32", "title": "Every holder of a registered token is listed", "statement": "For each registered ERC-20 every account whose balance was ever increased through the contract is registered as a holder, so listing an account's balances and walking the existing accounts reports every nonzero balance of every existing account exactly once, and listing supplies reports each token once, for every page size.", "quantifier": "all histories of mints and transfers, all page sizes", "why_tests_cant": "completeness over all histories and pagination boundaries", "anchors": ["x/evm/keeper/erc20.go:GetPaginatedBalances", "x/evm/keeper/erc20.go:IterateAccountBalances", "x/evm/keeper/erc20_stores.go:RegisterStore", "x/evm/contracts/erc20_registry/ERC20Registry.sol"]}
{"id": "C33", "title": "Long Cosmos addresses map to EVM addresses without ever sharing or hijacking one", "statement": "20-byte addresses map to themselves; a longer signer address gets a recorded, permanent shorthand; two long addresses never get the same shorthand; a shorthand is refused when the address is in use by an account with a public key, a sequence or another kind; lookups write nothing.", "quantifier": "all histories of address conversions and account creations", "why_tests_cant": "collisions occur only for adversarially chosen addresses", "anchors": ["x/evm/keeper/address.go:convertToEVMAddress", "x/evm/types/auth.go:ShorthandAccount"]}
{"id": "C34", "title": "Block-hash store keeps exactly the retention window", "statement": "With a constant retention number n, after block h the store holds exactly one entry for each of the last n completed heights (all of them if n is zero), and BLOCKHASH answers exactly for those the EVM may see.", "quantifier": "all heights, retention numbers and block sequences", "why_tests_cant": "invariant over unbounded block histories", "anchors": ["x/evm/keeper/keeper.go:TrackBlockHash", "x/evm/keeper/abci.go:PreBlock"]}
{"id": "C35", "title": "Genesis export followed by import reproduces the state", "statement": "Importing an exported genesis reproduces parameters, VM store, ERC-20 and ERC-721 registries, denomination tables, class tables and block hashes, and exporting again yields the same genesis.", "quantifier": "all states", "why_tests_cant": "grouping logic over all key layouts", "anchors": ["x/evm/keeper/genesis.go:InitGenesis", "x/evm/keeper/genesis.go:ExportGenesis"]}
{"id": "C36", "title": "Custom ERC-20 registration obeys the registration policy", "statement": "An ERC-20 contract becomes registered only by the configured factory, or by itself when custom tokens are allowed and it is on the allow list (or the list is empty); per-account registration has an effect only for registered contracts.", "quantifier": "all callers, parameter settings and histories", "why_tests_cant": "security policy over all callers and settings", "anchors": ["x/evm/keeper/erc20_stores.go:Register", "x/evm/keeper/erc20_stores.go:RegisterFromFactory", "x/evm/keeper/erc20_stores.go:RegisterStore"]}
{"id": "C37", "title": "Contract deployment obeys the publisher allow list", "statement": "If the allow list is non-empty only listed senders can deploy through Create or Create2, everyone else is refused without effect; an empty code text is always rejected.", "quantifier": "all senders, allow lists and codes", "why_tests_cant": "decision logic over all lists", "anchors": ["x/evm/keeper/msg_server.go:Create", "x/evm/keeper/msg_server.go:Create2"]}
{"id": "C38", "title": "Precompiles cannot write in a read-only call and never use more gas than supplied", "statement": "In a static call every state-changing precompile method is refused with no state change and no queued message; a precompile run either uses at most the supplied gas or is reported as out of gas.", "quantifier": "all precompile inputs, gas amounts and states", "why_tests_cant": "ranges over all methods, inputs and gas amounts", "anchors": ["x/evm/precompiles/erc20_registry/contract.go:ExtendedRun", "x/evm/precompiles/cosmos/contract.go:ExtendedRun"]}
{"id": "C39", "title": "A contract can only send Cosmos messages it signs itself", "statement": "A message queued through the Cosmos precompile is executed only if every signer of it is the calling contract's (origin) address, and messages are executed in request order after a successful EVM execution; the first failure undoes the whole transaction.", "quantifier": "all messages, callers and queues", "why_tests_cant": "authorisation over all callers and messages", "anchors": ["x/evm/precompiles/cosmos/contract.go:ExtendedRun", "x/evm/keeper/context.go:dispatchMessages"]}
{"id": "C40", "title": "Effects requested by a reverted call frame are not applied", "statement": "Cosmos messages queued and ERC-20 registrations made inside a call frame that reverts have no effect even if the outer call succeeds.", "quantifier": "all call trees mixing reverting frames and precompile calls", "why_tests_cant": "requires reasoning over all frame trees", "anchors": ["x/evm/keeper/precompiles.go", "x/evm/keeper/context.go:CreateEVM", "x/evm/precompiles/cosmos/contract.go:ExtendedRun"]}
{"id": "C41", "title": "The indexer's cached store always returns the latest value", "statement": "A read returns the value of the last Set, or nothing if there was none, whether the entry is still cached or was evicted, before and after Write and restarts; deleting a cached entry makes it absent.", "quantifier": "all operation sequences and all eviction schedules", "why_tests_cant": "the bounded cache may evict at any point", "anchors": ["indexer/store.go:CacheStore"]}
{"id": "C42", "title": "Indexed receipts are consistent within a block", "statement": "For every indexed block the transactions are retrievable by hash and by (block, 1-based index), indices are consecutive, the cumulative gas of each receipt is the sum of gas used up to it, the header is found by number and hash and links to its parent, and each emitted log carries its transaction's hash and position.", "quantifier": "all blocks", "why_tests_cant": "all sequences of Ethereum and other, failing and succeeding transactions", "anchors": ["indexer/abci.go:ListenFinalizeBlock", "indexer/reader.go"]}
{"id": "C43", "title": "eth_getLogs returns exactly the matching logs of the range, in order", "statement": "For an indexed head the result contains every log in the block range whose address and topics match the filter and no other log, in block and log order; the bloom pre-check never hides a matching log; an invalid range or an unknown non-zero block hash is an error.", "quantifier": "all filters, block ranges and chains of logs", "why_tests_cant": "completeness over all filters and bloom collisions", "anchors": ["jsonrpc/namespaces/eth/filters/filter.go:Logs", "jsonrpc/namespaces/eth/filters/filter.go:bloomFilter", "jsonrpc/namespaces/eth/filters/filter.go:filterLogs"]}
{"id": "C44", "title": "Filter polling delivers every event exactly once, in order", "statement": "Concatenating all the answers of eth_getFilterChanges for a live filter gives exactly the selected events the server took since its creation, once each, in that order; a poll always completes; an uninstalled or expired filter is never found again; a log filter expires only when idle for the timeout.", "quantifier": "all interleavings of events, polls, installs, uninstalls and clean-up ticks", "why_tests_cant": "quantifies over schedules", "anchors": ["jsonrpc/namespaces/eth/filters/api.go:GetFilterChanges", "jsonrpc/namespaces/eth/filters/api.go:eventLoop", "jsonrpc/namespaces/eth/filters/api.go:clearUnusedFilters"]}
{"id": "C45", "title": "Raw transactions are broadcast in nonce order without gaps", "statement": "For each sender, transactions are broadcast in consecutive nonce order starting from the account sequence; a transaction ahead of the sequence waits while it is queued; one below it is refused; none is broadcast more often than submitted; a call leaves no ready transaction behind when only this node moves the sequence.", "quantifier": "all arrival orders and broadcast outcomes", "why_tests_cant": "all orders of arrival of arbitrary nonces", "anchors": ["jsonrpc/backend/tx.go:SendTx"]}
{"id": "C46", "title": "Per-account locking is mutually exclusive and leaves nothing behind", "statement": "At most one request per account is inside the submission critical section; when no request is active no lock record remains; a waiting request always finds the lock it waits on.", "quantifier": "all interleavings of any number of concurrent requests", "why_tests_cant": "all thread schedules", "anchors": ["jsonrpc/backend/backend.go:acquireAccMut", "jsonrpc/backend/backend.go:releaseAccMut"]}
{"id": "C47", "title": "Fee history answers cover exactly the requested, existing blocks", "statement": "The returned range ends at the requested block (or head), has at most the requested number of blocks, and every row holds the data of its own block whatever the fetch order; percentiles must be increasing within 0..100 and rewards are those percentiles.", "quantifier": "all block counts, block tags and heads", "why_tests_cant": "boundary arithmetic over the whole range", "anchors": ["jsonrpc/backend/feehistory.go:resolveBlockRange", "jsonrpc/backend/feehistory.go:FeeHistory"]}
{"id": "C48", "title": "IBC acknowledgement and timeout hooks cannot break the transfer", "statement": "The outcome of an acknowledgement or timeout (result and state effects of the transfer application) does not depend on whether the hook callback returns an error; a failing callback leaves no state behind; when the transfer application fails the hook is not run.", "quantifier": "all packets, memos, hook contracts and hook outcomes", "why_tests_cant": "all hook behaviours including failures at any point", "anchors": ["app/ibc-hooks/ack.go", "app/ibc-hooks/timeout.go"]}
{"id": "C49", "title": "IBC receive hooks run only for allowed contracts addressed by the packet, and fail atomically", "statement": "A packet's EVM message is executed only if the memo parses, the receiver equals the called contract and the contract is allowed; it runs as an intermediate sender derived from channel and sender; if the hook or the transfer returns an error the packet gets an error acknowledgement and changes nothing.", "quantifier": "all packets and memos", "why_tests_cant": "routing decision over all memos", "anchors": ["app/ibc-hooks/receive.go", "app/ibc-hooks/util.go", "app/ibc-hooks/hooks.go"]}
{"id": "C50", "title": "Logs and access lists survive their text encoding", "statement": "Encoding an EVM log (address, topics, data) or an access list to its stored text form and decoding it returns the original.", "quantifier": "all addresses, topic lists, data and access lists", "why_tests_cant": "codec round trip over all byte strings", "anchors": ["x/evm/types/log.go:NewLog", "x/evm/types/log.go:ToEthLog", "x/evm/types/txutils.go"]}
{"id": "C51", "title": "The wrapped token is always fully backed", "statement": "At any time the locally locked amount of an origin token is at least what is needed to redeem every outstanding wrapped token.", "quantifier": "all histories of wrap, unwrap, acknowledgement and timeout callbacks by any callers", "why_tests_cant": "invariant over histories with adversarial callers", "anchors": ["x/evm/contracts/erc20_wrapper/ERC20Wrapper.sol"]}
{"id": "C52", "title": "ERC-721 classes and contracts correspond one to one and tokens keep one owner", "statement": "Recorded class ids and contracts map to each other one to one; transfers, mints and burns through the chain (to receivers without code) move exactly the listed tokens and are refused for tokens the sender does not own or is not approved for; balances count tokens; only the chain mints in classes it created.", "quantifier": "all class ids, token ids and histories", "why_tests_cant": "all histories of NFT operations", "anchors": ["x/evm/keeper/erc721.go", "x/evm/types/collection.go"]}
{"id": "C53", "title": "The EVM chain id derived from the Cosmos chain id is always in range", "statement": "For every chain id the derived EVM chain id is deterministic and below 4503599627370476, so legacy V values 2*id+35/36 fit a 53-bit integer.", "quantifier": "all chain id strings", "why_tests_cant": "all strings", "anchors": ["x/evm/types/chain_config.go:ConvertCosmosChainIDToEthereumChainID"]}
{"id": "C54", "title": "EIP-155 V values encode and decode without loss", "statement": "For every chain id and recovery bit, the V stored with a legacy transaction decodes to the same recovery bit, and the 65-byte Cosmos signature determines R, S and V.", "quantifier": "all chain ids, R, S below 2^256 and recovery bits", "why_tests_cant": "arithmetic over the full range", "anchors": ["x/evm/keeper/txutils.go:ConvertEthereumTxToCosmosTx", "x/evm/keeper/txutils.go:ConvertCosmosTxToEthereumTx"]}
{"id": "C55", "title": "Read-only queries and calls change nothing", "statement": "A query (gRPC Call, Code, State, eth_call, eth_estimateGas) never changes chain state, whatever the called contract does.", "quantifier": "all requests and states", "why_tests_cant": "all contract behaviours", "anchors": ["x/evm/keeper/query_server.go:Call", "x/evm/keeper/context.go:EVMStaticCall"]}
{"id": "C56", "title": "Value transfer between accounts conserves the fee token", "statement": "Moving native value between accounts through the EVM moves exactly the amount from sender to recipient, is refused when the balance is insufficient and leaves the fee token's supply unchanged.", "quantifier": "all senders, recipients (including equal), amounts and ledgers", "why_tests_cant": "conservation for all ledgers", "anchors": ["x/evm/keeper/context.go:buildBlockContext", "x/evm/state/statedb.go:AddBalance", "x/evm/state/statedb.go:SubBalance"]}
{"id": "C57", "title": "The next contract address prediction matches deployment and addresses do not repeat", "statement": "Deployments by one account use strictly increasing nonces, so no two deployments of an account are given the same creation nonce.", "quantifier": "all histories of calls and creates", "why_tests_cant": "history invariant", "anchors": ["x/evm/keeper/msg_server.go:Create", "x/evm/keeper/msg_server.go:increaseNonce", "x/evm/keeper/context.go:NextContractAddress"]}
{"id": "C58", "title": "JSON-RPC transaction objects convert back to the indexed transaction", "statement": "The JSON-RPC form of an Ethereum transaction converts back to a transaction with the same fields for all three transaction types.", "quantifier": "all transactions", "why_tests_cant": "codec round trip", "anchors": ["jsonrpc/types/tx.go:NewRPCTransaction", "jsonrpc/types/tx.go:ToTransaction"]}
{"id": "C59", "title": "Gas price and base fee seen by contracts are the configured prices in wei", "statement": "The gas price and base fee the EVM reports equal the chain's gas price converted to 18 decimals, for every fee token with at most 246 decimals, and zero when the price is zero.", "quantifier": "all prices, all fee-token decimals 0..246", "why_tests_cant": "decimals arithmetic with wrap-around over all 256 decimals values and unbounded prices", "anchors": ["x/evm/keeper/context_utils.go:extractGasPriceFromContext", "x/evm/keeper/context_utils.go:baseFee", "x/evm/keeper/context_utils.go:LoadFee"]}
{"id": "C60", "title": "Restarting from an exported genesis preserves every balance", "statement": "Initialising the bank from a genesis gives every account exactly the listed balance of every token; in particular a chain restarted from its own exported application state shows the same balances as before.", "quantifier": "all reachable states, all balance lists", "why_tests_cant": "depends on the order in which two modules restore overlapping state, for every reachable state", "anchors": ["x/bank/keeper/genesis.go:InitGenesis", "x/bank/keeper/genesis.go:ExportGenesis", "x/bank/keeper/send.go:initBalances", "x/evm/keeper/genesis.go:InitGenesis", "app/modules.go:orderInitBlockers"]}
{"id": "C61", "title": "Account numbers are unique", "statement": "No two accounts ever have the same account number, whatever mix of contract deployments, calls and token receipts creates them.", "quantifier": "all states and executions", "why_tests_cant": "needs the interleaving of account creation in call frames and in precompiles, over all executions", "anchors": ["x/evm/state/statedb.go:CreateAccount", "x/evm/state/statedb.go:CreateContract", "x/evm/keeper/erc20_stores.go:RegisterStore", "x/evm/keeper/context.go:CreateEVM"]}
{"id": "C62", "title": "A token has one name", "statement": "Every denomination text the bank accepts for a token is the token's one denomination, so a policy set for it (send-enabled) applies to the token.", "quantifier": "all denomination texts", "why_tests_cant": "hexadecimal spellings are unbounded; tests use one spelling", "anchors": ["x/evm/types/denom.go:DenomToContractAddr", "x/evm/types/denom.go:ContractAddrToDenom", "x/evm/keeper/erc20.go:CreateERC20"]}
{"id": "C63", "title": "A successful transfer has moved the coins", "statement": "Whatever the denomination, a bank send that reports success has credited the recipient.", "quantifier": "all denominations, including those whose contract has no code", "why_tests_cant": "tests use deployed tokens", "anchors": ["x/evm/keeper/erc20.go:SendCoins", "x/bank/keeper/send.go:SendCoins"]}
{"id": "C64", "title": "Burning contract-native coins destroys exactly them", "statement": "Burning a coin set with contract-native coins removes exactly the listed amounts.", "quantifier": "all coin sets mixing native and chain-created coins", "why_tests_cant": "needs all mixtures", "anchors": ["x/evm/keeper/erc20.go:MintCoins", "x/evm/keeper/erc20.go:BurnCoins", "x/bank/keeper/keeper.go:MintCoins", "x/bank/keeper/keeper.go:BurnCoins"]}
{"id": "C65", "title": "Nobody else's EVM address can be taken", "statement": "No signer with a long address ever acts from an EVM address that belongs to somebody else's key.", "quantifier": "all addresses", "why_tests_cant": "needs an adversarial choice of address", "anchors": ["x/evm/keeper/address.go:convertToEVMAddress", "x/evm/types/auth.go:ShorthandAccount"]}
{"id": "C66", "title": "BLOCKHASH is the hash of the named block", "statement": "The hash stored and returned for height h is the hash of block h.", "quantifier": "all heights", "why_tests_cant": "tests compare with what was stored", "anchors": ["x/evm/keeper/keeper.go:TrackBlockHash", "x/evm/keeper/abci.go:PreBlock"]}
{"id": "C67", "title": "Empty init code is never deployed", "statement": "A deployment whose code decodes to no bytes is rejected.", "quantifier": "all code texts", "why_tests_cant": "tests try the empty string only", "anchors": ["x/evm/keeper/msg_server.go:Create", "x/evm/keeper/msg_server.go:Create2"]}
{"id": "C68", "title": "An out-of-gas precompile run has no effect", "statement": "A precompile run reported as out of gas changes nothing.", "quantifier": "all inputs and gas amounts", "why_tests_cant": "needs every point where gas can end", "anchors": ["x/evm/precompiles/erc20_registry/contract.go:ExtendedRun", "x/evm/precompiles/cosmos/contract.go:ExtendedRun"]}
{"id": "C69", "title": "Deleting works for uncached keys too", "statement": "After a Delete a key is absent whether or not it was cached.", "quantifier": "all keys, cache states", "why_tests_cant": "depends on eviction", "anchors": ["indexer/store.go:CacheStore"]}
{"id": "C70", "title": "Receipt positions follow Ethereum's conventions", "statement": "Transactions are found under 0-based indices and block tags, log indices count through the block, and a transaction hash has one receipt.", "quantifier": "all blocks", "why_tests_cant": "needs blocks with several transactions and logs", "anchors": ["indexer/abci.go:ListenFinalizeBlock", "indexer/reader.go"]}
{"id": "C71", "title": "eth_getLogs never answers for another block", "statement": "A query by any unknown block hash, or for a head not indexed yet, is an error and not another block's logs or an empty list.", "quantifier": "all hashes, all indexing delays", "why_tests_cant": "timing", "anchors": ["jsonrpc/namespaces/eth/filters/filter.go:Logs", "jsonrpc/namespaces/eth/filters/filter.go:bloomFilter", "jsonrpc/namespaces/eth/filters/filter.go:filterLogs"]}
{"id": "C72", "title": "Filters see blocks in chain order and live as long as promised", "statement": "Answers are in block order, every new filter lives for the timeout, and a blockHash criterion is honoured.", "quantifier": "all schedules", "why_tests_cant": "scheduling", "anchors": ["jsonrpc/namespaces/eth/filters/api.go:GetFilterChanges", "jsonrpc/namespaces/eth/filters/api.go:eventLoop", "jsonrpc/namespaces/eth/filters/api.go:clearUnusedFilters"]}
{"id": "C73", "title": "An accepted raw transaction is eventually broadcast and errors are its own", "statement": "A queued transaction is broadcast once its gap closes, is never dropped, and an error returned to a submitter concerns its transaction.", "quantifier": "all schedules, cache sizes", "why_tests_cant": "scheduling and capacity", "anchors": ["jsonrpc/backend/tx.go:SendTx"]}
{"id": "C74", "title": "The lock table is free of data races", "statement": "No request accesses the table of account locks while another one writes it.", "quantifier": "all interleavings", "why_tests_cant": "scheduling", "anchors": ["jsonrpc/backend/backend.go:acquireAccMut", "jsonrpc/backend/backend.go:releaseAccMut"]}
{"id": "C75", "title": "Fee history rows start at a real block and base fees do not depend on timing", "statement": "No row is for a block that does not exist, the base fee column is a function of the request and the chain, and a head not indexed yet is handled.", "quantifier": "all schedules", "why_tests_cant": "scheduling", "anchors": ["jsonrpc/backend/feehistory.go:resolveBlockRange", "jsonrpc/backend/feehistory.go:FeeHistory"]}
{"id": "C76", "title": "Hooks cannot block a packet", "statement": "Whatever a hook contract does, including using up gas, and whatever kind of acknowledgement the application below gives, the packet's transaction can complete.", "quantifier": "all contracts", "why_tests_cant": "depends on contract behaviour", "anchors": ["app/ibc-hooks/ack.go", "app/ibc-hooks/timeout.go"]}
{"id": "C77", "title": "Received tokens are approved to the contract that is run", "statement": "Before a hook runs, the contract named by the memo is approved for exactly the received tokens.", "quantifier": "all spellings of the contract address", "why_tests_cant": "spellings", "anchors": ["app/ibc-hooks/receive.go", "app/ibc-hooks/util.go", "app/ibc-hooks/hooks.go"]}
{"id": "C78", "title": "NFT class and token names are unique and operations act on existing collections only", "statement": "A class id or token id names one thing, operations on classes without code are refused, only owners burn, and burning removes the token's data.", "quantifier": "all class ids and token ids", "why_tests_cant": "spellings", "anchors": ["x/evm/keeper/erc721.go", "x/evm/types/collection.go"]}
{"id": "C79", "title": "All balances are found by walking the accounts", "statement": "Walking all accounts finds every nonzero balance of a registered token.", "quantifier": "all histories, including self-destruction of holders", "why_tests_cant": "histories", "anchors": ["x/evm/keeper/erc20.go:GetPaginatedBalances", "x/evm/keeper/erc20.go:IterateAccountBalances", "x/evm/keeper/erc20_stores.go:RegisterStore", "x/evm/contracts/erc20_registry/ERC20Registry.sol"]}
{"id": "C80", "title": "Unprotected legacy transactions survive the round trip", "statement": "A legacy transaction without replay protection accepted by the first conversion converts back to itself.", "quantifier": "all chain ids, V = 27 or 28", "why_tests_cant": "depends on the chain id modulo 128", "anchors": ["x/evm/keeper/txutils.go:ConvertEthereumTxToCosmosTx", "x/evm/keeper/txutils.go:ConvertCosmosTxToEthereumTx", "x/evm/types/txutils.go:ConvertEthAccessListToCosmos"]}
{"id": "C81", "title": "The quoted gas price is accepted", "statement": "A transaction paying eth_gasPrice meets the chain's minimum gas price for every gas limit exactly when that minimum is a whole number of wei with at most nine decimals; in all other cases the shortfall is below one wei (or 10^-9 chain units) per unit of gas.", "quantifier": "all token decimals up to 246, all minimum prices, all gas limits", "why_tests_cant": "the two truncations and the rounding interact for every price, number of decimals and gas limit", "anchors": ["jsonrpc/backend/gas.go:GasPrice", "x/evm/keeper/txutils.go:computeGasFeeAmount"]}
{"id": "C82", "title": "A query about a past block reads that block's state", "statement": "eth_call, eth_getCode, eth_getStorageAt, eth_getBalance and eth_getTransactionCount for a block below the head answer from that block's state, by number or hash, whatever the chain does meanwhile; a tag reads a state between the newest at the beginning and the newest at the end of the request; unknown hashes are not answered.", "quantifier": "all blocks, all nodes and all interleavings of block production with the steps of the request", "why_tests_cant": "depends on races between the request and block production", "anchors": ["jsonrpc/backend/block.go:resolveBlockNrOrHash", "jsonrpc/backend/tx.go:getQueryCtxWithHeight", "jsonrpc/backend/tx.go:GetTransactionCount", "jsonrpc/backend/eth.go:GetBalance"]}
{"id": "C83", "title": "Queries never answer for another block", "statement": "A query for a block is answered from that block's state and in that block's fee token, or not at all; 'earliest' means the same block for every method.", "quantifier": "all blocks and moments", "why_tests_cant": "depends on races and on parameter changes", "anchors": ["jsonrpc/backend/block.go:resolveBlockNrOrHash", "jsonrpc/backend/tx.go:getQueryCtxWithHeight", "jsonrpc/backend/tx.go:GetTransactionCount", "jsonrpc/backend/eth.go:GetBalance"]}
{"id": "C84", "title": "eth_call and eth_estimateGas run what the transaction would run", "statement": "eth_call with the content of a transaction without value, and eth_estimateGas with any value, make the same top-level EVM run (caller, target, input, value) as the signed transaction.", "quantifier": "all accepted Ethereum transactions without value (eth_call) or with value (eth_estimateGas), to nonzero addresses or creations without access list", "why_tests_cant": "ranges over all transactions and codecs", "anchors": ["jsonrpc/backend/eth.go:Call", "jsonrpc/backend/gas.go:EstimateGas", "x/evm/keeper/query_server.go:Call", "x/evm/keeper/msg_server.go:Call"]}
{"id": "C85", "title": "eth_call predicts the transaction in all cases", "statement": "eth_call makes the run of the transaction also when it carries value, when the target is the zero address, and with its access list.", "quantifier": "all accepted Ethereum transactions", "why_tests_cant": "ranges over all transactions", "anchors": ["jsonrpc/backend/eth.go:Call", "jsonrpc/backend/gas.go:EstimateGas", "x/evm/keeper/query_server.go:Call", "x/evm/keeper/msg_server.go:Call"]}
{"id": "C86", "title": "Gas taken before execution is known, and estimates have a margin", "statement": "The gas an accepted transaction is charged before execution is that of the decorators before the fee when the fee is one coin of the fee token, and that of all decorators otherwise; a simulation without fee charges 250000 more. A transaction sent with its gas estimate has enough gas exactly when the capped refund is covered by the difference; so estimates of executions up to a million gas suffice.", "quantifier": "all transactions, decorator costs, gas limits and executions that do not inspect the gas left", "why_tests_cant": "quantifies over all costs and executions", "anchors": ["app/ante/fee.go:GasFreeFeeDecorator", "app/ante/ante.go:NewAnteHandler", "jsonrpc/backend/gas.go:EstimateGas", "x/evm/types/gas.go:CalGasUsed"]}
{"id": "C87", "title": "Signature checks are paid for and every estimate suffices", "statement": "Only the fee deduction is free of gas, and a transaction sent with its estimate never runs out of gas.", "quantifier": "all transactions", "why_tests_cant": "quantifies over all costs and executions", "anchors": ["app/ante/fee.go:GasFreeFeeDecorator", "app/ante/ante.go:NewAnteHandler", "jsonrpc/backend/gas.go:EstimateGas", "x/evm/types/gas.go:CalGasUsed"]}
{"id": "C88", "title": "The value that reaches the EVM is the signed value, exactly", "statement": "For every accepted Ethereum transaction the value handed to the EVM is the signed wei value converted to chain units without any loss, non-negative and below 2^256, with the signed caller, target and input.", "quantifier": "all accepted Ethereum transactions and token decimals", "why_tests_cant": "all values and decimals", "anchors": ["x/evm/keeper/txutils.go:ConvertEthereumTxToCosmosTx", "x/evm/keeper/msg_server.go:Call"]}
{"id": "C89", "title": "Contracts see the signed value", "statement": "CALLVALUE and BALANCE inside a contract are in wei like the transaction's value, eth_getBalance and the gas price, and a message's value is the value transferred.", "quantifier": "all accepted transactions and messages", "why_tests_cant": "all values and decimals", "anchors": ["x/evm/keeper/msg_server.go:Call", "x/evm/state/statedb.go:GetBalance", "x/evm/keeper/txutils.go:ConvertEthereumTxToCosmosTx"]}
{"id": "C90", "title": "A websocket subscriber is told of everything it subscribed to, once, in order", "statement": "After eth_subscribe (newHeads, logs, newPendingTransactions) returns, the client is notified of exactly the items its subscription selects among the events from that moment on, each once and in the order they happened, until it unsubscribes or its connection breaks; then it is told nothing more. The service never deadlocks: without new blocks, transactions, or subscribers every schedule ends with all events delivered, all departed subscriptions removed, and every transaction being inserted handed to the mempool.", "quantifier": "every number of subscribers of every kind, every stream of blocks and pending transactions, every interleaving of emitters, event loop, subscription goroutines, unsubscriptions and broken connections", "why_tests_cant": "goroutine interleavings over unbuffered channels; tests exercise a handful of schedules", "anchors": ["jsonrpc/namespaces/eth/filters/subscriptions.go", "jsonrpc/namespaces/eth/filters/api.go: eventLoop", "indexer/indexer.go: blockEventsEmitter", "indexer/mempool.go: Insert"]}
{"id": "C91", "title": "A slow subscriber delays only itself", "statement": "A websocket client that is slow to read its notifications should not delay other subscribers, block announcements, or the admission of transactions.", "quantifier": "every reachable state in which some client has not taken its last notification", "why_tests_cant": "depends on one client stalling at a bad moment while others are active", "anchors": ["jsonrpc/namespaces/eth/filters/api.go: eventLoop", "jsonrpc/namespaces/eth/filters/subscriptions.go", "indexer/mempool.go: Insert"]}
{"id": "C92", "title": "The mempool wrapper changes nothing but announces Ethereum transactions", "statement": "Inserting a transaction gives the wrapped mempool's verdict (unless pending announcements are on and the transaction fails to convert), and announces it to pending subscribers exactly once if it is an Ethereum transaction and not at all otherwise.", "quantifier": "every transaction, every mempool verdict, subscribers or not", "why_tests_cant": "all combinations of conversion result, verdict and configuration", "anchors": ["indexer/mempool.go: MempoolWrapper.Insert"]}
{"id": "C93", "title": "A pending announcement means the transaction is in the mempool", "statement": "A transaction announced by newPendingTransactions has been admitted to the mempool, and admission does not depend on whether a node serves JSON-RPC.", "quantifier": "every transaction and mempool verdict", "why_tests_cant": "the failing order needs a mempool that refuses after CheckTx passed", "anchors": ["indexer/mempool.go: MempoolWrapper.Insert"]}
{"id": "C94", "title": "txpool_content shows the pool", "statement": "txpool_content lists, per account and nonce, the Ethereum transaction that is last among the first hundred in the mempool (pending) or that is in the queue (queued), nothing else; txpool_contentFrom is that account's part, txpool_inspect has the same entries; the call succeeds if and only if all of them decode and convert, which transactions with a verified signature do.", "quantifier": "every mempool content, every reachable queue, every account and nonce", "why_tests_cant": "all pools and queue histories", "anchors": ["jsonrpc/backend/txpool.go"]}
{"id": "C95", "title": "txpool_status counts what txpool_content shows, and one transaction cannot hide the others", "statement": "The counts of txpool_status equal the numbers of transactions in txpool_content, and a transaction that cannot be converted does not affect how others are shown.", "quantifier": "every mempool", "why_tests_cant": "needs more than one hundred transactions, or mixed Cosmos and Ethereum transactions", "anchors": ["jsonrpc/backend/txpool.go: TxPoolStatus, TxPoolContent"]}
{"id": "C96", "title": "The registry precompile does what its methods say", "statement": "registerERC20 registers exactly its caller and only where the parameters allow custom tokens; registerERC20FromFactory registers any token but only for the factory; registerERC20Store adds the named account as a holder of the calling token and of no other, creating the account with the next number if it is missing, and changes nothing for an unregistered caller; isRegisteredERC20Store answers whether the account is a holder of the caller. A call that ends with an error changed nothing, and one that is allowed does not end with an error.", "quantifier": "every caller, input, gas amount, gas price of the store, read-only flag and state", "why_tests_cant": "all states, callers and gas schedules", "anchors": ["x/evm/precompiles/erc20_registry/contract.go", "x/evm/keeper/erc20_stores.go"]}
{"id": "C97", "title": "The Cosmos precompile answers truthfully and only for whitelisted queries", "statement": "Each method of the cosmos precompile answers what its name says of the current state (blocked address, module address, address and denom conversions), a gRPC query is answered only if its path is on the whitelist and has a handler, execute_cosmos appends exactly the decoded message, and no other method changes anything. A call with an answer never ends with an error.", "quantifier": "every caller, input, gas amount, read-only flag and state", "why_tests_cant": "all states, paths and callers", "anchors": ["x/evm/precompiles/cosmos/contract.go"]}
{"id": "C98", "title": "A transaction is accepted exactly when every signer signed it", "statement": "The signature checks of CheckTx and delivery accept a transaction if and only if there is one signature per signer, in order, and for each signer: the account exists, a key that comes with the transaction belongs to the signer, the signature's sequence is the account's, the key is of a supported kind and the gas for it is paid, and the signature was made by the key on the account (or, when it has none yet, the key in the transaction) over the sign bytes of one of the five Cosmos modes, or, in Ethereum mode, the signer is who signed the Ethereum transaction that the message, memo, fee and sequence stand for. A k-of-n key needs k different members. A stored key never changes, and keys are only stored for accounts they belong to.", "quantifier": "every transaction, set of accounts, key nesting, bit array, gas limit and sign mode", "why_tests_cant": "the set of transactions and key nestings is unbounded; tests try a few", "anchors": ["app/ante/sigverify.go SigVerificationDecorator", "app/ante/verify.go verifySignature", "app/ante/ante.go"]}
{"id": "C99", "title": "Indexing a block never stops the node", "statement": "Whatever transactions a block contains, the EVM indexer goes through the block and the node continues. (False: a transaction of an account whose key is on chain, sent without repeating the key, with one message and a memo that parses as metadata, such as {}, makes the conversion to an Ethereum transaction dereference nil; and an Ethereum-mode transaction with another message than call or create makes it return an error.)", "quantifier": "every block", "why_tests_cant": "one transaction in all possible blocks is enough", "anchors": ["x/evm/keeper/txutils.go ConvertCosmosTxToEthereumTx", "indexer/abci.go ListenFinalizeBlock", "indexer/indexer.go"]}
{"id": "C100", "title": "A transaction that was included cannot be included again, however it ended", "statement": "After a transaction has been included in a block (its fee taken), the same signed transaction is refused for ever, whether its messages succeeded, returned an error, ran out of gas or panicked, whether the refund worked and whether the block was full. (False for EVM messages: the ante handler lowers the EVM sender's sequence again before the messages run, and only a run of the post handler or the message restores it.)", "quantifier": "every transaction, ending, account state and later history", "why_tests_cant": "all endings of all histories", "anchors": ["app/ante/sigverify.go IncrementSequenceDecorator", "app/posthandler/sequence.go", "app/posthandler/gasrefund.go"]}
{"id": "C101", "title": "An included transaction costs its payer the fee less the refund, however it ended", "statement": "For every transaction that is included, whatever its ending, the payer had the fee, loses exactly the fee less what is refunded, and fee handling touches no other account; a refund happens only when the messages, the refund and the block gas all succeeded.", "quantifier": "every transaction, ending, fee and set of balances", "why_tests_cant": "all endings and balances", "anchors": ["app/ante/fee.go", "app/posthandler/gasrefund.go"]}
{"id": "C102", "title": "Blocks, transactions and receipts answered over JSON-RPC are the indexed chain", "statement": "eth_getBlockByNumber/Hash, eth_getHeaderByNumber/Hash, the transaction counts, eth_getTransactionByHash, by block and index, eth_getTransactionReceipt, eth_getBlockReceipts answer, for every chain and every block number or tag, with exactly the block the number or tag names, its Ethereum transactions in order with their places, and receipts whose status, gas, cumulative gas, contract and logs are those of the block's results; a transaction that is in no block has no answer; eth_pendingTransactions answers exactly the Ethereum transactions among the first thirty waiting.", "quantifier": "every chain of blocks, block number, tag, hash, index and mempool", "why_tests_cant": "all chains and all references", "anchors": ["jsonrpc/backend/blocks.go", "jsonrpc/backend/tx.go GetTransactionByHash, GetTransactionReceipt, GetBlockReceipts, PendingTransactions", "indexer/reader.go"]}
{"id": "C103", "title": "What does not exist is answered with null, and every pending transaction is shown", "statement": "A block hash or number of no block is answered with null by all block lookups, and eth_pendingTransactions shows every waiting Ethereum transaction. (False: an unknown hash is an error for blocks, counts and receipts; an unknown number has an empty list of receipts; pending transactions stop at thirty, and one transaction without a key makes the call fail.)", "quantifier": "every chain, hash, number and mempool", "why_tests_cant": "all chains and mempools", "anchors": ["jsonrpc/backend/blocks.go GetBlockByHash", "jsonrpc/backend/tx.go GetBlockReceipts, PendingTransactions"]}
{"id": "C104", "title": "The bank queries agree with each other, and paging through them loses nothing", "statement": "Following the next key of each answer, with any limit and in either direction, ends and lists every entry exactly once in key order; offsets give the same pages and totals count all entries. All pages of AllBalances together hold every nonzero balance of a registered token once per denomination, and every coin equals the answer of the Balance query (0 for a contract that does not answer); SpendableBalances and SpendableBalanceByDenom answer the same as AllBalances and Balance. All pages of TotalSupply together list every registered token once, as SupplyOf answers it. Metadata is stored only for the authority, is then what both metadata queries answer and affects no other denomination.", "quantifier": "every reachable token state, account, page limit, direction, offset and denomination", "why_tests_cant": "all states and page sizes", "anchors": ["x/bank/keeper/grpc_query.go", "x/evm/keeper/erc20.go GetPaginatedBalances, GetPaginatedSupply, GetMetadata", "x/bank/keeper/custom_msg_server.go"]}
{"id": "C105", "title": "The bank queries list no zero balances and answer alike for every token", "statement": "AllBalances lists only nonzero balances, and whatever it lists the Balance query answers; the two metadata queries agree and show the decimals of a token; a denomination without token has supply 0. (False: zero balances of former holders are listed, contracts without balanceOf are listed as 0 while Balance fails; DenomMetadataByQueryString says not found where DenomMetadata answers; tokens with decimals have only the unit with exponent 0; SupplyOf fails for unknown denominations.)", "quantifier": "every reachable token state, account and denomination", "why_tests_cant": "one history among all is enough", "anchors": ["x/evm/keeper/erc20.go GetPaginatedBalances, GetMetadata, GetSupply", "x/bank/keeper/grpc_query.go DenomMetadataByQueryString, SupplyOf"]}
{"id": "C106", "title": "Delegated coins go to the module account, come back exactly, and need the staking permission", "statement": "Delegating and undelegating through a module account works only for modules with the staking permission and valid coins; it then moves exactly the coins and changes no supply and no other balance; delegating what an account has always works, and undelegating the same coins afterwards restores every balance; transfers between modules move exactly the coins; multi-send is refused.", "quantifier": "every reachable token state, account, module and coin set", "why_tests_cant": "all states and coin sets", "anchors": ["x/bank/keeper/keeper.go DelegateCoins, UndelegateCoins, DelegateCoinsFromAccountToModule, SendCoinsFromModuleToModule", "x/bank/keeper/send.go InputOutputCoins"]}
{"id": "C107", "title": "Blocked addresses and send restrictions hold for every transfer", "statement": "No transfer made through the bank pays a blocked address, and every transfer passes the send restrictions. (False: delegation and undelegation ask neither.)", "quantifier": "every reachable state, restriction, module and recipient", "why_tests_cant": "all restrictions", "anchors": ["x/bank/keeper/keeper.go UndelegateCoins, DelegateCoins"]}
{"id": "C108", "title": "A contract asking another module gets the answer to its own question", "statement": "query_cosmos answers from the request text and the chain state alone: whatever was asked of the same node before, in blocks, simulations or RPC calls, a call whose predecessor on the same query could be read, or which gives every field, gets exactly the answer its own request calls for; unlisted queries and unreadable requests are refused; calls of different queries never disturb each other, in any interleaving.", "quantifier": "every history of calls on every state, every request, every interleaving with a call of another query", "why_tests_cant": "all histories and interleavings of one process", "anchors": ["x/evm/types/query_cosmos.go ConvertJSONToProto, ConvertProtoToJSON, DefaultQueryCosmosWhitelist", "x/evm/precompiles/cosmos/contract.go METHOD_QUERY_COSMOS"]}
{"id": "C109", "title": "All nodes give a contract the same answer", "statement": "The answer of query_cosmos in a block does not depend on what else the node has done since it started. (False: the request object is shared by the whole process and not cleared after a request that cannot be read, nor protected against concurrent use; a user's eth_call can change what the next transaction gets on that node only.)", "quantifier": "every node history, restart and interleaving", "why_tests_cant": "the difference shows only between nodes with different query loads or restarts", "anchors": ["x/evm/types/query_cosmos.go ConvertJSONToProto", "app/keepers/keepers.go DefaultQueryCosmosWhitelist"]}
{"id": "C110", "title": "The index follows the chain over restarts", "statement": "Whatever sequence of blocks and process stops a node goes through, as long as no stop falls between the application's commit and the end of the index write, every Ethereum transaction of every committed block is found by hash and by position with its own block, receipt and header; a stop before the commit loses nothing: the same block is indexed again with the same result.", "quantifier": "every history of blocks and stops at any point outside the gap", "why_tests_cant": "all histories of a long-running node with all stopping points", "anchors": ["indexer/abci.go ListenFinalizeBlock, ListenCommit", "indexer/store.go CacheStore.Write", "app/indexer.go"]}
{"id": "C111", "title": "The index is exact after any stop or rollback", "statement": "After any crash, restart or rollback the JSON-RPC index shows exactly the committed chain. (False: a stop between the application's commit and the index write loses the block from the index for ever and eth_getLogs over a range with it silently stops there; a stop while writing can show a block without its transactions; a rollback leaves removed transactions in the index, and a replaced block shows transactions of the block it replaced.)", "quantifier": "every crash point and every rollback", "why_tests_cant": "crash points inside commit and rollbacks are not reachable from unit tests", "anchors": ["indexer/abci.go ListenCommit", "indexer/store.go CacheStore.Write", "cmd/minitiad/rollback.go"]}
{"id": "C112", "title": "The EVM module's queries answer what is stored", "statement": "eth_getStorageAt reads its key as a number in hex of up to 64 digits, with or without 0x, and answers the contract's 32 bytes there or refuses the key; the gRPC State and Code queries answer the same bytes for every spelling of the contract (checksummed, plain hex, bech32); Denom and ContractAddrByDenom lead back to each other for every contract and for every denomination the chain created; Query.Call runs as the account MsgCall by the same sender would run as; net_version of a chain id ending in -<number> is that number.", "quantifier": "all keys, contracts, spellings, storages, reachable token states, senders and chain ids", "why_tests_cant": "unbounded key and name spellings and all reachable token states", "anchors": ["x/evm/keeper/query_server.go Code, State, Call, ContractAddrByDenom, Denom", "jsonrpc/backend/eth.go GetStorageAt, GetCode", "jsonrpc/namespaces/eth/api.go decodeHash", "jsonrpc/backend/net.go Version"]}
{"id": "C113", "title": "The EVM module's queries refuse what names nothing", "statement": "A State query with a key longer than 32 bytes, a query for an address longer than 20 bytes and a Query.Call by a sender whose messages the chain refuses all fail; net_version is the network id wallets compare with eth_chainId. (False: long keys and long bech32 addresses are cut to their last bytes and answered for another slot or another contract; Query.Call runs as the account owning the last 20 bytes; net_version is the text after the chain id's last dash, \"1\" if that is not a number, and can agree with eth_chainId for at most one of two chains with the same ending.)", "quantifier": "all keys, names, senders and chain ids", "why_tests_cant": "all spellings and account tables", "anchors": ["x/evm/keeper/query_server.go State, Call", "x/evm/types/address.go ContractAddressFromString", "jsonrpc/backend/net.go Version"]}
{"id": "C114", "title": "Calls with value do exactly what the ledger says", "statement": "For every contract code and every nesting of calls, delegate calls, static calls, values, token sends, reverts and self-destructs: as long as no call with value is made to a blocked address and no caller goes on after a call of its has failed, each call succeeds or fails as on a plain ledger, the logs show exactly the value moves and events that were kept, in order, supplies and other tokens do not change, and a call from outside takes effect exactly when the payment can be made and the code succeeds. Whatever fails and whoever catches it: no supply ever grows, no other token is touched, an account that makes no payment itself never loses native coins, and a contract's storage is written only by code that runs as that contract (its own, or a library's it calls by delegate). A static call writes nothing, and one that catches no failure answers as a reader of the state before it would.", "quantifier": "all contract codes (trees of actions depending on everything they read), states reachable by the chain, amounts and callers", "why_tests_cant": "unbounded nesting of frames and all contract behaviours", "anchors": ["x/evm/keeper/context.go buildBlockContext CanTransfer, Transfer", "x/evm/keeper/context.go EVMCallWithTracer", "x/evm/state/statedb.go AddBalance, SubBalance, GetBalance", "x/evm/contracts/erc20/ERC20.sol"]}
{"id": "C115", "title": "A failure inside a transaction fails only its own call", "statement": "A call that fails, or a call with value that the chain refuses, fails that call only: its caller can handle the failure and go on, what the caller and others did before stays, and nothing of the failed call is left. Blocked addresses are never paid, and the supply does not change. (False. A caught failure loses what was stored, logged and paid before and after it although the transaction succeeds; it can destroy money for good; a contract may no longer see its own writes; a failing call can abort the transaction in place of its caller's handling; a failed call's writes can still be seen by its caller. A call with value to a blocked address aborts the whole transaction, so one blocked payee keeps everybody in a list from being paid; SELFDESTRUCT pays blocked addresses.)", "quantifier": "all contract codes and states", "why_tests_cant": "all nestings and continuations", "anchors": ["x/evm/keeper/context.go buildBlockContext Transfer", "x/evm/state/statedb.go AddBalance, SubBalance, Snapshot, RevertToSnapshot, Commit", "x/evm/contracts/erc20_acl/ERC20ACL.sol"]}
{"id": "C116", "title": "Bring-up and the chain upgrade", "statement": "Starting an empty chain whose fee denomination is not of the form evm/... succeeds whenever the three fixed contract addresses have never been used: afterwards exactly the factory, the fee token and the wrapper have code, the two addresses are recorded, the fee denomination and the fee token name each other, nothing is minted, the chain owns the fee token, and governance could set it as fee token again. A fee denomination of the form evm/... lets a chain start only if it names the zero address. The upgrade works exactly on chains that have a factory and a free wrapper address, records the wrapper and sets the two parameters, and changes no balance, supply, denomination or holder list; it fails (which halts the chain) on any chain whose genesis has already brought up the wrapper.", "quantifier": "all states before genesis, fee denominations, contract addresses and reachable states before the upgrade", "why_tests_cant": "all states and denominations, not those of one test chain", "anchors": ["x/evm/keeper/genesis.go Initialize, DeployERC20Factory, DeployERC20Wrapper", "app/upgrade.go RegisterUpgradeHandlers", "x/evm/keeper/context_utils.go LoadFee"]}
{"id": "C117", "title": "An Ethereum transaction does what the wallet shows", "statement": "A signed Ethereum call transaction is taken into a block exactly when it carries gas, its nonce is the sender's and the sender can pay the fee. If it is taken, it succeeds exactly when it stays within its gas and the call succeeds on a plain ledger after the fee has been paid, as long as no caller in it goes on after a failed call. A successful one then has exactly the effects of the call on that ledger; whatever it catches, it makes no coins, takes from nobody who does not pay and writes no storage but its own contracts'. It moves the sender's nonce by one and returns part of the fee, never more than the share of the gas not used; a failed one takes the fee and changes no balance, storage, supply or other account's nonce besides. A payment to an ordinary account gives the recipient exactly the value, to the wei, and costs the sender at most the value, gas times fee cap and one unit.", "quantifier": "all signed call transactions, all reachable states, all programs called, all amounts of gas used", "why_tests_cant": "all transactions, states, call trees and failure points at once", "anchors": ["jsonrpc/backend/tx.go SendRawTransaction", "x/evm/keeper/txutils.go ConvertEthereumTxToCosmosTx", "app/ante/ante.go NewAnteHandler", "x/evm/keeper/msg_server.go Call", "x/evm/keeper/context.go EVMCall", "app/posthandler/gasrefund.go PostHandle", "app/posthandler/sequence.go PostHandle"]}
{"id": "C118", "title": "An Ethereum transaction costs at most value plus gas times fee cap", "statement": "A transaction never takes more from its sender than its value plus its gas limit times its fee cap, so a payment of the balance less that product succeeds.", "quantifier": "all signed call transactions and reachable states", "why_tests_cant": "all amounts and balances", "anchors": ["x/evm/keeper/txutils.go computeGasFeeAmount", "x/evm/types/decimals.go FromEthersUnit"]}
{"id": "C119", "title": "Histories of Ethereum transactions", "statement": "However wallets' transactions, calls and contract creations, are ordered, repeated and mixed, and however each of them ends: no token's supply grows (nor shrinks, unless some contract goes on after a failed call), no token but the fee token moves, no balance becomes negative and the fee token's books stay in order; an account's nonce moves by at least the number of its successful transactions and at most the number of its transactions in blocks (one more if it becomes a contract); after a transaction has succeeded neither it nor any transaction of its sender with the same or an earlier nonce is ever taken again; an account that came into being by a payment can send from then on; and the fee collector never loses. An account keeps its number, and its key once it has one.", "quantifier": "all finite sequences of signed call and creation transactions, all outcomes, all programs called", "why_tests_cant": "all histories, not one", "anchors": ["app/ante/ante.go NewAnteHandler", "app/ante/sigverify.go", "x/evm/keeper/msg_server.go Call", "app/posthandler/gasrefund.go PostHandle", "app/posthandler/sequence.go PostHandle"]}
{"id": "C120", "title": "Contract creation transactions", "statement": "A signed Ethereum transaction that creates a contract succeeds exactly when it is taken (as in C117), stays within its gas, its sender is an allowed publisher, nothing is at the address that follows from sender and nonce (no code, no stored slot, no used account), and the constructor succeeds on a plain ledger after the fee (for constructors that do not go on after a failed call). Then the contract is at that address with nonce 1 and no key, the sender's nonce has moved by one and everything else is as the constructor left the ledger; a failed creation makes nothing and takes only its fee. In any history of calls and creations there is code exactly where it was before and at the contracts made, and no address is given a contract twice.", "quantifier": "all signed creation transactions, all histories of calls and creations, all constructors", "why_tests_cant": "all histories, constructors and states at once", "anchors": ["x/evm/keeper/msg_server.go Create", "x/evm/keeper/context.go EVMCreateWithTracer", "x/evm/state/statedb.go CreateContract", "x/evm/state/statedb.go GetStorageRoot", "app/ante/sigverify.go IncrementSequenceDecorator", "app/posthandler/sequence.go PostHandle"]}
{"id": "C121", "title": "What a contract sees of its block and transaction", "statement": "A contract run by a signed Ethereum transaction sees as ORIGIN the address that called, as CHAINID the chain the signature names, as GASLIMIT the transaction's gas less what was used before it ran, and as GASPRICE the signed price (fee cap): exactly, with a fee token of 18 decimals or more; with 9 to 18 decimals never below and above by at most one unit spread over the gas; with fewer, within 10^(9-decimals) wei below. In any transaction, however signed and paid, GASPRICE is the fee in the fee denomination per gas, in wei, and BASEFEE the chain's minimum price, both rounded down. If the fee was enough for the chain, GASPRICE is at least BASEFEE. NUMBER, TIMESTAMP, PREVRANDAO, CHAINID and COINBASE are the same for all transactions of a block, the first three being the block's height, time and header hash. Without a fee contract or without a fee GASPRICE is 0, and without a minimum price BASEFEE is 0.", "quantifier": "all signed transactions, fee tokens of 0..246 decimals, prices, contexts", "why_tests_cant": "all prices, gas limits and numbers of decimals at once; the value passes two truncating conversions", "anchors": ["x/evm/keeper/context.go buildBlockContext", "x/evm/keeper/context.go buildTxContext", "x/evm/keeper/context_utils.go extractGasPriceFromContext", "x/evm/keeper/context_utils.go baseFee", "x/evm/ante/gas_prices.go AnteHandle", "x/evm/types/chain_config.go"]}
{"id": "C122", "title": "A contract sees what it would see on Ethereum", "statement": "GASPRICE is the effective price (base fee plus tip, at most the fee cap) and is at least BASEFEE also in eth_call; GASLIMIT is the block's limit; a payment to COINBASE reaches who made the block.", "quantifier": "all transactions and queries", "why_tests_cant": "statements about all executions", "anchors": ["x/evm/keeper/context.go buildBlockContext", "x/evm/keeper/context.go computeGasLimit", "x/evm/keeper/context_utils.go extractGasPriceFromContext", "x/evm/keeper/context_utils.go baseFee"]}
{"id": "C123", "title": "Numbers and addresses as text in contracts", "statement": "The Solidity library the wrapper contract writes its messages with: toString of every uint256 is its decimal text, without leading zeros, and never writes outside its buffer; log10 is the number of digits less one; toHexString(value, length) is 0x and the value's 2*length lower-case digits and reverts exactly when the value needs more; toHexString(address) never reverts and reads back as the address.", "quantifier": "all 256-bit numbers, all lengths, all addresses", "why_tests_cant": "2^256 values and an unchecked assembly loop", "anchors": ["x/evm/contracts/util/Strings.sol toString", "x/evm/contracts/util/Strings.sol toHexString", "x/evm/contracts/util/Strings.sol log10", "x/evm/contracts/erc20_wrapper/ERC20Wrapper.sol _ibc_transfer"]}
{"id": "C124", "title": "Who can mint, burn and receive", "statement": "In this application only the transfer, opchild and minter module accounts can mint, only transfer and opchild can burn, and they can; no module can take or return delegations. Messages and module payouts to a module account, and transfers and mints to it in any provided token, are refused. The supply of a denomination the chain has made grows only when one of the three mints that denomination: no contract call, payment, burn or other bank request makes it grow, in any history.", "quantifier": "all module names, coins, states; all histories of contract calls and bank requests", "why_tests_cant": "histories are unbounded and contract code is arbitrary", "anchors": ["app/modules.go maccPerms", "app/app.go BlockedModuleAccountAddrs", "app/keepers/keepers.go NewAppKeeper", "x/bank/keeper/keeper.go MintCoins", "x/bank/keeper/keeper.go BurnCoins", "x/evm/keeper/erc20.go MintCoins"]}
{"id": "C125", "title": "What a module account holds stays", "statement": "What a module account (the fee collector, say) holds in any token only grows, and nobody has an allowance over it, in any history in which it makes no call itself and pays for no bank request: calls by anyone else, contracts, other modules' payments, mints and burns cannot take from it.", "quantifier": "all accounts, tokens and histories", "why_tests_cant": "histories are unbounded and contract code is arbitrary", "anchors": ["app/modules.go maccPerms", "x/evm/keeper/erc20.go SendCoins", "x/evm/contracts/erc20/ERC20.sol transferFrom", "x/bank/keeper/keeper.go SendCoinsFromModuleToAccount"]}
{"id": "C126", "title": "Submissions at the two endpoints of a node", "statement": "Each of a node's endpoints (HTTP and websocket) gives by itself the guarantees of transaction submission: nonces consecutive, every submission broadcast at most once, low nonces refused, nothing lost except by replacement or eviction. However a sender's transactions are spread over the two endpoints and however their submissions interleave, the accepted ones carry consecutive nonces, each once. A sender who uses one endpoint only never has a transaction waiting there that the account expects.", "quantifier": "all histories of submissions at both endpoints, all interleavings, all capacities", "why_tests_cant": "all interleavings of concurrent submissions at two servers", "anchors": ["cmd/minitiad/root.go PostSetup", "jsonrpc/jsonrpc.go StartJSONRPC", "jsonrpc/backend/backend.go NewJSONRPCBackend", "jsonrpc/backend/tx.go SendTx"]}
{"id": "C127", "title": "It does not matter which endpoint is used", "statement": "A transaction answered with success at one endpoint is sent as soon as the gap before it is filled, at whichever endpoint. (False: each endpoint has its own queue. For every sender and nonce: the next but one nonce sent to one endpoint and then the next one to the other leaves the first waiting, though the account expects it.)", "quantifier": "all senders, nonces, capacities and both orders of the endpoints", "why_tests_cant": "histories over two servers", "anchors": ["cmd/minitiad/root.go PostSetup", "jsonrpc/jsonrpc.go StartJSONRPC", "jsonrpc/backend/tx.go SendTx"]}
{"id": "C128", "title": "A contract creation makes exactly the contract", "statement": "A contract creation fails and changes nothing if the address has a nonce or code, or if its init code fails. Otherwise, if no call made by the init code fails, afterwards the sender's nonce is one higher, the value is moved, and the state is what the init code left, with the code it returned at the new address; nothing else changes.", "quantifier": "all init code (any writes, reads, calls to any depth), all senders, addresses, values, states", "why_tests_cant": "init code is an arbitrary program", "anchors": ["x/evm/keeper/context.go EVMCreateWithTracer, CanTransfer, Transfer", "x/evm/state/statedb.go Snapshot, RevertToSnapshot, Commit, CreateContract, SetNonce, SetCode", "x/evm/keeper/msg_server.go Create, Create2"]}
{"id": "C129", "title": "A contract creation answered with success made the contract", "statement": "If a contract creation succeeds, the code is at the address, what the constructor stored is stored, and the sender's nonce has moved, so the transaction cannot be included again. (False where the constructor goes on after a failed call. Without value one such failure and neither contract nor code is there; with value the first loses code, stored slots and value and leaves an account with nonce 1, so that the address is taken for good; as many as the token's frames below lose the contract, and one more the sender's nonce: the transaction changes nothing and can be included, and charged, again and again.)", "quantifier": "all such constructors, values, states and numbers of inclusions", "why_tests_cant": "every number of frames, caught failures and inclusions", "anchors": ["x/evm/keeper/context.go EVMCreateWithTracer", "x/evm/state/statedb.go Snapshot, RevertToSnapshot, Commit", "app/ante/sigverify.go IncrementSequenceDecorator"]}
{"id": "C130", "title": "What the chain answers about NFT classes and tokens", "statement": "Of a class recorded by the chain GetClassInfo answers the class id as its name and the class URI given last; GetTokenInfos answers, in the order asked, the URI given when each token was minted last (before, none), and fails only if a text is not a token id of that class; OwnerOf answers the owner, or an error exactly if the token does not exist; BalanceOf the number of tokens owned.", "quantifier": "all histories of class creations and updates, mints, transfers, burns, and calls by users and by contracts of unknown code, with receivers of unknown code", "why_tests_cant": "arbitrary contracts run between and inside the messages", "anchors": ["x/evm/keeper/erc721.go GetClassInfo, GetTokenInfos, OwnerOf, BalanceOf, CreateOrUpdateClass, Mints", "x/evm/contracts/ics721_erc721/ICS721ERC721.sol tokenURI, setTokenURI"]}
{"id": "C131", "title": "Metadata given for classes and tokens is kept", "statement": "Class data and token data given when a class or token arrives are what the chain answers, and sends on, later; a token that does not exist is answered with an error. (False: both kinds of data are ignored and answered empty, whatever was given, and a token never minted is answered like one that exists, with an empty URI.)", "quantifier": "all class data, token data, token ids, later histories", "why_tests_cant": "every later history", "anchors": ["x/evm/keeper/erc721.go CreateOrUpdateClass, Mints, GetClassInfo, GetTokenInfos"]}
{"id": "C132", "title": "Storage refunds never bring an execution down", "statement": "Whatever contracts store, clear and restore, in whatever nesting of calls, failed ones included, the refund counter neither goes below zero (which would panic) nor wraps; and as long as no call fails, outcome, gas left, storage and refund are those of Ethereum's rules (EIP-2200, 2929, 3529). A failed execution leaves storage as it was.", "quantifier": "all programs of reads, writes, calls with any gas, and payments; all storages; all gas below 2^50", "why_tests_cant": "every nesting of calls, failures and rewrites of a slot", "anchors": ["x/evm/state/statedb.go AddRefund, SubRefund, GetCommittedState, GetState, SetState, Snapshot, RevertToSnapshot"]}
{"id": "C133", "title": "Storage gas is Ethereum's", "statement": "A write to a slot costs, and is credited, what Ethereum's rules say. (False after two failed calls that were caught: writes then go to the store GetCommittedState reads, so a slot cleared and set again costs 22900 and is credited 4800 each time, instead of 3000 and 2800.)", "quantifier": "all numbers of rounds, all storages", "why_tests_cant": "every number of rounds", "anchors": ["x/evm/state/statedb.go GetCommittedState, RevertToSnapshot, Snapshot"]}
{"id": "C134", "title": "A signed Ethereum transaction has a maximal cost", "statement": "An Ethereum transaction costs its sender at most value + gas limit x gas price, whoever submits it. (False: the signature covers the call but not the Cosmos fee, so anyone who has the signed transaction can submit it with any fee up to the sender's balance; with the whole balance as fee, a payment is included, fails, and the sender has nothing left.)", "quantifier": "all signed transactions, all fees a submitter writes, all ledgers", "why_tests_cant": "every fee and balance", "anchors": ["x/evm/keeper/txutils.go ConvertCosmosTxToEthereumTx", "app/ante/verify.go DefaultVerifier", "jsonrpc/backend/tx.go SendTx"]}
{"id": "C135", "title": "Cosmos and Ethereum hashes lead to each other", "statement": "cosmos_txHashByCosmosTxHash answers with the Ethereum hash of every indexed transaction, and cosmos_cosmosTxHashByTxHash with the Cosmos hash of the last transaction that carried the Ethereum transaction; the one leads back from the other, they are inverse if nothing is included twice, and an unknown hash gives the zero hash, never another transaction's.", "quantifier": "all chains of indexed blocks, transactions included repeatedly among them; all hashes", "why_tests_cant": "every chain and every repetition", "anchors": ["jsonrpc/backend/cosmos.go CosmosTxHashByTxHash, TxHashByCosmosTxHash", "indexer/reader.go", "indexer/abci.go ListenFinalizeBlock"]}
{"id": "C136", "title": "A block's answers stay as they were", "statement": "What the node says about the transactions and logs of a block does not change as later blocks come. (Holds for transactions that do not come again. False for one included again: the earlier block's answers then say it is in the later block, with the later receipt, and eth_getLogs gives its logs for both blocks.)", "quantifier": "all chains, all later blocks", "why_tests_cant": "every later block", "anchors": ["indexer/abci.go ListenFinalizeBlock", "indexer/reader.go", "jsonrpc/backend/filters.go GetLogsByHeight"]}
{"id": "C137", "title": "A log filter can be asked for all its logs", "statement": "From eth_newFilter on, at every moment of every schedule, eth_getFilterLogs answers what eth_getLogs answers to the criteria the filter was created with, as long as the filter exists, and an error when it does not or is no log filter; for a filter that starts at a block that is all logs of the chain the filter wants, those before its creation included. (False in part: a filter from a block to come on is an error until that block is there; one from block 0 to block 0 gives block 1's logs here and none when polled; and asking for the logs does not count as use, so a filter that is only asked this way expires.)", "quantifier": "all schedules of requests, blocks, ticks and deliveries; all criteria; all chains", "why_tests_cant": "every interleaving and chain", "anchors": ["jsonrpc/namespaces/eth/filters/api.go GetFilterLogs, NewFilter, clearUnusedFilters", "jsonrpc/namespaces/eth/filters/filter.go Logs"]}
{"id": "C138", "title": "Everything indexed can be read back", "statement": "The index keeps transactions and receipts as JSON. A transaction of the chain is read back as the same Ethereum transaction exactly when its big numbers are unsigned numbers of 256 bits, which for a converted Cosmos transaction concerns its fee cap, its tip cap and its value in wei only; if all transactions of a chain are so, keeping them as JSON changes no answer of eth_getLogs, eth_getTransactionByHash, eth_getTransactionReceipt and the lists of block transactions. (False beyond that: no check bounds the tip cap, so a transaction with a tip cap of 2^256 is accepted and included like any other, and then the transaction, its receipt, its whole block, its counts and all logs of every range with the block in it are errors.)", "quantifier": "all transactions, chains, blocks, queries; all signed transactions and states", "why_tests_cant": "every number, chain and query; a test does not think of numbers wider than 256 bits", "anchors": ["indexer/utils.go CollJsonVal", "indexer/reader.go TxByHash, IterateBlockTxs, TxReceiptByHash", "jsonrpc/types/tx.go RPCTransaction, NewRPCTransaction, ToTransaction", "x/evm/keeper/txutils.go ConvertCosmosTxToEthereumTx", "jsonrpc/backend/tx.go getBlockTransactions, GetTransactionByHash, GetTransactionReceipt", "jsonrpc/backend/filters.go GetLogsByHeight"]}
{"id": "C139", "title": "A call signed with a Cosmos wallet, end to end", "statement": "A contract call or creation signed the Cosmos way (direct, amino JSON, textual, EIP-191; one message, one ordinary key) is taken into a block exactly when it carries gas, its sequence is the account's, the account holds the fee, and the signature is good for the key known for the account (the stored one, or the one it brings). A successful one pays the whole fee, does exactly what the call does on the plain ledger, and moves the sequence by one; a failed one pays the fee and does nothing else; it succeeds exactly when the call does within its gas; after success it is never taken again. From the same state and with the same fee, the Ethereum-signed form of the same call ends the same but for the part of the fee that only that form gets back.", "quantifier": "all signed transactions, states, contract programs, gas uses", "why_tests_cant": "every program, state and signature mode; a test runs a few contracts with one mode", "anchors": ["app/ante/ante.go", "app/ante/sigverify.go SigVerificationDecorator, IncrementSequenceDecorator", "app/ante/verify.go verifySignature", "x/evm/keeper/msg_server.go Call, Create", "app/posthandler/gasrefund.go", "app/posthandler/sequence.go", "x/evm/keeper/txutils.go IsEthereumTx"]}
{"id": "C140", "title": "Histories of all wallets", "statement": "Over any history of calls and creations signed with Ethereum wallets (submitted by anyone, with any fee) and with Cosmos wallets, mixed in any order and with any outcome: no supply grows and none changes if no code catches failures; no other token moves; an account keeps its number and, once it has one, its key; its nonce moves by at least the number of its successful transactions, at most the number of its included ones; after a success no transaction of that sender with that or an earlier nonce is taken again, whichever way either was signed; code appears only at the contracts made, once each; and the fee collector never loses.", "quantifier": "all sequences of transactions of both kinds, all states, programs and fees", "why_tests_cant": "unbounded histories of two kinds of transactions; a test runs a few of one kind", "anchors": ["app/ante/ante.go", "app/ante/sigverify.go", "app/ante/verify.go", "x/evm/keeper/msg_server.go Call, Create", "x/evm/keeper/txutils.go ConvertEthereumTxToCosmosTx", "app/posthandler/gasrefund.go", "app/posthandler/sequence.go"]}
{"id": "C141", "title": "Transactions of several messages", "statement": "A transaction of several messages (contract calls and sends, of one account or of several) is included exactly if it has gas, every signature fits its signer's account and the first signer can pay the fee. Then each message starts where the one before ended and they take effect all together or not at all; if not, only the fee moves. On success the sequence of each account grows by the number of its calls, or by one if it has none, so a transaction of k calls of one account uses k numbers and the next one it takes is s+k; on failure it grows by at most one. Once it succeeded no transaction with that or a smaller sequence of one of its accounts is taken again, the same transaction included.", "quantifier": "all lists of messages and signers, all states, programs, fees and gas uses", "why_tests_cant": "unbounded number of messages and of accounts, with arbitrary code between them; tests send single messages", "anchors": ["app/ante/sigverify.go IncrementSequenceDecorator", "app/posthandler/sequence.go", "app/ante/fee.go", "x/evm/keeper/msg_server.go Call", "x/bank/keeper/msg_server.go Send"]}
{"id": "C142", "title": "Histories with transactions of several messages", "statement": "Over any history that mixes transactions of several messages (C141) with Ethereum-signed and Cosmos-signed transactions of one message (C140), in any order and with any outcome: no supply grows and none changes if no code catches failures; no other token moves; an account keeps its number and its key; its sequence moves by at least what its successful transactions use up (k for k calls) and at most what all its included ones could; after a success none of the numbers it used up, nor an earlier one, is taken again from any of its signers, by a transaction of any kind; code appears only at the contracts made, once each; the fee collector never loses.", "quantifier": "all sequences of transactions of the three kinds, any number of messages and signers each, all states, programs and fees", "why_tests_cant": "unbounded histories of three kinds of transactions with unbounded messages", "anchors": ["app/ante/sigverify.go", "app/posthandler/sequence.go", "app/ante/verify.go", "x/evm/keeper/msg_server.go Call, Create", "x/evm/keeper/txutils.go ConvertEthereumTxToCosmosTx", "x/bank/keeper/msg_server.go Send"]}
{"id": "C143", "title": "A raw transaction comes back as it was sent", "statement": "If bytes were taken by eth_sendRawTransaction, the sender is told their hash, and once the transaction is in a block eth_getRawTransactionByHash of this hash and eth_getRawTransactionByBlockHashAndIndex of its place answer exactly these bytes, if its fee cap, tip cap and value are numbers of 256 bits; bytes answered for a hash always have this hash; what is in no block has no bytes. (If the numbers are wider, the first is an error and the second hides it behind the empty answer, which is also what an unknown hash gets: 0x, not null.)", "quantifier": "all transactions, chains, blocks, hashes and places", "why_tests_cant": "every transaction, chain and place; a test compares a few fields of a few transactions", "anchors": ["jsonrpc/backend/tx.go SendRawTransaction, GetRawTransactionByHash, GetRawTransactionByBlockHashAndIndex", "jsonrpc/namespaces/eth/api.go GetRawTransactionByHash, GetRawTransactionByBlockHashAndIndex", "jsonrpc/types/tx.go RPCTransaction, NewRPCTransaction, ToTransaction", "x/evm/keeper/txutils.go ConvertEthereumTxToCosmosTx, ConvertCosmosTxToEthereumTx", "indexer/reader.go TxByHash, TxByBlockAndIndex"]}
{"id": "C144", "title": "A contract is called back with the id the memo names", "statement": "After an acknowledgement or a timeout, the only call made is to the contract and with the id that stand in the memo's async_callback, and it is made if that contract is allowed: for every id up to 2^53; a memo that asks for no callback, or whose callback cannot be read, gets none. (False beyond: the memo's numbers pass through float64, so no odd id from 2^53 on ever arrives, neighbours arrive as the same id, larger ones arrive with their last digits zeroed, and the largest make the memo an error.)", "quantifier": "all ids, memos, packets, acknowledgements and chains", "why_tests_cant": "2^64 ids; tests use 1", "anchors": ["app/ibc-hooks/util.go validateAndParseMemo, jsonStringHasKey", "app/ibc-hooks/message.go HookData, AsyncCallback", "app/ibc-hooks/ack.go", "app/ibc-hooks/timeout.go"]}
{"id": "C145", "title": "The data a contract reverted with can be read out of the error", "statement": "When an execution reverts with gas left, the error text lets a client recover the exact data the contract reverted with, whatever the data, whatever the reason inside it says and whatever was put before the error on its way; a reason stands in the text word for word exactly if the data is an Error(string), however the ABI lays it out; and nothing else reads as revert data. (False otherwise: with no gas left the data is lost and different reverts are told the same way; a reader taking the first \"revert:\" is told anything by the contract, as the reason is copied unescaped; the JSON-RPC error of eth_call never has a data field.)", "quantifier": "all data, reasons, prefixes, errors and amounts of gas left, calls and creations", "why_tests_cant": "reasons are free text; tests use one", "anchors": ["x/evm/types/errors.go NewRevertError", "x/evm/keeper/context.go EVMCallWithTracer, EVMCreateWithTracer", "x/evm/keeper/query_server.go Call", "jsonrpc/backend/eth.go Call"]}
{"id": "C146", "title": "Blocks are linked by their hashes and a client can check it", "statement": "Every block eth_getBlockByNumber gives can be checked by the client: read as a header it hashes to the hash given with it, it says the block's number, time, gas, base fee and roots, its parentHash is the hash given with the block before, and under its hash the same block is found. (False otherwise: a node whose index was begun at a later block tells another hash for every block from there on, and does not find the blocks other nodes tell; a base fee above 256 bits makes the block an error for ever and the next one parentless.)", "quantifier": "all chains of blocks, all contents, all starting heights", "why_tests_cant": "hash chains over all histories; a test has one node and few blocks", "anchors": ["indexer/abci.go ListenFinalizeBlock", "indexer/reader.go BlockHeaderByNumber", "jsonrpc/backend/block.go GetBlockByNumber, GetBlockByHash, formatHeader"]}
{"id": "C147", "title": "A denomination has a supply exactly if it is in the list of supplies", "statement": "HasSupply of the bank keeper and the list of total supplies agree: a denomination that is not of the form evm/... has a supply exactly if the list has it; whatever has a supply has its contract in the list exactly once, with the supply read for the denomination alone; and everything listed has one. (False beyond: a token of the chain also has a supply under evm/ with its address in any letter case, which is not listed, so adding up counts it twice; a malformed evm/ denomination makes the keeper panic; a supply of zero is a supply.)", "quantifier": "all reachable states and denominations", "why_tests_cant": "registration, both denomination maps and every history must agree", "anchors": ["x/evm/keeper/erc20.go HasSupply, GetSupply, IterateSupply", "x/bank/keeper/keeper.go HasSupply", "x/evm/types/denom.go DenomToContractAddr"]}
