# Formal model of initia-labs/minievm in Rocq (Coq 8.16.1)

## 1. Approach

The Go code of `/repo` (and the Solidity sources of the chain's built-in contracts) is
transcribed, function by function, into total, computable Gallina functions. Each
definition cites the file and lines it models and says what was simplified. A property is
a theorem about these functions; the theorem statements use either plain mathematics or a
small specification given right next to them (`*_spec` definitions that never call the
model's helpers).

Layout of `/verif/rocq/theories`:

* `Base/…`   bytes, hex, results, 64-bit wrap, key/value stores with layered cache contexts;
* `Model/…`  the transcription of the code (definitions only, no proofs);
* `Proofs/…` lemmas and proofs;
* `Spec/…`   small specifications that do not use the model's helpers;
* `Props/…`  the property theorems `Cnn_…`, with `Example`s showing that their hypotheses hold of
  concrete non-trivial cases. `tools/audit.py` runs `Print Assumptions` on each of them.

Names: `Cnn_…` theorem of property Cnn; suffix `_partial` when only part of the property is
proved; suffix `_refuted` when the faithful model violates the property and the theorem
exhibits the counterexample.

## 2. Trusted base

* Coq's kernel (and `vm_compute` where used for concrete witnesses).
* The Coq standard library and std++ (`gmap`, `list`); no axioms are declared here. What
  `Print Assumptions` prints for each theorem is recorded in section 5.
* The reading of the Go/Solidity sources: nothing was executed. External code which is not in
  `/repo` (go-ethereum, cosmos-sdk, ibc-go, the database) is represented by functions that are
  universally quantified in the theorems (oracles) or by the documented contract of the
  function (e.g. `CacheContext` branches the store, `big.Int.Div` is Euclidean division).

## 3. Plan per property

| id | what is modelled | how it is proved |
|----|------------------|------------------|
| C01 | multistore branches (heap of cache layers), `Snapshot`, `RevertToSnapshot`, `Commit`, an interpreter for arbitrary trees of call frames | refinement against a recursive specification of frames; refuted for trees with a reverted inner frame; proved for trees whose inner frames do not revert; proved for the repaired `snaps[:i+1]` |
| C02 | same | simulation with a stack of abstract states; refuted after a second revert |
| C03 | same | invariant: base layer unchanged unless Commit |
| C04 | `keys.go`, vmStore, accounts | injectivity of key encodings by length/tag, read-over-write laws |
| C05 | transient store keyed (exec, key) | refuted between contracts; proved between executions and for one contract |
| C06 | refund counter with wrap | induction over op lists |
| C07 | access list key set, `Prepare` | induction over op lists, spec = set of pairs |
| C08 | log store | induction over emissions |
| C09 | `GetCommittedState` | base-layer invariant |
| C10 | self-destruct sets and `Commit` walk | characterisation of the store after commit |
| C11 | account records, `CreateContract`, `IsEmptyAccount` | case analysis |
| C12 | `SetCode`/`GetCode*` | read-over-write laws |
| C13 | `CalGasUsed` with 64-bit arithmetic | arithmetic |
| C14 | `EVMCallWithTracer` control flow | refuted for "no gas left, other error"; proved otherwise |
| C15 | gas price, refund arithmetic with 18-digit decimals | arithmetic, ledger lemma |
| C16, C17 | decimals conversions | arithmetic |
| C18 | both converters, EIP-155, JSON metadata as a record | round-trip theorem |
| C19 | same plus `verifySignature` with the recovered signer as an oracle | refuted (fee, other message types); proved for MsgCall/MsgCreate content |
| C20, C21 | ante/exec/post pipeline over account sequences | case analysis, induction over histories |
| C22 | `IsEthereumTx` | refuted + proved one direction |
| C23 | denom maps, hex encoding | invariant over creation histories |
| C24, C31 | ERC20.sol as a state machine | invariant over call histories |
| C25, C26 | keeper SendCoins/MintCoins/BurnCoins over a ledger of ERC-20s | induction over coins; burn of mixed coins refuted |
| C27–C30 | bank keeper and params | decision logic, history invariants |
| C32 | ERC-20 registry and pagination | invariant, pagination completeness |
| C33 | `convertToEVMAddress` over an account table | invariant over histories |
| C34 | `TrackBlockHash`/`PreBlock` | induction over heights |
| C35 | genesis export/import over stores | grouping round trip |
| C36, C37 | registry policy, publisher policy | decision logic, history invariant |
| C38–C40 | precompiles, message dispatch | case analysis; C40 refuted |
| C41 | `CacheStore` with arbitrary eviction | refinement to a map; Delete refuted |
| C42 | block indexing loop | induction over transactions |
| C43 | log filters and bloom | soundness and completeness |
| C44 | filter table state machine | induction over schedules |
| C45 | `SendTx` queue | invariant |
| C46 | lock table as a small-step machine | invariant over interleavings |
| C47 | `resolveBlockRange` | arithmetic |
| C48, C49 | IBC hook middleware with the application and EVM as oracles | case analysis |
| C50 | hex codecs | round trip |
| C51 | ERC20Wrapper as a state machine | invariant/refutation |
| C52 | ERC-721 keeper | as C23/C25 |
| C53, C54 | chain id and V | arithmetic |
| C55 | query server on a cache context | store lemma |
| C56 | transfer through SubBalance/AddBalance | ledger lemma |
| C57 | nonces of deployments | history invariant |
| C58 | JSON-RPC tx objects | round trip |
| C59 | gas price and base fee of the block context (`uint8` sum included) | arithmetic, sharp bound |
| C60 | bank/EVM genesis export and import over one token state | refuted; exact import law |
| C61 | account number counter under frames and precompile contexts | refuted for every state; invariant otherwise |
| C62–C80 | the natural expectation next to a proved property (see the pairs in section 4) | counterexample in the model (`_refuted`), plus the part that does hold |
| C81 | eth_gasPrice against the minimum-price check | arithmetic; exact condition |
| C82, C83 | block references, query contexts and heights of a node that moves on while a request runs | case analysis over node moments; C83 refuted |
| C84, C85 | eth_call, eth_estimateGas and messages up to the run handed to the EVM | equality of runs; C85 refuted |
| C86, C87 | gas of the ante chain and the estimate | induction over decorators, arithmetic; C87 refuted |
| C88, C89 | the value of a call from wei to chain units and to 256 bits | arithmetic; C89 refuted |
| C90, C91 | websocket subscriptions as a small-step machine with emitters, event loop and clients | invariant over schedules, decreasing measure, characterisation of stuck states; C91 refuted |
| C92, C93 | mempool wrapper | case analysis; C93 refuted |
| C94, C95 | txpool namespace over the mempool and the queue machine of C45 | induction over the pool; C95 refuted |
| C96, C97 | every method of the two precompiles, on metered runs | inversion of metered computations |
| C98, C99 | signature decorators, multisig and Ethereum mode, and the conversion with optional keys in the block indexer (`Model/SigVerify.v`) | equivalence with `Spec/SigSpec.v` (induction over key nesting); C99 refuted, exact condition proved |
| C100, C101 | baseapp's `runTx` around the ante and post handlers with every ending (`Model/RunTx.v`) | reduction to C20/C21; C100 refuted for EVM messages |
| C102, C103 | block, transaction and receipt lookups and eth_pendingTransactions (`Model/BlockRpc.v`) | on top of the indexer invariant of C42; C103 refuted |
| C104, C105 | bank query server with paginated listings (`Model/BankQuery.v`) | induction over pages of a sorted listing, token invariant of C32; C105 refuted |
| C106, C107 | delegation and module transfers of the bank keeper (`Model/BankDelegate.v`) | from the exact send of C25; C107 refuted |
| C108, C109 | query_cosmos with the request and response objects a node shares between executions (`Model/QueryCosmos.v`): jsonpb decoding into an existing message, small steps that other executions may interleave | decoder against a memory-free specification of the request; invariant on the shared objects over histories; locality of steps for interleavings; C109 refuted |
| C110, C111 | when the index reaches the disk, with stops at every point and rollbacks (`Model/IndexNode.v`) | invariant over all histories of blocks and stops, from the index view of C42; C111 refuted |
| C112, C113 | gRPC Code, State, Denom, ContractAddrByDenom and the sender of Call, eth_getStorageAt, eth_getCode, net_version (`Model/EvmQuery.v`) | hex decoding against the number the digits stand for, induction on the digits; round trips from the token invariant of C23; C113 refuted |
| C114, C115 | call frames (call, delegate call, static call) as trees of actions over the token state, with the value hooks, the interpreter's read-only flag and the contexts that the snapshots of every frame leave (`Model/CallTree.v`, `Model/Paths.v`) | the path of contexts is proved to be what snapshots, reverts and Commit do (`Proofs/PathsP.v`, C01_paths); refinement of a plain ledger (`Spec/CallTreeSpec.v`) by induction on the tree where no caller goes on after a failure, an invariant of all contexts on the path elsewhere (`Proofs/CallTreeAny.v`); C115 refuted |
| C116 | Initialize at genesis and the 0.5.7 upgrade handler (`Model/BringUp.v`) | direct construction of the resulting state on top of the token model; the result is a reachable state of C32 |
| C117, C118 | conversion, ante handler, message server, EVM run and post handler composed for one transaction (`Model/EthDeliver.v`) | the run refines a plain ledger (`Spec/WalletSpec.v`), by composing the simulation of C114 with the fee and the refund as bank transfers; C118: the one unit added to the fee |
| C119 | any sequence of the transactions of C117, C120 | induction over the sequence with the invariant that the fee token's books are in order and senders have ordinary keys |
| C120 | MsgCreate in the pipeline of C117, histories of calls and creations (`Model/EthDeliver.v`) | the run of the constructor is re-based on the world with the new contract; histories by induction |
| C121, C122 | the block and transaction context of a run (`Model/Surround.v`) | arithmetic of the two truncating conversions, over the conversion of C18; C122 by computation and C114 |
| C123 | the Solidity library Strings, loops and buffer (`Model/SolStrings.v`) | induction on the loops, an invariant for the bisection in log10 |
| C124, C125 | the module accounts, permissions and blocked addresses of this application, every request to the bank keeper (`Model/AppWire.v`) | the table by computation; histories by a relation kept by every contract step and every call a bank request makes |
| C126, C127 | the two JSON-RPC servers of a node as two submission queues over one check state (`Model/Servers.v`) | each server simulates the queue of C45 with a changing environment; accepted nonces by induction on the joint history; C127 by a run for every sender |
| C128, C129 | go-ethereum's create over the snapshots, with arbitrary init code, context by context (`Model/CreateRun.v`) | the run on the path of contexts (`Proofs/PathsP.v`), induction over the program; C129 by induction on the caught failures |
| C130, C131 | the ERC-721 keeper's answers about classes and tokens (`Model/NftInfo.v`) over the histories of `Model/Nft.v` with the URIs given noted | an invariant for one class and token carried through every step, nested calls of unknown code included |
| C132, C133 | go-ethereum's SSTORE gas and refunds over the contexts of an execution, with gas per frame (`Model/StoreGas.v`); Ethereum's rules apart (`Spec/StoreGasSpec.v`) | invariant over every context: its counter covers 4800 for each slot cleared in it, and grows at most in proportion to the gas; simulation of Ethereum's rules while no call fails |
| C134 | the same signed transaction with any Cosmos fee, over the delivery of `Model/EthDeliver.v` | the signature's verdict does not depend on the fee; delivery is computed with the fee as a parameter |
| C135, C136 | the cosmos namespace over the indexer's maps (`Model/TxHashes.v`) | the maps after any blocks are the last entry of each key; a block's index entries are kept, what they lead to is overwritten |
| C137 | eth_getFilterLogs over the filters of `Model/Filters.v` and the index (`Model/FilterLogs.v`) | invariant that a filter's criteria are those it was created with and were accepted; then C43 |
| C138 | the JSON of stored transactions and receipts: hexutil.Big written and read digit by digit, the readers with their errors (`Model/StoredTx.v`) | induction on the hex digits; equality with / failure of the readers of `Model/Indexer.v`; C117 for inclusion |
| C139 | the delivery of `Model/EthDeliver.v` for a transaction whose signature is not in the Ethereum mode (`Props/CosmosSignedProps.v`) | the signature decorators computed; the message server does not see who signed, so the run of an Ethereum transaction with the same content (on the accounts after the signature decorators) describes it |
| C140 | histories of transactions of both kinds (`Props/MixedHistoryProps.v`) | one step for either kind in the same terms (C134, C139), then the inductions of C119 |
| C141 | transactions of several messages (`Model/MultiMsg.v`, `Spec/MultiSpec.v`, `Props/MultiMsgProps.v`) | the message loop by induction over the list, each message by C139's step; sequences by counting calls |
| C142 | histories of all three kinds (`Props/BundleHistoryProps.v`) | one step for either kind in the same terms (C140's, C141), then induction; room for sequences is an invariant |
| C143 | raw transactions (`Model/RawTx.v`, `Props/RawTxProps.v`) | conversion there and back (C18), place in the index (C42) and the stored JSON (C138) put together for the bytes a wallet sent |
| C144 | the memo's way through JSON: float64 and back, fields, last keys, errors (`Model/MemoJson.v`) | rounding to 53 digits is idempotent and the identity below 2^53; the shortest decimal reads back; then through the hooks of C48 |
| C145 | error texts of failed executions (`Model/RevertText.v`), a client's reader (`Spec/RevertSpec.v`) | hexadecimal has no spaces; the ending is fixed; ABI encoding of Error(string) unpacked |
| C146 | headers as JSON, parents, block objects (`Model/StoredHeader.v`) | fields read back (C138_big_numbers); induction over blocks; two nodes compared from the first block where one began |
| C147 | HasSupply of the two keepers (`Model/HasSupply.v`) against the list and the single supplies of C32 | round trips of C23 and the token invariant |

## 4. Findings

Each item is a behaviour of the code as read, exhibited by the named theorem(s) of the model.
File references are to `/repo`.

State database and execution

* `RevertToSnapshot(i)` with i ≥ 0 truncates to `snaps[:i]` although snapshot i is the layer to go
  back to (x/evm/state/statedb.go): one failing inner frame loses the writes the enclosing frame made
  before it, and a second one can reach the base layer (C01, C02, C03, C08, C09 `_refuted`; the same
  statements are proved for the one-line repair `snaps[:i+1]`).
* Transient storage is keyed by (execution, slot) only, so contracts share it (C05).
* Precompiles work on the context captured when the EVM was created: registry writes and queued
  Cosmos messages of reverted frames survive (C40), and accounts created there and in a frame get
  the same account number (C61).
* A failed execution with no gas remaining and an error other than `ErrOutOfGas` consumes no gas (C14).
* A self-destructed holder keeps its token balances but loses its account (C79).

Ethereum transactions and sequences

* The Cosmos fee, the message kind, and the access list of a legacy transaction are not covered by the
  Ethereum signature (C19); classification and conversion disagree (C22).
* `MsgCreate` from a sender that is not 20 bytes long and bech32 spellings in the other letter case
  break the sequence bookkeeping (C21, C57).
* A transaction with two spellings of one address that runs out of gas winds the sequence back by one, so
  a transaction that succeeded before is included, and succeeds, again (C100_earlier_replay_refuted).
* A transaction with k > 1 calls of one account uses k sequence numbers although it is signed with one: the
  next number, s+1, is refused, and the numbers in between cannot be used by anything (C141).
* Unprotected legacy transactions do not round-trip on chain ids ≡ 124 mod 128 (C80).
* `fee.Decimals()+9` is computed in `uint8` (C59).

Tokens

* `evm/<hex>` in any letter case names the same token, so send-enabled flags and the like can be
  bypassed (C62); transfers on an address without code report success (C63); burning a set with a
  contract-native coin sends the whole set to the community pool (C64).
* The shorthand of a long Cosmos address may be an unused 20-byte address (C65).
* Balances double, or initialisation panics, when the application's own export is imported (C60).
* ERC-721: aliases of classes and ids, operations on classes without code, approved accounts burn
  tokens of others, URIs survive burning (C78).

Chain services

* The recorded block hash of height h is taken in the pre-block of h+1 from the wrong header field (C66).
* The text `0x` passes the empty-code check (C67); an out-of-gas precompile run leaves an account
  behind (C68).
* Indexer: delete of uncached keys (C69), 1-based indices, per-transaction log indices, overwritten
  receipts and tags cast to `uint64` (C70); zero block hash (C71); filter order and expiry (C72);
  evicted submissions (C73); unsynchronised map read (C74); fee history at block 0 and base fees that
  depend on fetch order (C75).
* IBC hooks: the memo is decoded through map[string]interface{}, so callback ids from 2^53 on are altered, confused with others or refused (C144).
* Revert errors: with no gas left the revert data is lost; the reason is copied unescaped before the data, so the first "revert:" in the text may be the contract's; eth_call's error has no data field (C145).
* Block hashes depend on where a node began to index: the parent of its first block is zero, so its hashes of that and all later blocks differ from every other node's (C146).
* HasSupply is true for a token's second name evm/<its address>, which no list of supplies has, for supplies of zero, and panics on a malformed evm/ denomination (C147).
* IBC hooks: gas exhaustion and asynchronous acknowledgements block packets (C76); bech32 contract
  texts approve the zero address (C77).
* JSON-RPC: the quoted gas price is rounded down and may be refused (C81); blocks at or above the
  head are answered from the latest state, `earliest` nonces too, balances are those of today's fee
  token (C83); eth_call drops the value, treats the zero address as a creation, and MsgCall drops its
  access list (C85); after the gas-free fee decorator every later decorator is gas free, and estimates
  are too low for runs with large refunds (C87); values are in chain units inside the EVM and a
  negative message value becomes 2^256+z (C89).
* One websocket client that does not read stalls the event loop, and with it block announcements and
  CheckTx (C91); a pending transaction is announced before the mempool is asked (C93);
  txpool_status and txpool_content disagree (C95).
* Any account whose key is on chain can stop every indexing node with one keyless transaction with
  memo `{}` (nil dereference in txutils.go:239, reached from the block listener), and an Ethereum-mode
  transaction with a message of another module stops the indexing with an error (C99).
* An EVM transaction that ends in a panic (out of gas included), a failing refund or an overflowing
  block keeps its sequence although the fee was taken: anybody can have it included again until the
  payer is out of funds (C100).
* Lookups of an unknown block hash are an error rather than null, receipts of an unknown number are an
  empty list; eth_pendingTransactions shows at most thirty and fails for everybody while a keyless
  transaction (C99) waits among them (C103).
* Bank queries: AllBalances lists zero balances and contracts that do not answer balanceOf;
  DenomMetadataByQueryString does not know what DenomMetadata answers; SupplyOf of an unknown
  denomination panics instead of answering 0 (C105).
* Delegation through the bank keeper asks neither the send restrictions nor the blocked addresses (C107).
* query_cosmos decodes every request into one object per query made at start-up. It is cleared only after success: a request such as `{"currency_pair_ids":["BTC/USD"],"x":null}` is refused and leaves its list behind, and the next request that omits the field is answered for it. An eth_call does this on one node only, so the next transaction that omits the field runs differently there (state divergence); a restart has the same effect. Concurrent executions of the same query can also read each other's request (C109).
* The index is written after the application's commit, in separate database writes. A node stopped between the two never indexes that block; eth_getLogs over a range that contains it silently ends there. A stop during the write can leave a block whose transactions are missing. `mrollback` does not touch the index: removed transactions are still served, and a block that replaces a longer one is listed with the old block's transactions (C111).
* The gRPC State query cuts keys to their last 32 bytes and contract names to their last 20 (eth_getStorageAt refuses such keys); Query.Call does the same with its sender, so it simulates a call as an account the sender cannot use. net_version is the text after the last dash of the Cosmos chain id, unrelated to eth_chainId, and "1" (Ethereum mainnet) if that text is not a number (C113).
* What a caught failure does (the consequences of C01's defect for value and storage, C115): a transaction in which a contract goes on after a failed call succeeds, but loses what was stored, logged and paid, the value of the transaction included; if a contract destroyed itself before, its balance can be gone without the heir having it, and the supply shrinks; after two failed calls a contract reads its slots as they were before its own writes; a callee that caught two failures and then fails aborts the whole transaction (index out of range in RevertToSnapshot), or leaves its writes behind for its caller.
* A constructor that goes on after a failed call (C129): the creation is answered with success, but without value neither contract nor code is there; with value code, slots and value are lost while the address keeps nonce 1, so nothing can be created there any more; with enough caught failures (three more than the inner frames of the token's transfer) the sender's nonce is lost too, since go-ethereum's create writes it through the StateDB, and the same creation can be included and charged again and again.
* NFT metadata (C131): `CreateOrUpdateClass` and `Mints` take class data and token data and use neither, `GetClassInfo` and `GetTokenInfos` answer them as empty, so an NFT that comes over IBC and is sent on has lost them; `GetTokenInfos` of a token that does not exist answers an empty URI rather than an error.
* After two caught failures writes go to the store that GetCommittedState reads, so the committed value of a slot follows the current one and storage costs up to several times Ethereum's price (C133). The refund counter still cannot go below zero, but only because a store needs more than 2300 gas: with a failed frame that is seen (C115), a store that took its refund back and then ran out of gas would leave the counter short (C132_floor_needed).
* The fee of an Ethereum transaction is not covered by its signature (only its denomination is checked), so whoever relays it chooses the fee, up to the sender's whole balance (C134).
* A transaction that is included again (possible after running out of gas, C100) moves: the earlier block's index leads to the later block, and its logs are in the answers for both blocks (C136).
* eth_getFilterLogs fails for an accepted filter that starts in the future, reads block 0 as block 1 where the polls do not, and does not count as use of the filter (C137).
* Stored transactions are JSON with hexutil.Big, which is written for any number and read for unsigned 256-bit numbers only. The tip cap is bounded by nothing (and the fee cap and the sign of both by nothing in a transaction sent as a Cosmos transaction, txutils.go 262-272), so anyone can have a transaction included with a tip cap of 2^256: eth_getTransactionByHash, eth_getTransactionReceipt, eth_getBlockByNumber/Hash, the transaction counts and eth_getLogs over any range with that block fail from then on (C138). Not modelled: with a negative number go-ethereum's rlp refuses to encode and the hash functions ignore that, so such transactions all have one hash and one signing hash (here hashes of contents are abstract).
* The Transfer hook panics when the fee token refuses a transfer. A refused payment (blocked recipient) therefore aborts the whole transaction instead of failing the call that made it: a contract paying a list of accounts can be stopped by one of them being a module account. SELFDESTRUCT mints to its heir by sudoMint, which does not look at blocked addresses (C115).
* The upgrade handler 0.5.7 deploys the wrapper unconditionally, so it fails, and halts the chain at the upgrade height, on a chain whose genesis already deployed it (C116).
* The fee taken for an Ethereum transaction is gas times fee cap plus one unit of the fee token. With 18 decimals a wallet's "send everything" (balance less gas times fee cap) is taken, always fails and loses the fee. (Values that are not whole units are refused at conversion.) (C118).
* Contracts see the fee cap as GASPRICE, not the effective price, and 0 in `eth_call` and simulations even below BASEFEE; GASLIMIT is what is left of the transaction's gas and differs within a block; COINBASE is the zero address, so what contracts pay to it stays there (C122).
* The HTTP and the websocket server have each their own backend: a transaction waiting for a nonce at one is not sent when the gap is filled at the other, and a filter made at one is unknown at the other (C127).
* ERC20Wrapper: text injected into the JSON of the transfer message drains locked tokens (C51).

## 5. Assumptions

Axioms: none of ours. `Print Assumptions` prints "Closed under the global context" for the theorems
of this development (recorded in `ASSUMPTIONS.txt`, made by `tools/audit.py`); the library axioms which the checker
finds in the loaded libraries are those of the standard distribution's `Coq.ssr.ssrunder`
(`Under_rel.Under_rel`, `Under_rel.Under_rel_from_rel`, `Under_rel.Under_relE`, `Under_rel.Over_rel`,
`Under_rel.over_rel`, `Under_rel.over_rel_done`, `Under_rel.under_rel_done`: the opaque module
behind the `under` tactic). No theorem here depends on them.

Modelling assumptions that theorems rely on (each is also said in the comment of the definition):

* `CacheContext` branches the multistore; its `writeCache` copies exactly the branch's writes to the
  parent; the store iterates in key order.
* Keccak-256, SHA-256, signature recovery, RLP hashing, and the bloom filter are parameters of the
  theorems. Where a theorem needs collision freedom or unforgeability it is a hypothesis of the
  theorem. For block headers it is only that no two headers of the index at hand have the same hash
  (`sound_chain`, `no_collisions` in `Spec/IndexerSpec.v`), which a 32-byte hash can meet;
  `sound_numbered` gives a hash that is far from injective and meets it on every chain. The bloom
  filter is only assumed sound (never forgets an added item).
* go-ethereum's interpreter is not modelled: calls are arbitrary trees of frames, traces of
  state-database commands, or oracles, over which the theorems quantify.
* baseapp: a transaction's ante writes are kept when its messages fail; the post handler is run on
  the failure path and its writes are kept (C20, C21; C20_post_handler_writes_needed shows the
  necessity); `runTx` stops at the first failing message.
* The database behind the indexer stores what a batch writes; a crash loses unwritten batches.
* Percentiles in fee history are rational numbers; the float threshold is a parameter.
* Solidity: 256-bit checked arithmetic (0.8), `transferFrom` of the chain's own ERC20, unknown
  contracts are oracles.
* Transactions' gas limits are at most 2^63-1 (checked by the SDK when validating a transaction).

Not modelled: the EVM interpreter itself and tracers, protobuf/amino encoding, the CLI,
`eth/` debug and `net`/`web3` name spaces, configuration parsing, block-sdk lanes and the mempool
ordering, the OPinit and move-like bridge modules, metrics, the generated ABI bindings.
