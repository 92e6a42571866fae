# Design: a Rocq model of the trn-seed pallets

Source: `/repo` (futureversecom/trn-seed, Rust/Substrate). Formal model: `rocq/theories`
(logical name `Verif`, Coq 8.16.1, std++ for finite maps).

## How the model is organised

For each subsystem `X` there are a model, proofs and property files.

* `XModel.v`: executable Gallina functions, one per Rust function, each with a comment that
  cites file and lines in `/repo`. No proofs. (`EthyQueue.v` is the model of the outgoing side of
  the Ethereum bridge; `DexAddr.v` has the byte layout of pool addresses.)
* `XProofs.v`, `XInv.v`, `XLive.v`, ...: lemmas, invariants, inductions.
* `XProps.v`: the property theorems, each with `Print Assumptions` beneath and `Example`s showing
  that the hypotheses are met by a concrete non-trivial case. Theorem names start with the id of
  the property. The specification vocabulary (what an observer sees: balances, owners, events,
  delivered messages) is defined next to the theorems or at the start of the proof file and does
  not use the helpers of the model.
* A few files hold properties of their own: `TokenAdmin` (C100, C101), `PegTight` (C102),
  `CrowdLife` (C103), `MarketTermsProps` (C99), `DexPriceProps` (C96-C98), `XrplTickets` (C36),
  `XrplDeposits` (C35, C76, C77), `PegLive` (C40, C41 refutations).
* `Base.v`: results, checked and saturating arithmetic at machine widths, histories
  (`run step ops s`), induction principles. `Ledger.v`: the assets ledger every money pallet uses.

Conventions used throughout:

* Balances, ids and block numbers are `N`. Where the property depends on the machine width, the
  width is written out (`mod 2^32`, saturation at `2^128-1`, `checked_*` returning an error).
  The release profile of the repo does not switch on overflow checks, so an unchecked `-`/`+`
  wraps; this is modelled where it can be reached.
* A dispatchable call is `state -> args -> result state`. `Err` means Substrate rolls back every
  storage change of the call, so the surrounding `step` keeps the old state. Block hooks
  (`on_initialize`, `on_idle`) and bridge event handlers are not transactional: their models
  return the state they leave behind, also when they end in an error.
* A panic is an explicit error value.
* A history is a list of operations executed with `fold_left`; "for every history" theorems are
  inductions over that list. Accounts issuing operations are arguments, so any interleaving of
  any callers is one such list.
* External collaborators (signature checks, Ethereum event decoding, EVM execution, weight
  functions) are universally quantified: plain arguments, oracle inputs carried by the operation,
  or Section variables that are discharged at the end of the Section.

## Trusted base

* The Coq 8.16.1 kernel (and `vm_compute` for the witnesses of `_refuted` theorems and Examples).
* Axioms: none of our own and none of the standard library. `Print Assumptions` under each
  property theorem answers "Closed under the global context". Loading std++ also loads the seven
  constants of `Coq.ssr.ssrunder.Under_rel` (a sealed module of the standard library, which
  `coqchk -o` lists as axioms of the library); no theorem here depends on them.
* The reading of the Rust code: nothing ties the model to the code but the citations. What is
  modelled is listed per property below; what is **not** modelled: weights (except where they
  decide how much a hook processes), metadata (names, URIs), benchmarking, runtime migrations,
  SCALE encoding of storage, the EVM itself, the gossip filter of the ethy gadget, signature
  cryptography (an oracle), and the external crates (`pallet_assets`, `pallet_balances`,
  `pallet_transaction_payment`, `sp_arithmetic`, `pallet_proxy`, `doughnut_rs`, `trn_pact`,
  `xrpl_codec`, Frontier) except for the behaviour stated here:
  * `pallet_assets`/`pallet_balances`: a transfer fails if the free balance is insufficient and
    otherwise moves exactly the amount; mint and burn change balance and issuance by exactly the
    amount, failing on overflow/insufficiency. Existential deposit and minimum balance are 1
    (`runtime/src/lib.rs:363`), so no dust is lost. A transfer of zero always succeeds. Account
    freezing, locks, reference counting and keep-alive are not modelled.
  * `sp_arithmetic`: `Permill * x` = `(x / 10^6) * p + round((x mod 10^6) * p / 10^6)` with rounding
    to nearest, ties down; `Percent::from_rational(p, q)` = `min(100, floor(100 * p / max(q,1)))`.
  * `U256` arithmetic: exact, checked at 2^256.

Simplifications per subsystem (also said at the definitions):

| Subsystem | Simplification |
|-----------|----------------|
| exchange | pool accounts and the burn account are numbers disjoint from users, justified by `C58` on the real bytes; LP tokens are assets of the same ledger |
| crowdsale, vortex | vault accounts are the odd numbers (users the even ones); iteration over a storage map visits entries in the order of an arbitrary injective key function, or in an arbitrary order given by the operation |
| marketplace | collection royalties are an input of the listing call; the order in which the storage returns listings that end together is arbitrary; accounts of pallets sign nothing |
| NFT, SFT | names, royalties and metadata dropped; the receiver of a safe transfer is an arbitrary list of calls plus an arbitrary answer |
| ethy, incoming | one bond asset with two bond sizes; signature check of notarisations assumed (votes carry the voter); the outcome of `clear_prefix` (how many votes the backend deletes) is an input; `MaxProcessedMessageIds >= 1` |
| ethy, outgoing | the order in which pending proofs are drained is an arbitrary permutation; whether a payload fits is an input |
| notary worker | the Ethereum node is three arbitrary functions (receipt, block, call); JSON and HTTP outside; only the receipt fields that are read; ABI encoding and decoding written out at byte level with unbounded offsets; `submit_unsigned_transaction` succeeds |
| XRPL-signed transactions | XRPL binary codec, base58, signature checks, hashing and account derivation arbitrary functions; what is signed is the record of re-serialised fields; hex, decimal and colon parsing written out; the fee is one debit; account removal (frame_system) on the last XRP or reference; calls other than payments, futurepass and proxy calls do nothing; `CheckWeight`, spec and transaction version omitted |
| Solidity ABI codec | types as a universe (words, `Bytes32PostPad`, bytes, arrays, tuples) instead of Rust traits; a value of the wrong shape writes nothing; revert reasons are numbers; `usize` is 32 bits; `read_raw_bytes`, `read_till_end` omitted |
| ERC-1155 precompile | gas is not modelled (running out of it reverts); a contract that receives tokens is any list of operations plus any answer, whose effects are kept only if the call succeeds; selectors and topics computed outside Coq; revert reasons are numbers; royalties and payment of mint fees are the `ext_ok` oracle of the SFT model |
| ERC-721 precompile | as for ERC-1155; what the XLS-20 pallet answers to the two calls passed on to it is an input (`ext_ok`); the XLS-20 flag of a collection only matters to setBaseURI; collections bridged in keep their serial numbers as given |
| Exchange precompile | Gas is not modelled. The account behind an address is a pool, the burn account or a user (`acct_of`); calls by the first two, which have no keys or code, are excluded from theorems. The contract's own address is the user 0xDDDD. |
| Marketplace precompile | Gas is not modelled, nor the storage read charged before a purchase. The royalties of the collection are an argument of a call (as in `MarketModel`), whether marketplace ids are stored with a listing is kept beside the pallet's state (`z_mid`), since only the events show it. The theorems ask for stored fields within their Rust types (`tstate`). |
| Futurepass deposits | pallet_proxy and pallet_balances are written from the release the lock file names (polkadot-v1.0.0): transfers keep the receiver above the existential deposit, accounts with a reserve cannot be reaped, reserving leaves the existential deposit. Frozen balances, dust (none when the existential deposit is 1) and transaction fees are left out; other pallets' calls are represented by payments. |
| Futurepasses in the EVM | The EVM is what calls observe of it: kind of call, caller, address, value, static flag and the precompiles under way. Contracts' own storage, gas, the limit on depth and transaction fees are left out; a contract's behaviour is an arbitrary tree. Other precompiles are reduced to the call made to them and the callbacks they make. Every collection and asset behind a prefix exists. That context.caller of a DELEGATECALL is the caller of the calling contract, that `handle.call` and `handle.log` do not look at the static flag, and that `Runner::create` starts a new executor are facts of the evm and pallet_evm crates of the lock file, taken as given. |
| Bridge contract in the EVM | The pegs as in `PegModel.v` and `NftPegModel.v`; messages by other pallets are arbitrary. `ethabi::encode` (external crate) is taken to produce the ABI encoding. Gas and the proof requests behind the queue are left out (the latter in `NotaryModel.v`). `NftPegModel.v` alone lets every message through; here a message over MaxEthData makes the withdrawal fail and changes nothing, as in the code. |
| Creation of collections | Everything that is not a creation is one operation that may change anything but the set of collections (no code removes one). The two pallets' `StringLimit` are one parameter (both 50 in the runtime). Cross-chain compatibility is the `xrpl` flag of the extrinsic. `Permill` shares of an extrinsic are at most a million parts, as the type promises. |
| Migrations | The migrated data is one value and a step a function of it and the last key; other writes to it are an operation of their own, which C166 leaves out while a migration runs. `version_check` is a predicate on the data. The runtime's `CurrentMigration` is `NoopMigration` at present (`runtime/src/lib.rs:1387`): the claims are about the migrations to come. Weights of extrinsics are not modelled, that of `on_idle` is. |
| Gossip | Signatures are an arbitrary predicate; time is in seconds; SCALE decoding of witnesses is left out (a message is a witness or none). Locks are left out: every call is atomic, as the code holds them. The network's own gossip engine (which asks this validator) is not modelled. |
| NFI upgrade | Keys are without the prefix of pallet and item, which both formats share. Values are opaque (a number for the data). XXH64 is modelled for inputs under 32 bytes, which all keys here are. The weight returned is not modelled. |
| Imbalances | pallet-assets (`reducible_balance`, `can_increase`, `decrease_balance`, `increase_balance`) from its published source for sufficient assets without a freezer; a transfer that cannot be credited is an error. Values die where Rust drops them: at once for `let _ =`, else at the end of the function. |
| Echo | The bridge is an outbox and a counter of proof ids; it takes 96 bytes always. |
| Rotation of notaries | Of `handle_authorities_change` only the announcement to Ethereum (the XRPL's part is in `DoorModel.v`); `send_event` fails only for length. When a session ends, the election's result and the keys of continuing validators are inputs. The scheduler makes a call in its block (it could be put off by a full block, or filtered in maintenance mode). Manual pauses are in `EthyQueue.v`. Block numbers do not overflow. |
| Fee control | pallet-transaction-payment, which adds up the fees, is not modelled here. |
| Signers of the XRPL doors | Which keys are announced and installed are inputs (C181). A door's tickets are a counter with an end (the buckets are in `XrplTickets.v`). The XRPL applies requests in the order of the chain and takes a list of 1 to 8 different accounts with a quorum between 1 and its weight; fees, tickets and the master key there are left out. A proof carries signatures of notaries, at least all but one of the signers the gadget holds. |
| Signatures | Bytes are numbers; the errors of key recovery are one; malleability of a signature (it can be changed to another for the same transaction) is not looked at, the nonce prevents a second use. |
| RPC | Keys of the store are pairs of chain and event, not bytes; normalising and DER encoding of signatures is a function. The subscription's buffer is unbounded. |
| Set of precompiles | A range is taken to each entry of the tuple inside it. What precompiles do besides making calls is left out: any call may make any calls. A read of the chain within one `execute` sees one state. Running out of gas is left out (a call that fails for gas returns as any other). |
| Ethereum transactions | pallet-ethereum, pallet-evm, fp_evm, pallet-assets and frame-system are not in the repository: the order withdraw fee, count nonce, run, refund, and the removal of an account with its last reference follow their published code. Consumers, holds, caps on balances, signatures and the pool are left out. Nonces do not wrap. Code called is any list of movements of XRP, counted nonces and ROOT gained or lost; the value sent with a creation is one of them. |
| Amounts over RPC | serde_json and jsonrpsee are not in the repository: an integer up to 64 bits reaches `visit_u64`, a string `visit_str`, all else is refused. What a panic does to the node is not modelled, it is only an error value of its own. |
| Gas of precompiles | The EVM is not in the repository: calls pass at most 63 of 64 parts of the gas, an error takes all gas of its frame, a revert gives it back, a non-transactional run without a price takes no fee. Own instructions do exactly the weight of their gas. Refunds for storage, memory, proof size and the intrinsic gas of a creation (part of the constructor here) are left out. |
| Ethereum client | Parsing of JSON (serde_json) is not modelled: an answer is well formed or not, and its result is there or not. Receipts and blocks are taken as read. Offchain HTTP is any answer or none. |
| Fee pot between eras | pallet-staking is not in the repository: at the end of an era it records the payout, `payout_stakers` pays parts of it in ROOT and hands on the imbalance. How it is divided among stakers, and that no part is paid twice, is left out, as is XRP taken from the pot by Vortex. |
| Finalised blocks | The recursion over parents has a bound, shown never to matter (`handle_fuel`). That a request without a digest or signature is dropped is not in this model (it is in `WitnessModel.v`); gossip and metrics are left out. |
| Rounds of votes | All votes sent on a state are executed before the next round, in any order. That workers wait while too few validators have notary keys, and while the bridge is paused, is left out. |
| Votes on eth_calls | The vote sent by a worker is executed in the same round; 32 bytes of data are one number; failures are numbered. |
| Nodes together | Gossip is any list of witnesses that includes those shared; that a node shares all it signs is `C201_sent`; the notaries reach the record from the start or (`C201_start_partial`) before the first request. |
| witness gadget | digest and signature verification are arbitrary functions; vectors are kept sorted, so `binary_search` is membership; the gossip validator is a model of its own (C170-C173) |
| XRPL bridge | codec outcome and the outcome of an NFT deposit are inputs; the event for the ticket threshold is dropped |
| ERC-20 peg | a 96-byte message always fits, so `send_event` succeeds; new assets take the next number; ABI decoding taken for granted |
| NFT peg | ABI decoding taken for granted; the tokens the contract holds are a ghost set |
| XLS-20 | the tokens held by the door are a ghost set; an issuer uses a sequence number once (XRPL rule) |
| futurepass | funding and reserves succeed or fail as an input; proxies with delay, pure and announced proxies and batch calls are not modelled; nobody signs for an address with the futurepass prefix |
| maintenance | names are byte lists, UTF-8 and lower-casing an input; the static arms of the call filter a parameter; what a precompile does is an input; `primary_proxy` reads a map nothing writes |
| fees | `CurrencyAdapter` by its effect on `AssetCurrency`; the Frontier runner and gas metering outside; the inner call arbitrary |
| doughnuts | codec, permission evaluation and signatures are parameters; the hash is assumed collision-free |
| NFI | one sub type of data; SFT tokens reduced to a set |

## Properties: what is modelled and how it is proved

| Id | Model | Method |
|----|-------|--------|
| C01 | `DexModel`: `get_amount_out/in`, `_swap` with transfers on a ledger, both swap calls over a path | arithmetic lemma on the fee formula; induction over the path; invariant of reachable states (`DexInv`) |
| C02 | same quote functions | arithmetic |
| C03 | swap calls | case analysis and induction over the path (`DexPrice`: the price of every leg is the constant-product price with 0.3% fee) |
| C04 | pool state machine (add, remove, swap) | invariant by induction over histories on `ra*rb*ts0^2 >= ra0*rb0*ts^2` |
| C05 | same | invariant: LP supply >= 1000 locked in the burn account, reserves > 0 |
| C06 | add then remove | arithmetic on floors |
| C07 | `mint_fee` with `LiquidityPoolLastK` and the fee receiver | bound on the minted shares; `_refuted` for the toggling history |
| C08 | ledger model | sum over all accounts is invariant under each operation |
| C09 | `UtilsModel`: the two scalers | arithmetic |
| C10 | `next_asset_uuid` | bit arithmetic, injectivity |
| C11 | `HoldsModel`: place/release/spend hold, transfers, mint, burn | invariant by induction |
| C12 | `split_transfer` | induction over the list; overflow variant `_refuted` |
| C13 | `Erc20Model`: approvals and precompile | ghost accounting over histories |
| C14 | `NftModel`: approvals of both kinds, ownership | invariant by induction; authorisation of every change of owner |
| C15 | `NftModel`: owned lists, mint, transfer, burn | invariant; `_refuted` for balances with duplicate serials and for bridged mints |
| C16 | same + bridge mint | invariant for the mint call; `_refuted` for the bridge path |
| C17 | same | invariant: every minted serial < next serial |
| C18 | same + token locks | induction over histories |
| C19, C20 | `SftModel` | invariant by induction |
| C21 | `MarketModel`: royalties with Permill rounding | arithmetic, `_refuted` when rounding exceeds the price |
| C22, C23 | marketplace state machine over NFT locks and holds (`MarketMoney`, `MarketToks`) | invariant by induction for histories without the offending operation; `_refuted` witnesses |
| C24, C25 | `CrowdModel` (`CrowdInv`, `CrowdPay`) | sum of floors, invariant over claims and distribution |
| C26 | same, with the block clock | temporal invariant: an open sale has its end block scheduled; `_refuted` at duration zero |
| C27 | `redeem_voucher` with u32 saturation | arithmetic |
| C28 | `VortexModel` (`VortexInv`, `VortexLive`, `VortexMoney`) | induction over payout calls; termination measure |
| C29 | `redeem_tokens_from_vault` | arithmetic, induction over redemptions |
| C30, C31, C32 | `EthyModel`: submit, challenge, notarise, on_initialize, pruning (`EthyCore`, `EthyInv`) | invariant over a log of what observers see; `_refuted` for resubmission and stale votes |
| C33 | `EthyQueue`: proof requests, pause flags, on_idle | log invariant, termination of the queue |
| C34 | `handle_call_notarization` | case analysis, `_refuted` on failure path |
| C35 | `XrplModel`: submit, process, prune (`XrplDeposits`) | invariant over the list of credits |
| C36 | ticket allocation (`XrplTickets`) | invariant when the next bucket holds no live ticket; `_refuted` for the accepted overlap |
| C37 | delayed payments with cursor (`XrplWithdraw`, `XrplWProps`) | invariant, progress |
| C38 | amount encoding | arithmetic on powers of ten |
| C39 | two maps | `_refuted`; positive for first-time mappings |
| C40, C41 | `PegModel` (`PegSteps`, `PegSched`, `PegBacking`, `PegLive`) | conservation and schedule invariants; `_refuted` at zero delay |
| C42, C43 | `FpassModel` (+ proxies, precompile) | invariant; encoding injectivity |
| C44, C45 | `MaintModel`: configuration, call filter, EVM runner, transaction kinds | invariant over all configurations; `_refuted` via the fee proxy |
| C46, C47 | `Xls20Model` | bit arithmetic; `_refuted` for truncation |
| C48-C50 | `WitnessModel` (`WitnessWorker`) | invariants over arrival sequences; `_refuted` for C48, C50 |
| C51 | `expanded_signatures` | induction over the list |
| C52, C53 | `DoughnutModel` | positive below 2^64; `_refuted` by truncation and by a trailing byte |
| C54 | `NfiModel` | arithmetic |
| C55, C56 | `NftPegModel` | induction over the message; `_refuted` for partial failure |
| C57 | `DexModel` | invariant: stored reserves never exceed the balances of the pool account |
| C58 | `DexAddr`: bytes of pool addresses | injectivity of the layout |
| C59 | `UtilsModel`: EVM currency scaler and fee adapter | arithmetic of the two scales |
| C60 | `UtilsModel`: `ErcIdConversion` | byte arithmetic |
| C61 | `Erc20Model` | case analysis; `_refuted` for saturated amounts |
| C62 | `NftModel` | success under explicit conditions; `_refuted` for every bound by an outsider's empty transfers |
| C63 | `do_safe_transfer` with an arbitrary receiver | case analysis; `_refuted` for a re-entrant receiver and short answers |
| C64, C65 | `MarketModel` (`MarketTight`) | success and exact outcome of a bid, purchase and settlement in reachable states |
| C66 | `CrowdModel` (`CrowdVouch`) | voucher accounting invariant, then success of the redemption |
| C67 | `VortexModel` | arithmetic; `_refuted` by saturation |
| C68 | `VortexModel` | sum invariant over registrations |
| C69-C74 | `EthyModel` (`EthyLive`) | log invariants, liveness as case analysis at the slot; `_refuted` witnesses |
| C75 | `EthyQueue`: change of authorities | invariant on validator-set ids of the announcements |
| C76, C77 | `XrplModel` | invariant of the schedule; panic as error value |
| C78-C80 | `FpassModel` | structural induction over nested calls; case analysis |
| C81 | `WitnessWorker` | invariant: what has arrived for the event, for every interleaving |
| C82-C84 | `MaintModel` | induction over nested calls and configurations |
| C85, C86 | `Xls20Model` | backing invariant with ghost door; `_refuted` witnesses |
| C87 | `DoughnutModel` | invariant on the holder's nonces; authorisation chain; witness for a removed account |
| C88, C89 | `NfiModel` | invariant: data only for existing tokens |
| C90 | `NftPegModel` | backing invariant with ghost contract |
| C91-C95 | `FeeModel` over `DexModel` | arithmetic, reachable exchange states; `_refuted` witnesses |
| C96-C98 | `DexModel` (`DexPriceProps`, `DexLive`) | case analysis in reachable states |
| C99 | `MarketModel` (`MarketTerms`) | classification of every change a listing undergoes, by induction |
| C100, C101 | `NftModel`, `SftModel` (`TokenAdmin`) | case analysis over every operation |
| C102 | `PegModel` (`PegTight`) | the fate of each deposit, withdrawal and release as an inductive relation |
| C103 | `CrowdModel` (`CrowdLife`) | classification of every change a sale undergoes |
| C104 | `NotaryModel` (`NotaryProofs`, `NotaryProps`) | byte-level ABI reading relation `abi_event`; decoding reads it, both encodings satisfy it, readings are unique |
| C105 | `NotaryModel` (`NotaryProps`) | case analysis of the worker's checks, data equality turned into a reading of the log |
| C106 | `NotaryModel` (`NotaryProps`) | positive for the first matching log; witnesses for the other shapes, a general impossibility for the five-argument layout |
| C107 | `NotaryModel` + `EthyModel` (`NotaryProps`) | invariant over all histories relating stored votes of honest keys to the pending claim; counting |
| C108 | `NotaryModel` (`NotaryProps`) | case analysis of `try_call`, both directions |
| C109 | `NotaryModel` + `EthyModel` (`NotaryProps`) | the worker's choice; reachable starved state |
| C110 | `XrplTxModel` (`XrplTxProofs`, `XrplTxProps`) | `included`: everything an included transaction passed; memo text as a relation (`announces`) on the signed payload, independent of the parser |
| C111 | `XrplTxModel` + `FpassModel` | the nonce used is the signer's (ownership invariant `FI`), grows with each event until a `KilledAccount` |
| C112 | `XrplTxModel` | balance inequality for every account over one transaction |
| C113 | `XrplTxModel` | parser equals the relation `announces`, both directions; the relation is functional |
| C114 | `XrplTxModel` | case analysis of all error paths |
| C115 | `XrplTxModel` | invariant of the event log |
| C116 | `AbiModel` (`AbiProofs`, `AbiProps`) | induction over types; `bake_parts`: baking the pending offsets of a list of parts gives its heads and tails |
| C117 | `AbiModel` | induction over types with the position predicate `at_` (bytes standing at an offset) |
| C118 | `AbiModel` | induction over types: `read_sound` |
| C119 | `AbiModel` | bound of C118 specialised; family of calls `bomb n` |
| C120 | `AbiModel` | reader on one word; witness |
| C121 | `Erc1155Model` (`Erc1155Proofs`, `Erc1155Props`) on `SftModel` and `AbiModel` | evaluation of each query on symbolic arguments through the ABI round trip (C117) |
| C122 | `Erc1155Model` | `execute_inv`: a successful call had one of four effects; relation lemma `pstep_rel` by induction over operations nested through receivers |
| C123 | `Erc1155Model` | per call: `exec_spec` of the SFT model and the ABI encoding of the log; histories: `pstep_rel` with `log_moves`, a reader of logs |
| C124 | `Erc1155Model` | inversion of the acceptance check for any receiver; witnesses |
| C125 | `Erc1155Model` | case analysis over selectors; witnesses |
| C126 | `Erc721Model` (`Erc721Proofs`, `Erc721Props`) on `NftModel` and `AbiModel` | evaluation of each query on symbolic arguments through the ABI round trip (C117); invariant `Inv` over nested histories; witness |
| C127 | `Erc721Model`, `owned_tokens` | `page_spec` of one page, induction over the walk `walked`; decoding of the answer by `C117_unambiguous` |
| C128 | `Erc721Model` | `execute_outcome`: what a successful call did; relation lemma `estep_rel` by induction over operations nested through receivers |
| C129 | `Erc721Model` | `estep_rel` with the relation `follows` between owners and logs; witnesses |
| C130 | `Erc721Model` | case analysis over selectors; "cannot panic" composed through `rbind` and the ABI reader by induction over types; witnesses |
| C131 | `Erc721Model` | xor of selector lists computed in Coq; concrete calls; witness |
| C132 | `Erc721Model` | inversion of the acceptance check for any receiver; witnesses |
| C133 | The state of the ERC-721 and ERC-1155 models: owner, maximum, flags, name, base URI and price of a collection ([decided]) | `Erc721Admin.v`, `Erc1155Admin.v`: one inversion of every function for URIs and prices, C100 for the rest, induction over operations with the receivers' operations nested; the two setters are characterised by an equation for every call |
| C134 | `DexPreModel.v`: the precompile's ten writing and five reading functions over bytes, on the exchange model; the results the pallet's functions return | `DexPreProofs.v`: the model's results refine the operations of `DexModel`; the answer is the list of prices (induction over the path), the balances follow from C04 and C104 |
| C135 | As C134 | A chain of hops is "fair" when each amount is at most the price of the one before; quotes give fair chains and a fair chain with room goes through (induction over the path with the reserves of later hops unchanged) |
| C136 | As C134 | `add_report`, `remove_report` in `DexPrice.v` relate the returned amounts to the balances; refutation by computation |
| C137 | As C134; the events of the README encoded by the ABI rules | The log of each hop equals an independently written event when the pools hold no surplus; refutations by computation |
| C138 | As C134, with the EVM's transfer of the value (`evm_transfer` of `UtilsModel`) before the call | Two-step description (value, then trade from the state in between); monotonicity of the contract's balance by induction over mixed histories |
| C139 | As C134 | Every branch of the dispatch is an operation signed by the caller; `step_others`: such operations lower nobody else's balance |
| C140 | `MarketPreModel.v`: the marketplace precompile's dispatch over bytes; the published signatures with their selectors | The dispatch fails for every selector outside a list; list membership by computation |
| C141 | As C140, all eighteen functions, on the marketplace model (`MarketModel.v`) | `calldata_read` (ABI round trip for lists of any length), then per function: the decoded arguments are the operation meant. `execute_any`: whatever the bytes, a success is such an operation; induction over mixed histories gives a history of `MarketModel`, to which C22 applies |
| C142 | As C140; `opens` states the listing independently | C141 and C99 |
| C143 | As C140 | C142 and `open_spec`; refutations by computation on histories built through the contract |
| C144 | As C140; `described` states the answer independently | Encoding lemmas; C21 and C65 for the purchase |
| C145 | As C140; `event` states topics and data independently | C141; refutations: pairs of executions with equal logs |
| C146 | `FpassFundModel.v`: balances, reserves and recorded deposits on top of the definitions of `FpassModel.v`; the runtime's `ProxyProvider` and the parts of pallet_proxy and pallet_balances it uses | Invariant `funded`; exact effect of each call on the books (`flow`); sums over maps for conservation |
| C147 | As C146 | `direct_ok`: each call moves exactly the change of the deposit; the number of delegates from the effects of `FpassProofs` |
| C148 | As C146 | `call_outcome`: every call, however nested, is nothing, a payment or one direct call of a principal for whom the signer acts |
| C149 | As C146 | Refinement: the definitions follow a history of `FpassModel`, to which C42 applies; induction with C148 |
| C150 | As C146 | Invariant: an account with a reserve holds the existential deposit; then every check of the calls succeeds |
| C151 | As C146 | C147 twice; refutations by computation with the runtime's constants |
| C152 | `FpassEvmModel.v`: EVM frames, the precompile set, the futurepass and registrar precompiles over `FpassFundModel.v`; contracts are arbitrary trees of calls | One invariant lemma for all trees (`perform_keeps`), by induction on trees, for a set of accounts closed under "may act for"; frame lemma of the pallet calls (`fund_frame`) |
| C153 | As C152 | Induction on trees without futurepasses (`nofut_perform`); witnesses |
| C154 | As C152, with the byte-level ABI of `AbiModel.v` | Round trip of the ABI (C117); the invariants of `FpassProofs` for the views |
| C155 | As C152 | Case analysis of `proxy_call` under the invariant that delegates of futurepasses have type Any or Owner |
| C156 | As C152; hash and recovery are parameters | Injectivity of the packed encoding and of hexadecimal; witnesses |
| C157 | As C152 | Induction on trees; witness |
| C158 | `PegPreModel.v`: the bridge's EVM contract over `PegModel.v`, `NftPegModel.v`, the message queue and the byte-level ABI | Inversion of the call (`erc20_inv`) and its converse (`erc20_ok`); ABI round trips; books of the ledger along every run |
| C159 | As C158 | Inversion of the call; witness |
| C160 | As C158 | `erc721_inv`, the burn theorem C56, length of nested ABI arrays (`nested_wt`), round trip of the message; witness |
| C161 | As C158 | Inversion for any bytes; numbering invariant; simulation by the pegs' own operations (`peg_step`, `nft_step`) |
| C162 | `CreateModel.v`: the NFT and SFT contracts and `do_create_collection` of both pallets over `Erc721Model.v`, `Erc1155Model.v`, `UtilsModel.v` and the byte-level ABI | Inversion of the creation (`nft_create_ok`) and its converse (`nft_create_can`); id invariant `kinv`; royalty sums without wrapping; ABI round trips |
| C163 | As C162 | As C162 (`sft_create_ok`, `sft_create_can`) |
| C164 | As C162 | Invariant `kinv` (ids of numbers below the next one, kinds disjoint, their count); collections are kept along every run |
| C165 | As C162 | Inversion for any bytes; refusals computed from the selector; witness |
| C166 | `MigrationModel.v`: the migration pallet over an arbitrary migration (data, step, end) | `ideal`: the steps in one go; the loop is a prefix of it (`mloop_spec`); induction over the history with the number of steps so far (`after_step`) |
| C167 | As C166 | Every ready block adds a step or completes (`after_run`, `readies`); counting starts and ends |
| C168 | As C166, with two-dimensional weights | Induction over the loop (`mloop_weight`); witness computed |
| C169 | As C166 | Invariant `tidy` (no last key unless in progress); witnesses computed on four items |
| C170 | `GossipModel.v`: the gossip validator, with the standard library's binary search | Binary search is right on sorted vectors (`bsearch_spec`), which they stay (`ginv`); the table equals what was heard, by induction from the end of the history |
| C171 | As C170 | Cache contents after a completion (`complete_done`); induction over histories; witnesses computed with 500 events |
| C172 | As C170 | From C170; the flood by induction on its length |
| C173 | As C170 | The next time only grows; induction over rounds |
| C174 | `NfiMigModel.v`: the upgrade of the NFI storage over raw keys, with the iterator as a next-key walk and the real XXH64 for witnesses | Invariant of the walk (`wbetween`): new entries of the keys passed are right, but for the one a new key is misread as; witnesses by computation with the real hash |
| C175 | As C174 | The keys that can ever be there are a list of at most 2n+1, and the walk only goes up (`walk_ends`) |
| C176 | `ImbModel.v`: imbalances as linear values in a pool, dropped with their effect on the issuance; `AssetCurrency` | Invariant: balances + outstanding negative = issuance + outstanding positive, per asset (`istep_good`), by induction over operations; witnesses by computation |
| C177 | As C176 | Case analysis; exact conditions `gives` and `receives` (`increase_iff`, `decrease_iff`) |
| C178 | As C176, with `withdraw_fee`, `correct_and_deposit_fee`, `on_unbalanceds` and the fee pot | Composition of the steps of C176, each shown not to saturate; the fold of merges gives back the sum (`merged`) |
| C179 | `EchoModel.v`: `ping`, `on_event` on bytes, the bridge as an outbox | Invariant on the list of sessions; lemmas on reading back encoded words |
| C180 | As C179 | Induction over the history |
| C181 | `RotModel.v`: a block as Scheduler, Session, EthBridge in this order; sessions, eras, forcing and elections of pallet-session and pallet-staking; announcements and installations in a log | Invariant `J` on agenda, flags and log, kept through the parts of a block (`J_agenda_run`, `J_rotate`, `J_check`); witnesses by computation with the runtime's numbers |
| C182 | As C181 | Invariant `Nat_` on sessions and eras (`Nat_rotate`) |
| C183 | As C181 | From `J` |
| C184 | `FeeCtlModel.v`: `Perbill::mul` as published, the pallet's functions | Arithmetic: the two-part rounding is that of the exact product (`perbill_exact`) |
| C185 | `DoorModel.v`: whitelist, XRPL notaries, the gadget's copy, signer-list requests in digests or delayed; the XRPL's lists as a fold over the requests (`ledger`, spec in `DoorProofs.v`) | Invariant `Inv`, step by step (`inv_step`): a list that fits the set the gadget waits for is satisfied by every proof (`fits_signed`); witnesses for any number of rounds by `quiet`; tickets by an invariant over permutations (`TI`) |
| C186 | As C185 | Invariant: the active keys are the selection from whitelist and notaries |
| C187 | As C185 | Invariant on all requests; counting |
| C188 | `SigModel.v`: `verify` on bytes, hash functions and recovery as parameters, `using_encoded` | Wrapped messages are injective by their length (`eth_signed_inj`); all pairs of ways to sign compared |
| C189 | `RpcModel.v`: the two builders and the store, on `WitnessModel.v` | Relation `picked` for the filter with its side effect; C51 for the blanks |
| C190 | `PreSetModel.v`: fragments of the precompile set with ranges and prefixes, the runtime's table | `answers` characterised by prefix and id arithmetic (`answers_table`), positions compared pairwise |
| C191 | As C190, with recursion levels (u16, per fragment and address) and calls as trees | Refinement to `plan`, which looks at the calls under way: levels agree with their number before and after every call (`exec_good`) |
| C192 | `EvmTxModel.v`: accounts with nonce, references and XRP; checks in a block, runner, charge, any code as a list of movements | Relation `later` (nonce not lower unless the account was removed) through every function; `keeps` for holders of ROOT |
| C193 | As C192 | The balance asked for covers the fee rounded up to drops (`charge_total`); charge from `charge_spec` (as C59) |
| C194 | `RpcAmtModel.v`: `WrappedBalance`'s visitor over bytes with the panic of the slice, `quote` over RPC, `format!` of a balance | Own spec of digits in base 16 and 10 (`spells`); induction on the strings and on the number of digits |
| C195 | `GasModel.v`: programs as trees of own instructions, calls, dispatches, work recorded beforehand and creations by futurepasses; gas and weight done | `fits` (work at most weight of gas used plus unpaid) by induction on the tree; one gas of the call instruction pays for rounding down |
| C196 | `EthCliModel.v`: hex of bytes and numbers as sent and read, HTTP answers with code, id and result, on top of the worker of `NotaryModel.v` | Own spec `spells_bytes` and `hex_number`; induction on strings and digits |
| C197 | `FeePotModel.v`: the pot's XRP and ROOT, the era's sum, staking's recorded rewards, issuance of ROOT | Induction on histories; sums of fees as own spec |
| C198 | `FinalModel.v`: headers with digests, notifications with the answers of database and runtime, the worker's last block, sets and handled requests | Induction on the number of blocks caught up with, then on the notifications; the expected requests as own spec over the chain |
| C199 | `ChalModel.v`: the workers of all notaries (`NotaryModel.v`) on the state of the bridge (`EthyModel.v`), block by block | Invariant over the votes of a block on top of the bridge's (`EthyInv.v`), counting of votes; the refutations by an invariant over all that follows |
| C200 | `CallQModel.v`: the queue of eth_calls and the workers of all notaries (`try_call` of `NotaryModel.v`) on the state of the oracle (`EthyQueue.v`) | Invariants over histories of rounds, requests and any votes (`CallQProofs.v`), counting of votes against notaries |
| C201 | `NetModel.v`: what nodes send and note for the requests they handle, joining `FinalModel.v` with `WitnessModel.v` | Composition of C198 (every node handles the request, under a notary's key) with C81 (enough witnesses make the proof); an invariant of the record shows that a node's own witnesses are always taken and sent. Others' valid witnesses are passed on unless the node has the proof (`C201_passed_on`), and for events already handled only valid ones are (`C201_checked`). Missing: changes of notaries in between; the exception of C50 is real (`C201_late_refuted`) |

None of these properties is considered inexpressible. Parts that only the runtime can decide
(weights, real signatures, EVM semantics) enter as arbitrary oracle inputs, so theorems hold for
each behaviour of the oracle.

## Mutation testing

`seeded/LOG.jsonl` has one line per wrong program tried: the definition edited, the edit, the
claims it breaks, the theorems that stopped proving and the theorems tightened as a result. Each
mutant is compiled in a copy of the development outside this repository. Mutants that survived a
round led to new or stronger theorems, named in `tightened`.

## Disagreements between the code and the properties

Each entry is a theorem whose name ends in `_refuted`, with a computed witness. Paths are under
`/repo/pallet` unless said otherwise. "Condition" is what the positive theorem assumes instead.

### Exchange and assets

* **C02** `C02_saturated_quote_refuted`: `get_amount_in` (dex/src/lib.rs:922-944) saturates at
  2^128-1, an amount that does not buy the output. Condition: answers below the ceiling.
* **C07** `C07_toggle_refuted`: `mint_fee` (dex/src/lib.rs:1273-1314) keeps the remembered product
  when the fee receiver is unset; set again, the receiver is paid for growth that happened without
  it. The branch that would clear the product cannot be reached. Condition: receiver stays set.
* **C09** `C09_too_many_decimals_refuted`: `scale_wei_to_correct_decimals`
  (common/src/utils.rs:49-60) panics above 18 decimals; asset creation forbids them.
* **C11** `C11_admin_burn_refuted`: the administrator of an asset may burn from any account,
  including the vault of the holds (assets-ext/src/lib.rs:298-313); a hold then cannot be released.
* **C12** `C12_wrapping_sum_refuted`: the guard of `split_transfer` (assets-ext/src/lib.rs:516-547)
  sums in u128 without overflow checks, so it can pass and a later transfer fail after earlier ones.
* **C59** `C59_fee_covered_refuted`: the net EVM charge is the fee rounded down to drops
  (runtime/src/impls.rs:859-915), so up to one drop less than the fee.
* **C60** `C60_decode_injective_refuted`: decoding a token address reads 8 of 20 bytes
  (runtime/src/impls.rs:260-296).
* **C61** `C61_large_amount_refuted`: the ERC-20 precompile saturates a 256-bit amount to 128 bits
  (/repo/evm-precompiles/erc20/src/lib.rs:239, 276, 313) and reports success for less than asked.

### NFTs, SFTs, marketplace

* **C15** `C15_duplicate_serials_refuted`: `transfer` with the same serial twice adds it to the
  receiver's list twice (nft/src/types.rs:150-177), so `balanceOf` exceeds the tokens. Ownership
  stays unique. `C15_bridged_root_refuted`, **C17** `C17_bridged_root_refuted`:
  `mint_bridged_token` (nft/src/impls.rs:134-197) checks only that the serials are free now; in a
  collection that also mints natively, a serial gets two owners or comes back after burning.
* **C16** `C16_bridged_mint_refuted`: `mint_bridged_token` ignores the declared maximum.
* **C62** `C62_outsider_blocks_transfers_refuted`: a transfer of no serials adds an entry for the
  receiver (nft/src/impls.rs:84-128); anyone can fill the bounded list of owners of a collection.
* **C63** `C63_reentrant_receiver_refuted`: `do_safe_transfer`
  (/repo/evm-precompiles/erc721/src/lib.rs:439-522) checks the caller before and `from` after the
  receiver runs: a token handed to a victim during the callback is taken from them.
  `C63_panic_refuted`: an answer shorter than four bytes makes the comparison slice out of range.
* **C21** `C21_rounding_refuted`, `C21_no_buyer_refuted`: royalties are rounded to nearest
  (marketplace/src/impls.rs:560-579), so for small prices they exceed the price, the seller's part
  underflows and no buyer can ever settle.
* **C22** `C22_accept_during_auction_refuted`: `do_accept_offer` (marketplace/src/impls.rs:361-413)
  removes the auction of the token without refunding its bidder, whose hold stays for ever.
* **C23** `C23_bundle_refuted`: accepting an offer for one token of a listed bundle removes the
  listing, the other tokens stay locked. `C23_failed_settlement_refuted`: when settling an auction
  fails (479-536) the listing is gone and the tokens stay locked.
* **C64** `C64_zero_bid_refuted`: a bid of zero is recorded in an auction without reserve, and no
  later bid is accepted (`do_bid`, 214-265).
* **C54** `C54_saturated_refuted`: fee times count saturates (nfi/src/lib.rs:325).
* **C89** `C89_bridged_refuted`: bridged and crowdsale mints do not request NFI data.

### Crowdsale and vortex

* **C24** `C24_saturation_refuted`, `C24_short_changed_refuted`: closing computes the refund with a
  saturating product (crowdsale/src/impls.rs:144-214), so above 2^128 / 10^6 units raised the vault
  keeps fewer vouchers than are due.
* **C26** `C26_duration_zero_refuted`: duration 0 is accepted by `initialize` and `enable` schedules
  the closing under the current block, whose hook has run. `C26_burnt_refuted`: the payment asset's
  owner burns one unit of the vault; closing fails once and is not retried.
* **C66** `C66_used_collection_refuted`: `initialize` checks the current issuance and not the next
  serial; a collection with burned tokens ends before all vouchers are redeemed. `C66_cap_unreachable`:
  with the pallet-wide cap the last token cannot be minted.
* **C28** `C28_wrapped_sum_refuted`: the u128 sum of one `register_rewards` call wraps
  (vortex-distribution/src/lib.rs:535-561); transfers fail, yet entries are marked paid (440-470).
* **C67** `C67_saturation_refuted`: redeemed amount times vault balance saturates (590-626), with
  realistic magnitudes (10^28 units in the vault), while all vortex offered is burned.
* **C68** `C68_reregistered_refuted`: registering an account again replaces its entry and adds to
  the total to mint.

### Ethereum bridge

* **C31** `C31_resubmitted_refuted`: an id rejected by a verdict and submitted again is delivered at
  its old slot (ethy/src/lib.rs:546-612), before its new challenge period is over.
* **C32** `C32_stale_votes_refuted`: votes of notaries that left the set count against the size of
  the new set (ethy/src/impls.rs:569-610).
* **C33** `C33_zero_per_block_refuted`: governance may set zero delayed proofs per block.
* **C34** `C34_last_voter_refuted`: when no result can reach the threshold any more, the last vote is
  passed on as the result (impls.rs:725-813).
* **C69** `C69_rejected_claim_blocks_refuted`: the slot of a rejected claim marks its id processed;
  the genuine event with that id is then refused.
* **C70** `C70_below_first_refuted`: ids below the first processed one are never listed as missing.
* **C71** `C71_deadlock_refuted`: with a 66% threshold, 23 notaries voting 15 to 8 settle nothing
  (both percentages are rounded down).
* **C73** `C73_zero_period_refuted`, `C73_no_relayer_refuted`: a zero period schedules for a block
  that has begun; a claim judged valid while no relayer is set stays where it is.
* **C74** `C74_wrong_relayer_refuted`: the current relayer is slashed for a predecessor's claim.
* **C75** `C75_paused_change_refuted`: with the bridge paused by governance the announcement of a new
  validator set is emitted after the change and asks the new set to sign (impls.rs:821-941).
* **C48** `C48_reopen_refuted`, `C48_worker_refuted`: the record of completed events
  (/repo/ethy-gadget/src/witness_record.rs:85-95, 285-303) reopens an event after out-of-order
  completions; the worker does this with an XRPL threshold of 0 (one door signer,
  /repo/runtime/src/lib.rs:2026).
* **C50** `C50_refuted`, `C50_worker_refuted`, **C81** `C81_passed_over_refuted`: once two events are
  completed every lower id is refused, so events that arrive late are never proved.

- **C106** (impls.rs 353-381). A notary takes the *first* log of the transaction that carries the bridge
  topic. The second bridge event of a transaction is therefore voted `UnexpectedData`
  (`C106_second_event_refuted`). `tx.to != source` rejects events sent through a wallet or router
  contract (`C106_through_a_wallet_refuted`; the code comments on it). `submit_event` documents and
  decodes a five-argument event, but the notaries compare the log with a four-argument encoding, so
  an event in the documented layout can never be confirmed (`C106_documented_layout_never`).
  `NotEnoughConfirmations`, `NoTxReceipt` and `DataProviderErr` are sent as votes; they count as
  rejections and are final, so two early votes out of three cost the relayer the bond for a genuine
  event (`C106_early_vote_refuted`).
- **C108** (impls.rs 536-540). Non-empty return data shorter than 32 bytes is reported as
  `ReturnDataExceedsLimit` (`C108_short_data_refuted`).
- **C109** (impls.rs 273-291, lib.rs 87). `PendingClaimChallenges.iter().take(1)` followed by
  "skip if voted" means later challenges wait until the first one is decided; with a notary offline
  and the others split they wait for ever (`C109_starved_refuted`).

### XRPL bridge and XLS-20

* **C35** `C35_two_indexes_refuted`, `C35_reset_refuted`: settled hashes are pruned by ledger index; the
  same hash reported under a newer index, or after a reset by root, is credited again.
* **C36** `C36_reused_refuted`, `C36_unallocated_refuted`: the guard on the next allocation compares its
  start with the current ticket only (xrpl-bridge/src/lib.rs:665-697), so it may overlap the current
  bucket; root may set a ticket outside any bucket.
* **C37** `C37_dropped_refuted`: a released payment the codec rejects is dropped after the account was
  charged (1046-1061 ignores the result).
* **C38** `C38_drops_refuted`: XRP amounts above 2^64-1 drops saturate (1507-1543).
* **C39** `C39_shared_refuted`, `C39_stale_refuted`: `set_xrpl_asset_map` (808-832) checks neither direction.
* **C76** `C76_challenge_refuted`: anyone can challenge any hash for free (509-516) and nothing resolves a
  challenge. `C76_failed_refuted`: a deposit that failed at processing counts as settled.
* **C77** `C77_halt_refuted`: the list of settled transactions per ledger is bounded per ledger but filled
  over several blocks; the `expect` in `process_xrp_tx` (889-947) then panics in `on_initialize`.
* **C47** `C47_truncated_refuted`: the XLS-20 mint fee is cut to 32 bits (xls20/src/lib.rs:307-308).
* **C85** `C85_mapped_collection_refuted`, `C85_burnable_refuted`: a collection mapped by root lets a deposit
  pass to the owner of an existing serial; burnable tokens stay at the door without an NFT.
* **C86** `C86_native_refuted`: a native NFT withdrawn to the XRPL comes back as another serial of a new
  collection (xls20/src/lib.rs:368-425).

### Pegs

* **C40** `C40_remap_refuted`: governance maps a token onto an asset in use.
* **C41** `C41_zero_delay_refuted`: `set_payment_delay` accepts 0, the payment is put under the current
  block. `C41_failed_lost_refuted`: a release that fails is not retried (erc20-peg/src/lib.rs:631-665).
* **C55** `C55_partial_failure_refuted`, `C55_big_id_refuted`, **C90** `C90_big_id_refuted`: the NFT peg stops at
  the first failing group of a message and saturates token ids to 32 bits (nft-peg/src/lib.rs:220-394).

### Futurepass, maintenance, fees, doughnuts

* **C78** `C78_short_refuted`: `proxyCall` with fewer than four bytes of call data panics
  (/repo/evm-precompiles/futurepass/src/lib.rs:313, /repo/runtime/src/impls.rs:746).
* **C80** `C80_full_refuted`: with 32 delegates the new owner cannot be added (futurepass/src/lib.rs:415-461).
* **C45** `C45_fee_proxy_refuted`: the runner checks the target before the fee proxy replaces it
  (fee-proxy/src/runner.rs:301, 320).
* **C82** `C82_xrpl_and_doughnut_refuted`: validation of XRPL-signed and doughnut transactions leaves out the
  maintenance check. **C84** `C84_precompile_refuted`: precompiles that call a pallet's function directly are
  not filtered.
* **C91** `C91_big_pool_refuted`: pools beyond 2^117 units refuse quoted trades (U256 overflow in the check of
  the product). **C93** `C93_refund_to_payer_refuted`: the refund goes to the delegate who signed, not to the
  paying futurepass (fee-proxy/src/impls.rs:163-184, admitted in a comment there). **C94**
  `C94_huge_price_refuted`, `C94_huge_gas_refuted`: validation panics on huge gas prices or limits.
  **C95** `C95_nested_ignored_refuted`: a nested fee preference succeeds without effect.
* **C52** `C52_truncated_refuted`: the amount shown to the permission is `as u64`
  (/repo/runtime/src/impls.rs:979). **C53** `C53_trailing_refuted`: revocation is keyed by the hash of the raw
  bytes; an appended byte decodes to the same doughnut.

* **C87** `C87_replay_refuted`, **C111** `C111_replay_refuted`: replay protection is the account nonce
  (doughnut/src/lib.rs:224-283, xrpl/src/lib.rs:207-269), and frame_system deletes the nonce with the
  account when its last balance goes. A signer who empties the account and is funded again can have
  an old message executed again by anybody, for XRPL messages until their last block, for doughnuts
  until they expire. Condition: no `KilledAccount` event for the account.
* **C113** `C113_hidden_refuted`: `get_extrinsic_data` (xrpl/src/types.rs:154-206) gives up at the first
  memo whose type is not UTF-8, although the extrinsic memo follows.
* **C114** `C114_empty_key_refuted`: `signing_pub_key[0..2]` (xrpl/src/types.rs:122) is out of range for
  the empty key that multi-signed XRPL transactions carry; the runtime call traps.
* **C115** `C115_raddr_refuted`: `r_address` of the event is the `Account` field of the message
  (xrpl/src/lib.rs:475-480), which the signer chooses freely; nothing compares it with the key.

* **C119** `C119_linear_refuted`: pointers of array items are only checked to lie inside the input
  (data/mod.rs:183-195), so all inner arrays of `uint256[][]` may share one body; the reader copies it
  for each. `erc721_withdraw` (peg/src/lib.rs:173-186) reads its arguments before any gas depending on
  them is recorded, and bounds the arrays only afterwards.
* **C120** `C120_dirty_refuted`: `Address::read` (data/mod.rs:391-401) takes `data[12..32]`, `bool::read`
  (466-471) tests for non-zero, where Solidity contracts revert. The value the precompile acts on is
  still in range (C118).

* **C123** `C123_logs_refuted`: `create_token` (erc1155/src/lib.rs:852-906) credits the initial issuance
  but leaves only a TokenCreated log.
* **C124** `C124_batch_refuted`, `C124_batch_never`: the batch acceptance check (524-560) calls
  `onERC1155Received` and expects the magic value of `onERC1155BatchReceived`. `C124_panic_refuted`:
  `output[..4]` (445, 550) panics when the contract answers fewer than four bytes, as any contract with
  an empty fallback function does. `C124_before_refuted`: the check runs before the transfer, where the
  standard requires the balances to be updated first. `C124_mint_refuted`: mints (908-1011) do not ask.
  The receiver sees the operator, not the collection, as `msg.sender` (`sub_context`, 433), so it cannot
  tell which collection sends the tokens.
* **C125** `C125_static_refuted`, `C125_static_others_refuted`: the match of 159-170 omits createToken,
  setMaxSupply, setBaseURI, transferOwnership and renounceOwnership, which are therefore `View`.

* **C126** `C126_missing_refuted`: `get_approved` (erc721/src/lib.rs:575-601) and `token_uri` (691-717)
  do not look whether the token exists; EIP-721 requires both to throw.
* **C128** `C128_approval_log_refuted`: `approve` (524-573) logs the caller as the owner, also when an
  operator approves.
* **C129** `C129_logs_refuted`: collections created with an initial issuance, extrinsics and bridge mints
  leave no Transfer log; `transferFrom(.., 0, ..)` is accepted and logged like a burn, but address 0 then
  owns the token.
* **C130** `C130_static_refuted`: `Burn` is missing from the `NonPayable` list (170-187).
  `C130_panic_refuted`: `output[..4]` (491) on a short answer, and `expect("Should not fail")` (1140) when
  more than `MaxTokensPerXls20Mint` serial numbers are given by any caller.
* **C131** `C131_trn721_refuted`: the id of TRN721 is computed from `setMintFee(address,uint256)`, as the
  README says, but the precompile matches `setMintFee(address,uint128)`.
* **C132** `C132_arguments_refuted`: the receiver is called with (from, to, id, data) (480-485) instead of
  (operator, from, id, data). `C132_before_refuted`: it is called before the transfer.
  `C132_reentrant_refuted`: authorisation is checked before the receiver runs and not again after (the same
  as C63, now with the calls of both contracts given as bytes).
- **Exchange contract, `...ETH` functions (C138).** The EVM moves the attached value to the precompile's address before the precompile runs; the precompile then uses `context.apparent_value` as the *amount* of a second transfer from the caller, in base units (drops) though the value is in wei, and of the first asset of the path, which is not compared with the gas token. `C138_value_is_the_payment_refuted`: with 10000 wei attached the caller pays 1 drop to 0xDDDD and 10000 drops to the pool. `C138_sells_the_gas_token_refuted`: with the path [1, 2] the 10000 are taken of asset 1. `C138_stuck`: nothing leaves 0xDDDD. `evm-precompiles/dex/src/lib.rs:232-292, 556-623, 765-832`; the end-to-end tests of these functions are skipped.
- **Exchange contract, logs (C137).** `log3`/`log4` put the amounts into topics and the recipient into the data, so no log decodes as the `Mint`, `Burn` or `Swap` the README declares (`C137_readme_events_refuted`), and `Mint`/`Burn` list the amounts in the order of the call (`C137_amount_order_refuted`).
- **Exchange contract, answered amounts (C136).** `addLiquidity` returns and logs the pool's surplus as paid by the caller (`C136_answer_is_payment_refuted`).
- **Marketplace contract, interface (C140).** The README and the end-to-end ABI publish eighteen functions; ten (`sellNft`, `sellNftWithMarketplaceId`, `sellSft`, `updateFixedPrice`, the three auction functions, `bid`, both offer functions) have parameter types that differ from the signatures in `Action`, so their selectors are unknown to the contract and every call fails (`C140_published_refuted`). `evm-precompiles/marketplace/src/lib.rs:100-140`.
- **Marketplace contract, marketplace id 0 (C143).** Sales turn 0 into `None` (lines 302-305, 408-411), auctions and offers pass `Some(0)`. So an auction without a marketplace fails when none is registered (`C143_auction_impossible_refuted`) and pays marketplace 0 otherwise (`C143_auction_zero_refuted`), while a sale can never pay marketplace 0 (`C143_first_unnamed`).
- **Marketplace contract, out-of-range numbers (C143).** `makeSimpleOffer` converts the id with `saturated_into` and `make_simple_offer` does not check it: the offer names marketplace 2^32-1, and cannot be accepted until there is one (`C143_offer_refuted`). `registerMarketplace` caps an entitlement of more than 100% at 100% (`C143_share_refuted`), where the extrinsic's type admits none.
- **Marketplace contract, SFT listings (C144, C145).** `split_listing_tokens` drops the quantities, and the kind of listing says `..._for_nft` for SFTs: sales of 1 and of 50 tokens at the same price have the same view (`C144_quantities_refuted`) and the same auction event (`C145_quantities_refuted`).
- **Marketplace contract, sale event (C145).** The `sender` of `FixedPriceSaleComplete` is the listing's seller; the buyer is not in the log (`C145_sender_refuted`). `MarketplaceRegister` logs the zero address when the caller registers itself (`C145_account_refuted`).
- **Futurepass deposits (C151).** `remove_delegate` and `remove_account` pay the deposit to the caller that removes, not to the one who paid (`runtime/src/impls.rs:621-663`, whose comment speaks of the "potential funder"): an owner registers a delegate for 126, the delegate unregisters itself and receives the 126 (`C151_payer_refunded_refuted`). The existential deposit that the creator pays is never returned (`C151_create_renounce_refuted`).
- **DELEGATECALL to a futurepass (C152).** `runtime/src/precompiles.rs:92-97` lets futurepasses be called by DELEGATECALL, and every function authenticates `handle.context().caller` (`evm-precompiles/futurepass/src/lib.rs:300-331, 626-651`), which then is the account that called the contract. A contract that the owner of a futurepass calls for any purpose can DELEGATECALL `transferOwnership(attacker)` or `proxyCall` (`C152_delegatecall_refuted`).
- **Futurepasses in read-only calls (C153).** `execute` (149-178) has no `check_function_modifier`; state changes go through in a STATICCALL, and call type 0 of `proxyCall` passes the value on (`C153_static_refuted`).
- **The futurepass called is not the one changed (C154).** `transfer_ownership` and `renounce_ownership` (596-651) name the caller's own futurepass and log `OwnershipTransferred` at the address called (`C154_address_refuted`). `delegateType` shows the smaller of two entries of an owner that was a delegate (`C154_delegateType_refuted`).
- **Consent (C156).** The signature has a deadline but no nonce (`C156_replay_refuted`); the documented message (`pallet/futurepass/src/lib.rs:246-252`) is not the one checked (570-615) (`C156_documented_refuted`).
- **Re-entry through a new EVM (C157).** `do_proxy` runs `Runner::create` for call types 3 and 4 (`evm-precompiles/futurepass/src/lib.rs:450-583`); the recursion levels of the precompile set start from zero there (`C157_reentry_refuted`).
- **Delays count per withdrawal (C159).** The minimum of `set_payment_delay` is compared with one amount (`pallet/erc20-peg/src/lib.rs:522-568`); several withdrawals just below it in one block go out at once, by extrinsic or contract (`C159_split_refuted`).
- **The limits on NFT withdrawals cannot be used (C160).** `MaxCollectionsPerWithdraw` 10 and `MaxSerialsPerWithdraw` 50 (`runtime/src/lib.rs:1214-1218`) suggest 500 tokens; the message needs 5 + 3 m + n words and `MaxEthData` allows 100, so that two collections of 50 are refused with `MessageTooLarge` (`C160_limits_refuted`). Blocked tokens of one collection (at most 50, 58 words) can always be reclaimed.
- **Royalties above 100% are capped silently (C165).** The contracts turn an entitlement into parts per million with `saturated_into` and `Permill::from_parts` (`evm-precompiles/nft/src/lib.rs:141-150`, sft 128-137): 2,000,000 is accepted and stored as 100% (`C165_entitlement_refuted`), while the sum check sees the capped value.
- **The creation contracts' documentation (C165).** Both READMEs declare `is IERC165`, but the only selector is `initializeCollection` (`C165_interface_refuted`); the SFT README gives the NFT contract's address 0x06b9 although the contract is at 0x06c3 (`evm-precompiles/utils/src/constants.rs:33`), so that following it always fails (`C165_sft_address_refuted`).
- **A block can spend more on a migration than it has left (C168).** `migrate` stops only if the limit is below one step *in both dimensions* (`all_lt`, `pallet/migration/src/lib.rs:229`), and `MAXIMUM_BLOCK_WEIGHT` has a proof size of `u64::MAX` (`runtime/src/lib.rs:198-199`), so that the check never holds back; the loop (260) looks at the weight already used, not at the next step. With the base weight and one unit left, a step is made all the same (`C168_overshoot_refuted`).
- **Interrupted migrations make the next one skip items (C169).** `on_runtime_upgrade` (144-167) never clears `LastKey`. An upgrade away from a running migration, or to another one, leaves it; the next migration starts from that key, leaves out all items before it, and is announced complete (`C169_abandoned_refuted`, `C169_replaced_refuted`).
- **Anyone can block validators' witnesses (C172).** `validate` checks the signature on the digest only (`ethy-gadget/src/gossip.rs:166`), while `event_id`, `block_number`, `chain_id` and `validator_set_id` of the `Witness` are unsigned. A peer that has seen any signature of a validator can send it under the id of a coming event: the node notes the validator as known for that event and discards the real witness (`C172_replay_refuted`), even if the forged one states an old block and is itself discarded, as it is noted before the window is looked at (`C172_thrown_away_refuted`, 168-187). One signature sent under ever new ids also fills `known_votes`, which is only cleared by completion (`C172_flood_refuted`).
- **Which completed events are forgotten (C171).** `mark_complete` drops the *smallest* id of the sorted cache, before looking whether the event is there already (`gossip.rs:108-118`). A late event with a small id is forgotten at the very next completion (`C171_latest_refuted`), and a repeated completion forgets another event (`C171_again_refuted`).
- **Rebroadcasts can be starved (C173).** `message_allowed` moves `next_rebroadcast` on whenever it is called, although only `PeriodicRebroadcast` uses the turn (`gossip.rs:231-240`): an ordinary round just before uses it up (`C173_starved_refuted`).
- **The NFI upgrade makes up an entry (C174).** `migrate` inserts the new keys into the very map it iterates over in the old format (`runtime/src/migrations/nfi.rs:127-144`; the aliases at 93-112 name the same item). Whenever a new key hashes behind the current one, the iterator returns it, and reads the chain id at its beginning as an old token id. With chain id 7672 the unit test's own token (1124, 123) leaves data for token (7672, 0), and its collection 123 enables collection 7672 (`C174_phantom_refuted`; the hash order is that of the real XXH64); data that token had may be replaced (`C174_overwritten_refuted`). On this chain collection ids end in the world id 100, so that 7672 is not an existing collection; the made-up entries stay as long as nobody removes them. The old entries stay as well (`C174_old_stay`), as nothing removes them.
- **Imbalances do not compare assets (C176).** `merge`, `subsume` and `offset` keep the asset of `self` and ignore the other's (`assets-ext/src/imbalances.rs:124-144, 176-196`), and `zero()` and `default()` are of asset 0 (106-108). `zero().merge(x)` therefore loses `x`: the issuance stays too high for good (`C176_zero_refuted`), and merging two assets corrects the wrong one (`C176_mixed_refuted`). All uses in the repository have the order that works (C178): `on_unbalanceds` calls `x.merge(i)`, and `paid.offset(refund)` keeps the asset of what was paid.
- **Saturating drops, and dust (C176).** `Drop` saturates (202-236), so that with deposits pending the order of drops matters (`C176_order_refuted`). With a minimum balance over 1, `withdraw` removes what is left below it, but returns an imbalance of the stated value only (`impls.rs:151-177`, `C176_dust_refuted`); XRP's minimum is 1.
- **Forcing the balance of a frozen account (C177).** `make_free_balance_be` takes `free_balance`, which is 0 for a frozen account, as its balance, and deposits the stated amount on top (`impls.rs:211-231`, `C177_make_frozen_refuted`). Frontier calls it only if the minimum balance is 0.
- **A forced era leaves the bridge with the old validators (C182).** `ForceNew` is taken by `is_active_session_final` (`runtime/src/impls.rs:377-381`) to mean that the present session is the era's last. But pallet-staking only plans the new era when that session ends, and it begins one session later; by then `ForceNew` is reset and the session count does not match, so that in the true last session nothing is announced and nothing installed. At the end of the forced session the keys of the *old* era are announced and installed again under a new id; the new validators become notaries only when their own era ends (`C182_forced_refuted`, with the runtime's numbers). `ForceNew` is also set without root, when 17% of validators have offended (`runtime/src/lib.rs:898`), which is when a new set is needed most. An era that ends late because an election failed or eras were suspended is missed likewise, since the session index is compared for equality (impls 367-370, `C182_late_refuted`).
- **More than 97 validators (C181).** The announcement has 96 + 32n bytes, and `send_event` refuses more than `MaxEthData` = 3200 (`runtime/src/lib.rs:1033`); `MaxAuthorities` is 4096. `handle_authorities_change` ignores the error, pauses all the same, and the set is installed without Ethereum ever being told (`C181_many_refuted`).
- **A forced era that is called off (C181, C183).** If root goes back from `ForceAlways` after the announcement but before the session's end, the bridge stays closed until an era ends (`C183_stuck_refuted`), and the next installation may be of keys that were never announced, because `AuthoritiesChangedThisEra` is still set (`C181_withdrawn_refuted`).
- **Pings (C179).** Sessions are cut to 64 bits on receipt (`echo/src/lib.rs:164`), and `verify_source` accepts everyone (145-149), as its comment says for testing; the pallet is in the production runtime.
- **Length fees wrap (C184).** `length_multiplier * length` is a plain `u128` product (`fee-control/src/lib.rs:136-138`), and root may set any multiplier.
- **The doors do not follow root's whitelist (C185).** `set_xrpl_door_signers` recomputes `NotaryXrplKeys` at once (`ethy/src/lib.rs:801`), but requests no `SignerListSet`; and `handle_authorities_change` compares the next signers with `NotaryXrplKeys`, not with what the XRPL was told, finds them unchanged and requests nothing (`impls.rs:872-879`). So the doors keep the old list for as long as the validators stay. After the next change of authorities the gadgets wait for all but one of the *new* signers, which need not meet the doors' quorum if signers were taken off (`C185_set_refuted`): withdrawals already burned on this chain then get proofs that the XRPL rejects. A signer taken off the whitelist stays a signer of the doors.
- **A failed request is not repeated (C185).** If a door has no ticket (or no address) at the announcement, the error is logged and the set is installed; next time the keys are "unchanged" (`C185_failed_refuted`). The first door may have been told and the second not, since the hook is not transactional, while the event says the request failed.
- **A change of signers during a manual pause (C185).** The requests are delayed (`impls.rs:947-953`), and so signed by the notaries installed meanwhile. If two or more signers were replaced, the doors' old quorum is not met and the doors are lost to the bridge (`C185_paused_refuted`).
- **Two signers or fewer (C187).** The quorum is the number of signers minus one (`xrpl-bridge/src/lib.rs:1761`): one of two signers can empty the doors; with one signer the quorum is 0, which the XRPL refuses.
- **Root's limit on new signers, and nodes that disagree (C186).** `(new_signers.len() as u8) < 20` lets 256 through (`ethy/src/lib.rs:793`). "Always query the chain state incase the authorized list changed" (`ethy-gadget/src/worker.rs:166`) is not what happens: the list is read with a new validator set only (277-293).
- **Proofs over RPC (C189).** `build_xrpl_tx_proof_response` filters by the XRPL signers *at the block of the request*, the gadgets by those of the last change of authorities. After `set_xrpl_door_signers` has taken signers off the list the answer therefore drops signatures that the doors, which still have the old list, need: withdrawals stop at once (`C189_enough_refuted`, with C185). Both builders ask the runtime at that block and give `null` when a node has pruned its state, although the proof is in its database (`C189_pruned_refuted`; the default keeps 256 blocks). `subscribe_event_proofs` sends proofs for the XRPL in the form for Ethereum, with all notaries' signatures and no mark (`C189_sent_refuted`).
- **Tokens answer at 2^96 addresses, and re-entrancy is refused per address (C190, C191).** `evm_id_to_runtime_id` reads four bytes of prefix and four of id and ignores the other twelve (`runtime/src/impls.rs:266-283`). So `0xCCCCCCCC 00000002 …` is XRP for every ending (`C190_alias_refuted`), without code at those addresses, and to contracts and indexers these are different tokens. `PrecompileSetStartingWith` counts recursion by `code_address` (`precompile_set.rs:352-365`), so a receiver called by `safeTransferFrom` of a collection can call the same collection at another of its addresses, though the limit is meant as "re-entrancy protection" (`precompile_set.rs:70-73`; `C191_token_refuted`).
- **An account that sends all its XRP away forgets its nonce, and its old Ethereum transactions run again (C192).** XRP is a sufficient asset with minimum balance 1 (`client/src/chain_spec.rs:163`), fees and values are taken with `AllowDeath` (`runtime/src/impls.rs:841-857`, `assets-ext/src/impls.rs:121-170`), and nothing reacts to a removed account (`runtime/src/lib.rs:318`). When the balance reaches zero, pallet-assets drops the last reference and frame-system removes the record, nonce included. A transaction of value "balance less gas times price" does it while it runs; the refund then makes a new record with nonce 0. Ethereum transactions name no last block, so anybody can resubmit the sender's transactions from nonce 0 on once there is XRP on the account again (`C192_replay_refuted`: bob is paid twice). Accounts with ROOT are safe (`C192_with_root`).
- **Transactions can be in blocks for free, again and again (C193).** `with_balance_for` asks for no balance if the target is the fee proxy (`runtime/src/impls.rs:455-468`), and the runtime's own `transaction_asset_check` is run for the pool only, not in `pre_dispatch_self_contained` (`runtime/src/lib.rs:2216-2226`). The runner then refuses undecodable input, unknown assets or a failing swap with an error (`pallet/fee-proxy/src/runner.rs:306-372`), which undoes everything: no fee, same nonce. So a block author can fill blocks with one transaction of an account that holds nothing (`C193_free_refuted`). Likewise a transaction of an account blocked by maintenance passes all checks, also the pool's, and is refused in the runner (runner.rs:294-301), so it stays valid and is included for nothing as often as it is submitted (`C193_blocked_refuted`).
- **A string of one character given to the exchange's RPC panics (C194).** `visit_str` takes `&s[2..]` without looking at the length (`pallet/dex/src/types.rs:109-120`), so `dex_getAmountsOut("1", [1, 2])`, or any string of under two bytes or with a longer character across the second byte, panics while the parameters are read (`C194_panic_refuted`). The panic handler that Substrate's command line installs (outside the repository) ends the process on a panic, so anybody who reaches the RPC port could stop the node. The first two characters are not compared with "0x": the decimal number 1000000000000000000000000000000005 is taken for 5 (`C194_misread_refuted`). Hex must have exactly 32 digits (`C194_short_hex_refuted`). `quote` answers with `low_u128` (`runtime/src/lib.rs:1662-1668`), so a quote of 2^128 is shown as 0 (`C194_quote_refuted`).
- **Contracts that a futurepass creates run for free (C195).** `do_proxy` starts another EVM with all remaining gas for Create and Create2, non-transactional and without a price, and never records its `used_gas` (`evm-precompiles/futurepass/src/lib.rs:434-545`). So a transaction that calls `proxyCall` in a loop has constructors run with up to the remaining gas each, for the price of the call: `C195_create_refuted`, for any number of times; with the chain's limits one transaction does the work of 90 blocks (`C195_example`), and constructors may do it again. Authors could not finish blocks in time.
- **Failing dispatches cost no gas (C195).** `try_dispatch` compares the declared weight with the gas left, but records gas after success only (`evm-precompiles/utils/src/substrate.rs:59-93`), though its comment says costs are always recorded "to avoid unmetered computations". A contract that catches the revert can have a failing call done again and again with the same gas (`C195_failed_refuted`). Functions that record the weight first ("Manually record gas") are not affected.
- **An error of the Ethereum node counts as an answer (C196).** `EthResponse` has no field for errors and its `result` is optional (`pallet/ethy/src/types.rs:440-445`), so `{"jsonrpc":"2.0","id":1,"error":...}` with code 200, the usual way to report rate limits or missing blocks, is read as "no result". `eth_call` turns this into empty data (`ethereum_http_cli.rs:56`), reported as the outcome `ReturnDataEmpty`; a receipt becomes "no such transaction", so the notary votes against the claim for good although the code distinguishes `DataProviderErr` (`C196_error_refuted`; what such votes do is `C106_early_vote_refuted`). The id of the answer is not looked at, result strings that are not hex end the worker (`expect("it is hex")`, types.rs:617), and `u8::from_str_radix` accepts "+f" (`C196_plus_refuted`).
- **Rewards for stakers would be minted, not paid from fees (C197).** `era_payout` gives staking the era's fees, which are XRP, as an amount of its currency, which is ROOT (`pallet/tx-fee-pot/src/lib.rs:178-188`, `runtime/src/lib.rs:912-926`). The handler of rewards withdraws as much ROOT from the pot "to prevent unwanted changes in Root token issuance", but the pot only ever receives XRP, so the withdrawal fails, which is merely logged, and the rewards are new ROOT (`C197_minted_refuted`). The call filter keeps everybody but root from it at present (`C197_filtered`).
- **A node that fails once to read a parent, or to ask the runtime, does not make up for it (C198).** Blocks skipped by finality notifications are caught up with through their headers, but after a failed look-up the worker still moves its last block on to the new one (`ethy-gadget/src/worker.rs:254-273, 312`), and everything in between is then "old" (`C198_missing_refuted`). In the same way a runtime call that fails at the block with the change of notaries (the state of a block caught up with may be pruned) leaves the old set in place until the next change, since later blocks do not ask (`worker.rs:276-299`, `C198_mute_refuted`): the node witnesses under the wrong set id and refuses the new notaries.
- **One undecided challenge stops all that follow, and one without a relayer is lost (C199).** Workers look only at the first entry of `PendingClaimChallenges` (`CLAIMS_PER_BLOCK` is 1, `pallet/ethy/src/lib.rs:87`, `impls.rs:273`) and skip it once they have voted. A vote that ends in the gap of C71 (15 to 8 among 23 notaries) therefore keeps every later challenge from being looked at, for good (`C199_blocked_refuted`). And `handle_valid_claim` takes a claim out of the queue before it finds that there is no relayer (`impls.rs:686-715`), as after an earlier claim was found wrong and the relayer slashed: the claim stays `Challenged`, is put off at every due block and voted on by nobody, also under a new relayer, and the challenger's bond stays held (`C199_orphan_refuted`).
- **A validator without a notary key can stop all eth_calls (C200).** `handle_call_notarization` compares the votes with the number of validators (`pallet/ethy/src/impls.rs:789`), while only holders of notary keys vote. With five validators, four of them notaries, a vote of three to one is short of 66% but could reach it with a fifth vote that nobody can cast, so the request is never answered; workers take only the first of the queue (`CALLS_PER_BLOCK` is 1, `lib.rs:89`) and have all voted on it, so no later request is looked at (`C200_stuck_refuted`). Workers do go on, as 80% of validators have notary keys (`lib.rs:688-701`).
- **Late witnesses of an early event are in vain, also when every node does its part (C201).** The gap of C50 shows up in a network where all nodes follow the chain and everything sent arrives: if witnesses of event 3 arrive after the proofs of 4 to 7 were made, `compact_sequence` counts 3 as completed and they are refused (`C201_late_refuted`).
- **Requests delayed by a pause can be refused by all the notaries who should sign them (C201).** While the bridge is paused, requests wait in `PendingEventProofs` (`pallet/ethy/src/impls.rs:950-954`); afterwards up to five a block are drained, in the order of the map's hashes (`lib.rs:653-667`), while new requests go out at once, so ids do not grow along the chain. A node's record is empty when it starts (`ethy-gadget/src/worker.rs:105-136`). If the nodes were restarted during the pause and then complete events 4 and 5, each takes event 3 for completed (`witness_record.rs:172-185`) and refuses its own witness, which `handle_witness` then does not gossip (`worker.rs:322-325`): nobody ever has the proof of 3 (`C201_delayed_refuted`). With ids that grow this cannot happen (`C201_sent`), nor at a node that has a proof of any earlier event (`C201_sent_after`).

### Seen while modelling, not stated as properties

* The call filter refuses `Staking::bond` with payee `Staked`, "as it does not make sense in a dual-currency context", but not `Staking::set_payee` with `Staked` (`runtime/src/lib.rs:247-252`), so any staker can still choose it.
* `EthereumSignature::verify` takes a wallet's signature on `m` also as a plain signature on `"\x19Ethereum Signed Message:\n" + len + m` (`primitives/src/signature.rs:120-137`). It does no harm only because 0x19 is the bridge pallet's index and that pallet has no function 0x45 (C188).
* `NextNotaryKeys` is empty during the very first session (`ethy/src/impls.rs:992-1009`); an era forced then would announce and install an empty set of notaries.
* `set_xrpl_door_signers` compares `len() as u8` with the maximum (`ethy/src/lib.rs:793`), so that 256 new signers pass.
* `AssetCurrency::ensure_can_withdraw` demands that the new balance be at least the present free balance (`assets-ext/src/impls.rs:134-146`), so that it refuses every withdrawal; nothing in the repository calls it.
* Root's `set_chain_id` (`evm-chain-id/src/lib.rs:88-96`) leaves NFI data stored under the earlier chain id where it is.
* Anyone may create a collection in another account's name, from the EVM: the owner is an argument and need not be the caller (`evm-precompiles/nft/src/lib.rs:101-125`). The owner pays nothing and can do with it as with any other.
* A new futurepass owner who was an `Any` delegate keeps that entry, which comes first.
* A doughnut permission does not see which futurepass is the source; limits are per transaction.
* XRPL proofs carry signatures of validators that are not XRPL signers; after a change of the set,
  signatures of the old set still count (`C49_needs_unchanged_set`).
* Bridged mints ignore the mintable switch (C101 lists them as their own case).
* The first deposit of an unknown ERC-20 token is never delayed and may come from either peg
  contract (erc20-peg/src/lib.rs:725-760).
* `on_event` of the NFT peg slices 32 bytes and panics on shorter data.
