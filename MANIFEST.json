{
 "claims": [
  {
   "property": "C01",
   "status": "proved",
   "theorems": [
    "C01_swap_supply_keeps_product",
    "C01_swap_target_keeps_product",
    "C01_history_keeps_product",
    "C01_leg_pays_fee"
   ],
   "note": "For every reachable state of the exchange, every path and amount, and every pair (on the path or not); also over whole histories without removals."
  },
  {
   "property": "C02",
   "status": "proved",
   "theorems": [
    "C02_quote_sufficient",
    "C02_quote_usable",
    "C02_quote_tight"
   ],
   "note": "Stated for answers below the saturation value 2^128-1; the saturated answer is shown insufficient by C02_saturated_quote_refuted, beyond the claim. Usability of the answer (no 256-bit overflow in the forward formula) is proved for answers up to 2^118."
  },
  {
   "property": "C03",
   "status": "proved",
   "theorems": [
    "C03_exact_supply",
    "C03_exact_target",
    "C03_supply_price",
    "C03_target_price"
   ],
   "note": "Effect on every non-pool account and asset, except LP shares of the protocol fee receiver (which may also receive fees). Failing calls return the old state because extrinsics are transactional (trusted)."
  },
  {
   "property": "C04",
   "status": "proved",
   "theorems": [
    "C04_share_value_never_falls"
   ],
   "note": "Any history from any reachable state with the fee receiver unset throughout."
  },
  {
   "property": "C05",
   "status": "proved",
   "theorems": [
    "C05_never_drained"
   ],
   "note": ""
  },
  {
   "property": "C06",
   "status": "proved",
   "theorems": [
    "C06_round_trip_not_profitable"
   ],
   "note": "Assumes nobody has donated tokens to the pool account outside the exchange (synced); a donation would be shared among providers."
  },
  {
   "property": "C07",
   "status": "partial",
   "theorems": [
    "C07_fee_at_most_sixth",
    "C07_adding_not_charged",
    "C07_removing_not_charged",
    "C07_toggle_refuted"
   ],
   "note": "Proved for histories in which the fee receiver stays set; false when it is unset and set again (stale remembered product), see C07_toggle_refuted."
  },
  {
   "property": "C08",
   "status": "proved",
   "theorems": [
    "C08_conservation"
   ],
   "note": "Non-LP assets; the only excluded operation is minting by the rest of the chain."
  },
  {
   "property": "C09",
   "status": "proved",
   "theorems": [
    "C09_rounds_up",
    "C09_zero_iff",
    "C09_monotone",
    "C09_round_trip",
    "C09_total"
   ],
   "note": "All amounts and all decimals 0..18; more than 18 decimals makes the scaler panic (asset creation forbids it; C09_too_many_decimals_refuted, beyond the claim)."
  },
  {
   "property": "C10",
   "status": "proved",
   "theorems": [
    "C10_ids_unique",
    "C10_exhaustion_reported"
   ],
   "note": ""
  },
  {
   "property": "C100",
   "status": "proved",
   "theorems": [
    "C100_nft_settings",
    "C100_sft_settings"
   ],
   "note": "Every operation of the two pallets and their precompiles that the models contain. Names, royalties and metadata of collections are not modelled."
  },
  {
   "property": "C101",
   "status": "proved",
   "theorems": [
    "C101_nft_transfers_off",
    "C101_nft_burns_off",
    "C101_nft_mints",
    "C101_soulbound",
    "C101_sft"
   ],
   "note": "Histories in which the bridge mints only into collections that are not root-native, as in C15. Bridged mints ignore the mintable switch and are listed as a separate case of the statement."
  },
  {
   "property": "C102",
   "status": "proved",
   "theorems": [
    "C102_deposit",
    "C102_withdrawal",
    "C102_release"
   ],
   "note": "The zero-based ABI decoding of the event and the bridge's acceptance of a 96-byte message are taken for granted. If all 2^64 payment ids are used up a delayed payment is dropped with an event (stated as its own outcome)."
  },
  {
   "property": "C103",
   "status": "proved",
   "theorems": [
    "C103_life",
    "C103_announced",
    "C103_terms_fixed",
    "C103_part_open",
    "C103_redeem_after"
   ],
   "note": ""
  },
  {
   "property": "C104",
   "status": "proved",
   "theorems": [
    "C104_reads",
    "C104_logged",
    "C104_documented",
    "C104_too_long",
    "C104_one_reading"
   ],
   "note": "Ids above 64 bits saturate to the largest id (stated in C104_reads). Offsets and lengths are unbounded numbers; on a 32-bit target additions of offsets near 2^32 are ethabi's business and not modelled."
  },
  {
   "property": "C105",
   "status": "proved",
   "theorems": [
    "C105_valid_means_emitted",
    "C105_sent_to_source",
    "C105_one_claim_per_transaction"
   ],
   "note": "The node's answers are arbitrary; whether they are true of Ethereum is outside the model."
  },
  {
   "property": "C106",
   "status": "partial",
   "theorems": [
    "C106_genuine_partial",
    "C106_second_event_refuted",
    "C106_through_a_wallet_refuted",
    "C106_documented_layout_refuted",
    "C106_documented_layout_never",
    "C106_early_vote_refuted"
   ],
   "note": "True for the first bridge event of a transaction sent straight to the source, in the four-argument layout, with enough confirmations at the moment of the vote. False for the second bridge event of a transaction (only the first log with the topic is examined), for transactions through another contract, for events in the five-argument layout that submit_event documents, and when the vote is made early: NotEnoughConfirmations and DataProviderErr are sent as votes, count as rejections and cannot be changed, so the relayer loses its bond for a genuine event."
  },
  {
   "property": "C107",
   "status": "proved",
   "theorems": [
    "C107_no_false_claim",
    "C107_no_false_rejection",
    "C107_valid_was_emitted"
   ],
   "note": "Dishonest keys are a fixed list covering every key that ever votes dishonestly, so departed notaries count too (see C32_stale_votes_refuted). An honest notary votes what the model of the off-chain worker computes from some node."
  },
  {
   "property": "C108",
   "status": "partial",
   "theorems": [
    "C108_answer",
    "C108_answers",
    "C108_short_data_refuted"
   ],
   "note": "Everything holds except the last sentence: non-empty return data shorter than 32 bytes is reported as ReturnDataExceedsLimit."
  },
  {
   "property": "C109",
   "status": "partial",
   "theorems": [
    "C109_head_partial",
    "C109_only_open",
    "C109_own_index",
    "C109_starved_refuted"
   ],
   "note": "Only the first challenge in the queue is looked at, and skipped when already voted on, so an undecidable first challenge starves all later ones (reachable witness)."
  },
  {
   "property": "C11",
   "status": "proved",
   "theorems": [
    "C11_vectors_sorted",
    "C11_isolated",
    "C11_conserved",
    "C11_place_effect",
    "C11_release_effect",
    "C11_spend_effect",
    "C11_always_available"
   ],
   "note": "Histories in which no single list of spends sums above 2^128-1 (the u128 sum would wrap). C11_always_available additionally needs that the vault account is never the target of an admin burn; C11_admin_burn_refuted shows why."
  },
  {
   "property": "C110",
   "status": "proved",
   "theorems": [
    "C110_signed",
    "C110_failed"
   ],
   "note": "Decoder, signature checks, hash and account derivation are arbitrary functions; CheckWeight and versions omitted."
  },
  {
   "property": "C111",
   "status": "partial",
   "theorems": [
    "C111_once_partial",
    "C111_replay_refuted"
   ],
   "note": "Proved, using the ownership invariant of futurepasses, as long as the account of the signer is not removed from the chain and its nonce does not wrap; refuted otherwise: an emptied account loses its nonce and old messages run again until their last block."
  },
  {
   "property": "C112",
   "status": "proved",
   "theorems": [
    "C112_payer"
   ],
   "note": "The amount of the fee is arbitrary; the swap made by call_with_fee_preferences is not part of it."
  },
  {
   "property": "C113",
   "status": "partial",
   "theorems": [
    "C113_read",
    "C113_unambiguous",
    "C113_hidden_refuted"
   ],
   "note": "Proved for memos that are valid UTF-8; a memo of another kind in front hides the extrinsic memo."
  },
  {
   "property": "C114",
   "status": "partial",
   "theorems": [
    "C114_no_panic_partial",
    "C114_empty_key_refuted"
   ],
   "note": "Proved for messages with a non-empty signing key; with an empty one the slice signing_pub_key[0..2] panics."
  },
  {
   "property": "C115",
   "status": "partial",
   "theorems": [
    "C115_caller_partial",
    "C115_raddr_refuted"
   ],
   "note": "Key and account are the signer; the address is copied from the message and never compared with the key."
  },
  {
   "property": "C116",
   "status": "proved",
   "theorems": [
    "C116_written",
    "C116_call"
   ],
   "note": "The specification enc_all is the head and tail definition of the Solidity documentation, whose two examples are checked."
  },
  {
   "property": "C117",
   "status": "proved",
   "theorems": [
    "C117_read",
    "C117_roundtrip",
    "C117_unambiguous"
   ],
   "note": "usize is 32 bits wide, as in the Wasm runtime."
  },
  {
   "property": "C118",
   "status": "proved",
   "theorems": [
    "C118_in_range",
    "C118_memory"
   ],
   "note": ""
  },
  {
   "property": "C119",
   "status": "partial",
   "theorems": [
    "C119_linear_partial",
    "C119_linear_refuted"
   ],
   "note": "Proved for arguments without arrays inside arrays (the factor is the number of arguments); refuted for the array of arrays of erc721Withdraw, whose inner arrays can all point to the same data: no factor up to 30000 holds."
  },
  {
   "property": "C12",
   "status": "partial",
   "theorems": [
    "C12_exact",
    "C12_all_or_nothing",
    "C12_wrapping_sum_refuted"
   ],
   "note": "Success case proved without restriction. The no-partial-payment half is proved when the listed amounts sum to at most 2^128-1 and is false otherwise (wrapping u128 sum), unless the caller is transactional."
  },
  {
   "property": "C120",
   "status": "partial",
   "theorems": [
    "C120_uint",
    "C120_dirty_refuted"
   ],
   "note": "Proved for numbers of every width; refuted for addresses (upper 12 bytes ignored) and booleans (any non-zero word is true)."
  },
  {
   "property": "C121",
   "status": "proved",
   "theorems": [
    "C121_balance_of",
    "C121_balance_of_batch",
    "C121_supply",
    "C121_approval_and_owner",
    "C121_wide_id",
    "C121_uri_distinct"
   ],
   "note": "Batches up to 2^20 queries; gas is not modelled."
  },
  {
   "property": "C122",
   "status": "proved",
   "theorems": [
    "C122_only_holder_or_operator",
    "C122_approval_exact",
    "C122_holder_can"
   ],
   "note": ""
  },
  {
   "property": "C123",
   "status": "partial",
   "theorems": [
    "C123_transfer",
    "C123_batch_transfer",
    "C123_burn",
    "C123_burn_batch",
    "C123_mint",
    "C123_mint_batch",
    "C123_logs_partial",
    "C123_logs_refuted"
   ],
   "note": "The per-call statements are complete. The sum over logs holds for histories through the precompile without createToken of a positive initial issuance, which leaves no Transfer log (refuted with a witness). Pallet calls leave no EVM logs by design."
  },
  {
   "property": "C124",
   "status": "partial",
   "theorems": [
    "C124_accepted",
    "C124_batch_never",
    "C124_batch_refuted",
    "C124_panic_refuted",
    "C124_before_refuted",
    "C124_mint_refuted"
   ],
   "note": "Single transfers ask in the standard form and need the magic answer. Refuted: batches use the wrong selector so no compliant contract can receive one, short answers panic, the call is made before the tokens move, mints do not ask."
  },
  {
   "property": "C125",
   "status": "partial",
   "theorems": [
    "C125_value",
    "C125_static_partial",
    "C125_static_refuted",
    "C125_static_others_refuted"
   ],
   "note": "Five state-changing functions are classified View and work in static calls; every other function is refused or changes nothing."
  },
  {
   "property": "C126",
   "status": "partial",
   "theorems": [
    "C126_owner_of",
    "C126_balance_of",
    "C126_total_supply",
    "C126_approvals_and_owner",
    "C126_wide_id",
    "C126_uri_distinct",
    "C126_missing_refuted"
   ],
   "note": "Everything holds except that getApproved and tokenURI answer for tokens that do not exist. Histories in which the bridge mints only into collections that are not root-native (C15); balances also need that no pallet transfer names a token twice."
  },
  {
   "property": "C127",
   "status": "proved",
   "theorems": [
    "C127_lists_all",
    "C127_lists_once",
    "C127_terminates"
   ],
   "note": "Histories as in C126."
  },
  {
   "property": "C128",
   "status": "partial",
   "theorems": [
    "C128_only_with_consent",
    "C128_transfer",
    "C128_authorised_can",
    "C128_approve",
    "C128_approve_all",
    "C128_approval_log_refuted"
   ],
   "note": "Everything holds between transactions except the Approval log of an operator, which names the operator as owner. Within one transaction see C132_reentrant_refuted."
  },
  {
   "property": "C129",
   "status": "partial",
   "theorems": [
    "C129_logs_partial",
    "C129_last_log_partial",
    "C129_logs_refuted"
   ],
   "note": "Holds for the span of histories in which tokens of the collection move only through its contract. Tokens of the initial issuance, extrinsics and the bridge leave no log, and a transfer to the zero address is logged like a burn though the token exists (witnesses)."
  },
  {
   "property": "C13",
   "status": "proved",
   "theorems": [
    "C13_spent_plus_remaining",
    "C13_at_most_approved",
    "C13_history",
    "C13_no_other_way_out"
   ],
   "note": ""
  },
  {
   "property": "C130",
   "status": "partial",
   "theorems": [
    "C130_value",
    "C130_static_partial",
    "C130_unknown",
    "C130_panics",
    "C130_static_refuted",
    "C130_panic_refuted"
   ],
   "note": "burn works in a static call. C130_panics characterises the two ways to panic: a receiver that answers fewer than four bytes, and more than MaxTokensPerXls20Mint ids in reRequestXls20Mint."
  },
  {
   "property": "C131",
   "status": "partial",
   "theorems": [
    "C131_supports",
    "C131_standard_served",
    "C131_trn721_refuted"
   ],
   "note": "The answers are right for every argument and the five standard interfaces are served; TRN721 is claimed, but its setMintFee(address,uint256) is not served (the precompile matches setMintFee(address,uint128))."
  },
  {
   "property": "C132",
   "status": "partial",
   "theorems": [
    "C132_no_code",
    "C132_accepted",
    "C132_arguments_refuted",
    "C132_before_refuted",
    "C132_reentrant_refuted"
   ],
   "note": "The magic answer is needed for every receiver. Refuted: the arguments passed are (from, to, id, data), the call is made before the token moves, and the authorisation is checked before it, so a token sold during the call can be taken from its buyer."
  },
  {
   "property": "C133",
   "status": "proved",
   "theorems": [
    "C133_nft_owner_only",
    "C133_nft_set_uri",
    "C133_nft_set_price",
    "C133_sft_owner_only",
    "C133_sft_set_uri",
    "C133_sft_set_price"
   ],
   "note": "SFT histories with calls whose data are bytes and amounts u128. Enabling XLS-20 compatibility is an oracle (C86) and not among the settings here."
  },
  {
   "property": "C134",
   "status": "proved",
   "theorems": [
    "C134_sell",
    "C134_buy"
   ],
   "note": "Callers are ordinary accounts (not a pool or the burn account). Path up to 2^20 addresses. LP tokens credited to the fee account are outside swap_effect, as in C04."
  },
  {
   "property": "C135",
   "status": "proved",
   "theorems": [
    "C135_amounts_out",
    "C135_amounts_in",
    "C135_quoted_sale",
    "C135_quoted_purchase",
    "C135_quote",
    "C135_amount_out",
    "C135_amount_in"
   ],
   "note": "The trade theorems ask for issuances up to 2^117 (2^127 for shares), for no pool to occur twice in the path and, when a fee account is set, for a path without LP tokens."
  },
  {
   "property": "C136",
   "status": "partial",
   "theorems": [
    "C136_add",
    "C136_add_exact",
    "C136_remove",
    "C136_remove_eth",
    "C136_answer_is_payment_refuted"
   ],
   "note": "The amounts that addLiquidity answers and logs include what others have sent to the pool directly (witness); they are exact for pools without such surplus. The amounts of removeLiquidity are exact."
  },
  {
   "property": "C137",
   "status": "partial",
   "theorems": [
    "C137_sale_logs",
    "C137_purchase_logs",
    "C137_readme_events_refuted",
    "C137_amount_order_refuted"
   ],
   "note": "The logs carry the right amounts, but as topics and data they are not the declared events: amounts are topics, the recipient is data. Mint and Burn use the order of the call instead of that of the pool."
  },
  {
   "property": "C138",
   "status": "partial",
   "theorems": [
    "C138_sell_eth",
    "C138_buy_eth",
    "C138_add_eth",
    "C138_stuck",
    "C138_value_is_the_payment_refuted",
    "C138_sells_the_gas_token_refuted"
   ],
   "note": "What the functions do is described exactly: the value goes to the address 0xDDDD, from which nothing ever leaves, and the same number is taken again from the caller as base units of the first token of the path, whichever it is."
  },
  {
   "property": "C139",
   "status": "proved",
   "theorems": [
    "C139_only_the_caller_pays",
    "C139_exchange_operations",
    "C139_pools_stay_backed",
    "C139_reading_changes_nothing",
    "C139_value_refused",
    "C139_only_assets",
    "C139_own_account"
   ],
   "note": "Callers are ordinary accounts."
  },
  {
   "property": "C14",
   "status": "partial",
   "theorems": [
    "C14_authorised_iff",
    "C14_approval_is_current",
    "C14_operator_is_current",
    "C14_only_with_consent"
   ],
   "note": "Histories of pallet calls and of the precompile transferFrom/burn, where bridged mints only go to bridged collections (see C15). safeTransferFrom with a re-entrant receiver breaks the claim, see C63."
  },
  {
   "property": "C140",
   "status": "partial",
   "theorems": [
    "C140_known_only",
    "C140_rest_known",
    "C140_published_refuted"
   ],
   "note": "Ten of the eighteen published functions fail in every state: their parameter lists differ from those the contract matches. The other eight are matched, and nothing else is."
  },
  {
   "property": "C141",
   "status": "proved",
   "theorems": [
    "C141_exact",
    "C141_any",
    "C141_histories",
    "C141_money"
   ],
   "note": "Up to 2^20 tokens in a call. Stored fields are within their Rust types (tstate). Gas, and the filter of paused extrinsics (C84), are left out."
  },
  {
   "property": "C142",
   "status": "proved",
   "theorems": [
    "C142_terms"
   ],
   "note": "The royalties of the collection are an argument, as in C99."
  },
  {
   "property": "C143",
   "status": "partial",
   "theorems": [
    "C143_sale_without",
    "C143_with",
    "C143_first_unnamed",
    "C143_auction_needs",
    "C143_auction_impossible_refuted",
    "C143_auction_zero_refuted",
    "C143_offer_refuted",
    "C143_share_refuted"
   ],
   "note": "Sales without a marketplace and listings with a non-zero id are right. Zero means marketplace 0 to auctions and offers, which therefore cannot be without one, and none to sales, which therefore cannot name it. Out-of-range ids of offers and shares are capped instead of refused."
  },
  {
   "property": "C144",
   "status": "partial",
   "theorems": [
    "C144_listing",
    "C144_offer",
    "C144_account",
    "C144_buy",
    "C144_quantities_refuted"
   ],
   "note": "Price, asset and NFTs are as shown; for SFTs the view shows neither the quantities nor that they are SFTs."
  },
  {
   "property": "C145",
   "status": "partial",
   "theorems": [
    "C145_event",
    "C145_sender_refuted",
    "C145_account_refuted",
    "C145_quantities_refuted"
   ],
   "note": "Each call logs exactly one event, written out independently, but the sale event names the seller as sender and not the buyer, the registration event does not name the account when it is the caller, and no event tells quantities."
  },
  {
   "property": "C146",
   "status": "proved",
   "theorems": [
    "C146_deposit",
    "C146_conserved"
   ],
   "note": "The existential deposit is 1, so no dust arises. Constants with base + factor*(maxp+1) + ed below 2^128, which holds of the runtime."
  },
  {
   "property": "C147",
   "status": "proved",
   "theorems": [
    "C147_create",
    "C147_register",
    "C147_unregister",
    "C147_transfer",
    "C147_renounce"
   ],
   "note": "Accounts with something reserved by other pallets hold the existential deposit at the start."
  },
  {
   "property": "C148",
   "status": "proved",
   "theorems": [
    "C148_free",
    "C148_reserved"
   ],
   "note": ""
  },
  {
   "property": "C149",
   "status": "proved",
   "theorems": [
    "C149_renounced"
   ],
   "note": "Extrinsics; nobody signs for an address with the futurepass prefix."
  },
  {
   "property": "C15",
   "status": "partial",
   "theorems": [
    "C15_unique_owner",
    "C15_counts",
    "C15_transfer_moves_exactly",
    "C15_balances_partial",
    "C15_duplicate_serials_refuted",
    "C15_bridged_root_refuted"
   ],
   "note": "One owner per token, and the count of the collection is the number of tokens, for all histories with bridged mints only into bridged collections (false otherwise, refuted theorem). Balances add up when no transfer names a serial twice; false otherwise (refuted theorem)."
  },
  {
   "property": "C150",
   "status": "proved",
   "theorems": [
    "C150_unregister",
    "C150_renounce",
    "C150_register"
   ],
   "note": "For a share not below the existential deposit, as in the runtime. Frozen (staked) balances are not modelled."
  },
  {
   "property": "C151",
   "status": "partial",
   "theorems": [
    "C151_round_trip",
    "C151_payer_refunded_refuted",
    "C151_create_renounce_refuted"
   ],
   "note": "A caller that registers and removes a delegate has its money back. In general the refund goes to whoever removes: a delegate that leaves takes the share the owner paid, and the existential deposit paid at creation stays on the futurepass for ever."
  },
  {
   "property": "C152",
   "status": "partial",
   "theorems": [
    "C152_outsiders",
    "C152_participants",
    "C152_delegatecall_refuted"
   ],
   "note": "Outsiders: proved for all programs, DELEGATECALL included. Members that call a contract: proved for trees without a DELEGATECALL to a futurepass; with one, the futurepass sees the member as its caller, and a contract that the owner calls takes the futurepass or its XRP (witness). Other precompiles appear as calls in the name of their caller and by their callbacks."
  },
  {
   "property": "C153",
   "status": "partial",
   "theorems": [
    "C153_static_partial",
    "C153_static_refuted"
   ],
   "note": "Holds for trees of calls that reach no futurepass. A futurepass does not look at the static flag: transferOwnership and proxyCall work in a STATICCALL, and the read-only type of proxyCall moves value (witnesses)."
  },
  {
   "property": "C154",
   "status": "partial",
   "theorems": [
    "C154_transferOwnership",
    "C154_renounceOwnership",
    "C154_unregister",
    "C154_create",
    "C154_register",
    "C154_owner",
    "C154_delegateType_partial",
    "C154_futurepassOf",
    "C154_address_refuted",
    "C154_delegateType_refuted"
   ],
   "note": "Every function equals its extrinsic, byte for byte. But transferOwnership and renounceOwnership act on the futurepass the caller owns and not on the one called, and log at the address called; delegateType shows 1 for an owner that was a delegate before (witnesses)."
  },
  {
   "property": "C155",
   "status": "proved",
   "theorems": [
    "C155_delegates",
    "C155_pay",
    "C155_contract",
    "C155_listed"
   ],
   "note": "Calls to plain accounts and contracts exactly; calls to other precompiles go through the same code but what those do is left out. For call data shorter than four bytes see C78."
  },
  {
   "property": "C156",
   "status": "partial",
   "theorems": [
    "C156_consent",
    "C156_binding",
    "C156_documented_refuted",
    "C156_replay_refuted"
   ],
   "note": "Consent and binding hold. There is no nonce: until the deadline the owner can register a delegate that has left again with the old signature. The documented message (length 32, raw hash) is not the one checked (length 64, hexadecimal)."
  },
  {
   "property": "C157",
   "status": "partial",
   "theorems": [
    "C157_delegate",
    "C157_depth",
    "C157_reentry_partial",
    "C157_reentry_refuted"
   ],
   "note": "No re-entry in trees without futurepasses. proxyCall with a create type runs the constructor in a new EVM with no calls recorded as under way, from which the precompile can be called again (witness)."
  },
  {
   "property": "C158",
   "status": "proved",
   "theorems": [
    "C158_withdrawn",
    "C158_accepted",
    "C158_as_extrinsic"
   ],
   "note": "Ethereum addresses below 2^160 and ids below 2^32 are the Rust types. MaxEthData at least 96."
  },
  {
   "property": "C159",
   "status": "partial",
   "theorems": [
    "C159_no_bypass",
    "C159_split_refuted"
   ],
   "note": "No single call bypasses the delay. The minimum is per call and not per account or block: two calls below it take out more at once (witness)."
  },
  {
   "property": "C16",
   "status": "partial",
   "theorems": [
    "C16_max_issuance",
    "C16_max_fixed",
    "C16_bridged_mint_refuted"
   ],
   "note": "Proved for all paths except a bridged mint into a collection that declared a maximum, which is not checked (refuted theorem)."
  },
  {
   "property": "C160",
   "status": "partial",
   "theorems": [
    "C160_withdrawn",
    "C160_accepted",
    "C160_as_extrinsic",
    "C160_limits_refuted"
   ],
   "note": "What it burns and announces: proved. Acceptance: exactly when the pallet would burn and the message of 5 + 3 m + n words fits into MaxEthData; two collections of 50 tokens do not fit although the limits are 10 and 50 (witness)."
  },
  {
   "property": "C161",
   "status": "proved",
   "theorems": [
    "C161_only_caller",
    "C161_ids",
    "C161_refines"
   ],
   "note": "Ids are distinct until 2^64 messages have been sent."
  },
  {
   "property": "C162",
   "status": "proved",
   "theorems": [
    "C162_created",
    "C162_views",
    "C162_accepted"
   ],
   "note": "Royalties above 100% each are capped, see C165. Names, paths and lists of at most 2^20 entries, which is beyond what a block can carry."
  },
  {
   "property": "C163",
   "status": "proved",
   "theorems": [
    "C163_created",
    "C163_owner",
    "C163_accepted"
   ],
   "note": "As C162."
  },
  {
   "property": "C164",
   "status": "proved",
   "theorems": [
    "C164_one_kind",
    "C164_kept",
    "C164_never_twice",
    "C164_fresh_nft",
    "C164_fresh_sft",
    "C164_room"
   ],
   "note": "Migrated or genesis collections are left out: histories start from an empty chain with NextCollectionId 1."
  },
  {
   "property": "C165",
   "status": "partial",
   "theorems": [
    "C165_any_call",
    "C165_entitlement_refuted",
    "C165_interface_refuted",
    "C165_sft_address_refuted"
   ],
   "note": "One collection or nothing, for any bytes: proved. An entitlement above 100% is stored as 100% without complaint (witness); supportsInterface is always refused; the SFT README gives the NFT contract's address, where SFT calls are always refused."
  },
  {
   "property": "C166",
   "status": "proved",
   "theorems": [
    "C166_in_one_go"
   ],
   "note": "For histories in which no upgrade takes a running migration away or replaces it before this one starts or while it runs; see C169 for those that do."
  },
  {
   "property": "C167",
   "status": "proved",
   "theorems": [
    "C167_finishes",
    "C167_guard",
    "C167_paused",
    "C167_root",
    "C167_set",
    "C167_settings"
   ],
   "note": "As C166, histories in which upgrades do not interrupt migrations."
  },
  {
   "property": "C168",
   "status": "partial",
   "theorems": [
    "C168_steps",
    "C168_weight",
    "C168_within",
    "C168_overshoot_refuted"
   ],
   "note": "At most BlockLimit steps; at most one step beyond the weight, and within it if BlockLimit steps fit: proved. Within the weight otherwise: false, as the first check compares with all_lt and the runtime has no bound on the proof size, and the loop only looks at what was spent already (witness)."
  },
  {
   "property": "C169",
   "status": "partial",
   "theorems": [
    "C169_first",
    "C169_abandoned_refuted",
    "C169_replaced_refuted"
   ],
   "note": "Proved if upgrades do not interrupt migrations; an upgrade during a migration leaves LastKey behind, and the next migration skips the items before it and counts as complete (witnesses)."
  },
  {
   "property": "C17",
   "status": "partial",
   "theorems": [
    "C17_never_reissued",
    "C17_mint_fresh",
    "C17_mints_disjoint",
    "C17_bridged_root_refuted"
   ],
   "note": "The mint call itself never repeats a serial, without restriction (C17_mints_disjoint). No path reissues a serial when bridged mints go only to bridged collections; false otherwise (refuted theorem)."
  },
  {
   "property": "C170",
   "status": "proved",
   "theorems": [
    "C170_exact",
    "C170_no_trace",
    "C170_table"
   ],
   "note": "The signature scheme is any predicate on key, signature and digest; bytes that decode to no witness are one message."
  },
  {
   "property": "C171",
   "status": "partial",
   "theorems": [
    "C171_expired",
    "C171_allowed",
    "C171_sound",
    "C171_remembered",
    "C171_in_order",
    "C171_forgets",
    "C171_latest_refuted",
    "C171_again_refuted"
   ],
   "note": "Proved for up to 500 completions, for any number in the order of ids, and that sending and expiry agree. In other orders it is not the oldest but the smallest id that is forgotten, also when an event is reported complete again (witnesses)."
  },
  {
   "property": "C172",
   "status": "partial",
   "theorems": [
    "C172_first",
    "C172_replay_refuted",
    "C172_thrown_away_refuted",
    "C172_flood_refuted"
   ],
   "note": "Proved if nothing of that authority was received under the event's id. False otherwise: the signature covers the digest only, so that anybody can send an old one under any event id and block; the real witness is then discarded as known, and the table grows without bound."
  },
  {
   "property": "C173",
   "status": "partial",
   "theorems": [
    "C173_spaced",
    "C173_due",
    "C173_starved_refuted"
   ],
   "note": "Never twice within three minutes, and always three minutes after the last round of any kind: proved. An ordinary round takes the turn, so that there may be no rebroadcast for ever (witness for any length)."
  },
  {
   "property": "C174",
   "status": "partial",
   "theorems": [
    "C174_kept",
    "C174_places",
    "C174_no_invention",
    "C174_old_stay",
    "C174_phantom_refuted",
    "C174_overwritten_refuted"
   ],
   "note": "Proved for all tokens and collections but the one whose old key is spelt like the chain id (with chain 7672: token 0 of collection 7672, and collection 7672), for any hash. That one gets data of another token, or loses its own, with the real hash and the data of the unit test (witnesses). The old entries are never removed."
  },
  {
   "property": "C175",
   "status": "proved",
   "theorems": [
    "C175_finishes",
    "C175_once",
    "C175_only"
   ],
   "note": "For any hash function with 8 bytes of output. Iteration is the host's next-key walk over the ordered trie, restricted to the map's own prefix."
  },
  {
   "property": "C176",
   "status": "partial",
   "theorems": [
    "C176_balanced",
    "C176_settled",
    "C176_drop_fits",
    "C176_root",
    "C176_zero_refuted",
    "C176_mixed_refuted",
    "C176_order_refuted",
    "C176_dust_refuted"
   ],
   "note": "Proved if merged or set-off imbalances are of the same asset (or the second is zero), no drop saturates, and the minimum balance is at most 1 (as it is for XRP); a drop of what was withdrawn never does while nothing deposited is pending. Each condition is needed (witnesses): zero() is of asset 0 and swallows what is merged into it, assets are not compared, the order of drops matters, dust is not in the imbalance."
  },
  {
   "property": "C177",
   "status": "partial",
   "theorems": [
    "C177_withdraw",
    "C177_deposit",
    "C177_make",
    "C177_make_frozen_refuted"
   ],
   "note": "Withdrawals and deposits proved in full for a minimum balance of at most 1; forcing a balance for accounts not frozen. For a frozen account the stated balance is put on top of what it has (witness)."
  },
  {
   "property": "C178",
   "status": "proved",
   "theorems": [
    "C178_taken",
    "C178_settled",
    "C178_amounts",
    "C178_whole"
   ],
   "note": "CurrencyAdapter and on_unbalanceds of Substrate are modelled from their published source, as they are not in the repository."
  },
  {
   "property": "C179",
   "status": "partial",
   "theorems": [
    "C179_sessions",
    "C179_ping",
    "C179_back",
    "C179_answer",
    "C179_refused",
    "C179_alike_refuted",
    "C179_unasked_refuted"
   ],
   "note": "Sessions up to 64 bits proved in full. A session of more bits is cut, so that different pings get the same answer (witness); a pong is reported although no ping was sent, for anybody on Ethereum (witness)."
  },
  {
   "property": "C18",
   "status": "proved",
   "theorems": [
    "C18_locked_immovable",
    "C18_locked_calls_fail"
   ],
   "note": "Histories with bridged mints only into bridged collections, see C15."
  },
  {
   "property": "C180",
   "status": "proved",
   "theorems": [
    "C180_origin",
    "C180_log"
   ],
   "note": "For histories in which other pallets use the bridge too, C180_origin; the exact list of messages (C180_log) where only this pallet does."
  },
  {
   "property": "C181",
   "status": "partial",
   "theorems": [
    "C181_announced",
    "C181_ids",
    "C181_many_refuted",
    "C181_withdrawn_refuted"
   ],
   "note": "Proved for sessions of more than AuthorityChangeDelay and at most EpochDuration blocks, sets that fit the message (97 keys) and forced eras that are not called off. The last two conditions are needed (witnesses). Staking and session pallets modelled from their published source."
  },
  {
   "property": "C182",
   "status": "partial",
   "theorems": [
    "C182_natural",
    "C182_forced_refuted",
    "C182_late_refuted"
   ],
   "note": "Proved for eras that end in their time. After a forced era, or an election that is late by a session, the old validators stay the notaries for the whole next era (witnesses with the runtime's numbers)."
  },
  {
   "property": "C183",
   "status": "partial",
   "theorems": [
    "C183_pause",
    "C183_open",
    "C183_stuck_refuted"
   ],
   "note": "Conditions as for C181; a forced era called off after the announcement leaves the bridge closed for the rest of the era (witness)."
  },
  {
   "property": "C184",
   "status": "partial",
   "theorems": [
    "C184_nearest",
    "C184_bounded",
    "C184_monotone",
    "C184_length",
    "C184_length_refuted",
    "C184_set"
   ],
   "note": "Length fees only if the product is a balance: it wraps (witness), which takes a multiplier over 2^106 set by root."
  },
  {
   "property": "C185",
   "status": "partial",
   "theorems": [
    "C185_follow",
    "C185_tickets",
    "C185_set_refuted",
    "C185_failed_refuted",
    "C185_paused_refuted"
   ],
   "note": "Proved for histories in which root leaves the whitelist alone, the doors have addresses and tickets when the signers change, at least two signers are left and the bridge is not paused by hand at an announcement (single announcements as in C181); and that every ticket taken is in exactly one request, in a block or waiting (C185_tickets). The other cases are refuted, for any number of later rounds: whitelist changed by root, no tickets for one door, manual pause. The XRPL is modelled as a signer list per door that takes well-formed, sufficiently signed transactions."
  },
  {
   "property": "C186",
   "status": "partial",
   "theorems": [
    "C186_keys",
    "C186_set",
    "C186_limit_refuted",
    "C186_agree",
    "C186_agree_refuted"
   ],
   "note": "Membership, order and number in full. The limit on a call is taken modulo 256 (witness); running nodes keep the old signers after a call of root until the next change of notaries (witness), and agree otherwise."
  },
  {
   "property": "C187",
   "status": "partial",
   "theorems": [
    "C187_quorum",
    "C187_share",
    "C187_spare",
    "C187_alone_refuted",
    "C187_few_refuted"
   ],
   "note": "From three signers on. With two left the quorum is one (witness); with one or none the XRPL refuses the list, while the chain goes on with that set (witness)."
  },
  {
   "property": "C188",
   "status": "proved",
   "theorems": [
    "C188_one",
    "C188_ways"
   ],
   "note": "Hash functions and key recovery are parameters; assumed is that the few strings hashed for the two payloads do not collide, and that a signature gives the same signer for two of their hashes only if they are equal. Payloads as the runtime makes them: none starts with 0x19 0x45, since pallet 25 has no function 69."
  },
  {
   "property": "C189",
   "status": "partial",
   "theorems": [
    "C189_eth",
    "C189_xrpl",
    "C189_enough",
    "C189_pruned_refuted",
    "C189_sent_refuted",
    "C189_enough_refuted"
   ],
   "note": "Contents in full while the node has the state of the block (else null: witness), and for XRPL proofs enough signatures if the gadgets hold the signers of the block (else witness). Subscribers get XRPL proofs in the form for Ethereum (witness)."
  },
  {
   "property": "C19",
   "status": "proved",
   "theorems": [
    "C19_supply",
    "C19_free_exact",
    "C19_max_fixed"
   ],
   "note": ""
  },
  {
   "property": "C190",
   "status": "partial",
   "theorems": [
    "C190_answered",
    "C190_one",
    "C190_token",
    "C190_agree",
    "C190_alias_refuted"
   ],
   "note": "All but one part proved; a token does not answer at one address only: the last twelve bytes of an address are not looked at (witness)."
  },
  {
   "property": "C191",
   "status": "partial",
   "theorems": [
    "C191_nesting",
    "C191_context",
    "C191_reentry",
    "C191_token_refuted"
   ],
   "note": "Outcomes of all trees are those of the spec plan, which counts the calls under way; what is counted is the address, so a token can be called again at another of its addresses (witness). Calls in a new EVM (proxyCall with a create type, C157) count anew."
  },
  {
   "property": "C192",
   "status": "partial",
   "theorems": [
    "C192_once",
    "C192_with_root",
    "C192_replay_refuted"
   ],
   "note": "Proved while the account of the sender is not removed, in particular while it holds ROOT. Refuted otherwise: sending all XRP away removes the account during the transaction, the nonce starts again at zero, and old transactions, which never expire, run again (witness). Nonces do not wrap in the model; pallet-ethereum, pallet-evm and frame-system are modelled from their documented behaviour."
  },
  {
   "property": "C193",
   "status": "partial",
   "theorems": [
    "C193_executed",
    "C193_charge",
    "C193_free_refuted",
    "C193_blocked_refuted"
   ],
   "note": "Proved for targets other than the fee proxy, sender and target not blocked by maintenance. Otherwise the runner can refuse after the checks of the block, taking no fee and using no nonce, any number of times (two witnesses, for every number of inclusions). Cost stated for code that moves no XRP."
  },
  {
   "property": "C194",
   "status": "partial",
   "theorems": [
    "C194_understood",
    "C194_hex",
    "C194_quote",
    "C194_shown",
    "C194_panic_refuted",
    "C194_misread_refuted",
    "C194_quote_refuted",
    "C194_short_hex_refuted"
   ],
   "note": "Proved: exactly which values are read and as which number, quotes that fit in 128 bits, and balances shown. Refuted: strings of one character panic, 34 decimal digits are read as another number, hex of another length is refused, quotes beyond 128 bits are cut off (witnesses)."
  },
  {
   "property": "C195",
   "status": "partial",
   "theorems": [
    "C195_bound",
    "C195_paid",
    "C195_charged",
    "C195_refused",
    "C195_log",
    "C195_block",
    "C195_failed_refuted",
    "C195_create_refuted"
   ],
   "note": "Proved for all programs in which no dispatch fails and no futurepass creates a contract, and in general up to the work of just these. Refuted for these: failing dispatches and the constructors of contracts made by a futurepass are not charged, any number of times. Weights are taken as declared by the pallets; memory and proof size are left out."
  },
  {
   "property": "C196",
   "status": "partial",
   "theorems": [
    "C196_bytes",
    "C196_number",
    "C196_answer",
    "C196_result",
    "C196_silence",
    "C196_error_refuted",
    "C196_other_id_refuted",
    "C196_panic_refuted",
    "C196_plus_refuted"
   ],
   "note": "Proved: what is sent and read means what it should, and only answers with code 200 count. Refuted: errors reported in JSON count as empty data or a missing transaction, which is a vote against the claim; ids are not compared; results that are not hex panic; a plus sign passes for a digit."
  },
  {
   "property": "C197",
   "status": "partial",
   "theorems": [
    "C197_all",
    "C197_era",
    "C197_filtered",
    "C197_covered",
    "C197_kept",
    "C197_minted_refuted"
   ],
   "note": "Proved: the sums, that only root can have stakers paid, and that rewards covered by ROOT of the pot leave the issuance. Refuted: fees are XRP and rewards ROOT, so the pot covers nothing unless given ROOT and every reward is minted (witness for every amount); nobody but root can do it at present. Sums below 2^128; pallet-staking is modelled from its documented behaviour; XRP that Vortex takes from the pot is left out."
  },
  {
   "property": "C198",
   "status": "partial",
   "theorems": [
    "C198_all",
    "C198_set",
    "C198_held",
    "C198_old",
    "C198_missing_refuted",
    "C198_mute_refuted"
   ],
   "note": "Proved in full for a node whose database has the chain and whose runtime answers for every block. Refuted without: one failing look-up of a parent loses the blocks in between for good, and one failing question to the runtime at a change of notaries (as for a block whose state was pruned) leaves the node with the old notaries. What is then done with a request is C48 to C50 and C81."
  },
  {
   "property": "C199",
   "status": "partial",
   "theorems": [
    "C199_served",
    "C199_in_turn",
    "C199_sizes",
    "C199_blocked_refuted",
    "C199_orphan_refuted"
   ],
   "note": "Proved: with a relayer and a number of notaries for which every complete vote decides (all up to 22, and others: C199_sizes) one block decides the oldest challenge. Refuted: an undecided vote of 15 to 8 among 23 keeps everything behind it from being voted on for ever, and a challenge found valid while there is no relayer leaves the queue unsettled and stays challenged. All notaries vote within the block and old votes are cleared whole; the bridge is not paused."
  },
  {
   "property": "C20",
   "status": "proved",
   "theorems": [
    "C20_reserved_exact",
    "C20_reserved_untouchable",
    "C20_free_succeeds",
    "C20_reserve_free_round_trip",
    "C19_free_exact"
   ],
   "note": ""
  },
  {
   "property": "C200",
   "status": "partial",
   "theorems": [
    "C200_queue",
    "C200_turn",
    "C200_all",
    "C200_right",
    "C200_stuck_refuted"
   ],
   "note": "Proved in full while every validator has a notary key and notaries do not change; the queue also when they do. Refuted: a validator without a notary key counts among those still to vote, so three agreeing of four notaries among five validators leave the request open and everything behind it unlooked at for ever. Old votes are cleared whole in rounds; histories shorter than 2^64."
  },
  {
   "property": "C201",
   "status": "partial",
   "theorems": [
    "C201_made_partial",
    "C201_start_partial",
    "C201_sent",
    "C201_sent_after",
    "C201_passed_on",
    "C201_checked",
    "C201_whole_partial",
    "C201_late_refuted",
    "C201_delayed_refuted"
   ],
   "note": "Proved with the exception of C50, for notaries that do not change, also for a node that gets them only with the first block it handles; event ids grow along the chain, databases and runtimes answer, each notary node has one key. Refuted without the exception: all that was sent arrives, that of event 3 last, and no proof of it is made. Refuted if ids do not grow along the chain, as with requests delayed by a pause: no notary node sends its witness."
  },
  {
   "property": "C21",
   "status": "partial",
   "theorems": [
    "C21_shares_nearest",
    "C21_split_exact",
    "C21_purchase_exact",
    "C21_settlement_exact",
    "C21_unsellable",
    "C21_fees_valid",
    "C21_offer_exact",
    "C21_rounding_refuted",
    "C21_no_buyer_refuted"
   ],
   "note": "Every sale that settles splits the price exactly. The computed split itself is exact for one entitlement or when the price leaves room for rounding; otherwise the seller part underflows and the sale cannot settle (refuted theorems)."
  },
  {
   "property": "C22",
   "status": "partial",
   "theorems": [
    "C22_accounted",
    "C22_exact",
    "C22_offer_refunded",
    "C22_outbid_refunded",
    "C22_stranded_forever",
    "C22_accept_during_auction_refuted"
   ],
   "note": "Every held unit is a recorded bid or offer in all histories; the exact claim holds if no offer is accepted for a token under auction, and is false otherwise (refuted theorem)."
  },
  {
   "property": "C23",
   "status": "partial",
   "theorems": [
    "C23_listed_is_locked",
    "C23_locked_is_listed",
    "C23_listings_end",
    "C23_cancel_returns",
    "C23_stuck_forever",
    "C23_bundle_refuted",
    "C23_failed_settlement_refuted"
   ],
   "note": "Listed tokens are locked in all histories; the converse holds when offers are not accepted for bundled tokens and settlements succeed, and is false otherwise (refuted theorems)."
  },
  {
   "property": "C24",
   "status": "partial",
   "theorems": [
    "C24_backed",
    "C24_claim_in_full",
    "C24_distribution_in_full",
    "C24_saturation_refuted",
    "C24_short_changed_refuted"
   ],
   "note": "Proved for every history in which the funds raised times 10^6 fit in u128 and no asset owner burns a vault balance; without the first condition the claim is false: closing computes the refund with a saturating product, so the vault can keep fewer vouchers than are due (refuted with witness)."
  },
  {
   "property": "C25",
   "status": "proved",
   "theorems": [
    "C25_at_most_once",
    "C25_all_served",
    "C25_distribution_ends"
   ],
   "note": "Histories as in C24 (sums raised times 10^6 within u128, no burning of vault balances by an asset owner). Any iteration order of the participants."
  },
  {
   "property": "C26",
   "status": "partial",
   "theorems": [
    "C26_closes",
    "C26_close_delivers",
    "C26_unscheduled_forever",
    "C26_duration_zero_refuted",
    "C26_burnt_refuted"
   ],
   "note": "Proved for non-zero durations and payment assets whose owner does not burn the vault balance. Refuted for duration 0 (accepted by initialize, never closes) and for an asset owner burning one unit of the vault balance (closing fails once and is never retried)."
  },
  {
   "property": "C27",
   "status": "proved",
   "theorems": [
    "C27_redeem_exact",
    "C27_bounded"
   ],
   "note": "For a mint limit of at most 4294 (runtime: 1000); C27_bounded holds of every history. An Example shows the limit is needed: 4295 tokens would cost 4294.967295 vouchers."
  },
  {
   "property": "C28",
   "status": "partial",
   "theorems": [
    "C28_at_most_once",
    "C28_finished_paid_all",
    "C28_events_are_payments",
    "C28_only_payouts_pay",
    "C28_finishes",
    "C28_wrapped_sum_refuted"
   ],
   "note": "Never paid twice and always finishing: proved for every history. Paid in full: proved for histories whose registered sums fit in u128; otherwise refuted, since the sum of one registration wraps, the transfers fail and the accounts are still marked paid. Any order of the storage keys, any batch size."
  },
  {
   "property": "C29",
   "status": "proved",
   "theorems": [
    "C29_redeem",
    "C29_no_dilution"
   ],
   "note": "Every history; over any sequence of calls that creates no vortex (starting a distribution and minting vortex dilute by design)."
  },
  {
   "property": "C30",
   "status": "proved",
   "theorems": [
    "C30_at_most_once",
    "C30_no_resubmission"
   ],
   "note": "Every history of submissions, missing-event submissions, challenges, votes, blocks and pruning of the processed ids."
  },
  {
   "property": "C31",
   "status": "partial",
   "theorems": [
    "C31_never_while_challenged",
    "C31_after_a_period",
    "C31_full_period_partial",
    "C31_resubmitted_refuted"
   ],
   "note": "Never delivered while challenged and never before a full period since its slot was chosen: proved for every history. Refuted for an id that is submitted again after a verdict against it: it is delivered at the old slot, less than a period after the new submission. _partial covers ids submitted once."
  },
  {
   "property": "C32",
   "status": "partial",
   "theorems": [
    "C32_share",
    "C32_voters_are_notaries",
    "C32_fixed_set",
    "C32_stale_votes_refuted"
   ],
   "note": "Every verdict has the threshold share of distinct votes, each cast by a notary of that moment; with a fixed notary set those are current notaries. Refuted when the set changes during the vote: votes of departed notaries still count."
  },
  {
   "property": "C33",
   "status": "partial",
   "theorems": [
    "C33_exactly_once",
    "C33_payload",
    "C33_paused_silent",
    "C33_immediate",
    "C33_drains",
    "C33_zero_per_block_refuted",
    "C33_pauses",
    "C33_stays_paused"
   ],
   "note": "Proved for every history of fewer than 2^64 requests and every visiting order of the pending proofs: each id requested once, emitted exactly once or still waiting, with the requested payload, never while paused, at once when active, and the queue empties when at least one delayed proof per block is allowed. Refuted for a per-block limit of 0, which governance may set."
  },
  {
   "property": "C34",
   "status": "partial",
   "theorems": [
    "C34_consensus_or_last_partial",
    "C34_reported",
    "C34_answered_once",
    "C34_last_voter_refuted"
   ],
   "note": "Every answer either has the threshold share of distinct notaries behind it, or no result has and the last vote is passed on; refuted by the latter case (a third of the votes reported as a successful result). Answered at most once, and as soon as the share is reached."
  },
  {
   "property": "C35",
   "status": "partial",
   "theorems": [
    "C35_credited_once_partial",
    "C35_amounts",
    "C35_backed",
    "C35_challenged_never",
    "C35_waits_partial",
    "C35_two_indexes_refuted",
    "C35_reset_refuted"
   ],
   "note": "At most one credit per hash, for every history in which a hash always comes with its one true ledger index and root does not reset the window (block numbers below 2^32 for the waiting period). In all histories: balances are the initial ones plus the credits, every credit matches a submission, a challenged transaction is never credited. Refuted without the provisos: after pruning, the same hash reported with a newer ledger index (or after a root reset) is credited again."
  },
  {
   "property": "C36",
   "status": "partial",
   "theorems": [
    "C36_increasing_partial",
    "C36_allocated_partial",
    "C36_available",
    "C36_reused_refuted",
    "C36_unallocated_refuted"
   ],
   "note": "Strictly increasing and within the announced allocations as long as each next allocation contains no ticket the current one can still hand out and governance does not overwrite the current one. Refuted otherwise: an overlapping next allocation is accepted and tickets are handed out twice; with the default next allocation, a ticket never allocated is used."
  },
  {
   "property": "C37",
   "status": "partial",
   "theorems": [
    "C37_once_partial",
    "C37_only_delayed",
    "C37_catches_up",
    "C37_progress",
    "C37_on_time_partial",
    "C37_dropped_refuted"
   ],
   "note": "Each delayed withdrawal is waiting or decided exactly once, unchanged and never early (block numbers below 2^32); decided by the end of its due block when each block leaves weight for a full list and the door is set; catches up, and always makes progress, otherwise. Refuted: a payment the codec rejects is dropped at release although the account was charged."
  },
  {
   "property": "C38",
   "status": "partial",
   "theorems": [
    "C38_encoded_exact_partial",
    "C38_account",
    "C38_supply",
    "C38_drops_refuted"
   ],
   "note": "Mantissa times power of ten equals the burned amount, which is at most the request and less than one whole unit below it; account and supply change by exactly that and the door fee. Refuted for XRP amounts above 2^64-1 drops (more than exist), where the signed amount saturates."
  },
  {
   "property": "C39",
   "status": "partial",
   "theorems": [
    "C39_bijective_partial",
    "C39_shared_refuted",
    "C39_stale_refuted"
   ],
   "note": "One-to-one when governance only maps unmapped assets and currencies; refuted otherwise since the call checks neither."
  },
  {
   "property": "C40",
   "status": "partial",
   "theorems": [
    "C40_backed_partial",
    "C40_remap_refuted"
   ],
   "note": "Exact equation for every bridged token (for ROOT with the bridge account as circulation), all histories with delays, failures and root claims, when governance maps only unmapped pairs with nothing issued, only the bridge issues bridged assets and uses its account, and fewer than 2^64-1 payments are delayed. Refuted when governance maps a token onto an asset in use."
  },
  {
   "property": "C41",
   "status": "partial",
   "theorems": [
    "C41_once",
    "C41_only_accepted",
    "C41_not_early",
    "C41_ready_partial",
    "C41_progress",
    "C41_released_partial",
    "C41_failed_final",
    "C41_zero_delay_refuted",
    "C41_failed_lost_refuted"
   ],
   "note": "Each delayed payment is pending or decided exactly once with the promised contents (all histories), not before its block unless root claims it, ready at its block for delays of at least one block and room on the ready list, and the backlog shrinks by the weight available. Refuted: with a zero delay it is never released; a failed release is final and the money lost."
  },
  {
   "property": "C42",
   "status": "proved",
   "theorems": [
    "C42_one_owner",
    "C42_owner_level",
    "C42_new_owner_alone",
    "C42_renounced"
   ],
   "note": "All histories of extrinsics, proxied calls and EVM calls. Assumes nobody signs for an address with the futurepass prefix and fewer than 2^128 creations."
  },
  {
   "property": "C43",
   "status": "proved",
   "theorems": [
    "C43_unique",
    "C43_prefix",
    "C43_bytes"
   ],
   "note": ""
  },
  {
   "property": "C44",
   "status": "proved",
   "theorems": [
    "C44_excluded_always_run",
    "C44_block_refused",
    "C44_nothing_stored"
   ],
   "note": "Every history, signer and spelling. The other arms of the call filter (which disable some calls for good) are a parameter."
  },
  {
   "property": "C45",
   "status": "partial",
   "theorems": [
    "C45_blocked_target_partial",
    "C45_fee_proxy_refuted"
   ],
   "note": "Proved for every kind of transaction in which the fee proxy is not called. Refuted with the fee proxy: the runner checks the target before replacing it by the one in the input (runner.rs 301, 320)."
  },
  {
   "property": "C46",
   "status": "proved",
   "theorems": [
    "C46_decode_encode",
    "C46_encode_decode",
    "C46_injective",
    "C46_involution"
   ],
   "note": "Every 32-byte id, against the format of the XRPL documentation."
  },
  {
   "property": "C47",
   "status": "partial",
   "theorems": [
    "C47_fee_exact_partial",
    "C47_no_fee",
    "C47_truncated_refuted"
   ],
   "note": "Exact when fee times count fits in 32 bits. Refuted beyond: the fee is truncated to 32 bits and the product saturates at 2^32-1 drops (lib.rs 307-308)."
  },
  {
   "property": "C48",
   "status": "partial",
   "theorems": [
    "C48_record_partial",
    "C48_worker_partial",
    "C48_reopen_refuted",
    "C48_worker_refuted"
   ],
   "note": "The record: a completed event stays refused as long as no event already refused is completed again. The worker: proved when each event is announced at most once and thresholds are at least one; then also at most one proof per event. Refuted: the record reopens 4 after completing 3, 4, 5, 6 and then 1, and the worker does that with an XRPL threshold of 0 (at most one door signer)."
  },
  {
   "property": "C49",
   "status": "proved",
   "theorems": [
    "C49_consensus",
    "C49_published"
   ],
   "note": "For every order of arrival, at the record and for every proof the worker publishes, while the validator sets are unchanged. C49_needs_unchanged_set shows that after a change old signatures still count. Digests and signature checks are arbitrary functions."
  },
  {
   "property": "C50",
   "status": "partial",
   "theorems": [
    "C50_partial",
    "C50_refuted",
    "C50_worker_refuted"
   ],
   "note": "Proved for events that come after some completed event; refuted for earlier ones: once two events are completed, every lower id is refused, so a proof is never made for an event announced late."
  },
  {
   "property": "C51",
   "status": "proved",
   "theorems": [
    "C51_expanded",
    "C51_count"
   ],
   "note": "Every ordered list and every n below 2^32 (the code truncates n to 32 bits)."
  },
  {
   "property": "C52",
   "status": "partial",
   "theorems": [
    "C52_limit_partial",
    "C52_one_transfer",
    "C52_truncated_refuted"
   ],
   "note": "Proved for amounts below 2^64, for every permission that limits the amount. Refuted above: the amount shown to the permission is truncated to 64 bits (impls.rs 979). The external crates doughnut_rs and trn_pact are parameters."
  },
  {
   "property": "C53",
   "status": "partial",
   "theorems": [
    "C53_holder",
    "C53_bytes_partial",
    "C53_only_issuer",
    "C53_trailing_byte",
    "C53_trailing_refuted"
   ],
   "note": "Revoked holders: proved outright. Revoked doughnuts: proved for the revoked bytes; refuted for the same doughnut with a trailing byte, since revocation is keyed by the hash of the raw bytes and the decoder ignores what follows."
  },
  {
   "property": "C54",
   "status": "partial",
   "theorems": [
    "C54_exact_partial",
    "C54_requests",
    "C54_saturated_refuted"
   ],
   "note": "Exact when count times fee fits in 128 bits, for every operation. Refuted beyond (saturating product)."
  },
  {
   "property": "C55",
   "status": "partial",
   "theorems": [
    "C55_prefix_partial",
    "C55_single_partial",
    "C55_reclaim",
    "C55_kept",
    "C55_partial_failure_refuted",
    "C55_big_id_refuted"
   ],
   "note": "Proved up to the first group that is blocked or has no collection, and in full for messages about one known collection. Refuted for later groups of the message, which are dropped, and for token ids of 2^32 and above, which saturate."
  },
  {
   "property": "C56",
   "status": "proved",
   "theorems": [
    "C56_burned",
    "C56_reclaim_once",
    "C56_only_these"
   ],
   "note": "From every state, without conditions: what is named was the caller's and no longer is. That nobody else owns the same token is C15."
  },
  {
   "property": "C57",
   "status": "proved",
   "theorems": [
    "C57_reserves_backed"
   ],
   "note": ""
  },
  {
   "property": "C58",
   "status": "proved",
   "theorems": [
    "C58_pool_accounts_distinct"
   ],
   "note": ""
  },
  {
   "property": "C59",
   "status": "proved",
   "theorems": [
    "C59_can_send_shown_balance",
    "C59_transfer_covers_value",
    "C59_fee_conserved",
    "C59_fee_total"
   ],
   "note": "All parts proved; the net charge is the fee rounded down to drops, so it may fall short of the fee by less than one drop (refuted theorem)."
  },
  {
   "property": "C60",
   "status": "proved",
   "theorems": [
    "C60_address_round_trip",
    "C60_address_injective"
   ],
   "note": "Decoding ignores the last 12 bytes, so several addresses decode to one id (refuted theorem); the claim itself concerns derived addresses."
  },
  {
   "property": "C61",
   "status": "partial",
   "theorems": [
    "C61_transfer_exact",
    "C61_large_amount_refuted",
    "C61_large_amount_fails"
   ],
   "note": "Exact below 2^128; larger amounts are silently capped at 2^128-1 (refuted theorem)."
  },
  {
   "property": "C62",
   "status": "partial",
   "theorems": [
    "C62_owner_can_transfer",
    "C62_outsider_blocks_transfers_refuted"
   ],
   "note": "Proved while the collection lists fewer accounts than its bound; anyone can exhaust the bound with empty transfers (refuted theorem, for every bound)."
  },
  {
   "property": "C63",
   "status": "partial",
   "theorems": [
    "C63_safe_transfer_passive",
    "C63_short_answer_panics",
    "C63_panic_refuted",
    "C63_reentrant_receiver_refuted"
   ],
   "note": "Proved for receivers without code or that make no calls; false for re-entrant receivers and for short answers (refuted theorems)."
  },
  {
   "property": "C64",
   "status": "partial",
   "theorems": [
    "C64_higher_bid_accepted",
    "C64_bid_fate",
    "C64_reserve_met",
    "C64_zero_bid_refuted"
   ],
   "note": "Proved when the bid to beat is not zero; a zero bid can block the auction (refuted theorem)."
  },
  {
   "property": "C65",
   "status": "proved",
   "theorems": [
    "C65_purchase_delivers",
    "C65_auction_outcome"
   ],
   "note": ""
  },
  {
   "property": "C66",
   "status": "partial",
   "theorems": [
    "C66_redeemable",
    "C66_cap_unreachable",
    "C66_used_collection_refuted"
   ],
   "note": "Proved for sales opened on collections that never had a token, given the checks on the collection itself (root chain, mintable, pallet-wide cap, owner list not full). Refuted when a token was minted and burned before the sale: initialize checks the current issuance, not the next serial; and the last token of a collection sold up to the pallet-wide cap cannot be minted."
  },
  {
   "property": "C67",
   "status": "partial",
   "theorems": [
    "C67_redeem_full_share",
    "C67_saturation_refuted"
   ],
   "note": "Proved when the product of redeemed amount and vault holding fits in u128; refuted otherwise with realistic magnitudes, because the product saturates and the redeemer gets a fraction of the share while all their vortex is burned."
  },
  {
   "property": "C68",
   "status": "partial",
   "theorems": [
    "C68_mint_exact",
    "C68_reregistered_refuted"
   ],
   "note": "Proved for histories that never register an account twice; refuted otherwise: the entry is overwritten but both amounts are added to the total to mint."
  },
  {
   "property": "C69",
   "status": "partial",
   "theorems": [
    "C69_before_the_slot_partial",
    "C69_rejected_claim_blocks_refuted"
   ],
   "note": "Refuted: the slot of the rejected claim marks the id as processed, so the genuine event is refused for ever. Accepted only before that slot comes up."
  },
  {
   "property": "C70",
   "status": "partial",
   "theorems": [
    "C70_recoverable",
    "C70_below_first_refuted"
   ],
   "note": "Proved for every id above the first processed one, for every order and pruning. Refuted below it."
  },
  {
   "property": "C71",
   "status": "partial",
   "theorems": [
    "C71_settled_partial",
    "C71_deadlock_refuted"
   ],
   "note": "Proved outside the gap (100-thr)*n < 100*nay < (101-thr)*n; refuted inside, smallest committee 23 (8 against, 15 for)."
  },
  {
   "property": "C72",
   "status": "proved",
   "theorems": [
    "C72_backed",
    "C72_relayer_bonded",
    "C72_false_claim_pays",
    "C72_false_challenge_pays"
   ],
   "note": "Every history; one bond asset."
  },
  {
   "property": "C73",
   "status": "partial",
   "theorems": [
    "C73_scheduled_partial",
    "C73_delivered",
    "C73_zero_period_refuted",
    "C73_no_relayer_refuted"
   ],
   "note": "Proved for challenge periods of at least one block and block numbers that do not wrap. Refuted for period 0 (scheduled for a block already begun) and for a claim judged valid while no relayer is set."
  },
  {
   "property": "C74",
   "status": "partial",
   "theorems": [
    "C74_submitter_pays_partial",
    "C74_wrong_relayer_refuted"
   ],
   "note": "Proved while the relayer is not replaced; refuted otherwise: the current relayer is slashed."
  },
  {
   "property": "C75",
   "status": "partial",
   "theorems": [
    "C75_outgoing_partial",
    "C75_paused_change_refuted"
   ],
   "note": "Proved when the bridge is not paused at the time of the change. Refuted when governance has paused it: the announcement is then emitted after the change, for the new set."
  },
  {
   "property": "C76",
   "status": "partial",
   "theorems": [
    "C76_processed_partial",
    "C76_failed_is_final",
    "C76_challenge_refuted",
    "C76_failed_refuted"
   ],
   "note": "Decided exactly one challenge period after submission if unchallenged, and an XRP deposit then credited. Refuted: anyone can stop a genuine deposit forever by a free challenge that nothing resolves, and a deposit that failed for a passing reason can never be resubmitted."
  },
  {
   "property": "C77",
   "status": "partial",
   "theorems": [
    "C77_no_panic_partial",
    "C77_halt_refuted"
   ],
   "note": "No panic while the transactions credited per XRPL ledger fit the per-ledger list; refuted otherwise: the list is filled over several blocks and the expect in process_xrp_tx panics in every following block initialisation."
  },
  {
   "property": "C78",
   "status": "partial",
   "theorems": [
    "C78_no_panic_partial",
    "C78_short_refuted"
   ],
   "note": "Refuted: proxyCall to a futurepass or the registrar with fewer than four bytes of call data slices out of range and panics. No panic when call data has four bytes at every level."
  },
  {
   "property": "C79",
   "status": "proved",
   "theorems": [
    "C79_owner_leaves",
    "C79_delegate_added",
    "C79_delegate_removed"
   ],
   "note": "Same assumptions as C42. An operation of an account is one in which the pallet or the precompile sees it as the caller; by DELEGATECALL a contract that the owner calls can bring that about, see C152_delegatecall_refuted."
  },
  {
   "property": "C80",
   "status": "partial",
   "theorems": [
    "C80_transfer_partial",
    "C80_full_refuted"
   ],
   "note": "Holds while the list of delegates has room; refuted when it is full (32): the new owner is added before the others are removed."
  },
  {
   "property": "C81",
   "status": "partial",
   "theorems": [
    "C81_published_partial",
    "C81_passed_over_refuted"
   ],
   "note": "Every order of arrival, with an unchanged set, an honest node, each event announced once and thresholds of at least one. Refuted for an event passed over as in C50."
  },
  {
   "property": "C82",
   "status": "partial",
   "theorems": [
    "C82_stopped_partial",
    "C82_no_evm_call",
    "C82_xrpl_and_doughnut_refuted"
   ],
   "note": "Proved for signed extrinsics and Ethereum transactions, and for EVM calls inside any transaction. Refuted for transactions signed with an XRPL key and for doughnuts: their validations leave the maintenance check out."
  },
  {
   "property": "C83",
   "status": "proved",
   "theorems": [
    "C83_paused_iff_configured",
    "C83_accepted"
   ],
   "note": "Every history with names within the bound (longer ones are cut off by the pallet)."
  },
  {
   "property": "C84",
   "status": "partial",
   "theorems": [
    "C84_paused_never_runs_partial",
    "C84_precompile_refuted"
   ],
   "note": "Every nesting and transaction, as long as precompiles dispatch. Refuted for the precompiles that call the pallet directly (exchange, marketplace, peg, collection creation). Calls dispatched by root are not filtered and not part of the claim."
  },
  {
   "property": "C85",
   "status": "partial",
   "theorems": [
    "C85_backed_partial",
    "C85_deposit_partial",
    "C85_mapped_collection_refuted",
    "C85_burnable_refuted"
   ],
   "note": "Proved for every history in which the root origin maps no collection by hand, tokens in the door are those deposited or minted by an honest relayer, and issuers use a sequence number once. Refuted when a native collection is mapped: a deposit whose sequence is a minted serial gives the depositor nothing and hands the token to the owner of the serial. Refuted for burnable tokens, which are kept without an NFT."
  },
  {
   "property": "C86",
   "status": "partial",
   "theorems": [
    "C86_bridged_round_trip_partial",
    "C86_native_refuted"
   ],
   "note": "Proved for collections that came from the XRPL. Refuted for native XLS-20 collections: the token comes back as another serial of a new collection."
  },
  {
   "property": "C87",
   "status": "partial",
   "theorems": [
    "C87_authorised",
    "C87_once_partial",
    "C87_replay_refuted"
   ],
   "note": "Authorisation proved. Execution once is proved while the account of the holder stays on the chain; refuted otherwise, because removing an account resets its nonce. Signature checks and codec are parameters; CheckWeight omitted."
  },
  {
   "property": "C88",
   "status": "partial",
   "theorems": [
    "C88_data_exists",
    "C88_relayer"
   ],
   "note": "Histories with bridged mints only into bridged collections, see C15. One sub type of data; SFT reduced to the set of its tokens."
  },
  {
   "property": "C89",
   "status": "partial",
   "theorems": [
    "C89_mint_call_partial",
    "C89_bridged_refuted"
   ],
   "note": "Proved for the mint call. Refuted for bridged mints (and crowdsale redemptions use the same path without request)."
  },
  {
   "property": "C90",
   "status": "partial",
   "theorems": [
    "C90_backed_partial",
    "C90_big_id_refuted"
   ],
   "note": "Proved for every history in which the contract reports tokens it did not hold, once each, with ids below 2^32, and fewer than 2^32-1 blocked mints. Refuted for larger ids, which saturate to 2^32-1."
  },
  {
   "property": "C91",
   "status": "partial",
   "theorems": [
    "C91_evm_fee_covered",
    "C91_evm_can_withdraw",
    "C91_checked_goes_through",
    "C91_big_pool_refuted"
   ],
   "note": "Fully proved except that acceptance after the check needs the issuances of the two assets to be at most 2^117 and of the pool token at most 2^127: with larger pools the U256 product check overflows and the quoted trade is refused. The Frontier runner and gas metering are outside the model."
  },
  {
   "property": "C92",
   "status": "proved",
   "theorems": [
    "C92_within_limit",
    "C92_goes_through"
   ],
   "note": "CurrencyAdapter (external crate) is modelled by what it does with AssetCurrency. The success theorem asks for issuances within 2^117 as in C91. The payer is assumed not to be the account that receives the exchange's protocol fee."
  },
  {
   "property": "C93",
   "status": "partial",
   "theorems": [
    "C93_settled_exactly",
    "C93_signer_pays_final_fee",
    "C93_refund_to_payer_refuted"
   ],
   "note": "Settlement is exact and the signer pays the final fee when the signer is the payer. Refuted when a futurepass pays: the unused part of its fee is credited to the delegate who signed."
  },
  {
   "property": "C94",
   "status": "partial",
   "theorems": [
    "C94_check_never_panics",
    "C94_charge_never_panics",
    "C94_huge_price_refuted",
    "C94_huge_gas_refuted"
   ],
   "note": "Proved when the gas limit fits u64 and gas times price fits u128 drops. Refuted beyond: scaling panics with an expect, as_u64 panics on large gas limits, both while validating a transaction."
  },
  {
   "property": "C95",
   "status": "partial",
   "theorems": [
    "C95_others_pay_xrp",
    "C95_nested_ignored_refuted"
   ],
   "note": "Proved at the top of a transaction by C92; below any other call the preference is ignored although its event is emitted."
  },
  {
   "property": "C96",
   "status": "proved",
   "theorems": [
    "C96_no_trades",
    "C96_no_deposits",
    "C96_switch"
   ],
   "note": "From every reachable state."
  },
  {
   "property": "C97",
   "status": "proved",
   "theorems": [
    "C97_deposit",
    "C97_withdrawal"
   ],
   "note": "From every reachable state. The share formula is stated for pools whose balances equal the stored reserves (no donation since the last operation)."
  },
  {
   "property": "C98",
   "status": "proved",
   "theorems": [
    "C98_can_withdraw"
   ],
   "note": "From every reachable state, enabled or not."
  },
  {
   "property": "C99",
   "status": "proved",
   "theorems": [
    "C99_listing_fate",
    "C99_sale_opened",
    "C99_auction_opened"
   ],
   "note": "Histories as in C22/C23: amounts within u128, fewer than 2^128 listings and 2^32 blocks, the holds vault signs nothing. The collection royalties are read from the collection at the time of listing (an input of the model)."
  }
 ]
}