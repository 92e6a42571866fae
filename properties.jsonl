{"id": "C01", "title": "A swap never takes value out of a pool", "statement": "Whenever swap_with_exact_supply or swap_with_exact_target succeeds, for every trading pair on the path the product of the two reserves the pair reports after the call is at least the product before the call. No trader, alone or through any route, can therefore shrink the constant product.", "quantifier": "for every pool state, every path length, every input/target amount and every sequence of earlier operations", "why_tests_cant": "Rounding in three integer divisions decides the outcome; a unit test pins a handful of amounts, while the claim is about every pair of 128-bit reserves and amounts, including the edge cases where truncation goes the wrong way.", "anchors": ["pallet/dex/src/lib.rs:get_amount_out", "pallet/dex/src/lib.rs:get_amount_in", "pallet/dex/src/lib.rs:_swap", "pallet/dex/src/lib.rs:do_swap_with_exact_supply", "pallet/dex/src/lib.rs:do_swap_with_exact_target"]}
{"id": "C02", "title": "The exact-target quote is sufficient and tight", "statement": "If the price query for a desired output returns an input amount below the 128-bit ceiling (at which the query saturates), then paying that input yields at least the desired output, and no payment more than one unit smaller would do.", "quantifier": "for every pair of reserves and every desired output the query accepts", "why_tests_cant": "It relates two independent rounding formulas over unbounded ranges; sampled values cannot show the quote is never one unit short.", "anchors": ["pallet/dex/src/lib.rs:get_amount_in", "pallet/dex/src/lib.rs:get_amount_out"]}
{"id": "C03", "title": "Slippage limits and atomicity of swaps", "statement": "A successful exact-supply swap debits the trader exactly the supplied amount and credits at least the stated minimum; a successful exact-target swap credits exactly the target and debits at most the stated maximum; a failing swap changes no balance at all.", "quantifier": "for every path, amounts, limits and pool state", "why_tests_cant": "The guarantee spans every multi-hop path and every rounding outcome; tests only fix a few paths.", "anchors": ["pallet/dex/src/lib.rs:do_swap_with_exact_supply", "pallet/dex/src/lib.rs:do_swap_with_exact_target", "pallet/dex/src/lib.rs:get_amounts_out", "pallet/dex/src/lib.rs:get_amounts_in"]}
{"id": "C04", "title": "The value behind a liquidity share never falls", "statement": "With the protocol fee switched off, for any history of adding liquidity, removing liquidity and swapping by any accounts, the quantity reserve_a*reserve_b/(LP supply)^2 of a pool never decreases.", "quantifier": "for every history (any length, any interleaving of accounts) of a pool, fee receiver unset", "why_tests_cant": "Each operation rounds; whether the errors always favour the remaining providers across arbitrarily long histories is an invariant, not a test case.", "anchors": ["pallet/dex/src/lib.rs:do_add_liquidity", "pallet/dex/src/lib.rs:do_remove_liquidity", "pallet/dex/src/lib.rs:_swap"]}
{"id": "C05", "title": "A pool can never be drained", "statement": "Once a pool has received its first deposit, its LP supply never drops below the 1000 permanently locked units and neither reserve ever reaches zero, whatever providers and traders do.", "quantifier": "for every history of operations after the first deposit", "why_tests_cant": "Requires that no sequence of removals and swaps reaches zero; tests examine finitely many sequences.", "anchors": ["pallet/dex/src/lib.rs:do_add_liquidity (MINIMUM_LIQUIDITY)", "pallet/dex/src/lib.rs:do_remove_liquidity", "pallet/dex/src/lib.rs:_swap"]}
{"id": "C06", "title": "Adding and immediately removing liquidity is never profitable", "statement": "If an account adds liquidity and then removes exactly the shares it received, with nothing in between and no tokens sent to the pool account outside the exchange, it gets back at most what it put in, for each of the two tokens.", "quantifier": "for every pool state and every pair of deposit amounts", "why_tests_cant": "Three floor divisions in each direction over 128-bit values; a single counterexample among 2^256 inputs would be an exploit.", "anchors": ["pallet/dex/src/lib.rs:do_add_liquidity", "pallet/dex/src/lib.rs:do_remove_liquidity"]}
{"id": "C07", "title": "The protocol fee takes only a sixth of trading growth", "statement": "Shares minted to the fee receiver correspond to at most one sixth of the growth of sqrt(reserve_a*reserve_b) caused by trading; growth that comes from providers adding liquidity is never charged.", "quantifier": "for every history including toggling the fee receiver", "why_tests_cant": "Depends on bookkeeping (the remembered product) staying in step over every interleaving of fee toggles and deposits.", "anchors": ["pallet/dex/src/lib.rs:mint_fee", "pallet/dex/src/lib.rs:do_add_liquidity", "pallet/dex/src/lib.rs:do_remove_liquidity", "pallet/dex/src/lib.rs:set_fee_to"]}
{"id": "C08", "title": "The exchange neither creates nor destroys tokens", "statement": "Across any history of exchange operations, the total amount of every non-LP asset summed over all accounts is unchanged.", "quantifier": "for every history and every asset", "why_tests_cant": "Conservation over every interleaving and every failure path cannot be covered by examples.", "anchors": ["pallet/dex/src/lib.rs:_swap", "pallet/dex/src/lib.rs:do_add_liquidity", "pallet/dex/src/lib.rs:do_remove_liquidity"]}
{"id": "C09", "title": "Converting wei to an asset's decimals never undercharges", "statement": "For an asset with at most 18 decimals, converting an 18-decimals amount to asset units rounds up: the result covers the amount, exceeds it by less than one unit, is zero only for zero, is monotone, and converting asset units to wei and back is the identity.", "quantifier": "for every wei value that fits and every number of decimals from 0 to 18", "why_tests_cant": "Rounding behaviour over 2^128 values times 19 scales.", "anchors": ["pallet/common/src/utils.rs:scale_wei_to_correct_decimals", "pallet/common/src/utils.rs:scale_decimals_to_wei", "runtime/src/impls.rs:scale_wei_to_6dp"]}
{"id": "C10", "title": "Asset and collection ids are never handed out twice", "statement": "The ids handed out from successive counter values are pairwise different, carry the parachain id in their low 10 bits, and the generator reports exhaustion instead of wrapping around.", "quantifier": "for every run length and every counter value", "why_tests_cant": "Uniqueness across the whole 2^22 id space and the behaviour at its end are not reached by tests.", "anchors": ["pallet/common/src/utils.rs:next_asset_uuid", "pallet/nft/src/impls.rs:next_collection_uuid", "pallet/assets-ext/src/lib.rs:next_asset_uuid"]}
{"id": "C11", "title": "Holds are conserved and isolated between pallets", "statement": "For any history of placing, releasing and spending holds mixed with mints, burns and transfers, every account's free balance plus everything held for it changes only by amounts it received, sent, minted or burned; a pallet can never release or spend more than it placed itself, nor touch a hold placed by another pallet.", "quantifier": "for every history in which no single list of spends adds up to more than 2^128-1, every account, asset and pallet id", "why_tests_cant": "Requires an invariant over unbounded interleavings of several pallets' holds.", "anchors": ["pallet/assets-ext/src/lib.rs:place_hold", "pallet/assets-ext/src/lib.rs:release_hold", "pallet/assets-ext/src/lib.rs:spend_hold"]}
{"id": "C12", "title": "Split payments move exactly the stated amounts or nothing", "statement": "A successful split transfer debits the sender by exactly the sum of the listed amounts and credits every listed account by exactly its total; if it fails, no balance changed.", "quantifier": "for every list of recipients (any length, duplicates and the sender included)", "why_tests_cant": "Aliasing of recipients and overflow of the sum are unbounded-input questions.", "anchors": ["pallet/assets-ext/src/lib.rs:split_transfer"]}
{"id": "C13", "title": "A spender never spends more than was approved", "statement": "Between two approvals by an owner to a spender, the total the spender moves through the ERC-20 allowance is at most the last approved amount, and each successful spend reduces the allowance by exactly the amount spent.", "quantifier": "for every history of approvals and allowance spends by all accounts", "why_tests_cant": "An accounting bound over arbitrarily long histories.", "anchors": ["pallet/token-approvals/src/lib.rs:erc20_approval", "pallet/token-approvals/src/lib.rs:erc20_update_approval"]}
{"id": "C14", "title": "Only the owner and those the owner trusts may move an NFT by approval", "statement": "An account is authorised for a token exactly when it is the token's owner, holds the token's current single approval, or was approved for the whole collection by the current owner; and a single approval granted by an earlier owner never survives a transfer of the token.", "quantifier": "for every history of approvals, revocations and transfers", "why_tests_cant": "A stale approval after some unusual interleaving is a theft; tests cover a few interleavings.", "anchors": ["pallet/token-approvals/src/lib.rs:is_approved_or_owner", "pallet/token-approvals/src/lib.rs:erc721_approval", "pallet/token-approvals/src/lib.rs:on_nft_transfer"]}
{"id": "C15", "title": "Every NFT has exactly one owner and balances add up", "statement": "After any history of mints, transfers and burns, each serial number of a collection is owned by at most one account and appears once in that account's list, and the collection's issuance equals the number of owned serials.", "quantifier": "for every history of any length and every argument list the calls accept", "why_tests_cant": "Representation invariant over every operation sequence and argument list, including duplicate serials.", "anchors": ["pallet/nft/src/impls.rs:do_mint", "pallet/nft/src/impls.rs:do_transfer", "pallet/nft/src/impls.rs:do_burn", "pallet/nft/src/types.rs:add_user_tokens", "pallet/nft/src/types.rs:remove_user_tokens"]}
{"id": "C16", "title": "A collection's maximum issuance is never exceeded", "statement": "If a collection declares a maximum issuance, the number of tokens in it never exceeds that maximum, by whichever path tokens are created.", "quantifier": "for every history including minting by owners, public mints and bridge mints", "why_tests_cant": "All creation paths over all histories.", "anchors": ["pallet/nft/src/impls.rs:pre_mint", "pallet/nft/src/impls.rs:mint_bridged_token", "pallet/nft/src/lib.rs:mint"]}
{"id": "C17", "title": "A serial number is never issued twice", "statement": "Within a collection created on this chain, a serial number minted by the mint call is never minted again, even after the token was burned.", "quantifier": "for every history", "why_tests_cant": "Needs an invariant linking the serial counter to all past mints.", "anchors": ["pallet/nft/src/impls.rs:pre_mint", "pallet/nft/src/impls.rs:do_mint", "pallet/nft/src/impls.rs:do_burn"]}
{"id": "C18", "title": "A locked NFT cannot move", "statement": "While a token is locked for a listing, neither transfer nor burn of it succeeds and its owner stays the same; only the pallet that locked it can end that.", "quantifier": "for every history between locking and unlocking in which bridged mints go only to bridged collections", "why_tests_cant": "Quantifies over every operation that might move a token while locked.", "anchors": ["pallet/nft/src/impls.rs:do_transfer", "pallet/nft/src/impls.rs:do_burn", "pallet/nft/src/lib.rs:TokenLocks"]}
{"id": "C19", "title": "SFT balances add up to the issuance and respect the cap", "statement": "After any history, for each semi-fungible token the sum over holders of free plus reserved balance equals the token's issuance, and the issuance never exceeds the declared maximum.", "quantifier": "for every history, every argument list including repeated serial numbers and self-transfers", "why_tests_cant": "Conservation over every history and aliasing pattern.", "anchors": ["pallet/sft/src/impls.rs:do_mint", "pallet/sft/src/impls.rs:do_transfer", "pallet/sft/src/impls.rs:do_burn", "pallet/sft/src/types.rs"]}
{"id": "C20", "title": "Reserved SFT balance is untouchable", "statement": "Balance reserved for a listing cannot be transferred or burned by its owner, and reserving then freeing (or transferring) moves exactly the stated amount.", "quantifier": "for every history", "why_tests_cant": "Isolation property over all interleavings.", "anchors": ["pallet/sft/src/impls.rs:reserve_balance", "pallet/sft/src/impls.rs:free_reserved_balance", "pallet/sft/src/types.rs:SftTokenBalance"]}
{"id": "C21", "title": "A sale splits the price exactly", "statement": "In every settled sale the amounts paid to the seller, the royalty beneficiaries, the marketplace and the network fee account are all non-negative and add up to exactly the price, provided total entitlements are at most 100%.", "quantifier": "for every price, every royalty schedule accepted by validation, every fee", "why_tests_cant": "Rounding of several percentages of the same price for every price and schedule.", "anchors": ["pallet/marketplace/src/impls.rs:calculate_royalty_payouts", "pallet/marketplace/src/impls.rs:process_payment_and_transfer", "pallet/marketplace/src/impls.rs:calculate_bundle_royalties"]}
{"id": "C22", "title": "Held bid and offer money always matches the open bids and offers", "statement": "After any history, the total held by the marketplace for each account equals the sum of that account's current winning bids and open offers; so outbid bidders and cancelled offers are refunded in full.", "quantifier": "for every history of listings, bids, offers, cancellations, acceptances and closings", "why_tests_cant": "Escrow invariant over all interleavings, including accepting an offer on a token under auction.", "anchors": ["pallet/marketplace/src/impls.rs:do_bid", "pallet/marketplace/src/impls.rs:do_make_simple_offer", "pallet/marketplace/src/impls.rs:do_cancel_offer", "pallet/marketplace/src/impls.rs:do_accept_offer", "pallet/marketplace/src/impls.rs:process_auction_closure"]}
{"id": "C23", "title": "A token is locked exactly while it is listed", "statement": "After any history, every token locked by the marketplace belongs to a listing that is still open, so its owner can always eventually get it back by cancelling or waiting for closure.", "quantifier": "for every history", "why_tests_cant": "A stuck lock only appears after particular interleavings.", "anchors": ["pallet/marketplace/src/impls.rs:do_sell", "pallet/marketplace/src/impls.rs:do_auction", "pallet/marketplace/src/impls.rs:do_accept_offer", "pallet/marketplace/src/impls.rs:remove_listing", "pallet/marketplace/src/impls.rs:close_listings_at"]}
{"id": "C24", "title": "Crowdsale voucher claims are always fully backed", "statement": "When a sale has closed, the vouchers due to all participants together never exceed the vouchers held by the sale's vault, in both the undersubscribed and the oversubscribed case, so the order of claiming does not matter and no participant is short-changed.", "quantifier": "for every set of contributions, every price and every supply", "why_tests_cant": "Sum of floors against a floor of a sum, for any number of participants.", "anchors": ["pallet/crowdsale/src/impls.rs:calculate_voucher_rewards", "pallet/crowdsale/src/impls.rs:transfer_user_vouchers", "pallet/crowdsale/src/impls.rs:close_sales_at"]}
{"id": "C25", "title": "Every crowdsale contribution is claimed exactly once", "statement": "During distribution, each participant receives their vouchers at most once, whether through automatic distribution, forced distribution or claiming, and the distribution ends with every participant served.", "quantifier": "for every interleaving of automatic distribution and claims, where the sums raised times 10^6 fit in 128 bits and no asset owner burns from a vault", "why_tests_cant": "Interleavings of two payout routes.", "anchors": ["pallet/crowdsale/src/lib.rs:claim_voucher", "pallet/crowdsale/src/lib.rs:distribute_crowdsale_rewards"]}
{"id": "C26", "title": "Every enabled crowdsale eventually closes", "statement": "A sale that was enabled leaves the enabled state when its end block is reached, so contributions never remain stuck in the vault of a sale that can no longer end.", "quantifier": "for every duration and start block accepted by enable", "why_tests_cant": "Boundary behaviour of the block-indexed closing schedule for every accepted duration.", "anchors": ["pallet/crowdsale/src/lib.rs:enable", "pallet/crowdsale/src/impls.rs:close_sales_at", "pallet/crowdsale/src/lib.rs:on_initialize"]}
{"id": "C27", "title": "Voucher redemption is one voucher per token", "statement": "Each redemption of q vouchers destroys exactly q whole vouchers and mints exactly q NFTs, so the NFTs minted never exceed the sale's maximum issuance.", "quantifier": "for every quantity within a mint limit of at most 4294 (the chain allows 1000) and every history of redemptions", "why_tests_cant": "Arithmetic on 32-bit scaled quantities near the limits.", "anchors": ["pallet/crowdsale/src/lib.rs:redeem_voucher"]}
{"id": "C28", "title": "A vortex distribution pays every registered account exactly once", "statement": "Running the unsigned payout to completion pays each registered account exactly its registered amount, once, however the batches fall.", "quantifier": "for every orderbook, batch size and sequence of payout calls", "why_tests_cant": "Batch boundaries against an unbounded orderbook.", "anchors": ["pallet/vortex-distribution/src/lib.rs:pay_unsigned", "pallet/vortex-distribution/src/lib.rs:register_rewards"]}
{"id": "C29", "title": "Redeeming vortex never dilutes the remaining holders", "statement": "When an account redeems vortex, every vault asset pays out at most the redeemed share, and the vault holding per remaining vortex unit does not fall.", "quantifier": "for every vault content, supply and redeemed amount, over any sequence of redemptions", "why_tests_cant": "Rounding direction for every triple of 128-bit values.", "anchors": ["pallet/vortex-distribution/src/lib.rs:redeem_tokens_from_vault"]}
{"id": "C30", "title": "A bridge event is delivered at most once", "statement": "No event id from Ethereum is ever routed to its destination pallet twice, whatever the relayer submits, including resubmission, missing-event submission and pruning of the processed list.", "quantifier": "for every history of relayer submissions, challenges, notarisations, block ticks and pruning, any list capacity", "why_tests_cant": "At-most-once over unbounded histories with a pruned, bounded memory of past ids.", "anchors": ["pallet/ethy/src/lib.rs:submit_event", "pallet/ethy/src/lib.rs:on_initialize", "pallet/ethy/src/impls.rs:do_submit_event", "pallet/ethy/src/impls.rs:prune_claim_ids"]}
{"id": "C31", "title": "An event is delivered only after its full challenge period and never while challenged", "statement": "An event is routed only at a block at least the challenge period after the (latest) submission of that event id, and never between a challenge and its resolution in favour of the relayer.", "quantifier": "for every history", "why_tests_cant": "A time-indexed safety property over all interleavings of submission, challenge, verdict and resubmission.", "anchors": ["pallet/ethy/src/lib.rs:on_initialize", "pallet/ethy/src/impls.rs:handle_invalid_claim", "pallet/ethy/src/impls.rs:handle_valid_claim"]}
{"id": "C32", "title": "Challenge verdicts need the configured share of validators", "statement": "A claim is judged valid only when at least the threshold share of the current notaries voted valid, judged invalid only when more than the complementary share voted otherwise, and no notary is counted twice.", "quantifier": "for every vote sequence, validator set size and threshold", "why_tests_cant": "All vote orders and set sizes with percentage rounding.", "anchors": ["pallet/ethy/src/impls.rs:handle_event_notarization"]}
{"id": "C33", "title": "Every requested bridge proof is emitted exactly once", "statement": "Each proof request gets a fresh id and is emitted for signing exactly once: immediately when the bridge is active, otherwise after the bridge resumes; none is dropped, duplicated or emitted while paused.", "quantifier": "for every history of requests, pauses and idle blocks", "why_tests_cant": "Exactly-once over arbitrary pause/resume schedules and weights.", "anchors": ["pallet/ethy/src/impls.rs:do_request_event_proof", "pallet/ethy/src/lib.rs:on_idle", "pallet/ethy/src/lib.rs:set_bridge_paused"]}
{"id": "C34", "title": "An eth_call result is reported only with enough attestations", "statement": "The requesting pallet is told a successful result only if at least the threshold share of notaries reported that same result.", "quantifier": "for every vote sequence and validator set", "why_tests_cant": "All vote orders, including the failure path when agreement becomes impossible.", "anchors": ["pallet/ethy/src/impls.rs:handle_call_notarization"]}
{"id": "C35", "title": "An XRPL deposit is credited at most once", "statement": "Provided a transaction hash always comes with the same ledger index, no XRPL transaction is credited twice on this chain, whatever is resubmitted and however settled data is pruned.", "quantifier": "for every history of submissions, blocks and pruning (without a root reset of the settlement window)", "why_tests_cant": "At-most-once with pruned memory over unbounded histories.", "anchors": ["pallet/xrpl-bridge/src/lib.rs:submit_transaction", "pallet/xrpl-bridge/src/lib.rs:process_xrp_tx", "pallet/xrpl-bridge/src/lib.rs:clear_storages"]}
{"id": "C36", "title": "Door ticket sequences are never reused", "statement": "The ticket sequence numbers attached to outgoing XRPL transactions of one door account are strictly increasing, across bucket roll-overs and operator updates.", "quantifier": "for every history of withdrawals and bucket updates", "why_tests_cant": "Uniqueness across roll-over boundaries for every allocation the calls accept.", "anchors": ["pallet/xrpl-bridge/src/lib.rs:get_door_ticket_sequence", "pallet/xrpl-bridge/src/lib.rs:set_ticket_sequence_next_allocation", "pallet/xrpl-bridge/src/lib.rs:set_ticket_sequence_current_allocation"]}
{"id": "C37", "title": "Delayed XRPL withdrawals are released exactly once and on time", "statement": "Each delayed withdrawal is released exactly once, never before its due block, and none is skipped, whatever weight each block leaves.", "quantifier": "for every history of withdrawals, delay changes and idle weights", "why_tests_cant": "Cursor-style processing under arbitrary weights and schedules.", "anchors": ["pallet/xrpl-bridge/src/lib.rs:delay_payment", "pallet/xrpl-bridge/src/lib.rs:process_delayed_payments"]}
{"id": "C38", "title": "What is burned is what is signed for the XRPL", "statement": "For an issued-currency withdrawal, the amount burned equals exactly the value encoded (mantissa and exponent) in the XRPL payment, is at most the requested amount and less than one unit of the asset's dropped precision below it.", "quantifier": "for every amount and number of decimals", "why_tests_cant": "Digit-level rounding for every 128-bit amount and every decimals setting.", "anchors": ["pallet/xrpl-bridge/src/lib.rs:saturate_balance", "pallet/xrpl-bridge/src/lib.rs:balance_to_mantissa_exponent", "pallet/xrpl-bridge/src/lib.rs:process_asset_withdrawal"]}
{"id": "C39", "title": "The asset map between the chains is one-to-one", "statement": "After any history of mapping changes, an asset maps to an XRPL currency exactly when that currency maps back to the asset.", "quantifier": "for every history of set_xrpl_asset_map calls", "why_tests_cant": "Needs every overwrite order.", "anchors": ["pallet/xrpl-bridge/src/lib.rs:set_xrpl_asset_map"]}
{"id": "C40", "title": "Bridged ERC-20 supply is backed one-to-one", "statement": "For every bridged token: tokens deposited on Ethereum and accepted here equal tokens in circulation here, plus deposits pending, plus withdrawals released or pending, plus deposits that failed on release.", "quantifier": "for every history of deposits, withdrawals, delays and releases", "why_tests_cant": "Conservation over every interleaving and failure path.", "anchors": ["pallet/erc20-peg/src/lib.rs:do_deposit", "pallet/erc20-peg/src/lib.rs:do_withdrawal", "pallet/erc20-peg/src/lib.rs:process_delayed_payment"]}
{"id": "C41", "title": "Every delayed ERC-20 payment is released exactly once, when due", "statement": "Each delayed deposit or withdrawal is released exactly once and not before its scheduled block, and every scheduled payment becomes ready for release at its scheduled block.", "quantifier": "for every history, delay setting and idle weight", "why_tests_cant": "Scheduling across all delays (including zero) and weights.", "anchors": ["pallet/erc20-peg/src/lib.rs:delay_payment", "pallet/erc20-peg/src/lib.rs:on_initialize", "pallet/erc20-peg/src/lib.rs:on_idle", "pallet/erc20-peg/src/lib.rs:claim_delayed_payment"]}
{"id": "C42", "title": "A futurepass has exactly one owner", "statement": "After any history, no account owns two futurepasses, no futurepass has two owners, the owner is always registered as an owner-level delegate, and after a transfer the new owner is the only delegate.", "quantifier": "for every history of create, register, unregister and transfer by any callers (fewer than 2^128 creations, nobody holding the key of an address with the reserved prefix)", "why_tests_cant": "Invariant over every operation sequence.", "anchors": ["pallet/futurepass/src/lib.rs:create", "pallet/futurepass/src/lib.rs:transfer_futurepass", "pallet/futurepass/src/lib.rs:unregister_delegate", "runtime/src/impls.rs:ProxyPalletProvider"]}
{"id": "C43", "title": "Futurepass addresses are unique and recognisable", "statement": "Different futurepasses get different addresses, all starting with the reserved prefix.", "quantifier": "for every number of futurepasses created up to 2^128", "why_tests_cant": "Injectivity of an encoding over 2^128 ids.", "anchors": ["pallet/futurepass/src/lib.rs:generate_futurepass_account"]}
{"id": "C44", "title": "Maintenance settings can never lock the operators out", "statement": "Whatever blocks have been configured, calls to the sudo, timestamp, im-online, ethy and maintenance pallets are never paused and pass the maintenance checks, in any letter case of the configured names.", "quantifier": "for every history of block and unblock calls", "why_tests_cant": "Every reachable configuration.", "anchors": ["pallet/maintenance-mode/src/lib.rs:is_pallet_blockable", "pallet/maintenance-mode/src/lib.rs:call_paused", "pallet/maintenance-mode/src/lib.rs:block_call", "pallet/maintenance-mode/src/lib.rs:block_pallet"]}
{"id": "C45", "title": "A blocked EVM address cannot be called", "statement": "While an EVM address is blocked, no EVM call transaction is executed with that address as its final target.", "quantifier": "for every transaction, including those routed through the fee-preference proxy", "why_tests_cant": "Requires every route to a target.", "anchors": ["pallet/maintenance-mode/src/lib.rs:validate_evm_call", "pallet/fee-proxy/src/runner.rs:call"]}
{"id": "C46", "title": "XLS-20 token ids decode faithfully", "statement": "Decoding an XLS-20 token id recovers issuer, taxon and sequence; the taxon scrambling is its own inverse; two ids with equal flags, fee, issuer, taxon and sequence are equal.", "quantifier": "for every 32-byte token id", "why_tests_cant": "2^256 inputs.", "anchors": ["pallet/xls20/src/types.rs:unscramble_taxon", "pallet/xls20/src/types.rs:Xls20Token"]}
{"id": "C47", "title": "The XLS-20 mint fee is fee times count", "statement": "A request for n tokens charges exactly n times the configured fee.", "quantifier": "for every fee and count", "why_tests_cant": "Width truncation only shows for values tests do not use.", "anchors": ["pallet/xls20/src/lib.rs:pay_xls20_fee"]}
{"id": "C48", "title": "A completed proof never reopens", "statement": "Once an event has been marked complete, no later witness for it is accepted, however the memory of completed events is compacted.", "quantifier": "for every sequence of completions and witnesses", "why_tests_cant": "Compaction over unbounded histories.", "anchors": ["ethy-gadget/src/witness_record.rs:mark_complete", "ethy-gadget/src/witness_record.rs:compact_sequence", "ethy-gadget/src/witness_record.rs:note_event_witness"]}
{"id": "C49", "title": "Consensus means enough distinct valid signatures", "statement": "While the validator set is unchanged, an event is reported as having consensus only if at least the threshold number of distinct validators supplied a valid signature over the event's own digest; the stored signatures are ordered by validator index without duplicates.", "quantifier": "for every order of arrival of metadata and witnesses, including early witnesses and duplicates", "why_tests_cant": "All message orders.", "anchors": ["ethy-gadget/src/witness_record.rs:note_event_witness", "ethy-gadget/src/witness_record.rs:has_consensus", "ethy-gadget/src/witness_record.rs:process_unverified_witnesses"]}
{"id": "C50", "title": "An event that is not complete is never refused as complete", "statement": "A witness for an event that was never marked complete is not rejected with the completed-event error.", "quantifier": "for every order of completions", "why_tests_cant": "Only particular completion orders expose it.", "anchors": ["ethy-gadget/src/witness_record.rs:compact_sequence", "ethy-gadget/src/witness_record.rs:note_event_witness"]}
{"id": "C51", "title": "Expanded proofs put each signature in its validator's slot", "statement": "Expanding a proof for n validators yields exactly n slots; slot i carries the signature recorded for validator i and is blank otherwise; the proof's count of signatures is the number of slots that are not blank.", "quantifier": "for every n below 2^32 and every ordered signature list", "why_tests_cant": "All list shapes and lengths.", "anchors": ["primitives/src/ethy.rs:EventProof::expanded_signatures"]}
{"id": "C52", "title": "A doughnut's spending limit holds for the amount actually transferred", "statement": "If a doughnut's permission accepts a transfer, then the amount actually transferred satisfies the permission's numeric condition.", "quantifier": "for every amount and every numeric condition", "why_tests_cant": "Width conversion of the checked value differs from the executed value only for large amounts.", "anchors": ["runtime/src/impls.rs:DoughnutCallValidator"]}
{"id": "C53", "title": "A revoked doughnut cannot be used", "statement": "After its issuer revokes a doughnut or its holder (and does not undo it), no transaction using that doughnut executes a call.", "quantifier": "for every history and every encoding of the doughnut the decoder accepts", "why_tests_cant": "All encodings of the same doughnut and all histories.", "anchors": ["pallet/doughnut/src/lib.rs:transact", "pallet/doughnut/src/lib.rs:revoke_doughnut", "pallet/doughnut/src/lib.rs:revoke_holder"]}
{"id": "C54", "title": "NFI and network fees add up to the mint fee", "statement": "Requesting n NFI items charges the requester exactly n times the configured fee, split between the network fee account and the receiver without loss or gain.", "quantifier": "for every fee, count and network percentage", "why_tests_cant": "Rounding for every value.", "anchors": ["pallet/nfi/src/lib.rs:pay_mint_fee"]}
{"id": "C55", "title": "A deposited bridged NFT is either minted or reclaimable", "statement": "For every NFT in a bridge deposit that reaches the peg, after processing it is owned by its destination or recorded as blocked so that the destination can withdraw it back.", "quantifier": "for every deposit message (any number of collections and tokens) and every chain state", "why_tests_cant": "Partial failure in the middle of a multi-collection deposit.", "anchors": ["pallet/nft-peg/src/lib.rs:do_deposit", "pallet/nft-peg/src/lib.rs:do_reclaim_blocked_nfts"]}
{"id": "C56", "title": "A withdrawn bridged NFT is burned before it is released", "statement": "Every NFT named in an outgoing release message was owned by the caller and burned in the same call, or was a blocked token reclaimed by its destination exactly once.", "quantifier": "for every argument list and history", "why_tests_cant": "Aliasing in argument lists and replays of reclaim.", "anchors": ["pallet/nft-peg/src/lib.rs:do_withdrawal"]}
{"id": "C57", "title": "Reported reserves are backed by tokens", "statement": "For every trading pair that exists, the reserves the exchange reports never exceed the balances its pool account really holds, so every quoted output can be paid.", "quantifier": "for every reachable state and every pair", "why_tests_cant": "The reported reserves are a cached copy updated on four code paths; that they never overtake the balances is an invariant over all histories, donations and failures included.", "anchors": ["pallet/dex/src/lib.rs:_swap", "pallet/dex/src/lib.rs:do_add_liquidity", "pallet/dex/src/lib.rs:do_remove_liquidity", "pallet/dex/src/lib.rs:LiquidityPool"]}
{"id": "C58", "title": "Different pairs use different pool accounts", "statement": "Two different ordered pairs of asset ids never share a pool address.", "quantifier": "for every two pairs of 32-bit asset ids", "why_tests_cant": "2^128 combinations of ids; a collision would let one pool spend the reserves of another.", "anchors": ["pallet/dex/src/types.rs:TradingPair::pool_address"]}
{"id": "C59", "title": "XRP inside the EVM: the shown balance is spendable and gas fees are conserved", "statement": "Any balance the EVM shows (18 decimals) can be sent in full; a transfer of a wei amount credits at least that amount and less than one drop more, and debits the same; charging and refunding a transaction fee leaves payer, fee pot and tip recipient with exactly the payer's old balance, and the net charge is the actual fee rounded to whole drops.", "quantifier": "for every balance, value, maximum fee, actual fee and base fee", "why_tests_cant": "Rounding errors between 18 and 6 decimals depend on the value; only a general argument excludes lost or created drops.", "anchors": ["runtime/src/impls.rs:FutureverseEVMCurrencyAdapter", "runtime/src/impls.rs:scale_wei_to_6dp", "runtime/src/impls.rs:EvmCurrencyScaler"]}
{"id": "C60", "title": "Token addresses in the EVM identify the token", "statement": "The EVM address derived from an asset or collection id decodes back to that id under the same prefix; addresses of different ids or of different token kinds are different and never decode under another kind's prefix.", "quantifier": "for every 32-bit id and every pair of 4-byte prefixes", "why_tests_cant": "Covers 2^32 ids times prefixes; collisions are a for-all statement.", "anchors": ["runtime/src/impls.rs:runtime_id_to_evm_id", "runtime/src/impls.rs:evm_id_to_runtime_id"]}
{"id": "C61", "title": "An ERC-20 call moves exactly the amount it names", "statement": "When transfer, transferFrom or approve of the ERC-20 precompile succeeds, the amount moved or approved is exactly the uint256 amount in the call.", "quantifier": "for every uint256 amount and every state", "why_tests_cant": "Tests use small amounts; the statement ranges over all 2^256 amounts including those beyond the native balance type.", "anchors": ["evm-precompiles/erc20/src/lib.rs: transfer, transfer_from, approve", "pallet/token-approvals/src/lib.rs: erc20_approval, erc20_update_approval"]}
{"id": "C62", "title": "The owner of a free NFT can always transfer it", "statement": "If a token is not locked and its collection allows transfers, the owner's transfer to any other account succeeds, whatever other accounts did before.", "quantifier": "for every history of calls by other accounts and every receiver", "why_tests_cant": "A counterexample needs as many calls as the collection's size bound; unit tests never reach it, and absence of any blocking history cannot be tested.", "anchors": ["pallet/nft/src/impls.rs: do_transfer", "pallet/nft/src/types.rs: add_user_tokens, remove_user_tokens"]}
{"id": "C63", "title": "A safe transfer is decided by the authorisation it checked", "statement": "safeTransferFrom of the ERC-721 precompile either reverts or moves the token from its owner with that owner's consent, whatever the receiver contract does and answers; it never aborts the runtime.", "quantifier": "for every behaviour and every answer of the receiver contract", "why_tests_cant": "The receiver is arbitrary code that may call back into the chain; tests cover a few fixed receivers.", "anchors": ["evm-precompiles/erc721/src/lib.rs: do_safe_transfer", "pallet/token-approvals/src/lib.rs: is_approved_or_owner"]}
{"id": "C64", "title": "An open auction accepts any funded higher bid", "statement": "While an auction is open, a bid above the current highest bid (or at least the reserve price if there is none) from an account that has the money and a free hold slot is accepted and becomes the highest bid: no earlier bidder can prevent being outbid.", "quantifier": "for every reachable marketplace state, open auction, bidder and amount", "why_tests_cant": "Depends on the hold entry of the previous bidder, which any other marketplace activity of that bidder may have changed.", "anchors": ["pallet/marketplace/src/impls.rs:do_bid", "pallet/assets-ext/src/lib.rs:release_hold"]}
{"id": "C65", "title": "A purchase delivers exactly what was listed", "statement": "After a successful purchase the listing is gone, every listed NFT belongs to the buyer and is unlocked, and for an SFT listing the buyer's free balance of each serial rises by the listed amount, taken from what the seller had reserved.", "quantifier": "for every reachable marketplace state, listing and buyer", "why_tests_cant": "Any bundle of tokens, after any history of other listings by the same seller.", "anchors": ["pallet/marketplace/src/impls.rs:do_buy", "pallet/marketplace/src/types.rs:unlock_and_transfer"]}
{"id": "C66", "title": "Every whole crowdsale voucher can be redeemed for a token", "statement": "Whoever holds q whole vouchers of a sale in distribution or ended can redeem them for q tokens of the sold collection: there are always at least as many tokens left to mint as whole vouchers outstanding.", "quantifier": "for every history of the collection before the sale, every sale and every sequence of claims and redemptions", "why_tests_cant": "Relates the whole history of a collection's serial numbers to the outstanding voucher supply over any sequence of operations.", "anchors": ["pallet/crowdsale/src/lib.rs:initialize", "pallet/crowdsale/src/lib.rs:redeem_voucher", "pallet/nft/src/impls.rs:pre_mint"]}
{"id": "C67", "title": "Redeeming vortex pays the full proportional share", "statement": "Any holder can redeem any part of their vortex once a distribution is done, and receives of each listed vault asset exactly the redeemed share of what the vault holds, rounded down.", "quantifier": "for every vault content, vortex supply, holder and redeemed amount", "why_tests_cant": "The product of two balances only leaves the range of a balance for particular combinations of decimals and sizes, which examples with small numbers never reach.", "anchors": ["pallet/vortex-distribution/src/lib.rs:redeem_tokens_from_vault"]}
{"id": "C68", "title": "A distribution mints exactly the vortex its accounts are owed", "statement": "Starting a distribution creates exactly the sum of the amounts its accounts will be paid, so that no vortex is left over in the vault diluting the holders.", "quantifier": "for every history of registrations", "why_tests_cant": "Depends on the whole sequence of registrations, including corrections of earlier entries.", "anchors": ["pallet/vortex-distribution/src/lib.rs:register_rewards", "pallet/vortex-distribution/src/lib.rs:start_vtx_dist"]}
{"id": "C69", "title": "A rejected false claim does not block the genuine event", "statement": "When a claim for an Ethereum event id has been judged false and discarded, the genuine event with that id can still be submitted and delivered.", "quantifier": "for every history of submissions, challenges, votes and blocks", "why_tests_cant": "Depends on how a discarded claim interacts with the processing slot still scheduled for it, many blocks later.", "anchors": ["pallet/ethy/src/impls.rs:do_submit_event", "pallet/ethy/src/lib.rs:on_initialize"]}
{"id": "C70", "title": "An event never processed can still be submitted", "statement": "Every Ethereum event id that has not been processed yet can still be submitted, however many other ids were processed before it and however the record of processed ids was pruned.", "quantifier": "for every history of submissions and every order of the ids", "why_tests_cant": "The record of processed ids is compacted as ids arrive; whether an id is lost depends on the entire order of arrival.", "anchors": ["pallet/ethy/src/impls.rs:prune_claim_ids", "pallet/ethy/src/lib.rs:submit_missing_event"]}
{"id": "C71", "title": "A complete notary vote settles a challenge", "statement": "Once every notary has voted on a challenged claim the challenge is settled, one way or the other.", "quantifier": "for every number of notaries, every split of the vote and every order of the votes", "why_tests_cant": "Both thresholds use rounded percentages; the gap between them opens only for particular committee sizes and splits.", "anchors": ["pallet/ethy/src/impls.rs:handle_event_notarization"]}
{"id": "C72", "title": "Bridge bonds are backed and paid out in full", "statement": "Every relayer and challenger bond that the bridge records is backed by funds held from that account, and when a challenge is settled the loser's bond is paid in full to the winner.", "quantifier": "for every history of bonds, submissions, challenges and votes", "why_tests_cant": "The bonds of several open challenges and of the relayer share one held balance; the claim is about all interleavings.", "anchors": ["pallet/ethy/src/impls.rs:handle_invalid_claim", "pallet/ethy/src/impls.rs:handle_valid_claim", "pallet/ethy/src/lib.rs:submit_challenge"]}
{"id": "C73", "title": "Every submitted event is eventually processed", "statement": "An Ethereum event that is submitted and not challenged, or challenged and judged valid, is delivered to its destination after finitely many blocks.", "quantifier": "for every history and every challenge period", "why_tests_cant": "A liveness claim over all futures; depends on governance settings and on the order of verdict and slot.", "anchors": ["pallet/ethy/src/lib.rs:on_initialize", "pallet/ethy/src/impls.rs:handle_valid_claim"]}
{"id": "C74", "title": "A false claim costs the relayer that submitted it", "statement": "When a claim is judged false, the bond that is lost is that of the relayer who submitted the claim.", "quantifier": "for every history, including relayer changes between submission and verdict", "why_tests_cant": "Only visible when the relayer is replaced while a claim is open.", "anchors": ["pallet/ethy/src/impls.rs:handle_invalid_claim", "pallet/ethy/src/lib.rs:set_relayer"]}
{"id": "C75", "title": "The authority-change proof is signed by the outgoing validator set", "statement": "The event proof that announces a new validator set to Ethereum is requested from the validator set that is still in charge there, the outgoing one.", "quantifier": "for every history of pauses, requests, authority changes and idle blocks", "why_tests_cant": "Pauses by governance can be combined with the automatic pause of an authority change in any order.", "anchors": ["pallet/ethy/src/impls.rs:handle_authorities_change", "pallet/ethy/src/impls.rs:do_request_event_proof"]}
{"id": "C76", "title": "A deposit from XRPL that was relayed is credited", "statement": "A genuine XRPL deposit that a relayer submitted is credited once the challenge period is over, and one whose processing fails for a passing reason can be submitted again.", "quantifier": "for every history of submissions, challenges, mapping changes, blocks and pruning", "why_tests_cant": "Needs every interleaving of submissions, challenges and blocks, and a statement about all later histories.", "anchors": ["pallet/xrpl-bridge/src/lib.rs:submit_transaction", "pallet/xrpl-bridge/src/lib.rs:submit_challenge", "pallet/xrpl-bridge/src/lib.rs:process_xrp_tx"]}
{"id": "C77", "title": "Deposits from XRPL cannot stop block production", "statement": "Whatever transactions relayers submit, initialising a block never panics while settling them.", "quantifier": "for every reachable state of the XRPL bridge", "why_tests_cant": "The panic needs more transactions of one XRPL ledger, spread over several blocks, than any test submits.", "anchors": ["pallet/xrpl-bridge/src/lib.rs:process_xrp_tx"]}
{"id": "C78", "title": "A proxied EVM call never brings the node down", "statement": "A delegate calling a contract, another futurepass or the registrar through the futurepass precompile, with any call data, gets a result or a revert, never a panic of the runtime.", "quantifier": "for every caller, target and call data", "why_tests_cant": "The call data is arbitrary; tests use well-formed calls.", "anchors": ["evm-precompiles/futurepass/src/lib.rs:proxy_call", "runtime/src/impls.rs:ProxyPalletProvider"]}
{"id": "C79", "title": "Only the owner changes a futurepass", "statement": "The owner of a futurepass changes only by an operation of the owner (or of an account the owner gave owner-level rights over their own account); only they add delegates, and an ordinary delegate only with the delegate's own signature; a delegate is removed only by the owner or by itself.", "quantifier": "for every history of signed extrinsics, proxied calls and EVM calls by any accounts (nobody holding the key of an address with the reserved prefix); an EVM call counts as an operation of the account that the precompile sees as its caller, see C152", "why_tests_cant": "Quantifies over all callers and all ways of nesting proxied calls.", "anchors": ["pallet/futurepass/src/lib.rs:register_delegate_with_signature", "pallet/futurepass/src/lib.rs:unregister_delegate", "pallet/futurepass/src/lib.rs:proxy_extrinsic", "runtime/src/impls.rs:ProxyType"]}
{"id": "C80", "title": "An owner can always hand over their futurepass", "statement": "The owner of a futurepass can transfer it to any account that owns none, whatever delegates are registered.", "quantifier": "for every reachable list of delegates and every new owner", "why_tests_cant": "The list of delegates ranges over all reachable lists; tests use short ones.", "anchors": ["pallet/futurepass/src/lib.rs:transfer_futurepass"]}
{"id": "C81", "title": "Enough witnesses always make a proof", "statement": "Once an event proof request has been announced to a node and valid witnesses of at least the threshold number of distinct validators have reached it, the node has stored and sent out a proof for the event, whatever the order in which the request and the witnesses arrived.", "quantifier": "for every interleaving of announcements, valid, invalid, early and duplicate witnesses for any number of events", "why_tests_cant": "Tests feed witnesses in one or two fixed orders; the claim is about every interleaving with other events, early witnesses and duplicates.", "anchors": ["ethy-gadget/src/worker.rs", "ethy-gadget/src/witness_record.rs"]}
{"id": "C82", "title": "A blocked account can do nothing, and nobody can during maintenance", "statement": "While maintenance mode is on, or while an account is blocked, no transaction made with the authority of that account is executed, except calls of the excluded pallets.", "quantifier": "for every history of configuration calls and every transaction: signed, Ethereum, XRPL-signed or by doughnut", "why_tests_cant": "Requires every way of submitting a transaction.", "anchors": ["pallet/maintenance-mode/src/lib.rs:validate", "pallet/maintenance-mode/src/lib.rs:validate_evm_call", "pallet/xrpl/src/lib.rs:transact", "pallet/doughnut/src/lib.rs:transact"]}
{"id": "C83", "title": "A call is paused exactly when it was last configured so", "statement": "A call of a blockable pallet is paused if and only if the last accepted instruction naming that call, or the last naming its pallet, was to block; differences in letter case are ignored.", "quantifier": "for every history of block and unblock calls with names within the length bound", "why_tests_cant": "Every interleaving of block and unblock calls and every spelling.", "anchors": ["pallet/maintenance-mode/src/lib.rs:block_call", "pallet/maintenance-mode/src/lib.rs:block_pallet", "pallet/maintenance-mode/src/lib.rs:call_paused"]}
{"id": "C84", "title": "A paused call is never executed", "statement": "While a call is paused, it is not executed on behalf of any user, however deeply it is nested in batches, proxies and fee preferences, and by whatever kind of transaction or precompile.", "quantifier": "for every configuration, transaction and nesting", "why_tests_cant": "Nesting depth and routes are unbounded.", "anchors": ["runtime/src/lib.rs:CallFilter", "pallet/maintenance-mode/src/lib.rs:call_paused", "evm-precompiles/dex/src/lib.rs", "evm-precompiles/marketplace/src/lib.rs", "evm-precompiles/peg/src/lib.rs"]}
{"id": "C85", "title": "Every XLS-20 withdrawal is backed by the deposited token", "statement": "An XLS-20 token deposited from the XRPL gives its receiver an NFT; withdrawing that NFT later, by whoever holds it, releases exactly the deposited token, which the door account still has; no two NFTs ever stand for the same XRPL token.", "quantifier": "for every sequence of deposits, relayed mints, NFT actions and withdrawals", "why_tests_cant": "Requires all interleavings of deposits, withdrawals and NFT actions.", "anchors": ["pallet/xls20/src/lib.rs:deposit_xls20_token", "pallet/xrpl-bridge/src/lib.rs:do_nft_withdrawal", "pallet/nft/src/impls.rs:mint_bridged_token"]}
{"id": "C86", "title": "An NFT that leaves to the XRPL comes back as itself", "statement": "An NFT withdrawn to the XRPL and later deposited again is the same collection and serial number.", "quantifier": "for every NFT and everything that happens in between", "why_tests_cant": "Unbounded histories between the two events.", "anchors": ["pallet/xls20/src/lib.rs:deposit_xls20_token", "pallet/xls20/src/lib.rs:fulfill_xls20_mint"]}
{"id": "C87", "title": "A doughnut call needs both signatures, in its period, and happens once", "statement": "A call made through a doughnut happens only if the issuer signed that very doughnut, the holder signed that very call for this chain, the doughnut is in its period, the holder is whitelisted, and neither the doughnut nor its holder is revoked; and the same signed transaction never takes effect twice.", "quantifier": "for every history in which no account uses up 2^32 nonces", "why_tests_cant": "Needs all interleavings of transactions, revocations and replays.", "anchors": ["pallet/doughnut/src/lib.rs:check_self_contained", "pallet/doughnut/src/lib.rs:apply_self_contained", "pallet/doughnut/src/lib.rs:transact"]}
{"id": "C88", "title": "NFI data belongs to existing tokens and only the relayer writes it", "statement": "Stored NFI data is always of a token that exists, was written by the relayer of the time, and is removed with its token.", "quantifier": "for every sequence of calls", "why_tests_cant": "Unbounded interleaving of mints, burns, writes and relayer changes.", "anchors": ["pallet/nfi/src/lib.rs:submit_nfi_data", "pallet/nfi/src/lib.rs:on_burn"]}
{"id": "C89", "title": "Every token minted in an NFI-enabled collection has its data requested", "statement": "Once NFI is enabled for a collection, every token that comes to exist in it had its data requested, and the fee for it paid.", "quantifier": "for every way in which tokens are minted", "why_tests_cant": "Several entry points create tokens; a test exercises one.", "anchors": ["pallet/nfi/src/lib.rs:request", "pallet/nft/src/lib.rs:mint", "pallet/nft/src/impls.rs:mint_bridged_token"]}
{"id": "C90", "title": "Every NFT release is backed by a token the contract holds", "statement": "Every token named in a release message sent to Ethereum is one that the peg contract received and has not released since, named once.", "quantifier": "for every sequence of deposits, NFT actions, withdrawals and reclaims", "why_tests_cant": "Unbounded interleaving of bridge messages, transfers and withdrawals across two chains.", "anchors": ["pallet/nft-peg/src/lib.rs:do_deposit", "pallet/nft-peg/src/lib.rs:do_withdrawal", "pallet/nft-peg/src/lib.rs:decode_deposit_event"]}
{"id": "C91", "title": "Paying EVM gas in another asset covers the gas and is not refused after validation", "statement": "When an EVM call asks to pay its gas in another asset, the exchange gives the caller at least the fee and the limit the caller signed, for exactly the quoted price, nobody else's balance changes, the EVM can then withdraw any fee up to the limit, and a transaction that passed the pool's asset check is not refused by the swap.", "quantifier": "for all pools, gas limits, base fees, price limits and balances", "why_tests_cant": "Two roundings (wei to drops, exchange rate) and a special case for a difference of one drop interact; a test fixes one price.", "anchors": ["pallet/fee-proxy/src/runner.rs:get_fee_preferences_data", "pallet/fee-proxy/src/runner.rs:calculate_total_gas", "pallet/fee-proxy/src/runner.rs:FeePreferencesRunner::call", "runtime/src/lib.rs:transaction_asset_check"]}
{"id": "C92", "title": "call_with_fee_preferences spends at most the limit and only the payer's asset", "statement": "Charging a transaction wrapped in call_with_fee_preferences makes the signer, or a futurepass the signer is a delegate of, pay at most max_payment of the chosen asset, leaves the payer with at least the XRP it had, plus what an inner EVM call may need, and changes nobody else's balance. When the quote is within the limit and the balance, charging succeeds, also for an account without XRP.", "quantifier": "for all reachable exchanges, callers other than the receiver of the exchange fee, delegations, inner calls and fees; success for issuances up to 2^117", "why_tests_cant": "The charge depends on the nesting of calls, delegation, pool state and existential balance together.", "anchors": ["pallet/fee-proxy/src/impls.rs:withdraw_fee", "pallet/dex/src/lib.rs:do_swap_with_exact_target", "pallet/assets-ext/src/impls.rs:withdraw"]}
{"id": "C93", "title": "Fees are settled exactly and the refund goes to whoever paid", "statement": "After a transaction the payer has paid exactly the final fee, the fee pot has received it and recorded it for the era, nobody else's balance changed and no XRP appeared or vanished.", "quantifier": "for all callers, calls, estimated and final fees", "why_tests_cant": "Conservation over withdraw, refund and deposit steps that live in different pallets, for every payer.", "anchors": ["pallet/fee-proxy/src/impls.rs:correct_and_deposit_fee", "pallet/tx-fee-pot/src/lib.rs:on_nonzero_unbalanced", "pallet/assets-ext/src/impls.rs:deposit_into_existing"]}
{"id": "C94", "title": "No submitted transaction makes the fee code panic", "statement": "Whatever gas limit and prices a sender signs, checking the transaction and charging its fee ends with acceptance or an error, never with a panic.", "quantifier": "for all gas limits, prices, assets and callers", "why_tests_cant": "The failing inputs are astronomically large numbers no test would choose.", "anchors": ["runtime/src/lib.rs:transaction_asset_check", "pallet/fee-proxy/src/runner.rs:get_fee_preferences_data", "primitives/src/lib.rs:scale_wei_to_correct_decimals"]}
{"id": "C95", "title": "A fee preference is honoured wherever the call is made", "statement": "Every call_with_fee_preferences that succeeds, wherever it is nested, had its fee paid in the chosen asset and not in XRP.", "quantifier": "for all nestings of calls", "why_tests_cant": "Tests try the call at the top of a transaction only.", "anchors": ["pallet/fee-proxy/src/impls.rs:withdraw_fee", "pallet/fee-proxy/src/lib.rs:call_with_fee_preferences"]}
{"id": "C96", "title": "A disabled pool neither trades nor takes deposits", "statement": "While a trading pair is disabled, no swap whose path goes through it succeeds, whatever the path, and no liquidity can be added to it; the switch can always be turned either way.", "quantifier": "for all reachable states, paths, amounts and accounts", "why_tests_cant": "A path can reach a pair at any hop and in either direction; tests disable the only hop.", "anchors": ["pallet/dex/src/lib.rs:get_amounts_out", "pallet/dex/src/lib.rs:get_amounts_in", "pallet/dex/src/lib.rs:do_add_liquidity", "pallet/dex/src/lib.rs:disable_trading_pair"]}
{"id": "C97", "title": "Liquidity providers stay within the limits they gave", "statement": "Adding liquidity takes from the caller at most the offered amounts and at least the minima of each token, in the order the caller named them, and credits exactly the pool shares due; removing it pays at least the minima and at least the shares' part of the pool; no other account changes; nothing happens after the deadline.", "quantifier": "for all reachable pools, both orders of the tokens, all amounts; the exact share for pools to which nobody sent tokens from outside", "why_tests_cant": "The code reorders tokens and amounts internally; an exchanged pair is only visible for some orders and ratios.", "anchors": ["pallet/dex/src/lib.rs:do_add_liquidity", "pallet/dex/src/lib.rs:do_remove_liquidity"]}
{"id": "C98", "title": "Liquidity can always be withdrawn", "statement": "A holder of pool shares worth at least one unit of each token can turn them back at any time, with any minima up to their worth, also while the pair is disabled and whatever others did to the pool.", "quantifier": "for all reachable states, holders and amounts", "why_tests_cant": "Must hold after every history, including donations, disabling and fee changes.", "anchors": ["pallet/dex/src/lib.rs:do_remove_liquidity"]}
{"id": "C99", "title": "A listing keeps the terms its seller gave it", "statement": "A new listing has exactly the price, payment asset, allowed buyer, tokens, closing block and fees (collection royalties, network fee, marketplace fee) that were asked for. As long as it is open nothing but the seller repricing a fixed price listing, or a late bid prolonging an auction to forty blocks from now, changes it. It only closes because the seller cancels it (an auction only while it has no bid), an allowed buyer pays for it, its seller accepts an offer for one of its tokens, or its closing block is reached.", "quantifier": "for every reachable marketplace state (fewer than 2^128 listings and 2^32 blocks), listing and operation of any account", "why_tests_cant": "Quantifies over everything any account can do to somebody else's listing.", "anchors": ["pallet/marketplace/src/impls.rs:do_sell", "pallet/marketplace/src/impls.rs:do_auction", "pallet/marketplace/src/impls.rs:do_update_fixed_price", "pallet/marketplace/src/impls.rs:do_cancel_sale", "pallet/marketplace/src/impls.rs:close_listings_at", "pallet/marketplace/src/impls.rs:do_accept_offer"]}
{"id": "C100", "title": "Only the owner changes the settings of a collection", "statement": "The owner, the maximum issuance, the public mint and the utility flags of an NFT or SFT collection change only by a successful call of its current owner (for a collection owned by the NFT pallet itself, by root through claim_unowned_collection). A maximum can be set only where there was none, is positive and not below what already exists. An SFT token type is only created by the owner, at a new serial, with exactly the stated initial supply in the hands of the stated account. No other operation changes any of these.", "quantifier": "every reachable state, every operation of the NFT and SFT pallets by every account", "why_tests_cant": "Tests try one wrong caller per call; they do not show that no other operation (mint, burn, bridge, reserve, transfers through precompiles) alters a setting on the side.", "anchors": ["pallet/nft/src/lib.rs", "pallet/nft/src/impls.rs", "pallet/sft/src/lib.rs", "pallet/sft/src/impls.rs"]}
{"id": "C101", "title": "The switches of a collection do what they say", "statement": "While a collection is not transferable none of its tokens goes to another account; while it is not burnable none of them disappears; while it has neither, every token stays with its holder until the owner changes the flags, whatever else happens. A new token of an existing collection appears only through the bridge or by a mint made while the collection is mintable, by the owner or with public mint on. For SFTs, what an account holds falls only by its own transfer or burn with the matching switch on, and rises only by a transfer, a permitted mint or the creation of the token type.", "quantifier": "every reachable state and every later history in which bridged mints go only to bridged collections", "why_tests_cant": "Tests check that the flagged call fails once; the promise is about every route by which a token can move, including approvals, the marketplace and the bridge, over unlimited histories.", "anchors": ["pallet/nft/src/impls.rs", "pallet/sft/src/impls.rs", "pallet/nft/src/lib.rs", "pallet/sft/src/lib.rs"]}
{"id": "C102", "title": "One deposit or withdrawal through the ERC-20 peg has exactly one stated outcome", "statement": "A deposit event is ignored unless it comes from the contract entitled to that token (the root peg contract for ROOT, the peg contract for other known tokens, either for unknown ones), deposits are active and the amount is below the maximum. If delays are active and the amount reaches the threshold set for the asset, nothing is credited and the payment is scheduled for exactly the stated number of blocks later; otherwise the beneficiary is credited exactly the amount at once, or nothing at all moves if the credit is impossible. A withdrawal is refused (nothing changes) or takes exactly the amount from the caller, and is either handed to the bridge at once or, from the threshold on, scheduled, never for calls from the EVM. Releases and block hooks change balances exactly as the deposit events they emit say.", "quantifier": "every state reachable from any genesis, every deposit and withdrawal, every release", "why_tests_cant": "Tests fix a threshold and one amount on each side; they do not cover all combinations of source contract, mapping, switches, threshold and balances, nor batches of releases.", "anchors": ["pallet/erc20-peg/src/lib.rs"]}
{"id": "C103", "title": "A crowdsale follows its announced terms and only moves forward", "statement": "Every sale was announced by its administrator with the terms it has; once initialised, the administrator, payment asset, collection, price, voucher and duration of a sale never change. The sale only moves forward: announced, opened (only by its administrator), closed (only by a block, over at once iff nothing was raised), distributed, over; the amount raised only grows by accepted contributions and is fixed from the closing on. Contributions are accepted only while the sale is open; vouchers are redeemed only after it has closed, and once one was redeemed nobody can ever contribute again.", "quantifier": "every history of calls of all pallets involved, every later history", "why_tests_cant": "Unit tests walk single paths through the states; that no interleaving of calls, blocks and forced distributions changes terms or reopens a sale is a statement about all histories.", "anchors": ["pallet/crowdsale/src/lib.rs", "pallet/crowdsale/src/impls.rs"]}
{"id": "C104", "title": "A relayed bridge event is registered as exactly what its bytes say", "statement": "When the relayer submits the ABI-encoded data of a bridge event, the claim that is stored carries exactly the event's id, source, destination and message; in both the four-argument layout the notaries compare with and the five-argument layout (with a fee) the pallet documents. Data that is too short or whose message exceeds the limit is refused as a whole, never cut. The same bytes can only be read as one event.", "quantifier": "every byte string; for the exact registration every id below 2^64, every pair of 160-bit addresses and every message up to the limit (the limit being below 4 GiB)", "why_tests_cant": "Unit tests decode one or two hand-made payloads; the claim covers all byte strings, all message lengths and paddings, and both layouts.", "anchors": ["pallet/ethy/src/impls.rs", "pallet/ethy/src/lib.rs"]}
{"id": "C105", "title": "A notary votes Valid only for an event the bridge contract really emitted", "statement": "If a notary's vote on a challenged claim is Valid, then according to its Ethereum node the claimed transaction exists and succeeded, was sent to the claimed source, the configured bridge contract logged an event in it under the bridge topic whose bytes say exactly the claimed id, source, destination and message, and the transaction has at least the configured number of confirmations. One transaction supports at most one claim.", "quantifier": "every Ethereum node state and answer (including errors and missing answers), every claim with a 64-bit id and 160-bit addresses, every positive number of confirmations", "why_tests_cant": "Tests mock one receipt per error code; the implication ranges over all receipts, logs, topics and data, and its last part over pairs of claims.", "anchors": ["pallet/ethy/src/impls.rs", "pallet/ethy/src/types.rs"]}
{"id": "C106", "title": "A genuine bridge event that is challenged is confirmed by every honest notary", "statement": "If the bridge contract emitted an event in a successful transaction, a notary with a working node votes Valid on the claim of it once the transaction has enough confirmations.", "quantifier": "every Ethereum transaction and event of the bridge contract, every number of further events and intermediate contracts in the transaction, every moment the vote is made", "why_tests_cant": "Tests use transactions with a single log sent straight to the source and answered at once; the failing cases are other shapes of transactions.", "anchors": ["pallet/ethy/src/impls.rs"]}
{"id": "C107", "title": "Notaries cannot be outvoted by a minority", "statement": "While fewer than the threshold share of the validators are dishonest, a challenged claim is found valid only if the bridge contract emitted that event on the chain seen by an honest notary. While at most the complementary share is dishonest, a claim all honest notaries confirm is never rejected. Other notaries may vote anything, in any order, with any set changes in between.", "quantifier": "every history from genesis of submissions, challenges, votes, blocks, notary and validator set changes; every set of dishonest keys below the stated size (keys that ever voted, counted once); thresholds up to 100%", "why_tests_cant": "A quantification over all adversarial vote sequences and interleavings with resubmissions and set changes.", "anchors": ["pallet/ethy/src/impls.rs", "pallet/ethy/src/lib.rs"]}
{"id": "C108", "title": "A checked eth_call is answered for an acceptable Ethereum block", "statement": "If a notary reports return data for a requested eth_call, then it is the 32-byte result its node gave for exactly that target and input at the reported block; the reported block is the hinted block whenever that lies within the allowed look-behind (extended by one block per 12 seconds of delay), otherwise the latest block, never an older one; the reported timestamp is that block's, and the latest block is not older than the request. A node in working order always produces an answer. A result shorter than 32 bytes is reported as such and not as exceeding the limit.", "quantifier": "every node state, request, hint, look-behind and clock", "why_tests_cant": "Tests fix one chain height and a few hints; saturation at the ends, delays and all combinations of hint and look-behind are not covered.", "anchors": ["pallet/ethy/src/impls.rs", "pallet/ethy/src/types.rs"]}
{"id": "C109", "title": "Every open challenge gets the attention of every notary", "statement": "Whenever the bridge is not paused and some challenged claim has no vote of an active notary yet, that notary's off-chain worker votes on a challenged claim; it only ever votes on challenged, pending claims it has not voted on, under its own key's index, and never while the bridge is paused.", "quantifier": "every queue of challenges, every state of the votes, every set of local keys", "why_tests_cant": "The unit tests run the worker with a single challenge.", "anchors": ["pallet/ethy/src/impls.rs", "pallet/ethy/src/lib.rs"]}
{"id": "C110", "title": "A transaction signed with an XRPL key does only what was signed", "statement": "When a call is executed through an XRPL transaction, the key of that transaction signed a message whose extrinsic memo names this chain, the hash of exactly that call, its nonce and a last block that has not passed; the call runs as the account of that key and nothing else happens. A transaction that is not executed costs at most the fee.", "quantifier": "for every history of transactions, blocks, balance changes and futurepass operations, and every message and signature", "why_tests_cant": "Needs all malformed, replayed and mismatched messages, not a few recorded ones.", "anchors": ["pallet/xrpl/src/lib.rs:apply_self_contained", "pallet/xrpl/src/lib.rs:validate_params", "pallet/xrpl/src/lib.rs:transact", "pallet/xrpl/src/types.rs:get_extrinsic_data"]}
{"id": "C111", "title": "An XRPL-signed transaction is executed at most once", "statement": "A message signed with an XRPL key takes effect at most once, however often anybody submits it.", "quantifier": "for every history in which no account uses up 2^32 nonces", "why_tests_cant": "Replay after arbitrary later activity, including the removal of the account, cannot be enumerated.", "anchors": ["pallet/xrpl/src/lib.rs:apply_self_contained", "runtime/src/impls.rs:FuturepassLookup"]}
{"id": "C112", "title": "The fee of an XRPL-signed transaction is paid by the signer or the signer's futurepass", "statement": "The fee is charged to the account of the signing key or, for calls through a futurepass, to the futurepass that account owns; nobody else loses XRP, and these no more than the fee and the payment in the signed call.", "quantifier": "for every state, message, call and fee", "why_tests_cant": "All combinations of signer, owner, delegate and call.", "anchors": ["pallet/xrpl/src/lib.rs:check_self_contained", "pallet/xrpl/src/lib.rs:apply_self_contained", "runtime/src/impls.rs:FuturepassLookup"]}
{"id": "C113", "title": "The extrinsic memo of an XRPL transaction is understood as documented", "statement": "Every memo in the documented form (genesis hash, nonce, last block, tip and call hash between colons) is read as exactly those values, whatever other memos the transaction carries, and nothing else is read from a message.", "quantifier": "for every list of memos and all values", "why_tests_cant": "The strings and numbers are unbounded in number.", "anchors": ["pallet/xrpl/src/types.rs:get_extrinsic_data"]}
{"id": "C114", "title": "No XRPL message makes the node panic", "statement": "Whatever message and signature are submitted, validation ends with an answer.", "quantifier": "for every message, signature, call and state", "why_tests_cant": "All malformed messages.", "anchors": ["pallet/xrpl/src/types.rs:get_public_key", "pallet/xrpl/src/lib.rs:check_self_contained"]}
{"id": "C115", "title": "The event of an XRPL-signed transaction names its signer", "statement": "The event XRPLExtrinsicExecuted carries the key that signed, the account of that key, and the XRPL address of that key.", "quantifier": "for every history", "why_tests_cant": "All messages.", "anchors": ["pallet/xrpl/src/lib.rs:transact", "pallet/xrpl/src/types.rs:get_account"]}
{"id": "C116", "title": "What the precompiles write is the Solidity ABI form", "statement": "Results, logs and calls built by the precompiles are byte for byte the encoding that the Solidity ABI specification prescribes for the values, whatever their types and nesting.", "quantifier": "for every list of types (words, bytes, arrays, tuples, nested without bound) and values of these types", "why_tests_cant": "Nested dynamic types are unbounded; tests fix a few shapes.", "anchors": ["evm-precompiles/utils/src/data/mod.rs:bake_offsets", "evm-precompiles/utils/src/data/mod.rs:write_pointer", "evm-precompiles/utils/src/data/mod.rs:EvmDataWriter"]}
{"id": "C117", "title": "Arguments arrive at a precompile as they were sent", "statement": "A call in the ABI form is read as exactly the arguments it was made from, also when bytes follow it, and two different lists of arguments never have the same form.", "quantifier": "for every list of types and values whose call fits in 4 GiB, and any bytes after it", "why_tests_cant": "All values of all nested types.", "anchors": ["evm-precompiles/utils/src/data/mod.rs:read_args", "evm-precompiles/utils/src/data/mod.rs:read_pointer"]}
{"id": "C118", "title": "A precompile never sees an argument outside its type", "statement": "Whatever bytes are sent, either the call reverts or every argument is a value of its type: numbers, addresses, booleans and lengths of arrays and strings are within their bounds, and the memory they take is bounded by the call length to the power of the nesting of arrays.", "quantifier": "for every byte string and every list of types", "why_tests_cant": "Malformed call data is unbounded in shape.", "anchors": ["evm-precompiles/utils/src/data/mod.rs:EvmDataReader"]}
{"id": "C119", "title": "Reading the arguments of a call costs memory proportional to the call", "statement": "The arguments read from a call take at most a constant times the length of the call.", "quantifier": "for every call and list of types", "why_tests_cant": "Hostile pointers that share data are not in any test.", "anchors": ["evm-precompiles/utils/src/data/mod.rs:BoundedVec", "evm-precompiles/peg/src/lib.rs:erc721_withdraw"]}
{"id": "C120", "title": "A word outside its type is refused", "statement": "A call whose word is not a value of the declared type (a number too large, an address longer than 20 bytes, a boolean other than 0 or 1) reverts.", "quantifier": "for every word and one-word type", "why_tests_cant": "2^256 words.", "anchors": ["evm-precompiles/utils/src/data/mod.rs:Address", "evm-precompiles/utils/src/data/mod.rs:bool"]}
{"id": "C121", "title": "A collection answers ERC-1155 queries with what the chain records", "statement": "balanceOf, balanceOfBatch, totalSupply, exists, isApprovedForAll and owner, called on a collection's address, answer exactly what the SFT pallet and the approvals record, in the ABI form, and change nothing; ids wider than 32 bits are refused instead of being cut; different tokens of a collection have different uris.", "quantifier": "for every state (every history for the batch query), account, id, list of queries, caller, static or not", "why_tests_cant": "All states and all batches.", "anchors": ["evm-precompiles/erc1155/src/lib.rs:balance_of", "evm-precompiles/erc1155/src/lib.rs:balance_of_batch", "evm-precompiles/erc1155/src/lib.rs:total_supply", "evm-precompiles/erc1155/src/lib.rs:is_approved_for_all", "evm-precompiles/erc1155/src/lib.rs:uri"]}
{"id": "C122", "title": "Only the holder or an operator they approved can take their tokens through the EVM", "statement": "While an account signs nothing and no operator it had approved acts on that collection, its free balances never fall and its approvals never change, whatever others do, including contracts called while they receive tokens. An approval is exactly what the owner last said. A holder, or operator, can always move free tokens of a transferable collection to another account that has no code.", "quantifier": "for every account and every history of pallet calls and (re-entrant) precompile calls by others", "why_tests_cant": "Re-entrant histories are unbounded.", "anchors": ["evm-precompiles/erc1155/src/lib.rs:safe_transfer_from", "evm-precompiles/erc1155/src/lib.rs:set_approval_for_all", "evm-precompiles/erc1155/src/lib.rs:burn", "pallet/token-approvals/src/lib.rs:erc1155_approval_for_all"]}
{"id": "C123", "title": "Balances of a collection follow from its Transfer logs", "statement": "A successful transfer, burn or mint, single or batch, moves exactly the ids and amounts of the call and leaves exactly one standard TransferSingle or TransferBatch log that says so; hence a balance that changes only through the collection's contract equals what the logs add up to.", "quantifier": "for every call with any arguments in any reachable state, and every history of calls, re-entrant receivers included", "why_tests_cant": "Histories and batches are unbounded.", "anchors": ["evm-precompiles/erc1155/src/lib.rs:safe_batch_transfer_from", "evm-precompiles/erc1155/src/lib.rs:mint_batch", "evm-precompiles/erc1155/src/lib.rs:burn_batch", "evm-precompiles/erc1155/src/lib.rs:create_token"]}
{"id": "C124", "title": "Contracts are asked, in the standard way, before they are sent tokens", "statement": "Tokens are moved to a contract only if it answers the standard magic value to the standard call (onERC1155Received or onERC1155BatchReceived with operator, sender, ids, amounts, data), made once it has the tokens; any other answer reverts; a contract that implements the interface can receive.", "quantifier": "for every contract behaviour and every transfer, batch or mint", "why_tests_cant": "All behaviours of the receiving contract.", "anchors": ["evm-precompiles/erc1155/src/lib.rs:do_safe_transfer_acceptance_check", "evm-precompiles/erc1155/src/lib.rs:do_batch_safe_transfer_acceptance_check", "evm-precompiles/erc1155/src/lib.rs:mint"]}
{"id": "C125", "title": "A static call to a collection changes nothing and value is refused", "statement": "No function called on a collection's address in a static call changes the state, and a call with attached value is refused.", "quantifier": "for every state, caller, call data and value", "why_tests_cant": "All call data.", "anchors": ["evm-precompiles/erc1155/src/lib.rs:execute", "evm-precompiles/utils/src/lib.rs:check_function_modifier"]}
{"id": "C126", "title": "A collection answers ERC-721 queries with what the chain records", "statement": "ownerOf, balanceOf, totalSupply, getApproved, isApprovedForAll and owner, called on a collection's address, answer exactly what the NFT pallet and the approvals record, in the ABI form, and change nothing; ownerOf, getApproved and tokenURI of a token that does not exist fail; ids wider than 32 bits are refused instead of being cut; different tokens have different URIs.", "quantifier": "for every history of pallet and (re-entrant) precompile calls, every account, id, caller, static or not", "why_tests_cant": "All histories and all ids.", "anchors": ["evm-precompiles/erc721/src/lib.rs:owner_of", "evm-precompiles/erc721/src/lib.rs:balance_of", "evm-precompiles/erc721/src/lib.rs:get_approved", "evm-precompiles/erc721/src/lib.rs:token_uri", "evm-precompiles/erc721/src/lib.rs:total_supply"]}
{"id": "C127", "title": "Reading ownedTokens page by page lists an owner's tokens", "statement": "A reader who asks with cursor 0 and then with each returned cursor until it is 0 gets every token that stayed with the owner meanwhile, no token twice and none the owner did not have, even if other tokens move between the calls; if nothing moves it ends after at most one call more than there are tokens and the list is sorted.", "quantifier": "for every page size above zero and every sequence of reachable states in which the pages are read", "why_tests_cant": "The states between the calls are arbitrary; the number of pages is unbounded.", "anchors": ["evm-precompiles/erc721/src/lib.rs:owned_tokens", "pallet/nft/src/impls.rs:owned_tokens"]}
{"id": "C128", "title": "Only the owner, an operator or the approved account moves a token through the EVM", "statement": "While the owner of a token and those they trusted with it do nothing, the token stays and no new account is approved for it, whatever others do, including contracts called while they receive tokens; each of them can move it; transferFrom, approve and setApprovalForAll do exactly what they say, to that token only; the Approval log names the owner.", "quantifier": "for every token and every history of pallet calls and (re-entrant) precompile calls by others", "why_tests_cant": "Re-entrant histories are unbounded.", "anchors": ["evm-precompiles/erc721/src/lib.rs:transfer_from", "evm-precompiles/erc721/src/lib.rs:approve", "evm-precompiles/erc721/src/lib.rs:set_approval_for_all", "pallet/token-approvals/src/lib.rs:is_approved_or_owner"]}
{"id": "C129", "title": "The Transfer logs of a collection tell who owns each token", "statement": "Read in order, the Transfer logs of a token start from its owner, each starts where the one before ended (from zero for a new token, to zero for a burnt one), and they end at its owner now; so the last one names the owner.", "quantifier": "for every history of calls, re-entrant receivers included, and every token", "why_tests_cant": "Histories are unbounded.", "anchors": ["evm-precompiles/erc721/src/lib.rs:mint", "evm-precompiles/erc721/src/lib.rs:burn", "evm-precompiles/erc721/src/lib.rs:do_safe_transfer", "pallet/nft/src/impls.rs:do_transfer"]}
{"id": "C130", "title": "Static calls change nothing, value is refused, and bad calls fail without a panic", "statement": "No function called on a collection's address in a static call changes the state; a call with attached value, of an unknown function or of an unknown collection fails; no call panics the node.", "quantifier": "for every state, caller, value, call data and receiving contract", "why_tests_cant": "All call data and all behaviours of receivers.", "anchors": ["evm-precompiles/erc721/src/lib.rs:execute", "evm-precompiles/erc721/src/lib.rs:re_request_xls20_mint", "evm-precompiles/erc721/src/lib.rs:do_safe_transfer", "evm-precompiles/utils/src/lib.rs:check_function_modifier"]}
{"id": "C131", "title": "supportsInterface tells which functions a collection serves", "statement": "supportsInterface(id) is true exactly for the ids, computed by xor as ERC-165 says, of ERC-165, ERC-721, its metadata and burnable extensions, Ownable and TRN721, and a collection serves every function of the interfaces it claims.", "quantifier": "for every 32-byte argument and every state", "why_tests_cant": "2^256 arguments; that a function is never served is about all states and calls.", "anchors": ["evm-precompiles/erc721/src/lib.rs:supports_interface", "evm-precompiles/erc721/src/lib.rs:ERC165_INTERFACE_IDS", "evm-precompiles/erc721/README.md:TRN721"]}
{"id": "C132", "title": "A contract gets a token by safeTransferFrom only if it agrees", "statement": "safeTransferFrom moves a token to a contract only if it answers the magic value to onERC721Received(operator, from, id, data), called after the token arrived; else the call fails. To an account without code the token just moves. Only the owner of the token when it moves, or someone they authorised, can have asked.", "quantifier": "for every contract behaviour, including calls it makes meanwhile, and both forms of the function", "why_tests_cant": "All behaviours of the receiving contract.", "anchors": ["evm-precompiles/erc721/src/lib.rs:do_safe_transfer", "evm-precompiles/erc721/src/lib.rs:safe_transfer_from", "evm-precompiles/erc721/src/lib.rs:safe_transfer_from_call_data"]}
{"id": "C133", "title": "Only the owner changes what a collection shows and costs", "statement": "Whatever other accounts and contracts do, also while they are called to receive tokens, the owner, maximum, switches, name, base URI and mint price of an NFT or SFT collection stay as its owner left them. Setting the base URI or the price through the collection's address succeeds exactly for the owner (of an NFT collection that is native and not on the XRPL), is then what tokenURI or uri shows and what a public mint costs, and changes nothing else.", "quantifier": "for every collection, every history of pallet and (re-entrant) precompile calls by others, every URI, asset and price", "why_tests_cant": "Histories are unbounded and re-entrant; all URIs and prices.", "anchors": ["evm-precompiles/erc721/src/lib.rs:set_base_uri", "evm-precompiles/erc721/src/lib.rs:set_mint_fee", "evm-precompiles/erc1155/src/lib.rs:set_base_uri", "evm-precompiles/erc1155/src/lib.rs:set_mint_fee", "pallet/nft/src/lib.rs:set_base_uri", "pallet/sft/src/impls.rs:do_set_base_uri"]}
{"id": "C134", "title": "A trade through the exchange contract pays and receives what it answers", "statement": "swapExactTokensForTokens, swapExactTokensForETH, swapTokensForExactTokens and swapTokensForExactETH succeed only before the deadline and within the stated limit; they then take from the caller exactly the first and give to the recipient exactly the last of the amounts they return, which are the constant-product prices of the pools along the path, touch nobody else's balance, refuse attached value and refuse a static call.", "quantifier": "for every reachable state, caller, amount, limit, path of any length, recipient and deadline, over the bytes of the call", "why_tests_cant": "Paths have any length and pools any reserves; the bytes, the conversion from 256 to 128 bits and the pallet's arithmetic have to agree for all amounts.", "anchors": ["evm-precompiles/dex/src/lib.rs:swap_exact_tokens_for_tokens", "evm-precompiles/dex/src/lib.rs:swap_tokens_for_exact_tokens", "evm-precompiles/dex/src/lib.rs:swap_tokens_for_exact_eth", "evm-precompiles/dex/src/lib.rs:swap_exact_tokens_for_eth", "pallet/dex/src/lib.rs:do_swap_with_exact_supply", "pallet/dex/src/lib.rs:do_swap_with_exact_target"]}
{"id": "C135", "title": "The contract's quotes can be traded at", "statement": "getAmountsOut and getAmountsIn change nothing and return the prices of the current pools; a trade along the quoted path in the same state, with the caller's funds, a limit that admits the quote and a path that visits no pool twice, succeeds and returns the very bytes of the quote. quote, getAmountOut and getAmountIn are the constant-product formulas rounded in the pool's favour.", "quantifier": "for every reachable state, amount, path of any length and reserves (issuances up to 2^117)", "why_tests_cant": "The quote and the trade are separate computations over unbounded paths and all reserves.", "anchors": ["evm-precompiles/dex/src/lib.rs:get_amounts_out", "evm-precompiles/dex/src/lib.rs:get_amounts_in", "evm-precompiles/dex/src/lib.rs:quote", "evm-precompiles/dex/src/lib.rs:get_amount_out", "evm-precompiles/dex/src/lib.rs:get_amount_in", "pallet/dex/src/lib.rs:get_amounts_out", "pallet/dex/src/lib.rs:get_amounts_in"]}
{"id": "C136", "title": "Adding and removing liquidity through the contract answers what moved", "statement": "addLiquidity takes between the minimum and the desired amount of each token from the caller, mints the returned number of shares to the recipient and returns the amounts paid, in the order of the call; removeLiquidity and removeLiquidityETH take the shares and return exactly the amounts received.", "quantifier": "for every reachable state, pair in either order, amounts, minimums and recipient", "why_tests_cant": "All reserves, orders of the two tokens and donations to pools.", "anchors": ["evm-precompiles/dex/src/lib.rs:add_liquidity", "evm-precompiles/dex/src/lib.rs:remove_liquidity", "evm-precompiles/dex/src/lib.rs:remove_liquidity_eth", "pallet/dex/src/lib.rs:do_add_liquidity", "pallet/dex/src/lib.rs:do_remove_liquidity"]}
{"id": "C137", "title": "The exchange contract's logs are the events of its interface", "statement": "Every trade logs one Swap per hop at the pool's address with the amounts that entered and left that pool, and adding and removing liquidity logs one Mint or Burn, encoded as the events the interface declares.", "quantifier": "for every reachable state and every call", "why_tests_cant": "Tests compare logs with the encoding the code itself uses; whether a client that knows only the interface can read them is a statement about all logs.", "anchors": ["evm-precompiles/dex/src/lib.rs:SELECTOR_LOG_MINT", "evm-precompiles/dex/src/lib.rs:SELECTOR_LOG_BURN", "evm-precompiles/dex/src/lib.rs:SELECTOR_LOG_SWAP", "evm-precompiles/dex/README.md"]}
{"id": "C138", "title": "The ETH functions trade the value that is attached", "statement": "swapExactETHForTokens, swapETHForExactTokens and addLiquidityETH sell or deposit the value attached to the call, as the gas token, take nothing else from the caller and return what is not used.", "quantifier": "for every reachable state, value, path and recipient", "why_tests_cant": "The end-to-end tests of these functions are skipped; the unit of the value (10^-18) and of the asset (10^-6) differ for every amount.", "anchors": ["evm-precompiles/dex/src/lib.rs:swap_exact_eth_for_tokens", "evm-precompiles/dex/src/lib.rs:swap_eth_for_exact_tokens", "evm-precompiles/dex/src/lib.rs:add_liquidity_eth", "runtime/src/impls.rs:EvmCurrencyScaler"]}
{"id": "C139", "title": "Whatever bytes the exchange contract is called with, only the caller pays", "statement": "A call with any data and value does what a sequence of exchange operations and transfers signed by the caller does: no other account's balance of any asset falls, the pools stay backed by what they hold, and after any history mixing extrinsics and contract calls no pool is drained. Functions that only read, and every function in a static call, change nothing; unknown functions and value sent to functions that take none are refused. Every token address in a path or a pair has to be that of an asset, and two different addresses never stand for the same account.", "quantifier": "for every reachable state, caller, value and byte string, and every mixed history", "why_tests_cant": "All byte strings and unbounded histories.", "anchors": ["evm-precompiles/dex/src/lib.rs:execute", "pallet/dex/src/lib.rs"]}
{"id": "C140", "title": "The published marketplace interface works", "statement": "Every function of the marketplace contract's published interface (README and the end-to-end ABI) is answered by the contract; a call with any other selector fails.", "quantifier": "for every state, caller, value and byte string", "why_tests_cant": "Whether a function can succeed in some state is a statement about all states; tests use the selectors of the code.", "anchors": ["evm-precompiles/marketplace/src/lib.rs:Action", "evm-precompiles/marketplace/README.md", "e2e/common/index.ts:MARKETPLACE_PRECOMPILE_ABI"]}
{"id": "C141", "title": "A call of the marketplace contract does one marketplace operation, for the caller", "statement": "A call encoded as Solidity encodes it does exactly the extrinsic of the same name for the caller, with the zero address and zero meaning 'none', succeeds exactly when that succeeds, takes no value and answers the new id. Whatever the bytes, a successful call either changes nothing or does one such operation for the caller, so that what holds of all histories of extrinsics, such as that every bid and offer is backed by money on hold, holds when contract calls are mixed in.", "quantifier": "for every state, caller, request with any number of tokens, every byte string, and every mixed history", "why_tests_cant": "All byte strings, unbounded token lists and unbounded histories.", "anchors": ["evm-precompiles/marketplace/src/lib.rs:execute", "evm-precompiles/marketplace/src/lib.rs:register_marketplace", "evm-precompiles/marketplace/src/lib.rs:sell_nft", "evm-precompiles/marketplace/src/lib.rs:sell_sft", "evm-precompiles/marketplace/src/lib.rs:update_fixed_price", "evm-precompiles/marketplace/src/lib.rs:buy", "evm-precompiles/marketplace/src/lib.rs:bid", "evm-precompiles/marketplace/src/lib.rs:cancel_sale", "evm-precompiles/marketplace/src/lib.rs:cancel_offer", "evm-precompiles/marketplace/src/lib.rs:accept_offer"]}
{"id": "C142", "title": "A listing made through the contract has the terms of the call", "statement": "sellNftWithMarketplaceId, sellNft, sellSft and the three auction functions add one listing: the tokens, price, asset, buyer and duration of the call, the caller as seller, and the royalties, the network fee and the marketplace's share as fees. Sales answer the id of the listing, auctions nothing.", "quantifier": "for every state, caller and request with any number of tokens", "why_tests_cant": "All terms and unbounded token lists over the bytes of the call.", "anchors": ["evm-precompiles/marketplace/src/lib.rs:sell_nft", "evm-precompiles/marketplace/src/lib.rs:sell_sft", "evm-precompiles/marketplace/src/lib.rs:auction_nft_with_marketplace_id", "evm-precompiles/marketplace/src/lib.rs:auction_sft_with_marketplace_id", "pallet/marketplace/src/impls.rs"]}
{"id": "C143", "title": "The marketplace named in a call, and only that, is paid", "statement": "A sale, an auction or an offer that names a registered marketplace owes that marketplace its share; one that names none (zero) owes none; a share or an id that is out of range is refused.", "quantifier": "for every state, caller and request", "why_tests_cant": "What the id stands for must agree between six functions and for all ids.", "anchors": ["evm-precompiles/marketplace/src/lib.rs:sell_nft", "evm-precompiles/marketplace/src/lib.rs:auction_nft_with_marketplace_id", "evm-precompiles/marketplace/src/lib.rs:make_simple_offer_with_marketplace_id", "evm-precompiles/marketplace/src/lib.rs:register_marketplace"]}
{"id": "C144", "title": "The marketplace contract's views tell what a buyer gets and pays", "statement": "getListingFromId, getOfferFromId and getMarketplaceAccount change nothing, also in static calls, fail for unknown ids, and otherwise return the terms: a buyer who calls buy in the same state pays the price and asset shown and receives the tokens shown, in the quantity shown.", "quantifier": "for every reachable state and id", "why_tests_cant": "The view and the purchase are separate code; all listings and token lists.", "anchors": ["evm-precompiles/marketplace/src/lib.rs:get_listing_from_id", "evm-precompiles/marketplace/src/lib.rs:get_offer_from_id", "evm-precompiles/marketplace/src/lib.rs:get_marketplace_account", "evm-precompiles/marketplace/src/lib.rs:split_listing_tokens", "evm-precompiles/marketplace/src/lib.rs:buy"]}
{"id": "C145", "title": "The marketplace contract's events tell what happened", "statement": "Each successful call that changes the state logs one event at the contract's address from which the parties, the tokens and quantities, the price and the ids can be read, as the interface declares them.", "quantifier": "for every state, caller and request", "why_tests_cant": "Tests compare logs with the encoding the code uses; that two different outcomes never leave the same log is a statement about pairs of executions.", "anchors": ["evm-precompiles/marketplace/src/lib.rs:SELECTOR_LOG_MARKETPLACE_REGISTER", "evm-precompiles/marketplace/src/lib.rs:SELECTOR_LOG_FIXED_PRICE_SALE_COMPLETE", "evm-precompiles/marketplace/src/lib.rs:SELECTOR_LOG_AUCTION_OPEN", "evm-precompiles/marketplace/README.md"]}
{"id": "C146", "title": "Every futurepass has its deposit, and money is conserved", "statement": "After any history of futurepass, proxy and payment calls, each account with delegates has exactly the base amount and one share for each delegate on deposit, all of it reserved on that account besides what other pallets reserve there; an account without delegates has nothing on deposit. The calls neither make nor destroy money.", "quantifier": "for every initial distribution of money, every history, every account", "why_tests_cant": "An invariant of unbounded histories, across two pallets that each keep a part of the books.", "anchors": ["runtime/src/impls.rs:add_delegate", "runtime/src/impls.rs:remove_delegate", "runtime/src/impls.rs:remove_account"]}
{"id": "C147", "title": "The caller pays and receives exactly the change of the deposit", "statement": "Creating a futurepass costs its creator the base and one share, and the existential deposit if the account is empty; registering a delegate costs the caller a share; removing one gives the caller a share; a transfer costs the caller the new owner's entry less the shares of the entries removed; renouncing pays the whole deposit to the caller and leaves what the futurepass owns. Nobody else's balance moves.", "quantifier": "for every reachable state, caller and call that succeeds", "why_tests_cant": "Tests check single amounts; here every number of delegates, every caller (owner, delegate, the futurepass itself) and every other account.", "anchors": ["pallet/futurepass/src/lib.rs:create", "pallet/futurepass/src/lib.rs:register_delegate_with_signature", "pallet/futurepass/src/lib.rs:unregister_delegate", "pallet/futurepass/src/lib.rs:transfer_futurepass", "runtime/src/impls.rs:add_delegate", "runtime/src/impls.rs:remove_delegate", "runtime/src/impls.rs:remove_account"]}
{"id": "C148", "title": "Only the account itself and its delegates spend its money", "statement": "If a call lowers the free balance of an account, then its signer is the account or an owner or full delegate of it. If it lowers what is reserved on an account, then it was made by, or in the name of, the account itself, its owner or one of its delegates.", "quantifier": "for every reachable state, signer and call, nested proxy calls included", "why_tests_cant": "Quantifies over all calls and nestings; absence of any other path.", "anchors": ["runtime/src/impls.rs:add_delegate", "runtime/src/impls.rs:remove_delegate", "pallet/futurepass/src/lib.rs:proxy_extrinsic"]}
{"id": "C149", "title": "Nobody moves the money of a renounced futurepass", "statement": "Once a futurepass has no owner, its free balance never falls again, whatever is done afterwards, and nothing of it stays on deposit.", "quantifier": "for every history and every continuation", "why_tests_cant": "A statement about all futures.", "anchors": ["pallet/futurepass/src/lib.rs:transfer_futurepass", "runtime/src/impls.rs:remove_account"]}
{"id": "C150", "title": "Leaving is always possible", "statement": "The owner, the futurepass or the delegate itself can remove a delegate, and the owner can renounce, in every reachable state: no lack of money or kept-alive rule stands in the way. An owner with a share and the existential deposit can register a willing delegate while there is room.", "quantifier": "for every reachable state", "why_tests_cant": "The transfers that refund deposits must keep both accounts alive, in every state that can arise.", "anchors": ["pallet/futurepass/src/lib.rs:unregister_delegate", "pallet/futurepass/src/lib.rs:transfer_futurepass", "runtime/src/impls.rs:remove_delegate", "runtime/src/impls.rs:remove_account"]}
{"id": "C151", "title": "A deposit goes back to the one who paid it", "statement": "What an account paid for a delegate or a futurepass is paid back to that account when the delegate is removed or the futurepass given up.", "quantifier": "for every history", "why_tests_cant": "Who paid is history, not state.", "anchors": ["runtime/src/impls.rs:add_delegate", "runtime/src/impls.rs:remove_delegate"]}
{"id": "C152", "title": "Contracts cannot touch futurepasses of those who did not call them", "statement": "Take accounts that include all who may act for any of them, and no contract. Transactions of others, through any contracts, never change their delegates, futurepasses, balances or deposits, never spend their XRP and never make a call in their name. If one of them calls a contract, it loses at most the value it sent, and the futurepasses stay as they are.", "quantifier": "for every history, every such set of accounts, every transaction with any tree of CALL, STATICCALL, DELEGATECALL and CALLCODE", "why_tests_cant": "The contracts called are arbitrary programs; tests run a few.", "anchors": ["evm-precompiles/futurepass/src/lib.rs:execute", "evm-precompiles/futurepass/src/lib.rs:do_proxy", "evm-precompiles/utils/src/precompile_set.rs", "runtime/src/precompiles.rs"]}
{"id": "C153", "title": "Read-only calls change nothing", "statement": "Whatever a STATICCALL leads to, no futurepass, balance or log is changed by it; nor by the read-only call type of proxyCall.", "quantifier": "for every state and every tree of calls below a read-only call", "why_tests_cant": "Absence of any write, over all programs.", "anchors": ["evm-precompiles/futurepass/src/lib.rs:execute", "evm-precompiles/futurepass/src/lib.rs:do_proxy", "evm-precompiles/futurepass-registrar/src/lib.rs:execute", "evm-precompiles/utils/src/precompile_set.rs"]}
{"id": "C154", "title": "The futurepass contracts are the pallet", "statement": "Each function of a futurepass or of the registrar does exactly what the extrinsic signed by the calling account does to the futurepass called, writes one log with exactly the declared topics and data, and answers in ABI form; owner, delegateType and futurepassOf answer what the pallet knows.", "quantifier": "for every state, calling frame and argument, from the bytes of the call to the bytes of the answer", "why_tests_cant": "Equality of two implementations in all states, at the level of bytes.", "anchors": ["evm-precompiles/futurepass/src/lib.rs:register_delegate_with_signature", "evm-precompiles/futurepass/src/lib.rs:unregister_delegate", "evm-precompiles/futurepass/src/lib.rs:transfer_ownership", "evm-precompiles/futurepass/src/lib.rs:renounce_ownership", "evm-precompiles/futurepass/src/lib.rs:owner", "evm-precompiles/futurepass/src/lib.rs:delegate_type", "evm-precompiles/futurepass-registrar/src/lib.rs:create_futurepass", "evm-precompiles/futurepass-registrar/src/lib.rs:futurepass_of"]}
{"id": "C155", "title": "proxyCall does what it was asked, for delegates only", "statement": "proxyCall succeeds only for a delegate. It moves exactly the value asked for from the futurepass, runs the target with the futurepass as caller, logs the call and hands on its answer; if the call fails nothing happens. It never reaches the registrar, and of futurepasses only three functions, for the owner.", "quantifier": "for every reachable state, delegate, target, value, data and behaviour of the target", "why_tests_cant": "The target is an arbitrary program.", "anchors": ["evm-precompiles/futurepass/src/lib.rs:proxy_call", "evm-precompiles/futurepass/src/lib.rs:do_proxy", "runtime/src/impls.rs:is_evm_proxy_call_allowed"]}
{"id": "C156", "title": "A delegate is registered only with fresh, specific consent", "statement": "A registration needs a signature of the delegate over this futurepass, this delegate, the type and a deadline not yet passed; it cannot be used for another futurepass, delegate or deadline, nor a second time; and the message signed is the documented one.", "quantifier": "for every state, signature and hash function, up to collisions of the hash", "why_tests_cant": "Quantifies over all signatures; binding is injectivity of an encoding.", "anchors": ["pallet/futurepass/src/lib.rs:register_delegate_with_signature", "pallet/futurepass/src/lib.rs:generate_add_delegate_eth_signed_message", "evm-precompiles/futurepass/src/lib.rs:register_delegate_with_signature"]}
{"id": "C157", "title": "Precompiles run under their own name and are not re-entered", "statement": "Precompiles with state are refused by DELEGATECALL and CALLCODE, and while one of them has called a receiver it cannot be called again within the same transaction.", "quantifier": "for every frame, tree of calls and precompile", "why_tests_cant": "Absence of a path through any contracts.", "anchors": ["evm-precompiles/utils/src/precompile_set.rs", "runtime/src/precompiles.rs"]}
{"id": "C158", "title": "erc20Withdraw takes exactly what it announces to Ethereum", "statement": "A successful erc20Withdraw(beneficiary, asset, amount) takes exactly the amount of that asset from the caller and from nobody else, puts one message on the bridge's queue, to the right contract, which decodes to the asset's Ethereum token, the amount and the beneficiary, and answers and logs that message's id. It succeeds exactly if withdrawals are on, the asset is bridged, the caller has the amount and no delay applies; it is the withdrawal the caller could have made by extrinsic.", "quantifier": "for every history of both pegs, other messages and contract calls, every caller, beneficiary, asset and amount, from the bytes of the call to the bytes of the message", "why_tests_cant": "Joint correctness of two pallets and an encoding over all states; tests check one transfer.", "anchors": ["evm-precompiles/peg/src/lib.rs:erc20_withdraw", "pallet/erc20-peg/src/lib.rs:do_withdrawal", "pallet/erc20-peg/src/lib.rs:burn_or_transfer", "pallet/erc20-peg/src/lib.rs:process_withdrawal", "pallet/ethy/src/impls.rs:send_event"]}
{"id": "C159", "title": "The EVM is no way around withdrawal delays", "statement": "A call of the bridge's contract never sends an amount that ought to be delayed and never makes or touches a delayed payment; an account cannot take out more than the delay's minimum at once.", "quantifier": "for every state and every call, whatever its bytes", "why_tests_cant": "Absence of a bypass for all inputs and sequences of calls.", "anchors": ["evm-precompiles/peg/src/lib.rs:erc20_withdraw", "pallet/erc20-peg/src/lib.rs:do_withdrawal"]}
{"id": "C160", "title": "erc721Withdraw burns exactly the tokens it announces to Ethereum", "statement": "A successful erc721Withdraw burns exactly the named tokens, all of them the caller's and named once, and puts one message on the queue that decodes to the Ethereum contracts, the token ids and the beneficiary; it logs one entry per collection. Any selection within the limits on collections and tokens is accepted.", "quantifier": "for every history, caller, beneficiary and lists of collections and serial numbers, from the bytes of the call to the bytes of the message", "why_tests_cant": "Nested dynamic encodings of every size; ownership of every token.", "anchors": ["evm-precompiles/peg/src/lib.rs:erc721_withdraw", "pallet/nft-peg/src/lib.rs:do_withdrawal", "pallet/ethy/src/impls.rs:send_event", "runtime/src/lib.rs:MaxEthData"]}
{"id": "C161", "title": "Whatever is sent to the bridge's contract, only its caller pays", "statement": "A call, whatever its bytes, lowers no balance and takes no token but the caller's, is refused if static or with value, and sends exactly one message or changes nothing. Messages are numbered in order, and both pegs only ever go through their own operations.", "quantifier": "for every history and every call", "why_tests_cant": "Quantifies over all byte strings and histories.", "anchors": ["evm-precompiles/peg/src/lib.rs:execute", "evm-precompiles/peg/src/lib.rs:erc20_withdraw", "evm-precompiles/peg/src/lib.rs:erc721_withdraw", "pallet/ethy/src/impls.rs:send_event"]}
{"id": "C162", "title": "initializeCollection creates the NFT collection it is asked for", "statement": "A successful initializeCollection(owner, name, maxIssuance, metadataPath, royaltyAddresses, royaltyEntitlements) creates one NFT collection under an id nothing had, with that owner, name, metadata path, limit (none for 0), royalties and no tokens, changes nothing of any other collection, token, approval or SFT, and logs and answers the collection's contract address and id; the contract at that address answers the owner, name and a supply of 0. It succeeds exactly if it is neither static nor with value, the name is non-empty UTF-8 within the limit, the path has at most 200 bytes, the limit is within the maximum, there are at most six royalties of at most 100% together, as many shares as addresses, and ids are left.", "quantifier": "for every history of creations and anything else, every arguments of their Solidity types, from the bytes of the call to the bytes of the answer", "why_tests_cant": "All histories and argument bytes, and a frame condition over the whole state.", "anchors": ["evm-precompiles/nft/src/lib.rs:initialize_collection", "pallet/nft/src/impls.rs:do_create_collection", "pallet/common/src/utils.rs:next_asset_uuid", "runtime/src/impls.rs:runtime_id_to_evm_id"]}
{"id": "C163", "title": "initializeCollection creates the SFT collection it is asked for", "statement": "A successful initializeCollection(owner, name, metadataPath, royaltyAddresses, royaltyEntitlements) of the SFT contract creates one SFT collection under an id nothing had, with that owner, name, path, royalties and no tokens, changes nothing else, and logs and answers its contract's address and id; the contract there answers the owner. It succeeds exactly under the conditions of the NFT contract, bar the limit.", "quantifier": "for every history and all arguments of their Solidity types, from bytes to bytes", "why_tests_cant": "All histories and argument bytes, and a frame condition over the whole state.", "anchors": ["evm-precompiles/sft/src/lib.rs:initialize_collection", "pallet/sft/src/impls.rs:do_create_collection", "pallet/common/src/utils.rs:next_asset_uuid"]}
{"id": "C164", "title": "Every collection has its own id, for good", "statement": "No id is ever that of two collections, NFT or SFT, whoever created them and however (extrinsic, bridge, contract): a creation takes an id nothing has or had, and overwrites nothing. Ids carry the parachain id in their low ten bits, fit 32 bits, and do not run out before 4,194,302 collections exist, after which no more are created.", "quantifier": "for every history of creations of both kinds and anything else that neither creates nor removes collections", "why_tests_cant": "Uniqueness across two pallets over unbounded histories, up to exhaustion.", "anchors": ["pallet/nft/src/impls.rs:do_create_collection", "pallet/sft/src/impls.rs:do_create_collection", "pallet/common/src/utils.rs:next_asset_uuid"]}
{"id": "C165", "title": "The creation contracts do what their documentation says, and nothing else", "statement": "Whatever bytes are sent, a call changes nothing or creates exactly one collection of that contract's kind. The royalties are stored as given; the contracts are at the documented addresses and support ERC-165, as the documented interfaces say.", "quantifier": "for every history and every call, whatever its bytes", "why_tests_cant": "Quantifies over all byte strings.", "anchors": ["evm-precompiles/nft/src/lib.rs:execute", "evm-precompiles/sft/src/lib.rs:execute", "evm-precompiles/nft/README.md", "evm-precompiles/sft/README.md"]}
{"id": "C166", "title": "A migration over many blocks ends as one done in one go", "statement": "From the upgrade that starts a migration until it is complete, however the steps are spread over blocks - by remaining weight, block limit, block delay, pauses, further upgrades with the same migration - the data is what the same number of steps from the start, one after the other, would have made of it, and LastKey is where they ended. When the status says Completed, the steps ran to the migration's own end, no step more, on_complete was applied to their result, and MigrationComplete announced their number.", "quantifier": "for every migration (any data, any step function), every history before and after the start, all weights and settings; the migrated data is not written by others meanwhile", "why_tests_cant": "Quantifies over all step functions and all ways of cutting the steps into blocks.", "anchors": ["pallet/migration/src/lib.rs:migrate", "pallet/migration/src/lib.rs:on_idle", "pallet/migration/src/lib.rs:complete_migration", "pallet/migration/src/lib.rs:on_runtime_upgrade"]}
{"id": "C167", "title": "A migration gets done, and the guard tells others until when", "statement": "If the migration ends after T steps, it is complete after T blocks in which it is enabled, not left out by the delay and given weight for the base and one step. ensure_migrated refuses exactly while a migration was started and not announced complete. While paused, in a block to be left out, or with none in progress, a block changes nothing, and none but root changes the settings, of which the limit stays positive and the delay, if any, above one.", "quantifier": "for every migration, every history of blocks, settings and upgrades", "why_tests_cant": "Liveness over unbounded runs and all migrations.", "anchors": ["pallet/migration/src/lib.rs:migrate", "pallet/migration/src/lib.rs:ensure_migrated", "pallet/migration/src/lib.rs:enable_migration", "pallet/migration/src/lib.rs:set_block_delay", "pallet/migration/src/lib.rs:set_block_limit"]}
{"id": "C168", "title": "A migration stays within its share of the block", "statement": "A block does at most BlockLimit steps, and the weight that on_idle reports is at most the smaller of what the block has left and MaxMigrationWeight.", "quantifier": "for every migration whose steps keep to max_step_weight, every state, every remaining weight", "why_tests_cant": "Quantifies over all weights, in two dimensions, and all migrations.", "anchors": ["pallet/migration/src/lib.rs:migrate", "runtime/src/lib.rs:MAXIMUM_BLOCK_WEIGHT", "runtime/src/lib.rs:MaxMigrationWeight"]}
{"id": "C169", "title": "Every migration starts from the first item", "statement": "When a runtime upgrade starts a migration, it has seen no item: LastKey is empty, no steps are counted, and it processes all items, whatever became of earlier migrations.", "quantifier": "for every history of blocks, settings and upgrades", "why_tests_cant": "Needs an invariant over all histories of upgrades.", "anchors": ["pallet/migration/src/lib.rs:on_runtime_upgrade", "pallet/migration/src/lib.rs:LastKey", "pallet/migration/src/lib.rs:migrate"]}
{"id": "C170", "title": "A node takes every validator's witness for an event once, and no one else's", "statement": "A received message is processed and passed on exactly if it is a witness whose signature on its digest is the stated authority's, that authority is an active validator at the time, the stated block is at most 90 blocks behind the finalized one, and no witness of that authority for that event, validly signed while it was active, was received before, since the event was last completed. Messages that are not validly signed by an active validator leave no trace. The table of known votes holds exactly those heard, each once.", "quantifier": "for every history of messages, completions, validator changes and sends, every message, every signature scheme", "why_tests_cant": "Unbounded histories of adversarial messages; correctness of binary search over tables that must stay sorted.", "anchors": ["ethy-gadget/src/gossip.rs:validate", "ethy-gadget/src/gossip.rs:mark_complete", "ethy-gadget/src/gossip.rs:set_active_validators"]}
{"id": "C171", "title": "Witnesses of completed events are dropped and not sent on", "statement": "A witness of one of the last 500 completed events counts as expired and is not sent on, one of an event not completed and within the window is neither; at most 500 completed events are kept.", "quantifier": "for every history of completions and anything else", "why_tests_cant": "Eviction order only shows after more than 500 completions in particular orders.", "anchors": ["ethy-gadget/src/gossip.rs:mark_complete", "ethy-gadget/src/gossip.rs:message_expired", "ethy-gadget/src/gossip.rs:message_allowed", "ethy-gadget/src/gossip.rs:MAX_COMPLETE_EVENT_CACHE"]}
{"id": "C172", "title": "Nobody can keep a validator's witness from being taken", "statement": "A valid, timely witness of an active validator is taken by every node, once, whatever messages others have sent; and what others can make a node remember is bounded by the validators' own witnesses.", "quantifier": "for every history of messages of others who know only what validators have signed", "why_tests_cant": "Quantifies over adversaries.", "anchors": ["ethy-gadget/src/gossip.rs:validate", "primitives/src/ethy.rs:Witness", "ethy-gadget/src/keystore.rs:verify_prehashed"]}
{"id": "C173", "title": "Pending witnesses are sent again every three minutes", "statement": "Rebroadcasts happen at least three minutes apart, and once three minutes have passed the next periodic round does one.", "quantifier": "for every history of sending rounds at any times", "why_tests_cant": "Depends on the interleaving of ordinary and periodic rounds over time.", "anchors": ["ethy-gadget/src/gossip.rs:message_allowed", "ethy-gadget/src/gossip.rs:REBROADCAST_AFTER"]}
{"id": "C174", "title": "The NFI upgrade keeps every token's data and every collection's flag", "statement": "After the storage upgrade of the NFI pallet, every token has under its multi-chain id exactly the data it had under its old id, or none if it had none; and every collection is enabled exactly if it was.", "quantifier": "for every storage content of the old format, every token and collection id, every chain id", "why_tests_cant": "The result depends on the hash order of keys of both formats, as the upgrade writes into the map it iterates over; the unit test has four entries.", "anchors": ["runtime/src/migrations/nfi.rs:v1::migrate", "pallet/nfi/src/lib.rs:NfiData", "pallet/nfi/src/lib.rs:NfiEnabled"]}
{"id": "C175", "title": "The NFI upgrade ends and is done once", "statement": "Although it inserts into the map it iterates over, the upgrade ends after at most two steps per old entry and one more, sets the version, writes no entries but the tokens' and collections', and does nothing when it is run again.", "quantifier": "for every storage content of the old format, every hash function of 8 bytes, every chain id", "why_tests_cant": "Iteration with insertion depends on where hashes put new keys.", "anchors": ["runtime/src/migrations/nfi.rs:on_runtime_upgrade", "runtime/src/migrations/nfi.rs:v1::migrate"]}
{"id": "C176", "title": "The issuance of an asset stays the sum of its balances", "statement": "Whatever sequence of withdrawals, deposits, splits, merges, set-offs and drops of imbalances code performs, mixed with mints, burns and transfers: once no imbalance is left, the issuance of every asset equals the sum of its balances; before that they differ by exactly what is outstanding. ROOT's issuance is never touched by the currency of another asset.", "quantifier": "for every sequence of operations on any number of imbalances, every asset, every state", "why_tests_cant": "Unbounded sequences of operations on unboundedly many linear values, whose effect comes when they are dropped.", "anchors": ["pallet/assets-ext/src/imbalances.rs:merge", "pallet/assets-ext/src/imbalances.rs:offset", "pallet/assets-ext/src/imbalances.rs:split", "pallet/assets-ext/src/imbalances.rs:drop", "pallet/assets-ext/src/impls.rs:AssetCurrency"]}
{"id": "C177", "title": "The XRP currency takes, gives and sets exactly what it is asked to", "statement": "A withdrawal takes exactly the amount from that account and nothing else, and succeeds exactly if the account has it (and with keep-alive, the minimum besides); a deposit gives exactly the amount or nothing; forcing a balance makes it the stated one, or leaves it if the account cannot take the difference. The imbalance returned is what was moved.", "quantifier": "for every account, amount, asset state", "why_tests_cant": "Characterises success exactly, for all states and amounts.", "anchors": ["pallet/assets-ext/src/impls.rs:withdraw", "pallet/assets-ext/src/impls.rs:deposit_into_existing", "pallet/assets-ext/src/impls.rs:deposit_creating", "pallet/assets-ext/src/impls.rs:make_free_balance_be"]}
{"id": "C178", "title": "Fees are moved whole, through all their imbalances", "statement": "A fee that was taken can always be settled; settling gives the payer the part over the corrected fee and the pot all the rest, tip included; the issuance changes only by what an account could not take; after a whole transaction, whatever it minted, burnt and moved in between, the issuance is again the sum of the balances.", "quantifier": "for every state, fee, corrected fee, tip, and everything done in between", "why_tests_cant": "The fee goes through offset, split, a fold of merges, a deposit and two drops, each of which could lose or double it in particular cases.", "anchors": ["pallet/tx-fee-pot/src/lib.rs:on_nonzero_unbalanced", "pallet/assets-ext/src/imbalances.rs:offset", "pallet/assets-ext/src/imbalances.rs:merge", "pallet/assets-ext/src/imbalances.rs:drop", "pallet/assets-ext/src/impls.rs:deposit_into_existing"]}
{"id": "C179", "title": "Every ping has its session, and is answered under it", "statement": "The pings sent to Ethereum carry the session numbers 0, 1, 2, ..., each once, in a message of the documented form, until the numbers run out; a pong sent back is reported under the session of its ping; a ping from Ethereum is answered at once with one message, to the stated address and under the same session. Data of any other form is refused and leaves nothing.", "quantifier": "for every sequence of pings, messages from Ethereum and other uses of the bridge, every byte string", "why_tests_cant": "Unbounded histories; the messages are bytes that are encoded and decoded, with numbers cut to smaller types.", "anchors": ["pallet/echo/src/lib.rs:ping", "pallet/echo/src/lib.rs:on_event"]}
{"id": "C180", "title": "No echo message claims another sender", "statement": "A message that the pallet sends to Ethereum names as its source the account that signed the ping or the address on Ethereum that asked for the pong. The messages are exactly those its events tell of, in order.", "quantifier": "for every sequence of operations, every message", "why_tests_cant": "Over all histories; no test can show that no message is ever sent under a false name.", "anchors": ["pallet/echo/src/lib.rs:ping", "pallet/echo/src/lib.rs:on_event", "pallet/ethy/src/impls.rs:send_event"]}
{"id": "C181", "title": "The notaries installed are those announced to Ethereum", "statement": "Every set of notary keys that takes over was announced to Ethereum before, with the same keys, order and id; the ids are 1, 2, 3, ...; and nothing else is announced.", "quantifier": "for every history of blocks, sessions, elections and forced eras, all keys", "why_tests_cant": "The announcement and the installation are separate events, by one of two paths depending on how many slots were missed; histories are unbounded.", "anchors": ["pallet/ethy/src/impls.rs:handle_authorities_change", "pallet/ethy/src/impls.rs:do_finalise_authorities_change", "pallet/ethy/src/impls.rs:on_before_session_ending", "pallet/ethy/src/impls.rs:on_new_session", "runtime/src/impls.rs:is_active_session_final"]}
{"id": "C182", "title": "The notaries are the validators of the era", "statement": "Whenever the bridge is open, its notary keys are those with which the validators of the present era began it.", "quantifier": "for every history of blocks, sessions, elections and forced eras, all keys", "why_tests_cant": "Depends on the interplay of staking, session, scheduler and bridge over whole eras, of 21600 blocks each.", "anchors": ["runtime/src/impls.rs:is_active_session_final", "pallet/ethy/src/impls.rs:on_before_session_ending", "pallet/ethy/src/impls.rs:on_new_session", "pallet/ethy/src/impls.rs:do_finalise_authorities_change"]}
{"id": "C183", "title": "The bridge closes for a change of notaries for at most five minutes", "statement": "The bridge is closed exactly while a set is announced and not installed, and never for more than AuthorityChangeDelay blocks.", "quantifier": "for every history of blocks, sessions, elections and forced eras", "why_tests_cant": "A bound on the duration in all histories, whatever the lengths of the sessions.", "anchors": ["pallet/ethy/src/impls.rs:handle_authorities_change", "pallet/ethy/src/impls.rs:do_finalise_authorities_change", "pallet/ethy/src/impls.rs:on_before_session_ending", "pallet/ethy/src/lib.rs:on_initialize"]}
{"id": "C184", "title": "Fees are what fee control says", "statement": "The fee for weight is the stated share of it, rounded to the nearest, never more than the weight, and grows with it; the fee for length is the multiplier times the length. Only root sets the three numbers, each by its own call, and they hold at once.", "quantifier": "for all weights, lengths and multipliers", "why_tests_cant": "Holds for all 64-bit weights and all shares, where the code rounds in two parts.", "anchors": ["pallet/fee-control/src/lib.rs:weight_to_fee", "pallet/fee-control/src/lib.rs:length_to_fee", "pallet/fee-control/src/lib.rs:set_evm_base_fee", "pallet/fee-control/src/lib.rs:set_weight_multiplier", "pallet/fee-control/src/lib.rs:set_length_multiplier"]}
{"id": "C185", "title": "The doors on the XRPL are held by the XRPL notaries", "statement": "Whenever no change of notaries is under way, the signer list of each door account on the XRPL holds exactly the accounts of the active XRPL notaries, with a quorum of all but one; while a change is under way, those of the announced ones. It does so whichever sufficient set of signatures the proofs carry. No ticket of a door is used for two signer lists, and no requested list is lost.", "quantifier": "for every history of announcements, installations, pauses, tickets and calls by root, all keys and all sufficient signatures", "why_tests_cant": "Links two ledgers over unbounded histories; tests look at one announcement on one ledger.", "anchors": ["pallet/ethy/src/impls.rs:handle_authorities_change", "pallet/ethy/src/impls.rs:update_xrpl_notary_keys", "pallet/xrpl-bridge/src/lib.rs:submit_signer_list_set_request", "pallet/ethy/src/lib.rs:set_xrpl_door_signers", "ethy-gadget/src/worker.rs:handle_finality_notification"]}
{"id": "C186", "title": "Only whitelisted notaries sign for the XRPL", "statement": "The active XRPL notaries are at all times notaries whom root has whitelisted, at most eight, in the notaries' order, and a whitelisted notary is left out only for want of room. A call of root changes what it names, and fewer than 20 keys. All nodes wait for the signatures of these.", "quantifier": "for every history, all keys, every list given to the call", "why_tests_cant": "The set is recomputed in three places and cached in a fourth; consistency over all histories.", "anchors": ["pallet/ethy/src/impls.rs:get_xrpl_notary_keys", "pallet/ethy/src/lib.rs:set_xrpl_door_signers", "pallet/ethy/src/impls.rs:do_finalise_authorities_change", "ethy-gadget/src/worker.rs:xrpl_validator_set"]}
{"id": "C187", "title": "No door is moved by a few signers", "statement": "Every signer list that is ever requested gives each signer weight one and asks for all but one of them: one may be missing, any two groups that can act share a member, and no signer can act alone.", "quantifier": "for every history, every requested list, all groups of signers", "why_tests_cant": "A statement about all groups of signers of all lists.", "anchors": ["pallet/xrpl-bridge/src/lib.rs:submit_signer_list_set_request", "pallet/ethy/src/impls.rs:handle_authorities_change"]}
{"id": "C188", "title": "A signature authorises one transaction", "statement": "A signature that is accepted for a transaction of an account is accepted for no other transaction of that account, whether it was made over the payload, as a wallet's message or over the hash as a wallet's message, for payloads of any length; and each of these ways of signing is accepted.", "quantifier": "for all payloads, signatures and signers, short of a collision of the hash functions", "why_tests_cant": "Three encodings are tried one after the other, and a string could be read as one or the other; all pairs of payloads matter.", "anchors": ["primitives/src/signature.rs:verify", "primitives/src/signature.rs:ethereum_signed_message", "primitives/src/signature.rs:verify_signature", "runtime/src/lib.rs:SignedExtra"]}
{"id": "C189", "title": "The RPC gives proofs as the chains take them", "statement": "A proof that was made can be fetched by its event and chain, and by no other. For Ethereum it has one place for each notary of its block, with the notary's signature or blank; for the XRPL exactly the signatures of the XRPL signers of its block, each beside its key, at least as many as the gadgets waited for.", "quantifier": "for every history of proofs, all sets of notaries and signers, all signatures", "why_tests_cant": "Alignment of lists for all sets and all subsets that signed; histories in which the sets change.", "anchors": ["ethy-gadget/rpc/src/lib.rs:get_event_proof", "ethy-gadget/rpc/src/lib.rs:get_xrpl_tx_proof", "ethy-gadget/rpc/src/lib.rs:build_event_proof_response", "ethy-gadget/rpc/src/lib.rs:build_xrpl_tx_proof_response", "ethy-gadget/rpc/src/lib.rs:subscribe_event_proofs"]}
{"id": "C190", "title": "At an EVM address at most one precompile answers", "statement": "Whatever tokens exist, at every address of the EVM at most one precompile answers: the fixed ones at their addresses, a collection or asset at the addresses with its prefix and id exactly if it exists, the futurepass contract at the addresses with its prefix, and nobody anywhere else. Different tokens have different addresses, read back as their ids, and each token answers at its address only. is_precompile tells what a call would meet.", "quantifier": "for every address and every set of existing tokens", "why_tests_cant": "2^160 addresses and all sets of tokens; overlap of ranges and prefixes is excluded by arithmetic, not by examples.", "anchors": ["runtime/src/precompiles.rs:FutureversePrecompiles", "evm-precompiles/utils/src/precompile_set.rs:PrecompileAt", "evm-precompiles/utils/src/precompile_set.rs:PrecompileSetStartingWith", "evm-precompiles/utils/src/precompile_set.rs:PrecompilesInRangeInclusive", "runtime/src/impls.rs:evm_id_to_runtime_id", "runtime/src/impls.rs:runtime_id_to_evm_id"]}
{"id": "C191", "title": "A token's precompile cannot be called while it is calling", "statement": "However calls nest, with any contracts in between and tokens appearing meanwhile: a precompile under way refuses to be called again, a futurepass more than once again; a call that has returned, or was refused, hinders no later one; and only Ethereum's own precompiles and futurepasses run in another contract's name.", "quantifier": "for every tree of calls", "why_tests_cant": "The counters are raised and lowered on every path through an arbitrary tree, with refusals in between; all trees matter.", "anchors": ["evm-precompiles/utils/src/precompile_set.rs:PrecompileAt::execute", "evm-precompiles/utils/src/precompile_set.rs:PrecompileSetStartingWith::execute", "runtime/src/precompiles.rs:FutureversePrecompiles"]}
{"id": "C192", "title": "A signed Ethereum transaction is executed at most once", "statement": "An Ethereum transaction that was executed is never executed again, whoever submits it, whatever happens in between.", "quantifier": "for every transaction, every history of Ethereum transactions with any code, signed calls and other movements of XRP and ROOT in between", "why_tests_cant": "A replay may come any number of blocks later and depends on what emptied the account meanwhile, even within a transaction.", "anchors": ["runtime/src/impls.rs:withdraw_fee", "runtime/src/impls.rs:correct_and_deposit_fee", "runtime/src/lib.rs:OnKilledAccount", "pallet/assets-ext/src/impls.rs:withdraw", "client/src/chain_spec.rs:assets"]}
{"id": "C193", "title": "Whoever has an Ethereum transaction in a block pays for it", "statement": "An Ethereum transaction that passes the checks for a block is executed, its nonce used up, and its sender charged the gas used at the signed price, which the fee pot and the block's author receive; none is in a block without anybody paying.", "quantifier": "for all transactions, states, code called and gas used", "why_tests_cant": "The checks and the charge are in different crates, with two roundings and a bypass between them; free inclusion can repeat without bound.", "anchors": ["runtime/src/impls.rs:with_balance_for", "pallet/fee-proxy/src/runner.rs:FeePreferencesRunner::call", "runtime/src/lib.rs:pre_dispatch_self_contained", "runtime/src/impls.rs:withdraw_fee"]}
{"id": "C194", "title": "Amounts given and shown over RPC mean what they say", "statement": "The exchange's RPC reads an amount as the number written, or refuses it, and never stops the node; its quotes are exact; and the assets' RPC shows a balance in decimal with nothing lost.", "quantifier": "for all JSON values, all strings, amounts and balances", "why_tests_cant": "A property of all strings of any length, in particular of those no client library writes.", "anchors": ["pallet/dex/src/types.rs:visit_str", "pallet/dex/rpc/src/lib.rs:get_amounts_out", "runtime/src/lib.rs:quote", "runtime/src/lib.rs:free_balance"]}
{"id": "C195", "title": "Work that contracts have precompiles do is paid in gas", "statement": "The weight of all that is done in an Ethereum transaction, in contracts and in pallets called through precompiles, is at most what the gas charged stands for, and no more gas is charged than the limit signed.", "quantifier": "for all programs of nested calls, all weights, limits and outcomes", "why_tests_cant": "Nesting, numbers of calls and outcomes are unbounded; no test adds up the weight of a transaction.", "anchors": ["evm-precompiles/utils/src/substrate.rs:try_dispatch", "evm-precompiles/utils/src/costs.rs:log_costs", "evm-precompiles/futurepass/src/lib.rs:do_proxy", "evm-precompiles/nft/src/lib.rs:initialize_collection", "runtime/src/lib.rs:WeightPerGas"]}
{"id": "C196", "title": "Notaries take from Ethereum nodes what these answered", "statement": "The data and block numbers a notary sends to its Ethereum node, and the results it reads, are those meant; and only an answer to its own request counts as an answer, not an error.", "quantifier": "for all bytes, numbers and answers of any kind", "why_tests_cant": "All byte strings and all malformed answers; a wrong reading shows only as a vote against a genuine claim.", "anchors": ["pallet/ethy/src/ethereum_http_cli.rs:eth_call", "pallet/ethy/src/ethereum_http_cli.rs:query_eth_client", "pallet/ethy/src/types.rs:serialize_params", "pallet/ethy/src/types.rs:decode_hex"]}
{"id": "C197", "title": "The fees of an era are its payout, and payouts create no ROOT", "statement": "The payout recorded for an era is the sum of the fees settled in it; over all eras no fee is lost or counted twice; and paying stakers leaves the issuance of ROOT as it is.", "quantifier": "for every history of fees, ends of eras, payouts and funding of the pot, all amounts", "why_tests_cant": "Sums over whole eras, any number of them; depends on two currencies meeting in one account.", "anchors": ["pallet/tx-fee-pot/src/lib.rs:era_payout", "pallet/tx-fee-pot/src/lib.rs:on_nonzero_unbalanced", "pallet/tx-fee-pot/src/lib.rs:accrue_era_tx_fees", "runtime/src/lib.rs:CallFilter"]}
{"id": "C198", "title": "A node misses no finalised block and handles each under the notaries of its time", "statement": "Whatever finalised blocks a node is told of, with gaps, repeats and in any order, it handles the proof requests of every block from its start to the highest told of, each once and in the order of the chain; each is handled under the set of notaries of its own block, and with a notary's key if the node has one; the node holds the notaries of the last block.", "quantifier": "for every finalised chain, every sequence of notifications and every history of notaries", "why_tests_cant": "Gaps and orders of notifications are unbounded, and what is caught up with spans changes of notaries.", "anchors": ["ethy-gadget/src/worker.rs:handle_finality_notification", "ethy-gadget/src/worker.rs:extract_proof_requests", "ethy-gadget/src/worker.rs:find_authorities_change", "ethy-gadget/src/keystore.rs:authority_id"]}
{"id": "C199", "title": "Challenges are decided one after the other", "statement": "When all notaries run their off-chain worker, the block after decides the oldest challenge, whatever the notaries find, and the next one moves up; a worker only ever votes on the oldest challenge, once, and says valid exactly if its Ethereum node shows the event; no challenge waits for ever.", "quantifier": "for every reachable state of the bridge, every number of notaries, all their findings and every order of their votes", "why_tests_cant": "Puts the off-chain workers of all notaries together with the chain; committee sizes, findings and queues are unbounded.", "anchors": ["pallet/ethy/src/impls.rs:do_event_notarization_ocw", "pallet/ethy/src/impls.rs:handle_event_notarization", "pallet/ethy/src/impls.rs:handle_valid_claim", "pallet/ethy/src/impls.rs:handle_invalid_claim"]}
{"id": "C200", "title": "Requested eth_calls are answered in turn, with what the notaries agree on", "statement": "The queue of requested eth_calls holds exactly the open requests, each once, oldest first. Once every notary's off-chain worker has run, the oldest one is answered, whatever else is asked and however anybody votes meanwhile; a request behind n others is answered after n + 1 times as much. If a threshold share of notaries, and that more than half, get the same answer from their Ethereum nodes, the caller is told nothing else.", "quantifier": "for all requests, notaries, answers of their nodes at all times and histories of votes, in every order", "why_tests_cant": "Puts the workers of all notaries, the vote count and the queue together over unbounded histories with dishonest votes.", "anchors": ["pallet/ethy/src/impls.rs:do_call_notarization_ocw", "pallet/ethy/src/impls.rs:handle_call_notarization", "pallet/ethy/src/impls.rs:checked_eth_call", "pallet/ethy/src/impls.rs:offchain_try_eth_call"]}
{"id": "C201", "title": "A proof asked for is made once enough notaries' nodes follow the chain", "statement": "A finalised block asks for the proof of an event. The nodes of as many notaries as the chain needs, and some further node, each started before that block and have been notified of some block from it on, whatever notifications they missed or got twice. Those notaries' nodes each send a witness for it, whatever else they get. If these have reached the further node, in any order, before or after it heard of the block and among anything else sent, it has the proof - unless all the proofs it has are of later events. Nodes pass on the valid witnesses of other notaries, and of an event whose request they handled no others.", "quantifier": "for all chains, requests, sets of notaries, nodes with their starts and notifications, and orders in which witnesses arrive", "why_tests_cant": "Composes many nodes, each with its own gaps in notifications, with every order of arrival at one node.", "anchors": ["ethy-gadget/src/worker.rs:handle_finality_notification", "ethy-gadget/src/worker.rs:handle_finality_notification_active", "ethy-gadget/src/worker.rs:handle_witness", "ethy-gadget/src/witness_record.rs:note_event_witness"]}
