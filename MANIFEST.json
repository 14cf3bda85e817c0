{
 "claims": [
  {
   "property": "C01",
   "status": "partial",
   "theorems": [
    "C01_commit_publishes_unreverted_frames_partial",
    "C01_commit_publishes_unreverted_frames_refuted",
    "C01_outer_writes_lost_after_inner_revert",
    "C01_repaired_revert_is_correct",
    "C01_paths"
   ],
   "note": "False of the code as written: RevertToSnapshot(i>=0) drops snapshot i from the stack, so one reverting inner frame loses every outer write (refuted, with a universal theorem). Proved when no inner frame fails, and in full for the repaired one-line version. C01_paths says for every trace what the snapshots do instead."
  },
  {
   "property": "C02",
   "status": "partial",
   "theorems": [
    "C02_revert_restores_view_partial",
    "C02_revert_restores_view_refuted",
    "C02_id_reused_after_inner_revert",
    "C02_frame_revert_partial",
    "C02_repaired_revert_restores_view"
   ],
   "note": "Proved up to the first revert to an inner snapshot; refuted for two; proved in full for the repaired code."
  },
  {
   "property": "C03",
   "status": "partial",
   "theorems": [
    "C03_failed_execution_has_no_effect_partial",
    "C03_failed_commands_have_no_effect_partial",
    "C03_failed_execution_has_no_effect_refuted",
    "C03_repaired_failed_execution_has_no_effect"
   ],
   "note": "Proved for call trees without failing inner frames and for all command traces whose inner reverts do not use id -1; refuted when two inner frames fail first; proved for the repaired code."
  },
  {
   "property": "C04",
   "status": "proved",
   "theorems": [
    "C04_storage_is_last_write",
    "C04_storage_write_keeps_code"
   ],
   "note": "For every command history; accounts must exist before and after (reads of missing accounts are zero by definition)."
  },
  {
   "property": "C05",
   "status": "partial",
   "theorems": [
    "C05_transient_storage_partial",
    "C05_transient_other_execution",
    "C05_transient_isolation_refuted"
   ],
   "note": "Refuted across contracts (the address is not part of the transient key); proved per contract and across executions."
  },
  {
   "property": "C06",
   "status": "proved",
   "theorems": [
    "C06_refund_counter",
    "C06_refund_counter_exact",
    "C06_refund_starts_at_zero"
   ],
   "note": "Wrap at 2^64 is part of the specification; C06_refund_counter_exact gives the unwrapped equation."
  },
  {
   "property": "C07",
   "status": "proved",
   "theorems": [
    "C07_access_list_exact",
    "C07_prepare",
    "C07_access_list_other_execution"
   ],
   "note": ""
  },
  {
   "property": "C08",
   "status": "partial",
   "theorems": [
    "C08_logs_complete_partial",
    "C08_logs_of_other_executions",
    "C08_reverted_frame_partial",
    "C08_logs_complete_refuted"
   ],
   "note": "Complete and ordered for histories without inner reverts and after one reverted frame; refuted after two inner reverts (outer log lost)."
  },
  {
   "property": "C09",
   "status": "partial",
   "theorems": [
    "C09_committed_state_constant_partial",
    "C09_committed_state_constant_refuted"
   ],
   "note": "Proved unless an inner revert uses the outermost id (which defect C02 makes happen: refuted)."
  },
  {
   "property": "C10",
   "status": "partial",
   "theorems": [
    "C10_selfdestruct_exact_partial",
    "C10_selfdestruct_lost_refuted"
   ],
   "note": "Exact iff for executions without inner reverts; refuted after a failing inner frame (defect C01)."
  },
  {
   "property": "C11",
   "status": "proved",
   "theorems": [
    "C11_creation_never_overwrites",
    "C11_creation_aborts_on_account_in_use",
    "C11_collision_check_is_sufficient"
   ],
   "note": ""
  },
  {
   "property": "C12",
   "status": "proved",
   "theorems": [
    "C12_code_hash_size_agree",
    "C12_accounts_without_code",
    "C12_empty"
   ],
   "note": ""
  },
  {
   "property": "C13",
   "status": "proved",
   "theorems": [
    "C13_gas_charged_within_limit",
    "C13_charge_fits_the_meter"
   ],
   "note": ""
  },
  {
   "property": "C14",
   "status": "partial",
   "theorems": [
    "C14_failed_execution_is_charged_partial",
    "C14_failed_execution_is_charged_refuted"
   ],
   "note": "False of the code: a call that fails with no gas left for any reason other than ErrOutOfGas is charged nothing (refuted); all other failures are charged exactly."
  },
  {
   "property": "C15",
   "status": "proved",
   "theorems": [
    "C15_refund_bounded_by_fee",
    "C15_no_refund_otherwise"
   ],
   "note": ""
  },
  {
   "property": "C16",
   "status": "proved",
   "theorems": [
    "C16_up_then_down_is_identity",
    "C16_down_then_up_is_identity_above_18",
    "C16_truncation_bound",
    "C16_monotone",
    "C16_exactness_check",
    "C16_gwei_round_trip"
   ],
   "note": ""
  },
  {
   "property": "C17",
   "status": "proved",
   "theorems": [
    "C17_fee_covers_cap",
    "C17_zero_cap_zero_fee",
    "C17_fee_monotone"
   ],
   "note": ""
  },
  {
   "property": "C18",
   "status": "proved",
   "theorems": [
    "C18_round_trip"
   ],
   "note": "Protected transactions of all three types, every chain id; unprotected ones are C80."
  },
  {
   "property": "C19",
   "status": "partial",
   "theorems": [
    "C19_signature_binds_content_partial",
    "C19_fee_not_bound_refuted",
    "C19_any_message_refuted",
    "C19_legacy_access_list_refuted",
    "C19_amount_above_18_decimals_refuted"
   ],
   "note": "Signature, nonce, gas limit, gas price caps, target, value, data and (typed transactions) access list are bound. Not bound, with refutations: the message kind when the code is not an EVM message, the fee amount, the access list of legacy transactions, value digits below the token's precision. Assumes unforgeability of signatures as a hypothesis."
  },
  {
   "property": "C20",
   "status": "proved",
   "theorems": [
    "C20_single_message_success",
    "C20_single_message_failure",
    "C20_others_unchanged",
    "C20_check_tx",
    "C20_delivered_exact",
    "C20_accept_iff",
    "C20_post_handler_writes_needed"
   ],
   "note": "Exact in every mode; the failure case assumes baseapp keeps the post handler's writes (DESIGN 5); C20_post_handler_writes_needed shows that the assumption is needed."
  },
  {
   "property": "C21",
   "status": "partial",
   "theorems": [
    "C21_sequences_monotone_partial",
    "C21_no_replay_partial",
    "C21_one_per_sequence_partial",
    "C21_replay_refuted"
   ],
   "note": "All histories with 20-byte EVM senders; refuted for MsgCreate from a 32-byte (secp256r1-style) account."
  },
  {
   "property": "C22",
   "status": "partial",
   "theorems": [
    "C22_classification_partial",
    "C22_converted_not_classified_refuted",
    "C22_classified_not_converted_refuted"
   ],
   "note": "The two classifiers agree on every transaction with at most the expected messages; the stated exceptions are refuted."
  },
  {
   "property": "C23",
   "status": "proved",
   "theorems": [
    "C23_contract_round_trip",
    "C23_contracts_do_not_share",
    "C23_plain_denom_round_trip",
    "C23_evm_denom_names_its_address"
   ],
   "note": "All reachable worlds of the token/registry model. That a token may have further spellings is C62."
  },
  {
   "property": "C24",
   "status": "proved",
   "theorems": [
    "C24_supply_is_sum_of_balances",
    "C24_bank_operations_stay_reachable",
    "C24_no_overflow"
   ],
   "note": "All reachable worlds, including adversarial contract calls and deployments."
  },
  {
   "property": "C25",
   "status": "proved",
   "theorems": [
    "C25_send_moves_exactly",
    "C25_send_one_coin",
    "C25_send_when_covered",
    "C25_uncovered_changes_nothing",
    "C25_unknown_denom_changes_nothing"
   ],
   "note": "Exact transfer for tokens the module deployed; denominations without code are C63."
  },
  {
   "property": "C26",
   "status": "proved",
   "theorems": [
    "C26_mint_exact",
    "C26_mint_refused",
    "C26_native_never_minted",
    "C26_mint_when_possible",
    "C26_burn_exact",
    "C26_burn_refused",
    "C26_burn_when_covered",
    "C26_w2_steps"
   ],
   "note": "Mint exact; burn exact for chain-created coins; contract-native coins are C64."
  },
  {
   "property": "C27",
   "status": "proved",
   "theorems": [
    "C27_send_only_when_allowed",
    "C27_refused_changes_nothing",
    "C27_allowed_goes_through"
   ],
   "note": "Every gate proved for each denomination text; aliases of a token are C62."
  },
  {
   "property": "C28",
   "status": "proved",
   "theorems": [
    "C28_restrictions_in_order",
    "C28_refusal_stops",
    "C28_redirect"
   ],
   "note": ""
  },
  {
   "property": "C29",
   "status": "proved",
   "theorems": [
    "C29_exact",
    "C29_accepted_iff",
    "C29_effect_on_sends"
   ],
   "note": ""
  },
  {
   "property": "C30",
   "status": "proved",
   "theorems": [
    "C30_only_authority",
    "C30_accepted_params_are_valid",
    "C30_always_valid",
    "C30_fee_token_supports_mint_burn",
    "C30_zero_address_fee_accepted",
    "C30_bank_params"
   ],
   "note": "Also shows that the zero-address token passes the fee-denom test."
  },
  {
   "property": "C31",
   "status": "proved",
   "theorems": [
    "C31_balance_needs_authority",
    "C31_allowance_needs_owner",
    "C31_supply_and_owner_need_owner"
   ],
   "note": ""
  },
  {
   "property": "C32",
   "status": "proved",
   "theorems": [
    "C32_account_listing",
    "C32_supply_listing",
    "C32_all_accounts"
   ],
   "note": "Registered tokens, all pages, all existing accounts; accounts that no longer exist are C79."
  },
  {
   "property": "C33",
   "status": "proved",
   "theorems": [
    "C33_short_maps_to_itself",
    "C33_long_signer_recorded",
    "C33_record_is_permanent",
    "C33_long_addresses_do_not_share",
    "C33_used_address_not_taken",
    "C33_lookup_writes_nothing"
   ],
   "note": "Long addresses: stable and unique unless two share the 20-byte tail, in which case the second is refused. Exceptions in C65."
  },
  {
   "property": "C34",
   "status": "proved",
   "theorems": [
    "C34_window",
    "C34_opcode"
   ],
   "note": "Window and opcode answers for every constant setting; which block's hash is stored is C66."
  },
  {
   "property": "C35",
   "status": "proved",
   "theorems": [
    "C35_round_trip",
    "C35_export_again",
    "C35_no_code_runs_initialize",
    "C35_default_genesis",
    "C35_export_needs_wrapper"
   ],
   "note": "Every well-formed store, any visiting order of the index."
  },
  {
   "property": "C36",
   "status": "proved",
   "theorems": [
    "C36_registration_obeys_policy",
    "C36_store_registration",
    "C36_factory_only"
   ],
   "note": ""
  },
  {
   "property": "C37",
   "status": "proved",
   "theorems": [
    "C37_only_allowed_publishers",
    "C37_what_runs",
    "C37_others_refused",
    "C37_empty_text_refused"
   ],
   "note": "All creates; the text 0x is C67."
  },
  {
   "property": "C38",
   "status": "proved",
   "theorems": [
    "C38_read_only_no_change",
    "C38_writes_refused_read_only",
    "C38_execute_refused_read_only",
    "C38_gas_bound",
    "C38_minimum_price",
    "C38_bad_input"
   ],
   "note": "Read-only and gas claims for every input, caller, gas and gas schedule."
  },
  {
   "property": "C39",
   "status": "proved",
   "theorems": [
    "C39_queue_step",
    "C39_other_signer_refused",
    "C39_only_own_messages",
    "C39_dispatch_in_order",
    "C39_one_failure_fails_all"
   ],
   "note": "Per call and for whole call trees; a message with no signers at all would pass the signer loop (the SDK refuses such messages when decoding). Caller identity as handed over by the EVM fork, which is not in the repository."
  },
  {
   "property": "C40",
   "status": "partial",
   "theorems": [
    "C40_no_failing_frame_partial",
    "C40_outcomes_ignored",
    "C40_static_frame_no_effect",
    "C40_outermost_failure",
    "C40_queued_message_refuted",
    "C40_registration_refuted"
   ],
   "note": "Refuted twice (queued message, registration); the code ignores frame outcomes altogether (C40_outcomes_ignored); proved for trees without failing frames, static frames and a failing outermost frame."
  },
  {
   "property": "C41",
   "status": "proved",
   "theorems": [
    "C41_reads_return_latest",
    "C41_set_outcome",
    "C41_delete_cached"
   ],
   "note": "For every history of sets, cached deletes, commits, restarts and cache evictions; deletes of uncached keys are C69."
  },
  {
   "property": "C42",
   "status": "proved",
   "theorems": [
    "C42_retrieval",
    "C42_no_other_index",
    "C42_block_walk",
    "C42_headers",
    "C42_hash_maps",
    "C42_indexing_fails_iff",
    "C42_emitted_logs",
    "C42_stored_logs"
   ],
   "note": "Retrieval, block walk, headers and hash maps for every chain and every indexable block; deviations from Ethereum's conventions are C70."
  },
  {
   "property": "C43",
   "status": "proved",
   "theorems": [
    "C43_check_is_match",
    "C43_bloom_sound",
    "C43_range_exact",
    "C43_matching_decidable",
    "C43_block_hash_exact",
    "C43_unknown_hash"
   ],
   "note": "Exact for every range, filter and indexed chain, using only soundness of the bloom filter; exceptions in C71."
  },
  {
   "property": "C44",
   "status": "proved",
   "theorems": [
    "C44_selects",
    "C44_accepted_criteria",
    "C44_exactly_once",
    "C44_poll_completes",
    "C44_from_creation",
    "C44_emitter_order",
    "C44_loop_not_stuck",
    "C44_delivered",
    "C44_gone_for_good",
    "C44_log_filter_lives"
   ],
   "note": "Every schedule of emitters, event loop, listeners, creations, polls, uninstalls and ticks; exceptions in C72."
  },
  {
   "property": "C45",
   "status": "proved",
   "theorems": [
    "C45_consecutive",
    "C45_at_most_once",
    "C45_low_refused",
    "C45_waits",
    "C45_calls_end",
    "C45_no_gaps",
    "C45_nothing_ready_left"
   ],
   "note": "All interleavings of all senders, any cache capacity, any broadcast outcomes; exceptions in C73."
  },
  {
   "property": "C46",
   "status": "proved",
   "theorems": [
    "C46_mutual_exclusion",
    "C46_nothing_left",
    "C46_record_iff_registered",
    "C46_finds_its_lock",
    "C46_no_deadlock"
   ],
   "note": "Every schedule of any number of requests; the unsynchronised read is C74."
  },
  {
   "property": "C47",
   "status": "proved",
   "theorems": [
    "C47_percentiles",
    "C47_beyond_head",
    "C47_no_blocks",
    "C47_range",
    "C47_complete",
    "C47_rows",
    "C47_reward_meaning",
    "C47_reward_empty",
    "C47_cache_transparent",
    "C47_next_base_fee"
   ],
   "note": "Every schedule of the four fetchers, with blocks being indexed and cache entries evicted or added by other requests meanwhile. Simplified: percentiles rational, float threshold a parameter. Exceptions in C75."
  },
  {
   "property": "C48",
   "status": "proved",
   "theorems": [
    "C48_app_refuses",
    "C48_app_refuses_timeout",
    "C48_calls",
    "C48_calls_timeout",
    "C48_no_callback",
    "C48_callback_fails",
    "C48_callback_succeeds",
    "C48_timeout_no_callback",
    "C48_timeout_callback_fails",
    "C48_timeout_callback_succeeds"
   ],
   "note": "For every store, transfer application, EVM behaviour, packet and memo; gas exhaustion is C76."
  },
  {
   "property": "C49",
   "status": "proved",
   "theorems": [
    "C49_only_if",
    "C49_no_message",
    "C49_refused",
    "C49_atomic",
    "C49_success",
    "C49_failure_acknowledged",
    "C49_intermediate_sender",
    "C49_local_name"
   ],
   "note": "For every store, transfer application, EVM behaviour, packet and memo; the intermediate sender up to hash collisions. Exceptions in C76, C77."
  },
  {
   "property": "C50",
   "status": "proved",
   "theorems": [
    "C50_logs_round_trip",
    "C50_access_list_round_trip",
    "C50_encoding_injective"
   ],
   "note": ""
  },
  {
   "property": "C51",
   "status": "partial",
   "theorems": [
    "C51_backed_partial",
    "C51_redeemable_partial",
    "C51_wrap_partial",
    "C51_plain_wrap_refuted",
    "C51_refund_refuted",
    "C51_ack_success",
    "C51_injection_refuted",
    "C51_strict_injection_refuted"
   ],
   "note": "Backing holds in every history of wraps, unwraps, callbacks, dispatches, token calls, chain transfers and re-entrant origin tokens of unknown code, as long as the channel and receiver texts contain no quote, backslash or control character; redeeming then always succeeds for the full worth. Refuted without that: a crafted receiver text drains locked tokens (also past a strict decoder). Also refuted: plain wraps are refused by the strict decoder, and the hook refund never succeeds. Missing: messages queued by reverted frames (C40) and origin tokens of unknown code."
  },
  {
   "property": "C52",
   "status": "proved",
   "theorems": [
    "C52_classes",
    "C52_class_round_trip",
    "C52_class_names_differ",
    "C52_create",
    "C52_create_succeeds",
    "C52_update",
    "C52_balance",
    "C52_transfers",
    "C52_transfers_succeed",
    "C52_transfers_to_collection",
    "C52_burns",
    "C52_burns_succeed",
    "C52_mints",
    "C52_mints_succeed",
    "C52_approve",
    "C52_authority",
    "C52_no_outside_mint",
    "C52_token_names"
   ],
   "note": "Reachable worlds; receivers with unknown code are excluded from the exact-effect theorems. Exceptions in C78."
  },
  {
   "property": "C53",
   "status": "proved",
   "theorems": [
    "C53_chain_id_in_range"
   ],
   "note": ""
  },
  {
   "property": "C54",
   "status": "proved",
   "theorems": [
    "C54_v_round_trip",
    "C54_signature_bytes",
    "C54_signature_bytes_onto"
   ],
   "note": ""
  },
  {
   "property": "C55",
   "status": "proved",
   "theorems": [
    "C55_query_changes_nothing",
    "C55_query_keeps_store",
    "C55_static_call_no_effect"
   ],
   "note": "For every adaptive use of the cache context; static calls of the chain itself proved for the precompiles' effects."
  },
  {
   "property": "C56",
   "status": "proved",
   "theorems": [
    "C56_credit",
    "C56_debit",
    "C56_transfer_conserves",
    "C56_value_conserved",
    "C56_value_refused",
    "C56_no_fee_contract"
   ],
   "note": ""
  },
  {
   "property": "C57",
   "status": "partial",
   "theorems": [
    "C57_deployment_nonces_partial",
    "C57_prediction",
    "C57_two_spellings_refuted"
   ],
   "note": "All histories of transactions that spell each sender one way; refuted otherwise (bech32 upper case)."
  },
  {
   "property": "C58",
   "status": "proved",
   "theorems": [
    "C58_rpc_round_trip",
    "C58_rpc_fields"
   ],
   "note": ""
  },
  {
   "property": "C59",
   "status": "proved",
   "theorems": [
    "C59_gas_price_in_wei",
    "C59_gas_price_in_wei_few_decimals",
    "C59_wraps_above_246_decimals"
   ],
   "note": "Exact for decimals up to 246; C59_wraps_above_246_decimals shows the bound is sharp (the uint8 sum decimals+10 wraps)."
  },
  {
   "property": "C60",
   "status": "partial",
   "theorems": [
    "C60_import_adds",
    "C60_fresh_genesis_exact",
    "C60_native_balance_stops",
    "C60_restart_keeps_balances_refuted",
    "C60_native_holder_refuted"
   ],
   "note": "Import adds the listed balances; exact from an EVM genesis without balances; refuted for the application's own export (balances doubled, or panic with contract-native holders)."
  },
  {
   "property": "C61",
   "status": "partial",
   "theorems": [
    "C61_numbers_unique_partial",
    "C61_numbers_unique_refuted"
   ],
   "note": "Refuted for every state: an account created in a frame and one created by the registry precompile get the same number. Proved when the precompile creates none and no inner frame fails."
  },
  {
   "property": "C62",
   "status": "partial",
   "theorems": [
    "C62_disabled_token_refuted",
    "C62_alias_refuted"
   ],
   "note": "Refuted: evm/ denominations in another letter case name the same token; a disabled token can be sent under an alias. The true part is C23 and C27."
  },
  {
   "property": "C63",
   "status": "partial",
   "theorems": [
    "C63_no_code_refuted"
   ],
   "note": "Refuted for a denomination evm/<address without code>. The true part is C25."
  },
  {
   "property": "C64",
   "status": "partial",
   "theorems": [
    "C64_burn_native_refuted"
   ],
   "note": "Refuted: the whole coin set is sent to the community pool when it contains a contract-native coin. The true part is C26."
  },
  {
   "property": "C65",
   "status": "partial",
   "theorems": [
    "C65_twenty_byte_refuted",
    "C65_unused_account_refuted"
   ],
   "note": "Refuted: the shorthand of a long address may be a 20-byte address that has not been used on chain yet, or an unused account (needs a 160-bit collision with a chosen key, or a fresh account). The true part is C33."
  },
  {
   "property": "C66",
   "status": "partial",
   "theorems": [
    "C66_own_hash_refuted"
   ],
   "note": "Refuted: the value recorded for height h during the pre-block of h+1 is not block h's own hash. The true part is C34."
  },
  {
   "property": "C67",
   "status": "partial",
   "theorems": [
    "C67_empty_code_refuted"
   ],
   "note": "Refuted: the text 0x passes the emptiness check. The true part is C37."
  },
  {
   "property": "C68",
   "status": "partial",
   "theorems": [
    "C68_out_of_gas_no_effect_refuted"
   ],
   "note": "Refuted: an account record is left behind. The true part is C38."
  },
  {
   "property": "C69",
   "status": "partial",
   "theorems": [
    "C69_delete_refuted"
   ],
   "note": "Refuted (inverted error test; the indexer itself never deletes). The true part is C41."
  },
  {
   "property": "C70",
   "status": "partial",
   "theorems": [
    "C70_index_zero_refuted",
    "C70_log_index_refuted",
    "C70_reinclusion_refuted",
    "C70_tag_refuted"
   ],
   "note": "Refuted four ways: indices are 1-based and 0 is never found; log indices restart per transaction; a re-included failed transaction overwrites its receipt; block tags are cast to uint64. The true part is C42."
  },
  {
   "property": "C71",
   "status": "partial",
   "theorems": [
    "C71_zero_hash_refuted",
    "C71_unindexed_head_refuted"
   ],
   "note": "Refuted: the zero hash answers with block 1's logs; a head not yet indexed gives an empty list. The true part is C43."
  },
  {
   "property": "C72",
   "status": "partial",
   "theorems": [
    "C72_block_order_refuted",
    "C72_new_block_filter_expires_refuted",
    "C72_block_hash_ignored_refuted"
   ],
   "note": "Refuted: one emitter goroutine per block; fresh block and pending filters expire at the first tick; the block hash is ignored. The true part is C44."
  },
  {
   "property": "C73",
   "status": "partial",
   "theorems": [
    "C73_eviction_refuted",
    "C73_waits_for_next_call_refuted",
    "C73_error_of_another_refuted"
   ],
   "note": "Refuted: the shared bounded queue evicts accepted submissions; a ready transaction waits for the sender's next call; an error can belong to another transaction. The true part is C45."
  },
  {
   "property": "C74",
   "status": "partial",
   "theorems": [
    "C74_map_race_refuted"
   ],
   "note": "Refuted: the release path reads the shared map without the mutex. The true part is C46."
  },
  {
   "property": "C75",
   "status": "partial",
   "theorems": [
    "C75_base_fees_partial",
    "C75_base_fee_schedule_refuted",
    "C75_block_zero_refuted",
    "C75_unindexed_head_refuted"
   ],
   "note": "Refuted: rows may start at block 0 (showing block 1 twice); the base-fee column depends on fetcher order because this chain's base fee does not follow EIP-1559 (proved when it does: C75_base_fees_partial); head not yet indexed crashes the handler."
  },
  {
   "property": "C76",
   "status": "partial",
   "theorems": [
    "C76_gas_refuted",
    "C76_receive_gas_refuted",
    "C76_later_ack_refuted"
   ],
   "note": "Refuted: the callback gets all the transaction's gas; out of gas gives no acknowledgement; an application acknowledging later makes the handler crash. The true part is C48, C49."
  },
  {
   "property": "C77",
   "status": "partial",
   "theorems": [
    "C77_approved_contract_partial",
    "C77_bech32_approval_refuted"
   ],
   "note": "Proved for hexadecimal spellings; refuted for bech32: the tokens are approved to the zero address."
  },
  {
   "property": "C78",
   "status": "partial",
   "theorems": [
    "C78_class_alias_refuted",
    "C78_alias_token_refuted",
    "C78_token_alias_refuted",
    "C78_evm_class_refuted",
    "C78_no_code_refuted",
    "C78_burn_others_refuted",
    "C78_uri_survives_burn_refuted"
   ],
   "note": "Refuted: evm/<hex> aliases of recorded classes, where tokens get another number; many spellings of numeric token ids; operations on evm/<no code> report success; an approved account burns tokens it does not own; URIs survive burning. The true part is C52."
  },
  {
   "property": "C79",
   "status": "partial",
   "theorems": [
    "C79_all_accounts_refuted"
   ],
   "note": "Refuted: a self-destructed holder keeps its token balances but loses its account record. The true part is C32."
  },
  {
   "property": "C80",
   "status": "partial",
   "theorems": [
    "C80_unprotected_refuted",
    "C80_unprotected_refused"
   ],
   "note": "Refuted on chain ids congruent 124 mod 128; proved refused when the low byte of the recovered V exceeds 3."
  },
  {
   "property": "C81",
   "status": "proved",
   "theorems": [
    "C81_quote_accepted_iff",
    "C81_shortfall"
   ],
   "note": "Exact characterisation; OPinit's fee checker (not in the repository) is modelled by its documented rule."
  },
  {
   "property": "C82",
   "status": "proved",
   "theorems": [
    "C82_past_block",
    "C82_past_balance",
    "C82_tags",
    "C82_pending_and_unknown"
   ],
   "note": "Every interleaving (the node is sampled at each step). eth_getBalance under an unchanged fee token."
  },
  {
   "property": "C83",
   "status": "partial",
   "theorems": [
    "C83_future_block_refuted",
    "C83_earliest_nonce_refuted",
    "C83_head_race_refuted",
    "C83_balance_of_other_token_refuted"
   ],
   "note": "Refuted: blocks from the head on get the latest state; nonces at 'earliest' are the latest; the head block can be answered from the next one; balances of old blocks are in today's fee token. The true part is C82."
  },
  {
   "property": "C84",
   "status": "proved",
   "theorems": [
    "C84_call_runs_the_transaction",
    "C84_input_or_data",
    "C84_estimate_runs_the_transaction"
   ],
   "note": "The run is what is handed to the EVM; the interpreter itself is not modelled."
  },
  {
   "property": "C85",
   "status": "partial",
   "theorems": [
    "C85_value_dropped_refuted",
    "C85_zero_address_refuted",
    "C85_access_list_dropped_refuted"
   ],
   "note": "Refuted for every transaction with value, to the zero address (run as creation), and for the access list of every call. The true part is C84."
  },
  {
   "property": "C86",
   "status": "proved",
   "theorems": [
    "C86_ante_gas",
    "C86_estimate_enough_iff",
    "C86_estimate_suffices"
   ],
   "note": "Decorator costs are parameters; executions are described by the peak of their gas use and their refund."
  },
  {
   "property": "C87",
   "status": "partial",
   "theorems": [
    "C87_checks_after_the_fee_are_free_refuted",
    "C87_estimate_too_low_refuted"
   ],
   "note": "Refuted: the fee decorator's infinite meter is used by all later decorators; large refunds exceed the margin. The true part is C86."
  },
  {
   "property": "C88",
   "status": "proved",
   "theorems": [
    "C88_value_exact",
    "C88_message_runs"
   ],
   "note": "20-byte senders (all Ethereum transactions)."
  },
  {
   "property": "C89",
   "status": "partial",
   "theorems": [
    "C89_value_in_other_units_refuted",
    "C89_negative_value_wraps_refuted"
   ],
   "note": "Refuted for every token without 18 decimals and for every negative Cosmos message value. The true part is C88."
  },
  {
   "property": "C90",
   "status": "proved",
   "theorems": [
    "C90_nothing_else",
    "C90_complete",
    "C90_not_before",
    "C90_silent_after_leaving",
    "C90_terminates",
    "C90_finished",
    "C90_insert_returns"
   ],
   "note": ""
  },
  {
   "property": "C91",
   "status": "partial",
   "theorems": [
    "C91_slow_client_refuted",
    "C91_stall_is_reachable"
   ],
   "note": "Refuted: the event loop hands an event to each subscriber in turn over unbuffered channels, and a subscriber inside Notify does not receive; until the write returns or times out, nothing moves, and mempool insertion (CheckTx) waits too."
  },
  {
   "property": "C92",
   "status": "proved",
   "theorems": [
    "C92_insert",
    "C92_each_announced_once"
   ],
   "note": ""
  },
  {
   "property": "C93",
   "status": "partial",
   "theorems": [
    "C93_announced_but_refused_refuted",
    "C93_admission_depends_on_rpc_refuted"
   ],
   "note": "Refuted: announced before the wrapped mempool is asked; conversion errors refuse a transaction only where JSON-RPC is on."
  },
  {
   "property": "C94",
   "status": "proved",
   "theorems": [
    "C94_content",
    "C94_answers",
    "C94_content_from",
    "C94_inspect",
    "C94_queued",
    "C94_verified_convert",
    "C94_example"
   ],
   "note": ""
  },
  {
   "property": "C95",
   "status": "partial",
   "theorems": [
    "C95_more_than_hundred_refuted",
    "C95_status_counts_others_refuted",
    "C95_one_hides_all_refuted"
   ],
   "note": "Refuted as stated; the three ways it fails are theorems."
  },
  {
   "property": "C96",
   "status": "proved",
   "theorems": [
    "C96_register",
    "C96_register_from_factory",
    "C96_register_store",
    "C96_is_store",
    "C96_error_changes_nothing",
    "C96_refused_for_a_reason",
    "C96_example"
   ],
   "note": ""
  },
  {
   "property": "C97",
   "status": "proved",
   "theorems": [
    "C97_answers",
    "C97_refused_for_a_reason",
    "C97_not_whitelisted",
    "C97_example"
   ],
   "note": "Address codec, ABI, gRPC handlers and the whitelist are parameters."
  },
  {
   "property": "C98",
   "status": "proved",
   "theorems": [
    "C98_accepted_iff",
    "C98_keys_after",
    "C98_stored_keys_belong",
    "C98_threshold",
    "C98_ethereum_alone",
    "C98_no_ethereum_inside",
    "C98_unsupported_keys",
    "C98_recheck"
   ],
   "note": "Signature schemes, addresses of keys and sign bytes are parameters; the SDK decorators in between are modelled from their published source."
  },
  {
   "property": "C99",
   "status": "partial",
   "theorems": [
    "C99_crash_iff",
    "C99_keyless_refuted",
    "C99_other_message_refuted",
    "C99_goes_on_iff"
   ],
   "note": "Refuted: C99_keyless_refuted and C99_other_message_refuted give transactions that the ante handler accepts and that stop the indexing; C99_goes_on_iff gives the exact condition under which a block is indexed."
  },
  {
   "property": "C100",
   "status": "partial",
   "theorems": [
    "C100_cosmos_transactions",
    "C100_evm_exact",
    "C100_replay_refuted",
    "C100_earlier_replay_refuted",
    "C100_no_replay_partial",
    "C100_refund_panics_iff"
   ],
   "note": "Refuted for EVM messages by C100_replay_refuted (any number of repetitions). C100_earlier_replay_refuted: with two spellings of the sender even a transaction that succeeded is included again after a later one ran out of gas. Proved: transactions without EVM messages, exact sequences of EVM transactions for each ending, and no replay over histories whose endings the post handler repairs."
  },
  {
   "property": "C101",
   "status": "proved",
   "theorems": [
    "C101_fee_always_paid"
   ],
   "note": ""
  },
  {
   "property": "C102",
   "status": "proved",
   "theorems": [
    "C102_block_by_number",
    "C102_block_by_hash",
    "C102_count_by_number",
    "C102_transaction_in_its_block",
    "C102_receipt",
    "C102_unknown_transaction",
    "C102_block_receipts",
    "C102_pending"
   ],
   "note": "The hash of headers is a parameter without collisions among the headers of the chain; headers carry the fields that the lookups use."
  },
  {
   "property": "C103",
   "status": "partial",
   "theorems": [
    "C103_unknown_hash_refuted",
    "C103_no_such_block_refuted",
    "C103_thirty_refuted",
    "C103_keyless_pending_refuted"
   ],
   "note": "Refuted: the _refuted theorems; the parts that hold are C102."
  },
  {
   "property": "C104",
   "status": "proved",
   "theorems": [
    "C104_send_enabled",
    "C104_pages",
    "C104_offsets",
    "C104_all_balances",
    "C104_total_supply",
    "C104_spendable",
    "C104_set_metadata",
    "C104_token_metadata"
   ],
   "note": "CollectionPaginate of the SDK is modelled from its published source (keys of equal length; listing supplies in ascending order)."
  },
  {
   "property": "C105",
   "status": "partial",
   "theorems": [
    "C105_metadata_by_string_refuted",
    "C105_decimals_refuted",
    "C105_unknown_denom_refuted",
    "C105_zero_listed_refuted"
   ],
   "note": "Refuted: the _refuted theorems; what holds is C104."
  },
  {
   "property": "C106",
   "status": "proved",
   "theorems": [
    "C106_delegate",
    "C106_undelegate",
    "C106_round_trip",
    "C106_refused",
    "C106_module_to_module",
    "C106_module_account_made",
    "C106_unknown_module",
    "C106_multi_send"
   ],
   "note": ""
  },
  {
   "property": "C107",
   "status": "partial",
   "theorems": [
    "C107_blocked_receives_refuted",
    "C107_restriction_not_asked_refuted"
   ],
   "note": "Refuted: C107_blocked_receives_refuted and C107_restriction_not_asked_refuted; the transfers that do ask are C27, C28."
  },
  {
   "property": "C108",
   "status": "proved",
   "theorems": [
    "C108_own_answer",
    "C108_complete_request",
    "C108_nodes_agree",
    "C108_refused",
    "C108_default_list",
    "C108_default_requests",
    "C108_other_queries_do_not_interfere",
    "C108_example"
   ],
   "note": ""
  },
  {
   "property": "C109",
   "status": "partial",
   "theorems": [
    "C109_left_over_refuted",
    "C109_left_over_part_refuted",
    "C109_other_answer_refuted",
    "C109_nodes_disagree_refuted"
   ],
   "note": "Refuted: C109_left_over_refuted (any pair names, any history), C109_nodes_disagree_refuted (concrete), C109_other_answer_refuted (concurrent calls). The true part is C108."
  },
  {
   "property": "C110",
   "status": "proved",
   "theorems": [
    "C110_index_follows_chain",
    "C110_stop_before_commit",
    "C110_stops_do_not_show",
    "C110_reachable",
    "C110_example"
   ],
   "note": ""
  },
  {
   "property": "C111",
   "status": "partial",
   "theorems": [
    "C111_block_lost_refuted",
    "C111_written_in_part_refuted",
    "C111_transactions_lost_refuted",
    "C111_empty_block_refuted",
    "C111_rolled_back_found_refuted",
    "C111_ghost_refuted",
    "C111_reachable",
    "C111_example"
   ],
   "note": "Refuted by the C111_*_refuted theorems (for every chain, not only one). The true part is C110."
  },
  {
   "property": "C112",
   "status": "proved",
   "theorems": [
    "C112_storage_at",
    "C112_state",
    "C112_code",
    "C112_contract_of_denom",
    "C112_denom_of_contract",
    "C112_call_sender",
    "C112_call_without_sender",
    "C112_net_version"
   ],
   "note": ""
  },
  {
   "property": "C113",
   "status": "partial",
   "theorems": [
    "C113_long_key_refuted",
    "C113_long_contract_refuted",
    "C113_call_sender_refuted",
    "C113_net_version_refuted",
    "C113_net_version_mainnet_refuted"
   ],
   "note": "Refuted by the C113_*_refuted theorems. The true part is C112."
  },
  {
   "property": "C114",
   "status": "proved",
   "theorems": [
    "C114_commit",
    "C114_never_catches",
    "C114_nothing_made",
    "C114_only_payers_lose",
    "C114_storage_own",
    "C114_static_writes_nothing",
    "C114_static_only_looks",
    "C114_delegate_inline"
   ],
   "note": "Exact (C114_commit) where no caller goes on after a failed call; what holds for arbitrary code is C114_nothing_made, C114_only_payers_lose and C114_storage_own. What is false is C115."
  },
  {
   "property": "C115",
   "status": "partial",
   "theorems": [
    "C115_blocked_payment_refuted",
    "C115_one_blocks_all_refuted",
    "C115_destruct_pays_blocked_refuted",
    "C115_caught_failure_loses_all_refuted",
    "C115_money_destroyed_refuted",
    "C115_write_unseen_refuted",
    "C115_failure_aborts_refuted",
    "C115_failed_frame_seen_refuted"
   ],
   "note": "Refuted by the C115_*_refuted theorems. The true part is C114."
  },
  {
   "property": "C116",
   "status": "proved",
   "theorems": [
    "C116_bring_up",
    "C116_evm_fee_denom",
    "C116_upgrade",
    "C116_upgrade_once"
   ],
   "note": ""
  },
  {
   "property": "C117",
   "status": "proved",
   "theorems": [
    "C117_no_refund",
    "C117_included_iff",
    "C117_effects",
    "C117_any",
    "C117_succeeds_iff",
    "C117_payment",
    "C117_payment_wei"
   ],
   "note": "C117_effects and C117_succeeds_iff are for code that does not go on after a failed call (C115 shows that no such statement holds otherwise); C117_any says what holds for arbitrary code."
  },
  {
   "property": "C118",
   "status": "partial",
   "theorems": [
    "C118_max_send_refuted",
    "C118_cost_above_cap_refuted"
   ],
   "note": "The English claim is false of the code, and the theorems prove that: the fee is gas times fee cap plus one unit (computeGasFeeAmount), so with an 18-decimals fee token the payment of a whole balance is taken, always fails and loses its fee, and a failed transaction costs one wei more than gas times fee cap. What does hold is C117."
  },
  {
   "property": "C119",
   "status": "proved",
   "theorems": [
    "C119_conserved",
    "C119_nonces",
    "C119_identity",
    "C119_no_replay",
    "C119_collector_keeps"
   ],
   "note": ""
  },
  {
   "property": "C120",
   "status": "proved",
   "theorems": [
    "C120_effects",
    "C120_succeeds_iff",
    "C120_code"
   ],
   "note": "For constructors that do not go on after a failed call and do not destroy their contract."
  },
  {
   "property": "C121",
   "status": "proved",
   "theorems": [
    "C121_gasprice_exact",
    "C121_gasprice",
    "C121_gasprice_few_decimals",
    "C121_gasprice_covers_basefee",
    "C121_transaction",
    "C121_block",
    "C121_basefee",
    "C121_gasprice_any",
    "C121_zero"
   ],
   "note": ""
  },
  {
   "property": "C122",
   "status": "partial",
   "theorems": [
    "C122_effective_price_refuted",
    "C122_query_gasprice_refuted",
    "C122_gaslimit_refuted",
    "C122_coinbase_refuted"
   ],
   "note": "The English claim is false of the code, and the theorems prove that: GASPRICE is the fee cap, 0 in queries (below BASEFEE when there is a minimum price); GASLIMIT is what is left of the transaction's gas; COINBASE is the zero address, which keeps what is paid to it. What does hold is C121."
  },
  {
   "property": "C123",
   "status": "proved",
   "theorems": [
    "C123_log10",
    "C123_decimal",
    "C123_hex",
    "C123_address",
    "C123_wrapper_texts"
   ],
   "note": ""
  },
  {
   "property": "C124",
   "status": "proved",
   "theorems": [
    "C124_permissions",
    "C124_permitted",
    "C124_modules_blocked",
    "C124_foreign_burn",
    "C124_supply"
   ],
   "note": ""
  },
  {
   "property": "C125",
   "status": "proved",
   "theorems": [
    "C125_funds_stay"
   ],
   "note": ""
  },
  {
   "property": "C126",
   "status": "proved",
   "theorems": [
    "C126_each_endpoint",
    "C126_no_gaps",
    "C126_one_endpoint"
   ],
   "note": ""
  },
  {
   "property": "C127",
   "status": "partial",
   "theorems": [
    "C127_waits_at_the_other_endpoint_refuted"
   ],
   "note": "Refuted: C127_waits_at_the_other_endpoint_refuted. What holds is C126."
  },
  {
   "property": "C128",
   "status": "partial",
   "theorems": [
    "C128_create_partial",
    "C128_create_repaired"
   ],
   "note": "Proved for init code in which no call fails; the full statement is false (C129); with the repaired RevertToSnapshot it holds in full (C128_create_repaired). Gas is not modelled."
  },
  {
   "property": "C129",
   "status": "partial",
   "theorems": [
    "C129_what_is_kept_refuted",
    "C129_no_contract_refuted",
    "C129_no_code_refuted",
    "C129_nonce_lost_refuted",
    "C129_address_taken_refuted"
   ],
   "note": "Refuted: C129_what_is_kept_refuted, C129_no_contract_refuted, C129_no_code_refuted, C129_address_taken_refuted, C129_nonce_lost_refuted. What holds is C128."
  },
  {
   "property": "C130",
   "status": "proved",
   "theorems": [
    "C130_class_info",
    "C130_token_infos",
    "C130_from_creation",
    "C130_owner",
    "C130_balance",
    "C130_no_collection"
   ],
   "note": "Answers of collections not made by the chain are arbitrary. Balances are modulo 2^256, like the contract's counter."
  },
  {
   "property": "C131",
   "status": "partial",
   "theorems": [
    "C131_class_data_refuted",
    "C131_token_data_refuted",
    "C131_no_such_token_refuted"
   ],
   "note": "Refuted: C131_class_data_refuted, C131_token_data_refuted, C131_no_such_token_refuted. What holds is C130."
  },
  {
   "property": "C132",
   "status": "partial",
   "theorems": [
    "C132_no_refund_panic",
    "C132_no_wrap",
    "C132_as_ethereum_partial"
   ],
   "note": "No panic and no wrap are proved for all programs; agreement with Ethereum as long as no call fails (otherwise false, C133). go-ethereum's gas rules are modelled from version 1.14.9; the fork used is not in the repository. The proof needs EIP-2200's floor of 2300 gas (C132_floor_needed)."
  },
  {
   "property": "C133",
   "status": "partial",
   "theorems": [
    "C133_storage_gas_refuted"
   ],
   "note": "Refuted: C133_storage_gas_refuted. What holds is C132."
  },
  {
   "property": "C134",
   "status": "partial",
   "theorems": [
    "C134_included_iff",
    "C134_effects",
    "C134_any_fee_refuted",
    "C134_balance_lost_refuted"
   ],
   "note": "Refuted: C134_any_fee_refuted, C134_balance_lost_refuted. What holds: whatever the fee, the call is the signed one and the effects are the ledger's with that fee (C134_included_iff, C134_effects)."
  },
  {
   "property": "C135",
   "status": "proved",
   "theorems": [
    "C135_lookups",
    "C135_inverse",
    "C135_unknown",
    "C135_sound"
   ],
   "note": ""
  },
  {
   "property": "C136",
   "status": "partial",
   "theorems": [
    "C136_kept",
    "C136_moved_refuted",
    "C136_logs_twice_refuted"
   ],
   "note": "Refuted for transactions included again: C136_moved_refuted, C136_logs_twice_refuted. For all others C136_kept."
  },
  {
   "property": "C137",
   "status": "partial",
   "theorems": [
    "C137_answers",
    "C137_other_filters",
    "C137_all_wanted",
    "C137_wanted_decidable",
    "C137_future_refuted",
    "C137_block_zero_refuted",
    "C137_not_a_use_refuted"
   ],
   "note": "The main part is proved (C137_answers, C137_all_wanted); the three exceptions named in the statement are C137_future_refuted, C137_block_zero_refuted, C137_not_a_use_refuted."
  },
  {
   "property": "C138",
   "status": "partial",
   "theorems": [
    "C138_big_numbers",
    "C138_transaction",
    "C138_converted",
    "C138_same_answers",
    "C138_block_lost_refuted",
    "C138_wallet_refuted"
   ],
   "note": "What can be read back and that nothing changes then is proved for everything (C138_big_numbers, C138_transaction, C138_converted, C138_same_answers). The expectation that every included transaction can be read back is refuted: C138_wallet_refuted (included whatever the tip cap) and C138_block_lost_refuted (what is lost)."
  },
  {
   "property": "C139",
   "status": "proved",
   "theorems": [
    "C139_included_iff",
    "C139_effects",
    "C139_any",
    "C139_creates",
    "C139_succeeds_iff",
    "C139_once",
    "C139_as_ethereum"
   ],
   "note": "For one message of MsgCall or MsgCreate and one signature with a secp256k1 or ethsecp256k1 key; the fee in the fee denomination. The signature function and the sign bytes are parameters. The EVM run is the tree of calls of Model/CallTree.v."
  },
  {
   "property": "C140",
   "status": "proved",
   "theorems": [
    "C140_conserved",
    "C140_nonces",
    "C140_identity",
    "C140_code",
    "C140_no_replay",
    "C140_collector_keeps"
   ],
   "note": "The histories of C119 with Cosmos-signed transactions (C139) and Ethereum transactions submitted with another fee (C134) among them. One message and one ordinary key per transaction; constructors that catch failures or destroy their contract are excluded, as in C119."
  },
  {
   "property": "C141",
   "status": "proved",
   "theorems": [
    "C141_included_iff",
    "C141_effects",
    "C141_sequences",
    "C141_succeeds_iff",
    "C141_any",
    "C141_once",
    "C141_next_number_refuted",
    "C141_single"
   ],
   "note": "Messages are MsgCall and MsgSend, every account written with one spelling and holding an ordinary key. C141_next_number_refuted is the finding: after a transaction with two or more calls of one account at sequence s a transaction with s+1 is refused, so a wallet that counts its transactions stalls. C141_single ties a one-message transaction to the model of C139."
  },
  {
   "property": "C142",
   "status": "proved",
   "theorems": [
    "C142_conserved",
    "C142_accounts",
    "C142_code",
    "C142_no_replay",
    "C142_collector_keeps"
   ],
   "note": "All kinds are delivered by one model (Model/MultiMsg.v; C141_single identifies it with that of C140 on single messages). Multi-message transactions hold calls and sends, one spelling per account and ordinary keys; no sequence within the history may come near 2^64."
  },
  {
   "property": "C143",
   "status": "proved",
   "theorems": [
    "C143_sent_back",
    "C143_hash_of_answer",
    "C143_place_of_answer",
    "C143_unknown"
   ],
   "note": "go-ethereum's MarshalBinary, UnmarshalBinary and hash are parameters; only canonical encodings parse. For transactions with replay protection (C80 for the others), as in C18."
  },
  {
   "property": "C144",
   "status": "proved",
   "theorems": [
    "C144_exact",
    "C144_same_float",
    "C144_odd_refuted",
    "C144_confused_refuted",
    "C144_called_back",
    "C144_not_asked",
    "C144_misshapen",
    "C144_wrong_id_refuted"
   ],
   "note": "Numbers of the memo written as plain digits; the scanning of the text and the reading of the message are parameters; Go's float64 parsing and shortest printing are modelled (integers)."
  },
  {
   "property": "C145",
   "status": "proved",
   "theorems": [
    "C145_read_back",
    "C145_distinct",
    "C145_only_reverts",
    "C145_reason",
    "C145_reasons",
    "C145_no_gas_left_refuted",
    "C145_first_match_refuted",
    "C145_eth_call"
   ],
   "note": "The reader is the last word before the fixed ending. go-ethereum's UnpackRevert is modelled for Error(string), its answer on Panic(uint256) is a parameter."
  },
  {
   "property": "C146",
   "status": "proved",
   "theorems": [
    "C146_linked",
    "C146_large_fee_refuted",
    "C146_by_hash",
    "C146_late_node_refuted"
   ],
   "note": "go-ethereum's Header JSON is modelled field by field; Header.Hash is a parameter, assumed not to collide on the headers that are made. Roots and bloom filter come with the block."
  },
  {
   "property": "C147",
   "status": "proved",
   "theorems": [
    "C147_listed",
    "C147_supply",
    "C147_all_listed_have",
    "C147_second_name_refuted",
    "C147_panic_refuted",
    "C147_zero_refuted"
   ],
   "note": "Reachable states as in C24. Store errors other than not-found do not happen."
  }
 ]
}