AccountProps.C33_short_maps_to_itself: Closed under the global context
AccountProps.C33_long_signer_recorded: Closed under the global context
AccountProps.C33_record_is_permanent: Closed under the global context
AccountProps.C33_long_addresses_do_not_share: Closed under the global context
AccountProps.C33_used_address_not_taken: Closed under the global context
AccountProps.C33_lookup_writes_nothing: Closed under the global context
AccountProps.C65_twenty_byte_refuted: Closed under the global context
AccountProps.C65_unused_account_refuted: Closed under the global context
AppWireProps.C124_permissions: Closed under the global context
AppWireProps.C124_permitted: Closed under the global context
AppWireProps.C124_modules_blocked: Closed under the global context
AppWireProps.C124_foreign_burn: Closed under the global context
AppWireProps.C124_supply: Closed under the global context
AppWireProps.C125_funds_stay: Closed under the global context
BankDelegateProps.C106_delegate: Closed under the global context
BankDelegateProps.C106_undelegate: Closed under the global context
BankDelegateProps.C106_round_trip: Closed under the global context
BankDelegateProps.C106_refused: Closed under the global context
BankDelegateProps.C106_module_to_module: Closed under the global context
BankDelegateProps.C106_module_account_made: Closed under the global context
BankDelegateProps.C106_unknown_module: Closed under the global context
BankDelegateProps.C106_multi_send: Closed under the global context
BankDelegateProps.C107_blocked_receives_refuted: Closed under the global context
BankDelegateProps.C107_restriction_not_asked_refuted: Closed under the global context
BankDelegateProps.C104_send_enabled: Closed under the global context
BankProps.C25_send_moves_exactly: Closed under the global context
BankProps.C25_send_one_coin: Closed under the global context
BankProps.C25_send_when_covered: Closed under the global context
BankProps.C25_uncovered_changes_nothing: Closed under the global context
BankProps.C25_unknown_denom_changes_nothing: Closed under the global context
BankProps.C63_no_code_refuted: Closed under the global context
BankProps.C26_mint_exact: Closed under the global context
BankProps.C26_mint_refused: Closed under the global context
BankProps.C26_native_never_minted: Closed under the global context
BankProps.C26_mint_when_possible: Closed under the global context
BankProps.C26_burn_exact: Closed under the global context
BankProps.C26_burn_refused: Closed under the global context
BankProps.C26_burn_when_covered: Closed under the global context
BankProps.C26_w2_steps: Closed under the global context
BankProps.C64_burn_native_refuted: Closed under the global context
BankProps.C27_send_only_when_allowed: Closed under the global context
BankProps.C27_refused_changes_nothing: Closed under the global context
BankProps.C27_allowed_goes_through: Closed under the global context
BankProps.C62_disabled_token_refuted: Closed under the global context
BankProps.C28_restrictions_in_order: Closed under the global context
BankProps.C28_refusal_stops: Closed under the global context
BankProps.C28_redirect: Closed under the global context
BankProps.C29_exact: Closed under the global context
BankProps.C29_accepted_iff: Closed under the global context
BankProps.C29_effect_on_sends: Closed under the global context
BankProps.C30_only_authority: Closed under the global context
BankProps.C30_accepted_params_are_valid: Closed under the global context
BankProps.C30_always_valid: Closed under the global context
BankProps.C30_fee_token_supports_mint_burn: Closed under the global context
BankProps.C30_zero_address_fee_accepted: Closed under the global context
BankProps.C30_bank_params: Closed under the global context
BankQueryProps.C104_pages: Closed under the global context
BankQueryProps.C104_offsets: Closed under the global context
BankQueryProps.C104_all_balances: Closed under the global context
BankQueryProps.C104_total_supply: Closed under the global context
BankQueryProps.C104_spendable: Closed under the global context
BankQueryProps.C104_set_metadata: Closed under the global context
BankQueryProps.C104_token_metadata: Closed under the global context
BankQueryProps.C105_metadata_by_string_refuted: Closed under the global context
BankQueryProps.C105_decimals_refuted: Closed under the global context
BankQueryProps.C105_unknown_denom_refuted: Closed under the global context
BankQueryProps.C105_zero_listed_refuted: Closed under the global context
BlockRpcProps.C102_block_by_number: Closed under the global context
BlockRpcProps.C102_block_by_hash: Closed under the global context
BlockRpcProps.C102_count_by_number: Closed under the global context
BlockRpcProps.C102_transaction_in_its_block: Closed under the global context
BlockRpcProps.C102_receipt: Closed under the global context
BlockRpcProps.C102_unknown_transaction: Closed under the global context
BlockRpcProps.C102_block_receipts: Closed under the global context
BlockRpcProps.C103_unknown_hash_refuted: Closed under the global context
BlockRpcProps.C103_no_such_block_refuted: Closed under the global context
BlockRpcProps.C102_pending: Closed under the global context
BlockRpcProps.C103_thirty_refuted: Closed under the global context
BlockRpcProps.C103_keyless_pending_refuted: Closed under the global context
BringUpProps.C116_bring_up: Closed under the global context
BringUpProps.C116_evm_fee_denom: Closed under the global context
BringUpProps.C116_upgrade: Closed under the global context
BringUpProps.C116_upgrade_once: Closed under the global context
BundleHistoryProps.C142_conserved: Closed under the global context
BundleHistoryProps.C142_accounts: Closed under the global context
BundleHistoryProps.C142_code: Closed under the global context
BundleHistoryProps.C142_no_replay: Closed under the global context
BundleHistoryProps.C142_collector_keeps: Closed under the global context
CallTreeProps.C114_commit: Closed under the global context
CallTreeProps.C114_never_catches: Closed under the global context
CallTreeProps.C114_nothing_made: Closed under the global context
CallTreeProps.C114_only_payers_lose: Closed under the global context
CallTreeProps.C114_storage_own: Closed under the global context
CallTreeProps.C114_static_writes_nothing: Closed under the global context
CallTreeProps.C114_static_only_looks: Closed under the global context
CallTreeProps.C114_delegate_inline: Closed under the global context
CallTreeProps.C115_blocked_payment_refuted: Closed under the global context
CallTreeProps.C115_one_blocks_all_refuted: Closed under the global context
CallTreeProps.C115_destruct_pays_blocked_refuted: Closed under the global context
CallTreeProps.C115_caught_failure_loses_all_refuted: Closed under the global context
CallTreeProps.C115_money_destroyed_refuted: Closed under the global context
CallTreeProps.C115_write_unseen_refuted: Closed under the global context
CallTreeProps.C115_failure_aborts_refuted: Closed under the global context
CallTreeProps.C115_failed_frame_seen_refuted: Closed under the global context
CosmosSignedProps.C139_included_iff: Closed under the global context
CosmosSignedProps.C139_effects: Closed under the global context
CosmosSignedProps.C139_any: Closed under the global context
CosmosSignedProps.C139_creates: Closed under the global context
CosmosSignedProps.C139_succeeds_iff: Closed under the global context
CosmosSignedProps.C139_once: Closed under the global context
CosmosSignedProps.C139_as_ethereum: Closed under the global context
CreateRunProps.C128_create_partial: Closed under the global context
CreateRunProps.C128_create_repaired: Closed under the global context
CreateRunProps.C129_what_is_kept_refuted: Closed under the global context
CreateRunProps.C129_no_contract_refuted: Closed under the global context
CreateRunProps.C129_no_code_refuted: Closed under the global context
CreateRunProps.C129_nonce_lost_refuted: Closed under the global context
CreateRunProps.C129_address_taken_refuted: Closed under the global context
EthDeliverProps.C117_no_refund: Closed under the global context
EthDeliverProps.C117_included_iff: Closed under the global context
EthDeliverProps.C117_effects: Closed under the global context
EthDeliverProps.C117_any: Closed under the global context
EthDeliverProps.C117_succeeds_iff: Closed under the global context
EthDeliverProps.C117_payment: Closed under the global context
EthDeliverProps.C117_payment_wei: Closed under the global context
EthDeliverProps.C120_effects: Closed under the global context
EthDeliverProps.C120_succeeds_iff: Closed under the global context
EthDeliverProps.C118_max_send_refuted: Closed under the global context
EthDeliverProps.C118_cost_above_cap_refuted: Closed under the global context
EthDeliverProps.C134_included_iff: Closed under the global context
EthDeliverProps.C134_effects: Closed under the global context
EthDeliverProps.C134_any_fee_refuted: Closed under the global context
EthDeliverProps.C134_balance_lost_refuted: Closed under the global context
EthDeliverProps.C119_conserved: Closed under the global context
EthDeliverProps.C119_nonces: Closed under the global context
EthDeliverProps.C119_identity: Closed under the global context
EthDeliverProps.C120_code: Closed under the global context
EthDeliverProps.C119_no_replay: Closed under the global context
EthDeliverProps.C119_collector_keeps: Closed under the global context
EthTxProps.C50_logs_round_trip: Closed under the global context
EthTxProps.C50_access_list_round_trip: Closed under the global context
EthTxProps.C50_encoding_injective: Closed under the global context
EthTxProps.C53_chain_id_in_range: Closed under the global context
EthTxProps.C54_v_round_trip: Closed under the global context
EthTxProps.C54_signature_bytes: Closed under the global context
EthTxProps.C54_signature_bytes_onto: Closed under the global context
EthTxProps.C18_round_trip: Closed under the global context
EthTxProps.C80_unprotected_refuted: Closed under the global context
EthTxProps.C80_unprotected_refused: Closed under the global context
EthTxProps.C19_signature_binds_content_partial: Closed under the global context
EthTxProps.C19_fee_not_bound_refuted: Closed under the global context
EthTxProps.C19_any_message_refuted: Closed under the global context
EthTxProps.C19_legacy_access_list_refuted: Closed under the global context
EthTxProps.C19_amount_above_18_decimals_refuted: Closed under the global context
EthTxProps.C22_classification_partial: Closed under the global context
EthTxProps.C22_converted_not_classified_refuted: Closed under the global context
EthTxProps.C22_classified_not_converted_refuted: Closed under the global context
EthTxProps.C58_rpc_round_trip: Closed under the global context
EthTxProps.C58_rpc_fields: Closed under the global context
EvmQueryProps.C112_storage_at: Closed under the global context
EvmQueryProps.C112_state: Closed under the global context
EvmQueryProps.C112_code: Closed under the global context
EvmQueryProps.C112_contract_of_denom: Closed under the global context
EvmQueryProps.C112_denom_of_contract: Closed under the global context
EvmQueryProps.C112_call_sender: Closed under the global context
EvmQueryProps.C112_call_without_sender: Closed under the global context
EvmQueryProps.C112_net_version: Closed under the global context
EvmQueryProps.C113_long_key_refuted: Closed under the global context
EvmQueryProps.C113_long_contract_refuted: Closed under the global context
EvmQueryProps.C113_call_sender_refuted: Closed under the global context
EvmQueryProps.C113_net_version_refuted: Closed under the global context
EvmQueryProps.C113_net_version_mainnet_refuted: Closed under the global context
FeeHistoryProps.C47_percentiles: Closed under the global context
FeeHistoryProps.C47_beyond_head: Closed under the global context
FeeHistoryProps.C47_no_blocks: Closed under the global context
FeeHistoryProps.C47_range: Closed under the global context
FeeHistoryProps.C47_complete: Closed under the global context
FeeHistoryProps.C47_rows: Closed under the global context
FeeHistoryProps.C47_reward_meaning: Closed under the global context
FeeHistoryProps.C47_reward_empty: Closed under the global context
FeeHistoryProps.C47_cache_transparent: Closed under the global context
FeeHistoryProps.C47_next_base_fee: Closed under the global context
FeeHistoryProps.C75_base_fees_partial: Closed under the global context
FeeHistoryProps.C75_base_fee_schedule_refuted: Closed under the global context
FeeHistoryProps.C75_block_zero_refuted: Closed under the global context
FeeHistoryProps.C75_unindexed_head_refuted: Closed under the global context
FeesProps.C13_gas_charged_within_limit: Closed under the global context
FeesProps.C13_charge_fits_the_meter: Closed under the global context
FeesProps.C14_failed_execution_is_charged_partial: Closed under the global context
FeesProps.C14_failed_execution_is_charged_refuted: Closed under the global context
FeesProps.C16_up_then_down_is_identity: Closed under the global context
FeesProps.C16_down_then_up_is_identity_above_18: Closed under the global context
FeesProps.C16_truncation_bound: Closed under the global context
FeesProps.C16_monotone: Closed under the global context
FeesProps.C16_exactness_check: Closed under the global context
FeesProps.C16_gwei_round_trip: Closed under the global context
FeesProps.C17_fee_covers_cap: Closed under the global context
FeesProps.C17_zero_cap_zero_fee: Closed under the global context
FeesProps.C17_fee_monotone: Closed under the global context
FeesProps.C59_gas_price_in_wei: Closed under the global context
FeesProps.C59_gas_price_in_wei_few_decimals: Closed under the global context
FeesProps.C59_wraps_above_246_decimals: Closed under the global context
FeesProps.C15_refund_bounded_by_fee: Closed under the global context
FeesProps.C15_no_refund_otherwise: Closed under the global context
FilterLogsProps.C137_answers: Closed under the global context
FilterLogsProps.C137_other_filters: Closed under the global context
FilterLogsProps.C137_all_wanted: Closed under the global context
FilterLogsProps.C137_wanted_decidable: Closed under the global context
FilterLogsProps.C137_future_refuted: Closed under the global context
FilterLogsProps.C137_block_zero_refuted: Closed under the global context
FilterLogsProps.C137_not_a_use_refuted: Closed under the global context
FilterProps.C44_selects: Closed under the global context
FilterProps.C44_accepted_criteria: Closed under the global context
FilterProps.C44_exactly_once: Closed under the global context
FilterProps.C44_poll_completes: Closed under the global context
FilterProps.C44_from_creation: Closed under the global context
FilterProps.C44_emitter_order: Closed under the global context
FilterProps.C44_loop_not_stuck: Closed under the global context
FilterProps.C44_delivered: Closed under the global context
FilterProps.C44_gone_for_good: Closed under the global context
FilterProps.C44_log_filter_lives: Closed under the global context
FilterProps.C72_block_order_refuted: Closed under the global context
FilterProps.C72_new_block_filter_expires_refuted: Closed under the global context
FilterProps.C72_block_hash_ignored_refuted: Closed under the global context
HasSupplyProps.C147_listed: Closed under the global context
HasSupplyProps.C147_supply: Closed under the global context
HasSupplyProps.C147_all_listed_have: Closed under the global context
HasSupplyProps.C147_second_name_refuted: Closed under the global context
HasSupplyProps.C147_panic_refuted: Closed under the global context
HasSupplyProps.C147_zero_refuted: Closed under the global context
IbcHooksProps.C48_app_refuses: Closed under the global context
IbcHooksProps.C48_app_refuses_timeout: Closed under the global context
IbcHooksProps.C48_calls: Closed under the global context
IbcHooksProps.C48_calls_timeout: Closed under the global context
IbcHooksProps.C48_no_callback: Closed under the global context
IbcHooksProps.C48_callback_fails: Closed under the global context
IbcHooksProps.C48_callback_succeeds: Closed under the global context
IbcHooksProps.C48_timeout_no_callback: Closed under the global context
IbcHooksProps.C48_timeout_callback_fails: Closed under the global context
IbcHooksProps.C48_timeout_callback_succeeds: Closed under the global context
IbcHooksProps.C49_only_if: Closed under the global context
IbcHooksProps.C49_no_message: Closed under the global context
IbcHooksProps.C49_refused: Closed under the global context
IbcHooksProps.C49_atomic: Closed under the global context
IbcHooksProps.C49_success: Closed under the global context
IbcHooksProps.C49_failure_acknowledged: Closed under the global context
IbcHooksProps.C49_intermediate_sender: Closed under the global context
IbcHooksProps.C49_local_name: Closed under the global context
IbcHooksProps.C77_approved_contract_partial: Closed under the global context
IbcHooksProps.C76_gas_refuted: Closed under the global context
IbcHooksProps.C76_receive_gas_refuted: Closed under the global context
IbcHooksProps.C76_later_ack_refuted: Closed under the global context
IbcHooksProps.C77_bech32_approval_refuted: Closed under the global context
IndexNodeProps.C110_index_follows_chain: Closed under the global context
IndexNodeProps.C110_stop_before_commit: Closed under the global context
IndexNodeProps.C110_stops_do_not_show: Closed under the global context
IndexNodeProps.C111_block_lost_refuted: Closed under the global context
IndexNodeProps.C111_written_in_part_refuted: Closed under the global context
IndexNodeProps.C111_transactions_lost_refuted: Closed under the global context
IndexNodeProps.C111_empty_block_refuted: Closed under the global context
IndexNodeProps.C111_rolled_back_found_refuted: Closed under the global context
IndexNodeProps.C111_ghost_refuted: Closed under the global context
IndexNodeProps.C110_reachable: Closed under the global context
IndexNodeProps.C111_reachable: Closed under the global context
IndexNodeProps.C110_example: Closed under the global context
IndexNodeProps.C111_example: Closed under the global context
IndexerProps.C41_reads_return_latest: Closed under the global context
IndexerProps.C41_set_outcome: Closed under the global context
IndexerProps.C41_delete_cached: Closed under the global context
IndexerProps.C69_delete_refuted: Closed under the global context
LockProps.C46_mutual_exclusion: Closed under the global context
LockProps.C46_nothing_left: Closed under the global context
LockProps.C46_record_iff_registered: Closed under the global context
LockProps.C46_finds_its_lock: Closed under the global context
LockProps.C46_no_deadlock: Closed under the global context
LockProps.C74_map_race_refuted: Closed under the global context
LogProps.C42_retrieval: Closed under the global context
LogProps.C42_no_other_index: Closed under the global context
LogProps.C42_block_walk: Closed under the global context
LogProps.C42_headers: Closed under the global context
LogProps.C42_hash_maps: Closed under the global context
LogProps.C42_indexing_fails_iff: Closed under the global context
LogProps.C42_emitted_logs: Closed under the global context
LogProps.C42_stored_logs: Closed under the global context
LogProps.C70_index_zero_refuted: Closed under the global context
LogProps.C70_log_index_refuted: Closed under the global context
LogProps.C70_reinclusion_refuted: Closed under the global context
LogProps.C70_tag_refuted: Closed under the global context
LogProps.C43_check_is_match: Closed under the global context
LogProps.C43_bloom_sound: Closed under the global context
LogProps.C43_range_exact: Closed under the global context
LogProps.C43_matching_decidable: Closed under the global context
LogProps.C43_block_hash_exact: Closed under the global context
LogProps.C43_unknown_hash: Closed under the global context
LogProps.C71_zero_hash_refuted: Closed under the global context
LogProps.C71_unindexed_head_refuted: Closed under the global context
MemoJsonProps.C144_exact: Closed under the global context
MemoJsonProps.C144_same_float: Closed under the global context
MemoJsonProps.C144_odd_refuted: Closed under the global context
MemoJsonProps.C144_confused_refuted: Closed under the global context
MemoJsonProps.C144_called_back: Closed under the global context
MemoJsonProps.C144_not_asked: Closed under the global context
MemoJsonProps.C144_misshapen: Closed under the global context
MemoJsonProps.C144_wrong_id_refuted: Closed under the global context
MixedHistoryProps.C140_conserved: Closed under the global context
MixedHistoryProps.C140_nonces: Closed under the global context
MixedHistoryProps.C140_identity: Closed under the global context
MixedHistoryProps.C140_code: Closed under the global context
MixedHistoryProps.C140_no_replay: Closed under the global context
MixedHistoryProps.C140_collector_keeps: Closed under the global context
ModuleProps.C34_window: Closed under the global context
ModuleProps.C34_opcode: Closed under the global context
ModuleProps.C66_own_hash_refuted: Closed under the global context
ModuleProps.C37_only_allowed_publishers: Closed under the global context
ModuleProps.C37_what_runs: Closed under the global context
ModuleProps.C37_others_refused: Closed under the global context
ModuleProps.C37_empty_text_refused: Closed under the global context
ModuleProps.C67_empty_code_refuted: Closed under the global context
ModuleProps.C35_round_trip: Closed under the global context
ModuleProps.C35_export_again: Closed under the global context
ModuleProps.C35_no_code_runs_initialize: Closed under the global context
ModuleProps.C35_default_genesis: Closed under the global context
ModuleProps.C35_export_needs_wrapper: Closed under the global context
ModuleProps.C60_import_adds: Closed under the global context
ModuleProps.C60_fresh_genesis_exact: Closed under the global context
ModuleProps.C60_native_balance_stops: Closed under the global context
ModuleProps.C60_restart_keeps_balances_refuted: Closed under the global context
ModuleProps.C60_native_holder_refuted: Closed under the global context
MultiMsgProps.C141_included_iff: Closed under the global context
MultiMsgProps.C141_effects: Closed under the global context
MultiMsgProps.C141_sequences: Closed under the global context
MultiMsgProps.C141_succeeds_iff: Closed under the global context
MultiMsgProps.C141_any: Closed under the global context
MultiMsgProps.C141_once: Closed under the global context
MultiMsgProps.C141_next_number_refuted: Closed under the global context
MultiMsgProps.C141_single: Closed under the global context
NftInfoProps.C130_class_info: Closed under the global context
NftInfoProps.C130_token_infos: Closed under the global context
NftInfoProps.C130_from_creation: Closed under the global context
NftInfoProps.C130_owner: Closed under the global context
NftInfoProps.C130_balance: Closed under the global context
NftInfoProps.C130_no_collection: Closed under the global context
NftInfoProps.C131_class_data_refuted: Closed under the global context
NftInfoProps.C131_token_data_refuted: Closed under the global context
NftInfoProps.C131_no_such_token_refuted: Closed under the global context
NftProps.C52_classes: Closed under the global context
NftProps.C52_class_round_trip: Closed under the global context
NftProps.C52_class_names_differ: Closed under the global context
NftProps.C52_create: Closed under the global context
NftProps.C52_create_succeeds: Closed under the global context
NftProps.C52_update: Closed under the global context
NftProps.C52_balance: Closed under the global context
NftProps.C52_transfers: Closed under the global context
NftProps.C52_transfers_succeed: Closed under the global context
NftProps.C52_transfers_to_collection: Closed under the global context
NftProps.C52_burns: Closed under the global context
NftProps.C52_burns_succeed: Closed under the global context
NftProps.C52_mints: Closed under the global context
NftProps.C52_mints_succeed: Closed under the global context
NftProps.C52_approve: Closed under the global context
NftProps.C52_authority: Closed under the global context
NftProps.C52_no_outside_mint: Closed under the global context
NftProps.C52_token_names: Closed under the global context
NftProps.C78_class_alias_refuted: Closed under the global context
NftProps.C78_alias_token_refuted: Closed under the global context
NftProps.C78_token_alias_refuted: Closed under the global context
NftProps.C78_evm_class_refuted: Closed under the global context
NftProps.C78_no_code_refuted: Closed under the global context
NftProps.C78_burn_others_refuted: Closed under the global context
NftProps.C78_uri_survives_burn_refuted: Closed under the global context
PrecompileMore.C96_register: Closed under the global context
PrecompileMore.C96_register_from_factory: Closed under the global context
PrecompileMore.C96_register_store: Closed under the global context
PrecompileMore.C96_is_store: Closed under the global context
PrecompileMore.C96_error_changes_nothing: Closed under the global context
PrecompileMore.C96_refused_for_a_reason: Closed under the global context
PrecompileMore.C97_answers: Closed under the global context
PrecompileMore.C97_refused_for_a_reason: Closed under the global context
PrecompileMore.C97_not_whitelisted: Closed under the global context
PrecompileMore.C96_example: Closed under the global context
PrecompileMore.C97_example: Closed under the global context
PrecompileProps.C38_read_only_no_change: Closed under the global context
PrecompileProps.C38_writes_refused_read_only: Closed under the global context
PrecompileProps.C38_execute_refused_read_only: Closed under the global context
PrecompileProps.C38_gas_bound: Closed under the global context
PrecompileProps.C38_minimum_price: Closed under the global context
PrecompileProps.C38_bad_input: Closed under the global context
PrecompileProps.C39_queue_step: Closed under the global context
PrecompileProps.C39_other_signer_refused: Closed under the global context
PrecompileProps.C39_only_own_messages: Closed under the global context
PrecompileProps.C39_dispatch_in_order: Closed under the global context
PrecompileProps.C39_one_failure_fails_all: Closed under the global context
PrecompileProps.C40_no_failing_frame_partial: Closed under the global context
PrecompileProps.C40_outcomes_ignored: Closed under the global context
PrecompileProps.C40_static_frame_no_effect: Closed under the global context
PrecompileProps.C40_outermost_failure: Closed under the global context
PrecompileProps.C68_out_of_gas_no_effect_refuted: Closed under the global context
PrecompileProps.C40_queued_message_refuted: Closed under the global context
PrecompileProps.C40_registration_refuted: Closed under the global context
QueryCosmosProps.C108_own_answer: Closed under the global context
QueryCosmosProps.C108_complete_request: Closed under the global context
QueryCosmosProps.C108_nodes_agree: Closed under the global context
QueryCosmosProps.C108_refused: Closed under the global context
QueryCosmosProps.C108_default_list: Closed under the global context
QueryCosmosProps.C108_default_requests: Closed under the global context
QueryCosmosProps.C108_other_queries_do_not_interfere: Closed under the global context
QueryCosmosProps.C109_left_over_refuted: Closed under the global context
QueryCosmosProps.C109_left_over_part_refuted: Closed under the global context
QueryCosmosProps.C109_other_answer_refuted: Closed under the global context
QueryCosmosProps.C109_nodes_disagree_refuted: Closed under the global context
QueryCosmosProps.C108_example: Closed under the global context
QueryProps.C55_query_changes_nothing: Closed under the global context
QueryProps.C55_query_keeps_store: Closed under the global context
QueryProps.C55_static_call_no_effect: Closed under the global context
QueryProps.C61_numbers_unique_partial: Closed under the global context
QueryProps.C61_numbers_unique_refuted: Closed under the global context
QueueProps.C45_consecutive: Closed under the global context
QueueProps.C45_at_most_once: Closed under the global context
QueueProps.C45_low_refused: Closed under the global context
QueueProps.C45_waits: Closed under the global context
QueueProps.C45_calls_end: Closed under the global context
QueueProps.C45_no_gaps: Closed under the global context
QueueProps.C45_nothing_ready_left: Closed under the global context
QueueProps.C73_eviction_refuted: Closed under the global context
QueueProps.C73_waits_for_next_call_refuted: Closed under the global context
QueueProps.C73_error_of_another_refuted: Closed under the global context
RawTxProps.C143_sent_back: Closed under the global context
RawTxProps.C143_hash_of_answer: Closed under the global context
RawTxProps.C143_place_of_answer: Closed under the global context
RawTxProps.C143_unknown: Closed under the global context
RevertTextProps.C145_read_back: Closed under the global context
RevertTextProps.C145_distinct: Closed under the global context
RevertTextProps.C145_only_reverts: Closed under the global context
RevertTextProps.C145_reason: Closed under the global context
RevertTextProps.C145_reasons: Closed under the global context
RevertTextProps.C145_no_gas_left_refuted: Closed under the global context
RevertTextProps.C145_first_match_refuted: Closed under the global context
RevertTextProps.C145_eth_call: Closed under the global context
RpcProps.C81_quote_accepted_iff: Closed under the global context
RpcProps.C81_shortfall: Closed under the global context
RpcProps.C82_past_block: Closed under the global context
RpcProps.C82_past_balance: Closed under the global context
RpcProps.C82_tags: Closed under the global context
RpcProps.C82_pending_and_unknown: Closed under the global context
RpcProps.C83_future_block_refuted: Closed under the global context
RpcProps.C83_earliest_nonce_refuted: Closed under the global context
RpcProps.C83_head_race_refuted: Closed under the global context
RpcProps.C83_balance_of_other_token_refuted: Closed under the global context
RpcProps.C84_call_runs_the_transaction: Closed under the global context
RpcProps.C84_input_or_data: Closed under the global context
RpcProps.C84_estimate_runs_the_transaction: Closed under the global context
RpcProps.C85_value_dropped_refuted: Closed under the global context
RpcProps.C85_zero_address_refuted: Closed under the global context
RpcProps.C85_access_list_dropped_refuted: Closed under the global context
RpcProps.C88_value_exact: Closed under the global context
RpcProps.C88_message_runs: Closed under the global context
RpcProps.C89_value_in_other_units_refuted: Closed under the global context
RpcProps.C89_negative_value_wraps_refuted: Closed under the global context
RpcProps.C86_ante_gas: Closed under the global context
RpcProps.C86_estimate_enough_iff: Closed under the global context
RpcProps.C86_estimate_suffices: Closed under the global context
RpcProps.C87_checks_after_the_fee_are_free_refuted: Closed under the global context
RpcProps.C87_estimate_too_low_refuted: Closed under the global context
RunTxProps.C100_cosmos_transactions: Closed under the global context
RunTxProps.C100_evm_exact: Closed under the global context
RunTxProps.C100_replay_refuted: Closed under the global context
RunTxProps.C100_earlier_replay_refuted: Closed under the global context
RunTxProps.C100_no_replay_partial: Closed under the global context
RunTxProps.C101_fee_always_paid: Closed under the global context
RunTxProps.C100_refund_panics_iff: Closed under the global context
SequenceProps.C20_single_message_success: Closed under the global context
SequenceProps.C20_single_message_failure: Closed under the global context
SequenceProps.C20_others_unchanged: Closed under the global context
SequenceProps.C20_check_tx: Closed under the global context
SequenceProps.C20_delivered_exact: Closed under the global context
SequenceProps.C20_accept_iff: Closed under the global context
SequenceProps.C20_post_handler_writes_needed: Closed under the global context
SequenceProps.C21_sequences_monotone_partial: Closed under the global context
SequenceProps.C21_no_replay_partial: Closed under the global context
SequenceProps.C21_one_per_sequence_partial: Closed under the global context
SequenceProps.C21_replay_refuted: Closed under the global context
SequenceProps.C57_deployment_nonces_partial: Closed under the global context
SequenceProps.C57_prediction: Closed under the global context
SequenceProps.C57_two_spellings_refuted: Closed under the global context
ServersProps.C126_each_endpoint: Closed under the global context
ServersProps.C126_no_gaps: Closed under the global context
ServersProps.C126_one_endpoint: Closed under the global context
ServersProps.C127_waits_at_the_other_endpoint_refuted: Closed under the global context
SigProps.C98_accepted_iff: Closed under the global context
SigProps.C98_keys_after: Closed under the global context
SigProps.C98_stored_keys_belong: Closed under the global context
SigProps.C98_threshold: Closed under the global context
SigProps.C98_ethereum_alone: Closed under the global context
SigProps.C98_no_ethereum_inside: Closed under the global context
SigProps.C98_unsupported_keys: Closed under the global context
SigProps.C98_recheck: Closed under the global context
SigProps.C99_crash_iff: Closed under the global context
SigProps.C99_keyless_refuted: Closed under the global context
SigProps.C99_other_message_refuted: Closed under the global context
SigProps.C99_goes_on_iff: Closed under the global context
SolStringsProps.C123_log10: Closed under the global context
SolStringsProps.C123_decimal: Closed under the global context
SolStringsProps.C123_hex: Closed under the global context
SolStringsProps.C123_address: Closed under the global context
SolStringsProps.C123_wrapper_texts: Closed under the global context
StateDBProps.C01_commit_publishes_unreverted_frames_partial: Closed under the global context
StateDBProps.C01_commit_publishes_unreverted_frames_refuted: Closed under the global context
StateDBProps.C01_outer_writes_lost_after_inner_revert: Closed under the global context
StateDBProps.C01_repaired_revert_is_correct: Closed under the global context
StateDBProps.C01_paths: Closed under the global context
StateDBProps.C02_revert_restores_view_partial: Closed under the global context
StateDBProps.C02_revert_restores_view_refuted: Closed under the global context
StateDBProps.C02_id_reused_after_inner_revert: Closed under the global context
StateDBProps.C02_frame_revert_partial: Closed under the global context
StateDBProps.C02_repaired_revert_restores_view: Closed under the global context
StateDBProps.C03_failed_execution_has_no_effect_partial: Closed under the global context
StateDBProps.C03_failed_commands_have_no_effect_partial: Closed under the global context
StateDBProps.C03_failed_execution_has_no_effect_refuted: Closed under the global context
StateDBProps.C03_repaired_failed_execution_has_no_effect: Closed under the global context
StateDBProps.C04_storage_is_last_write: Closed under the global context
StateDBProps.C04_storage_write_keeps_code: Closed under the global context
StateDBProps.C05_transient_storage_partial: Closed under the global context
StateDBProps.C05_transient_other_execution: Closed under the global context
StateDBProps.C05_transient_isolation_refuted: Closed under the global context
StateDBProps.C06_refund_counter: Closed under the global context
StateDBProps.C06_refund_counter_exact: Closed under the global context
StateDBProps.C06_refund_starts_at_zero: Closed under the global context
StateDBProps.C07_access_list_exact: Closed under the global context
StateDBProps.C07_prepare: Closed under the global context
StateDBProps.C07_access_list_other_execution: Closed under the global context
StateDBProps.C08_logs_complete_partial: Closed under the global context
StateDBProps.C08_logs_of_other_executions: Closed under the global context
StateDBProps.C08_reverted_frame_partial: Closed under the global context
StateDBProps.C08_logs_complete_refuted: Closed under the global context
StateDBProps.C09_committed_state_constant_partial: Closed under the global context
StateDBProps.C09_committed_state_constant_refuted: Closed under the global context
StateDBProps.C10_selfdestruct_exact_partial: Closed under the global context
StateDBProps.C10_selfdestruct_lost_refuted: Closed under the global context
StateDBProps.C11_creation_never_overwrites: Closed under the global context
StateDBProps.C11_creation_aborts_on_account_in_use: Closed under the global context
StateDBProps.C11_collision_check_is_sufficient: Closed under the global context
StateDBProps.C12_code_hash_size_agree: Closed under the global context
StateDBProps.C12_accounts_without_code: Closed under the global context
StateDBProps.C12_empty: Closed under the global context
StateDBProps.C56_credit: Closed under the global context
StateDBProps.C56_debit: Closed under the global context
StateDBProps.C56_transfer_conserves: Closed under the global context
StoreGasProps.C132_no_refund_panic: Closed under the global context
StoreGasProps.C132_no_wrap: Closed under the global context
StoreGasProps.C132_as_ethereum_partial: Closed under the global context
StoreGasProps.C133_storage_gas_refuted: Closed under the global context
StoredHeaderProps.C146_linked: Closed under the global context
StoredHeaderProps.C146_large_fee_refuted: Closed under the global context
StoredHeaderProps.C146_by_hash: Closed under the global context
StoredHeaderProps.C146_late_node_refuted: Closed under the global context
StoredTxProps.C138_big_numbers: Closed under the global context
StoredTxProps.C138_transaction: Closed under the global context
StoredTxProps.C138_converted: Closed under the global context
StoredTxProps.C138_same_answers: Closed under the global context
StoredTxProps.C138_block_lost_refuted: Closed under the global context
StoredTxProps.C138_wallet_refuted: Closed under the global context
SubsProps.C90_nothing_else: Closed under the global context
SubsProps.C90_complete: Closed under the global context
SubsProps.C90_not_before: Closed under the global context
SubsProps.C90_silent_after_leaving: Closed under the global context
SubsProps.C90_terminates: Closed under the global context
SubsProps.C90_finished: Closed under the global context
SubsProps.C90_insert_returns: Closed under the global context
SubsProps.C91_slow_client_refuted: Closed under the global context
SubsProps.C91_stall_is_reachable: Closed under the global context
SubsProps.C92_insert: Closed under the global context
SubsProps.C92_each_announced_once: Closed under the global context
SubsProps.C93_announced_but_refused_refuted: Closed under the global context
SubsProps.C93_admission_depends_on_rpc_refuted: Closed under the global context
SurroundProps.C121_gasprice_exact: Closed under the global context
SurroundProps.C121_gasprice: Closed under the global context
SurroundProps.C121_gasprice_few_decimals: Closed under the global context
SurroundProps.C121_gasprice_covers_basefee: Closed under the global context
SurroundProps.C121_transaction: Closed under the global context
SurroundProps.C121_block: Closed under the global context
SurroundProps.C121_basefee: Closed under the global context
SurroundProps.C121_gasprice_any: Closed under the global context
SurroundProps.C121_zero: Closed under the global context
SurroundProps.C122_effective_price_refuted: Closed under the global context
SurroundProps.C122_query_gasprice_refuted: Closed under the global context
SurroundProps.C122_gaslimit_refuted: Closed under the global context
SurroundProps.C122_coinbase_refuted: Closed under the global context
TokenProps.C24_supply_is_sum_of_balances: Closed under the global context
TokenProps.C24_bank_operations_stay_reachable: Closed under the global context
TokenProps.C24_no_overflow: Closed under the global context
TokenProps.C31_balance_needs_authority: Closed under the global context
TokenProps.C31_allowance_needs_owner: Closed under the global context
TokenProps.C31_supply_and_owner_need_owner: Closed under the global context
TokenProps.C23_contract_round_trip: Closed under the global context
TokenProps.C23_contracts_do_not_share: Closed under the global context
TokenProps.C23_plain_denom_round_trip: Closed under the global context
TokenProps.C23_evm_denom_names_its_address: Closed under the global context
TokenProps.C62_alias_refuted: Closed under the global context
TokenProps.C36_registration_obeys_policy: Closed under the global context
TokenProps.C36_store_registration: Closed under the global context
TokenProps.C36_factory_only: Closed under the global context
TokenProps.C32_account_listing: Closed under the global context
TokenProps.C32_supply_listing: Closed under the global context
TokenProps.C32_all_accounts: Closed under the global context
TokenProps.C79_all_accounts_refuted: Closed under the global context
TokenProps.C56_value_conserved: Closed under the global context
TokenProps.C56_value_refused: Closed under the global context
TokenProps.C56_no_fee_contract: Closed under the global context
TxHashProps.C135_lookups: Closed under the global context
TxHashProps.C135_inverse: Closed under the global context
TxHashProps.C135_unknown: Closed under the global context
TxHashProps.C135_sound: Closed under the global context
TxHashProps.C136_kept: Closed under the global context
TxHashProps.C136_moved_refuted: Closed under the global context
TxHashProps.C136_logs_twice_refuted: Closed under the global context
TxPoolProps.C94_content: Closed under the global context
TxPoolProps.C94_answers: Closed under the global context
TxPoolProps.C94_content_from: Closed under the global context
TxPoolProps.C94_inspect: Closed under the global context
TxPoolProps.C94_queued: Closed under the global context
TxPoolProps.C95_more_than_hundred_refuted: Closed under the global context
TxPoolProps.C95_status_counts_others_refuted: Closed under the global context
TxPoolProps.C95_one_hides_all_refuted: Closed under the global context
TxPoolProps.C94_verified_convert: Closed under the global context
TxPoolProps.C94_example: Closed under the global context
WrapperProps.C51_backed_partial: Closed under the global context
WrapperProps.C51_redeemable_partial: Closed under the global context
WrapperProps.C51_wrap_partial: Closed under the global context
WrapperProps.C51_plain_wrap_refuted: Closed under the global context
WrapperProps.C51_refund_refuted: Closed under the global context
WrapperProps.C51_ack_success: Closed under the global context
WrapperProps.C51_injection_refuted: Closed under the global context
WrapperProps.C51_strict_injection_refuted: Closed under the global context
