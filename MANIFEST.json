{
 "claims": [
  {
   "property": "C01",
   "status": "proved",
   "theorems": [
    "C01_message_roundtrip",
    "C01_layout"
   ],
   "note": ""
  },
  {
   "property": "C02",
   "status": "proved",
   "theorems": [
    "C02_message_id_binds"
   ],
   "note": ""
  },
  {
   "property": "C03",
   "status": "proved",
   "theorems": [
    "C03_warp_payload_roundtrip",
    "C03_layout"
   ],
   "note": ""
  },
  {
   "property": "C04",
   "status": "partial",
   "theorems": [
    "C04_payload_partial",
    "C04_forged_amount",
    "C04_mint_from_nothing_refuted",
    "C04_short_recipient"
   ],
   "note": "Proved for 32-byte recipients. False otherwise: a 64-byte recipient forges the announced amount (C04_forged_amount, C04_mint_from_nothing_refuted), a short one makes the payload unreadable (C04_short_recipient)."
  },
  {
   "property": "C05",
   "status": "proved",
   "theorems": [
    "C05_message_id_metadata",
    "C05_message_id_chunks",
    "C05_merkle_root_metadata",
    "C05_merkle_root_layout",
    "C05_merkle_root_signatures"
   ],
   "note": ""
  },
  {
   "property": "C06",
   "status": "partial",
   "theorems": [
    "C06_aggregate_metadata",
    "C06_layout",
    "C06_unsorted_refuted"
   ],
   "note": "Holds for module lists in ascending order; C06_unsorted_refuted shows the metadata is misdelivered for a list in another order (aggregate ISM keeps the list as configured)."
  },
  {
   "property": "C07",
   "status": "partial",
   "theorems": [
    "C07_gas_metadata_roundtrip",
    "C07_layout",
    "C07_refund_address_partial",
    "C07_refund_default",
    "C07_refund_refuted"
   ],
   "note": "Codec fully proved. Refund resolution proved for every field except those starting with sixteen zero bytes, where C07_refund_refuted shows the call aborts."
  },
  {
   "property": "C08",
   "status": "proved",
   "theorems": [
    "C08_address_roundtrip",
    "C08_address_injective",
    "C08_is_bech32",
    "C08_read_exactly",
    "C08_capitals",
    "C08_mixed"
   ],
   "note": ""
  },
  {
   "property": "C09",
   "status": "proved",
   "theorems": [
    "C09_incremental_root"
   ],
   "note": ""
  },
  {
   "property": "C10",
   "status": "proved",
   "theorems": [
    "C10_proof_complete",
    "C10_proof_binding"
   ],
   "note": ""
  },
  {
   "property": "C11",
   "status": "proved",
   "theorems": [
    "C11_zero_hashes"
   ],
   "note": ""
  },
  {
   "property": "C12",
   "status": "proved",
   "theorems": [
    "C12_owner_changes_by_consent",
    "C12_ownership_requests_guarded",
    "C12_accepted_exactly",
    "C12_effect",
    "C12_rejected_calls_change_nothing"
   ],
   "note": ""
  },
  {
   "property": "C13",
   "status": "proved",
   "theorems": [
    "C13_pauses_alternate",
    "C13_only_the_owner_pauses",
    "C13_accepted_exactly"
   ],
   "note": ""
  },
  {
   "property": "C14",
   "status": "proved",
   "theorems": [
    "C14_route_is_the_last_update",
    "C14_only_the_owner_routes",
    "C14_accepted_exactly",
    "C14_is_router"
   ],
   "note": ""
  },
  {
   "property": "C15",
   "status": "proved",
   "theorems": [
    "C15_route_pages",
    "C15_gas_pages",
    "C15_custom_hook_pages"
   ],
   "note": ""
  },
  {
   "property": "C16",
   "status": "proved",
   "theorems": [
    "C16_dispatch_exact"
   ],
   "note": ""
  },
  {
   "property": "C17",
   "status": "proved",
   "theorems": [
    "C17_nonces_gapless",
    "C17_ids_distinct",
    "C17_refuses_at_the_end",
    "C17_chain"
   ],
   "note": "Per-contract histories with arbitrary interleaved calls, and C17_chain for whole chains with re-entrant calls."
  },
  {
   "property": "C18",
   "status": "proved",
   "theorems": [
    "C18_payment_split",
    "C18_underpaid_refused",
    "C18_covered_accepted",
    "C18_chain"
   ],
   "note": "C18_chain is the same on whole chains."
  },
  {
   "property": "C19",
   "status": "proved",
   "theorems": [
    "C19_quote_is_enough"
   ],
   "note": ""
  },
  {
   "property": "C20",
   "status": "proved",
   "theorems": [
    "C20_delivered_only_if_verified",
    "C20_verified_is_delivered"
   ],
   "note": ""
  },
  {
   "property": "C21",
   "status": "proved",
   "theorems": [
    "C21_at_most_once",
    "C21_record_permanent",
    "C21_answer_is_record",
    "C21_second_delivery_refused",
    "C21_chain"
   ],
   "note": "C21_chain is the same on whole chains, re-entrant deliveries included."
  },
  {
   "property": "C22",
   "status": "proved",
   "theorems": [
    "C22_settings_are_the_owners_last",
    "C22_only_the_owner_and_one_field",
    "C22_accepted_exactly"
   ],
   "note": ""
  },
  {
   "property": "C23",
   "status": "partial",
   "theorems": [
    "C23_dispatch_needs_default",
    "C23_process_needs_default",
    "C23_explicit_hook_refuted",
    "C23_own_module_refuted"
   ],
   "note": "False of the code: the defaults are read eagerly. C23_explicit_hook_refuted and C23_own_module_refuted give witnesses; C23_dispatch_needs_default and C23_process_needs_default show that without a default every call is rejected."
  },
  {
   "property": "C24",
   "status": "proved",
   "theorems": [
    "C24_multisig_sound"
   ],
   "note": ""
  },
  {
   "property": "C25",
   "status": "proved",
   "theorems": [
    "C25_enough_signatures"
   ],
   "note": ""
  },
  {
   "property": "C26",
   "status": "proved",
   "theorems": [
    "C26_digest_binds",
    "C26_modules_check_this_digest"
   ],
   "note": ""
  },
  {
   "property": "C27",
   "status": "partial",
   "theorems": [
    "C27_sets_well_formed",
    "C27_last_set",
    "C27_owner_only",
    "C27_duplicates_refuted",
    "C27_duplicates_block"
   ],
   "note": "Well-formedness, last-write-wins and owner-only proved. The clause about distinct validators is false of the code: C27_duplicates_refuted; C27_duplicates_block proves that such a set blocks its domain."
  },
  {
   "property": "C28",
   "status": "proved",
   "theorems": [
    "C28_aggregate_sound",
    "C28_last_set",
    "C28_set_guarded",
    "C28_zero_threshold_refuted"
   ],
   "note": "C28_zero_threshold_refuted shows why the positive-threshold hypothesis is needed: instantiation accepts threshold zero."
  },
  {
   "property": "C29",
   "status": "partial",
   "theorems": [
    "C29_failing_module_refuted",
    "C29_tolerates_rejections_partial"
   ],
   "note": "False as stated when a module fails (C29_failing_module_refuted). Proved when the modules are distinct and each answers."
  },
  {
   "property": "C30",
   "status": "partial",
   "theorems": [
    "C30_defers",
    "C30_unrouted_refused",
    "C30_last_set",
    "C30_first_set",
    "C30_verify_info_refuted",
    "C30_no_verify_info"
   ],
   "note": "Verdict, refusal of unrouted origins and the routing table proved in full. The verify-info clause is false of the code: C30_verify_info_refuted, C30_no_verify_info."
  },
  {
   "property": "C31",
   "status": "proved",
   "theorems": [
    "C31_ism",
    "C31_hook"
   ],
   "note": ""
  },
  {
   "property": "C32",
   "status": "proved",
   "theorems": [
    "C32_leaf_is_latest",
    "C32_leaves_in_dispatch_order",
    "C32_reports_the_tree",
    "C32_reports_the_branch"
   ],
   "note": "On chains of arbitrary contracts (World.v), for every reachable state."
  },
  {
   "property": "C33",
   "status": "partial",
   "theorems": [
    "C33_at_least_once_partial",
    "C33_exactly_once_partial",
    "C33_posts_by_the_mailbox",
    "C33_refuted"
   ],
   "note": "At least once is proved, and exactly once for the posts made by the mailbox itself when the hook is not also the second hook of the dispatch. The full statement is false of the code: anybody may post the latest message to the hook again (C33_refuted: one dispatch, two leaves)."
  },
  {
   "property": "C34",
   "status": "proved",
   "theorems": [
    "C34_quotes_the_sum",
    "C34_quote_succeeds",
    "C34_pays_each_part",
    "C34_same_quotes",
    "C34_hooks_last_set",
    "C34_owner_only"
   ],
   "note": ""
  },
  {
   "property": "C35",
   "status": "partial",
   "theorems": [
    "C35_calls_the_selected",
    "C35_quotes_the_selected",
    "C35_custom_last_set",
    "C35_custom_first",
    "C35_fallback_last_set",
    "C35_fallback_unset_refuted",
    "C35_fallback_unset"
   ],
   "note": "Calls and quotes go to the selected hook, for all three routing hooks; for the fallback hook this needs a configured fallback: without one it fails even where a route is set (C35_fallback_unset_refuted)."
  },
  {
   "property": "C36",
   "status": "partial",
   "theorems": [
    "C36_never_forwards",
    "C36_payment_refuted"
   ],
   "note": "False of the code: routing hooks forward no funds, so the paid fee stays in the routing hook and a paid hook rejects the call (C36_never_forwards, C36_payment_refuted)."
  },
  {
   "property": "C37",
   "status": "partial",
   "theorems": [
    "C37_accepts_exactly",
    "C37_quotes_the_fee",
    "C37_quote_accepted_partial",
    "C37_fee_last_set",
    "C37_withdraws_all"
   ],
   "note": "Everything is proved except acceptance of the quoted fee when it is zero, which is false (C51_zero_fee_refuted)."
  },
  {
   "property": "C38",
   "status": "partial",
   "theorems": [
    "C38_quote",
    "C38_payment",
    "C38_post_dispatch",
    "C38_keeps_the_quote",
    "C38_hook_quote",
    "C38_exact_quote_accepted_partial",
    "C38_quoted_dispatch_accepted_partial"
   ],
   "note": "Quote, charge, refund and balance claims proved exactly; 'paying exactly the quote is accepted' proved for non-zero quotes, false for a zero quote (C51_zero_quote_refuted), and for dispatches needs a computable refund address (C07)."
  },
  {
   "property": "C39",
   "status": "proved",
   "theorems": [
    "C39_monotone",
    "C39_split"
   ],
   "note": ""
  },
  {
   "property": "C40",
   "status": "proved",
   "theorems": [
    "C40_claim",
    "C40_beneficiary_last_set",
    "C40_first_settings",
    "C40_owner_only"
   ],
   "note": ""
  },
  {
   "property": "C41",
   "status": "proved",
   "theorems": [
    "C41_gas_used",
    "C41_gas_charged"
   ],
   "note": ""
  },
  {
   "property": "C42",
   "status": "partial",
   "theorems": [
    "C42_last_set",
    "C42_owner_only",
    "C42_batch_rates_nonzero",
    "C42_zero_rate_origin_partial",
    "C42_zero_rate_refuted"
   ],
   "note": "Owner-only, last write and batch checks proved; 'no stored rate is zero' is false through the single update (C42_zero_rate_refuted), which is shown to be the only source."
  },
  {
   "property": "C43",
   "status": "proved",
   "theorems": [
    "C43_first",
    "C43_locations",
    "C43_authentic",
    "C43_at_most_once",
    "C43_accepted",
    "C43_validators",
    "C43_domain_fixed"
   ],
   "note": ""
  },
  {
   "property": "C44",
   "status": "partial",
   "theorems": [
    "C44_digest",
    "C44_digest_used",
    "C44_padding",
    "C44_replay_key",
    "C44_short_mailbox_refuted"
   ],
   "note": "Proved for 32-byte mailbox identities, which is what the contract hashes (C44_digest_used); two mailboxes of different lengths can pad to the same 32 bytes (C44_short_mailbox_refuted)."
  },
  {
   "property": "C45",
   "status": "proved",
   "theorems": [
    "C45_native_delivery",
    "C45_cw20_delivery",
    "C45_only_deliveries",
    "C45_fixed",
    "C45_token_fixed",
    "C45_reply_exactly",
    "C45_set_mailbox_no_effect"
   ],
   "note": "Includes that the reported connection mailbox has no effect on the mailbox used (C45_set_mailbox_no_effect)."
  },
  {
   "property": "C46",
   "status": "proved",
   "theorems": [
    "C46_native_transfer",
    "C46_forwards_the_rest",
    "C46_cw20_transfer"
   ],
   "note": ""
  },
  {
   "property": "C47",
   "status": "partial",
   "theorems": [
    "C47_messages",
    "C47_in_flight_partial",
    "C47_custody",
    "C47_issued",
    "C47_covers",
    "C47_locked_backs_issued_partial",
    "C47_locked_locked_partial",
    "C47_issued_issued_partial",
    "C47_refuted"
   ],
   "note": "Proved over two whole chains of arbitrary contracts, for native and cw20 routes and all three pairings, when transfers name 32-byte recipients. Without that restriction it is false of the code: C47_refuted locks 1 and mints 1000000."
  },
  {
   "property": "C48",
   "status": "proved",
   "theorems": [
    "C48_migration_accepted_iff_newer",
    "C48_versions_strictly_increase",
    "C48_order_is_strict",
    "C48_texts_are_read_exactly"
   ],
   "note": ""
  },
  {
   "property": "C49",
   "status": "proved",
   "theorems": [
    "C49_connections_are_the_last_set",
    "C49_only_the_owner_connects",
    "C49_accepted_exactly",
    "C49_named_module"
   ],
   "note": ""
  },
  {
   "property": "C50",
   "status": "proved",
   "theorems": [
    "C50_transaction_conserves",
    "C50_failure_changes_nothing",
    "C50_history_conserves",
    "C50_only_creators_mint",
    "C50_messages_settled",
    "C50_contract_coins",
    "C50_histories_are_histories"
   ],
   "note": "For every transaction, chain and set of other programs; bank and token-factory rules are those of World.v."
  },
  {
   "property": "C51",
   "status": "partial",
   "theorems": [
    "C51_zero_fee_refuted",
    "C51_other_hooks_partial",
    "C51_zero_quote_refuted"
   ],
   "note": "False for the fee hook with zero fee and the paymaster with zero quote (both refuted); proved for the aggregate, routing and unpaused pausable hooks."
  },
  {
   "property": "C52",
   "status": "proved",
   "theorems": [
    "C52_the_owners_valid_settings_are_accepted",
    "C52_nothing_else_changes_a_setting"
   ],
   "note": ""
  },
  {
   "property": "C53",
   "status": "proved",
   "theorems": [
    "C53_reading_is_unique",
    "C53_bytes_ask_for_the_message",
    "C53_bytes_ask_for_one_message",
    "C53_reply_is_read",
    "C53_answer_is_accepted"
   ],
   "note": "Protobuf as read by the specification (SpecProto.v): last value of a scalar field counts, absent means empty or zero, unknown fields ignored, no groups. That the chain's module reads these fields is environment."
  },
  {
   "property": "C54",
   "status": "proved",
   "theorems": [
    "C54_dispatches"
   ],
   "note": ""
  },
  {
   "property": "C55",
   "status": "proved",
   "theorems": [
    "C55_deliveries"
   ],
   "note": ""
  },
  {
   "property": "C56",
   "status": "proved",
   "theorems": [
    "C56_leaves"
   ],
   "note": ""
  },
  {
   "property": "C57",
   "status": "proved",
   "theorems": [
    "C57_payment",
    "C57_totals",
    "C57_claim"
   ],
   "note": ""
  },
  {
   "property": "C58",
   "status": "proved",
   "theorems": [
    "C58_owner",
    "C58_paused",
    "C58_mailbox_defaults",
    "C58_module",
    "C58_connection",
    "C58_hooks",
    "C58_fee",
    "C58_fallback",
    "C58_default_gas",
    "C58_beneficiary",
    "C58_routes_readable",
    "C58_routes_unambiguous",
    "C58_routes"
   ],
   "note": "Hook lists: for addresses without commas, as chains write them (the hypothesis plain_addresses). Settings not covered by any event are in C59."
  },
  {
   "property": "C59",
   "status": "partial",
   "theorems": [
    "C59_validators_refuted",
    "C59_threshold_refuted",
    "C59_gas_refuted",
    "C59_gas_data_refuted",
    "C59_custom_hook_refuted",
    "C59_fee_claim_refuted"
   ],
   "note": "False: refuted with witnesses for multisig validators, the aggregate ISM threshold, gas per destination, oracle data, custom hooks, and fee claims. The settings that are told are C58."
  },
  {
   "property": "C60",
   "status": "partial",
   "theorems": [
    "C60_transfers",
    "C60_deliveries",
    "C60_native_destination_refuted"
   ],
   "note": "Proved except for the destination of native transfers, which their event omits (refuted)."
  },
  {
   "property": "C61",
   "status": "proved",
   "theorems": [
    "C61_announcements"
   ],
   "note": ""
  },
  {
   "property": "C62",
   "status": "proved",
   "theorems": [
    "C62_accepted",
    "C62_starts"
   ],
   "note": "Non-ASCII address prefixes are let through by the model (Mailbox.v)."
  },
  {
   "property": "C63",
   "status": "proved",
   "theorems": [
    "C63_token_of_every_route",
    "C63_token_never_changes",
    "C63_issuers_apart",
    "C63_route_alone_mints"
   ],
   "note": "On the chain model of World.v, where a failed submessage without an error reply fails the transaction."
  },
  {
   "property": "C64",
   "status": "proved",
   "theorems": [
    "C64_processed_was_vouched",
    "C64_release_was_vouched"
   ],
   "note": "Modules that are not contracts of this repository answer as they like. Signature recovery is a parameter. An aggregate module instantiated with threshold zero vouches for anything (C28)."
  },
  {
   "property": "C65",
   "status": "proved",
   "theorems": [
    "C65_modules_answer",
    "C65_transfer_paid",
    "C65_locked_pays_back"
   ],
   "note": "The pay-back theorem inherits the assumptions of C47 (32-byte recipients, modules accept only what was dispatched) and needs the route still enrolled. A zero amount cannot be delivered by a native route: the bank refuses it."
  },
  {
   "property": "C66",
   "status": "proved",
   "theorems": [
    "C66_quote",
    "C66_dispatch_paid"
   ],
   "note": "A routing hook forwards no funds (C36), so behind one only hooks without a fee are covered; hooks that ask for zero are covered only where they ask for nothing at all (C51)."
  },
  {
   "property": "C67",
   "status": "proved",
   "theorems": [
    "C67_executes_only_its_interface",
    "C67_answers_only_its_interface",
    "C67_module_type",
    "C67_hook_mailbox",
    "C67_recipient_module",
    "C67_reported_module_approves",
    "C67_gas_terms",
    "C67_token_kind"
   ],
   "note": "The messages of cw20-base outside the modelled part count as not understood."
  },
  {
   "property": "C68",
   "status": "proved",
   "theorems": [
    "C68_transfer_paid",
    "C68_message",
    "C68_quote"
   ],
   "note": "The converse of C46. Hooks as in C66. cw20 tokens without expiring allowances."
  },
  {
   "property": "C69",
   "status": "proved",
   "theorems": [
    "C69_transfer_arrives"
   ],
   "note": "Composes C68 and C65 over two chains: the accepted transfer's message is deliverable in every later pair of states that is linked, unless already delivered. Assumes the recipient is 32 bytes long (without it the claim is false, see C04/C47), that no other processed message has the same keccak identifier, and the security modules' honesty as in C47."
  },
  {
   "property": "C70",
   "status": "partial",
   "theorems": [
    "C70_owner_partial",
    "C70_settings",
    "C70_routes",
    "C70_modules",
    "C70_denomination",
    "C70_multisig_owner_refuted",
    "C70_paused_refuted",
    "C70_mailbox_refuted",
    "C70_routing_refuted",
    "C70_paymaster_refuted",
    "C70_warp_refuted"
   ],
   "note": "The settings listed are told, for every history; C70_owner_partial leaves out multisig modules. The last sentence is false: creation events omit the owner of a multisig module, the paused flags, a mailbox's domain and prefix, a routing module's initial modules, a paymaster's token and prefix, a warp route's mailbox and prefix (the C70_*_refuted theorems give pairs)."
  },
  {
   "property": "C71",
   "status": "proved",
   "theorems": [
    "C71_names_apart",
    "C71_never_switched",
    "C71_upgrade"
   ],
   "note": "Uses the model of migrate (C48) and the package names and workspace version of this commit; that migrate is the only code that rewrites the record is read off the source."
  },
  {
   "property": "C72",
   "status": "proved",
   "theorems": [
    "C72_messages",
    "C72_nothing_else",
    "C72_all_read",
    "C72_queries",
    "C72_no_other_queries",
    "C72_all_of_queries_read",
    "C72_answers",
    "C72_texts_differ",
    "C72_hexadecimal"
   ],
   "note": "About the parser of serde-json-wasm and the derive conventions of cw_serde as modelled in Json.v and Wire*.v (snake case, deny_unknown_fields, optional members). Answers of the cw20 token are not written as JSON; instantiation messages are C84."
  },
  {
   "property": "C73",
   "status": "proved",
   "theorems": [
    "C73_calls",
    "C73_questions",
    "C73_only_these"
   ],
   "note": "For messages exchanged between the contracts of this repository and their cw20 token (those messages the routes use)."
  },
  {
   "property": "C74",
   "status": "proved",
   "theorems": [
    "C74_calls",
    "C74_births",
    "C74_queries",
    "C74_everywhere"
   ],
   "note": "Per call, creation and query, in every reachable state; programs outside the repository keep exchanging values."
  },
  {
   "property": "C75",
   "status": "proved",
   "theorems": [
    "C75_validators",
    "C75_set_size",
    "C75_modules",
    "C75_gas",
    "C75_gas_data",
    "C75_custom_hook"
   ],
   "note": "Values the events omit are covered by C59 (refuted parts)."
  },
  {
   "property": "C76",
   "status": "proved",
   "theorems": [
    "C76_aggregate",
    "C76_routed",
    "C76_fee",
    "C76_callers"
   ],
   "note": ""
  },
  {
   "property": "C77",
   "status": "proved",
   "theorems": [
    "C77_multisig",
    "C77_followed",
    "C77_aggregate",
    "C77_pausable"
   ],
   "note": "The routing module is covered by C30_verify_info_refuted and C30_no_verify_info."
  },
  {
   "property": "C78",
   "status": "proved",
   "theorems": [
    "C78_execute",
    "C78_refused",
    "C78_query",
    "C78_create",
    "C78_reply"
   ],
   "note": "The reasons are `execute_aborts` and `query_aborts` in SpecAbort.v; the external cw20 token contract is left out."
  },
  {
   "property": "C79",
   "status": "proved",
   "theorems": [
    "C79_read_back",
    "C79_version",
    "C79_entries",
    "C79_nothing_shared",
    "C79_writes"
   ],
   "note": "The external cw20 token contract is left out; the keys a message may write are `writes` in SpecStore.v, the entries of each contract are `dump`."
  },
  {
   "property": "C80",
   "status": "proved",
   "theorems": [
    "C80_route",
    "C80_domains",
    "C80_routes",
    "C80_gas",
    "C80_custom_hooks",
    "C80_validators"
   ],
   "note": "Scans of the host's database and cw-storage-plus's bounds are modelled in Store.v."
  },
  {
   "property": "C81",
   "status": "proved",
   "theorems": [
    "C81_grammar",
    "C81_messages",
    "C81_queries"
   ],
   "note": "The grammar is an inductive definition (SpecJson.v) independent of the reader. Negative, fractional and exponent numbers, escaped surrogate pairs and the check that strings are UTF-8 are left out of the model."
  },
  {
   "property": "C82",
   "status": "proved",
   "theorems": [
    "C82_instantiate",
    "C82_execute",
    "C82_reply",
    "C82_query",
    "C82_migrate",
    "C82_life"
   ],
   "note": "Raw.v has the entry points key by key; where the source saves an entry before a check that may still fail, the host undoes it, so checks may come first in the model. The external cw20 token contract is left out."
  },
  {
   "property": "C83",
   "status": "proved",
   "theorems": [
    "C83_histories",
    "C83_transactions",
    "C83_queries"
   ],
   "note": "RawWorld.v restates World.v over databases; the external cw20 token and other programs are as in World.v. The other programs are assumed to see the chain through queries only (asks_only)."
  },
  {
   "property": "C84",
   "status": "proved",
   "theorems": [
    "C84_births",
    "C84_nothing_else",
    "C84_all_read",
    "C84_spelled",
    "C84_texts_differ",
    "C84_calls",
    "C84_made",
    "C84_token"
   ],
   "note": "cw20-base 1.1.2 is an external crate: its InstantiateMsg is modelled from its published definition, without pictures embedded in the logo member; a supply cap, which no route sets, is read but has no meaning in Cw20.v."
  },
  {
   "property": "C85",
   "status": "proved",
   "theorems": [
    "C85_histories",
    "C85_reached",
    "C85_transactions",
    "C85_messages",
    "C85_births",
    "C85_refused",
    "C85_processed_once"
   ],
   "note": "What programs outside /repo send, ask and are given stays a value, as do bank and token-factory messages (their protobuf bytes are C53), replies and the order for a new cw20 token (its text is C84_token)."
  },
  {
   "property": "C86",
   "status": "partial",
   "theorems": [
    "C86_network_backed_partial",
    "C86_books",
    "C86_sole_vault_partial",
    "C86_vault_pays_back",
    "C86_transfer_arrives",
    "C86_two_vaults_refuted"
   ],
   "note": "Generalises C47, C65 and C69 from two ends to any number. The sum needs 32-byte recipients, which the code does not enforce (C47_refuted), and payment needs a single locking route: C86_two_vaults_refuted exhibits a network with two in which a vouched-for transfer cannot be delivered."
  },
  {
   "property": "C87",
   "status": "proved",
   "theorems": [
    "C87_strings",
    "C87_check",
    "C87_written"
   ],
   "note": ""
  },
  {
   "property": "C88",
   "status": "proved",
   "theorems": [
    "C88_module_trusts_everything",
    "C88_quote",
    "C88_post",
    "C88_free_means_closed",
    "C88_receive",
    "C88_report",
    "C88_quiet",
    "C88_kept",
    "C88_price_fits",
    "C88_texts",
    "C88_price_text",
    "C88_migrate"
   ],
   "note": ""
  },
  {
   "property": "C89",
   "status": "proved",
   "theorems": [
    "C89_processed",
    "C89_hook_paid",
    "C89_anyone_prices",
    "C89_no_price_no_dispatch",
    "C89_ping"
   ],
   "note": "Hooks priced at zero are not covered by the payment theorem (C51)."
  },
  {
   "property": "C90",
   "status": "proved",
   "theorems": [
    "C90_histories",
    "C90_databases",
    "C90_rest",
    "C90_accepted",
    "C90_no_panic",
    "C90_versions",
    "C90_processed_once"
   ],
   "note": "Every version of a program is taken to behave as the program of this commit; who may order a migration is left open. Replacing code by a program outside /repo, or migrating such a program, is not modelled."
  },
  {
   "property": "C91",
   "status": "proved",
   "theorems": [
    "C91_account",
    "C91_digests",
    "C91_address",
    "C91_keys_apart",
    "C91_padding",
    "C91_published"
   ],
   "note": "The compression functions are executable transcriptions checked on published vectors."
  },
  {
   "property": "C92",
   "status": "proved",
   "theorems": [
    "C92_execute",
    "C92_query",
    "C92_instantiate",
    "C92_transaction",
    "C92_any_two",
    "C92_history",
    "C92_databases",
    "C92_texts",
    "C92_mocks",
    "C92_catching_refuted"
   ],
   "note": "The limit is the model's bound on the nesting of messages and queries, not the chain's gas meter. Programs outside /repo are assumed to treat a failing query as a failure and not to catch failing submessages (steady); without that the statement is false (C92_catching_refuted)."
  },
  {
   "property": "C93",
   "status": "proved",
   "theorems": [
    "C93_signed",
    "C93_delivered_was_dispatched",
    "C93_honest",
    "C93_backed",
    "C93_linked",
    "C93_solvent",
    "C93_reported",
    "C93_as_many_liars_refuted"
   ],
   "note": "The conclusion names an explicit Keccak-256 collision among the strings hashed as its only alternative. What validators sign and that they keep to it is a hypothesis about them (truthful, observed), not about the code; C93_reported shows it met by signing what the merkle hook reports, C93_example meets all hypotheses with one liar among three, C93_as_many_liars_refuted shows the bound is tight."
  },
  {
   "property": "C94",
   "status": "proved",
   "theorems": [
    "C94_call",
    "C94_birth",
    "C94_answer",
    "C94_queries",
    "C94_transaction",
    "C94_relayer",
    "C94_history",
    "C94_race",
    "C94_asking",
    "C94_mocks",
    "C94_diary_refuted"
   ],
   "note": "Relayers attach no coins (with coins their own balance and the mailbox's would of course differ) and the mailbox address holds no program from outside /repo. Events are not part of the comparison. Programs outside /repo are assumed to learn about the chain by asking only (asks_only_at), and, where blocks may move, not to look at the height; without the latter the statement is false (C94_diary_refuted). Programs outside /repo that read the raw storage of a mailbox (no contract of /repo reads another's) are not modelled."
  },
  {
   "property": "C95",
   "status": "proved",
   "theorems": [
    "C95_call",
    "C95_settings",
    "C95_still_deliverable",
    "C95_paid",
    "C95_owner_refuted"
   ],
   "note": "Stated for the contracts that have an owner (all but validator announce, merkle hook and the cw20 token). Those in charge are assumed to hold accounts, so that what they sign is visible; upgrades of code by the chain's administrators are not transactions of the history. C95_owner_refuted: an owner can stop a delivery, by pausing."
  },
  {
   "property": "C96",
   "status": "proved",
   "theorems": [
    "C96_query",
    "C96_set_up",
    "C96_answer",
    "C96_dispatchable",
    "C96_paid",
    "C96_owner_refuted"
   ],
   "note": "The contracts that answer (a set P) must be contracts of the repository, each either a merkle hook or validator announce, which nobody can reconfigure, or owned by people who hold accounts and sign nothing in the history; keep P w is the chain without the others, so that an answer obtained there consulted nobody else. Upgrades of code by the chain's administrators are not transactions of the history. C96_owner_refuted: an owner can raise a fee after it was quoted, and the quoted payment then fails."
  },
  {
   "property": "C97",
   "status": "proved",
   "theorems": [
    "C97_backlog",
    "C97_any_order",
    "C97_scarce_refuted"
   ],
   "note": "The security modules consulted must be contracts of the repository (a module of somebody else could count deliveries). Relayers are accounts and attach no funds. C97_scarce_refuted: when a locking route holds less than the sum, two orders pay different people."
  },
  {
   "property": "C98",
   "status": "proved",
   "theorems": [
    "C98_listed",
    "C98_domain",
    "C98_anyone",
    "C98_unblockable",
    "C98_kept",
    "C98_coins_stay"
   ],
   "note": "Signature recovery is an argument of the model (trusted base). C98_unblockable excludes announcements whose keccak hash collides with another's; C98_coins_stay records that the contract takes coins it cannot return."
  },
  {
   "property": "C99",
   "status": "proved",
   "theorems": [
    "C99_only_paying",
    "C99_unnoticed",
    "C99_kept",
    "C99_lost",
    "C99_mailbox"
   ],
   "note": "Coins may leave a contract also by the chain itself taking them (no such thing is modelled). The kinds of contract of which nothing ever leaves are listed in never_pays (SpecStray.v); the aggregate hook, the fee hook, the gas paymaster and the warp routes are the others."
  },
  {
   "property": "C100",
   "status": "proved",
   "theorems": [
    "C100_fee_hook",
    "C100_paymaster",
    "C100_entitled",
    "C100_fee_collected",
    "C100_gas_collected",
    "C100_gas_foreign",
    "C100_aggregate_blind",
    "C100_aggregate_keeps_refuted"
   ],
   "note": "The last sentence of the property is the negative result C100_aggregate_keeps_refuted with C100_aggregate_blind. A claim of an empty till is refused by the chain (empty transfers fail), hence the hypothesis that there is something to collect."
  },
  {
   "property": "C101",
   "status": "proved",
   "theorems": [
    "C101_coins",
    "C101_idle",
    "C101_tokens",
    "C101_kept",
    "C101_granted",
    "C101_kept_from_people_refuted"
   ],
   "note": "C101_kept_from_people_refuted shows that the condition on allowances is needed. The cw20 token is cw20-base (a dependency, modelled in Cw20.v)."
  },
  {
   "property": "C102",
   "status": "proved",
   "theorems": [
    "C102_errors_are_true",
    "C102_strangers_are_told",
    "C102_reserved_calls",
    "C102_relayers_are_told",
    "C102_payers_are_told",
    "C102_announcers_are_told",
    "C102_senders_are_told",
    "C102_posters_are_told",
    "C102_queries",
    "C102_creation"
   ],
   "note": "error texts carry no numbers in the model except the address length; generic library errors (StdError) claim nothing; the cw20 token contract (a dependency) is not covered by this claim"
  }
 ]
}