{
 "claims": [
  {
   "property": "C01",
   "status": "proved",
   "theorems": [
    "C01_amount_bytes"
   ],
   "note": ""
  },
  {
   "property": "C02",
   "status": "proved",
   "theorems": [
    "C02_amount_u256"
   ],
   "note": ""
  },
  {
   "property": "C03",
   "status": "proved",
   "theorems": [
    "C03_calculate_fee"
   ],
   "note": ""
  },
  {
   "property": "C04",
   "status": "proved",
   "theorems": [
    "C04_reveal_map_bytes"
   ],
   "note": ""
  },
  {
   "property": "C05",
   "status": "proved",
   "theorems": [
    "C05_reveal_map_scalar"
   ],
   "note": ""
  },
  {
   "property": "C06",
   "status": "proved",
   "theorems": [
    "C06_reveal_call",
    "C06_builder_invariant",
    "C06_last_set",
    "C06_queries",
    "C06_builder_invariant_default_key_refuted"
   ],
   "note": "Finding (DESIGN 4.5): the policy builder's invariant fails for default keys (C06_builder_invariant_default_key_refuted). The other theorems state what does hold, with the side conditions in their hypotheses."
  },
  {
   "property": "C07",
   "status": "proved",
   "theorems": [
    "C07_asset_definition"
   ],
   "note": ""
  },
  {
   "property": "C08",
   "status": "proved",
   "theorems": [
    "C08_freeze_flag"
   ],
   "note": ""
  },
  {
   "property": "C09",
   "status": "proved",
   "theorems": [
    "C09_identity_attribute",
    "C09_value_panics_iff",
    "C09_value_total_refuted"
   ],
   "note": "Finding (DESIGN 4.5): reading an attribute's value panics for some attributes (C09_value_total_refuted). The other theorems state what does hold, with the side conditions in their hypotheses."
  },
  {
   "property": "C10",
   "status": "proved",
   "theorems": [
    "C10_credential"
   ],
   "note": ""
  },
  {
   "property": "C11",
   "status": "proved",
   "theorems": [
    "C11_asset_code",
    "C11_derivation"
   ],
   "note": ""
  },
  {
   "property": "C12",
   "status": "proved",
   "theorems": [
    "C12_commitment_binding",
    "C12_commitment_binds_enc_key_refuted"
   ],
   "note": "Finding (DESIGN 4.5): the encryption key of a record is not committed (C12_commitment_binds_enc_key_refuted). The other theorems state what does hold, with the side conditions in their hypotheses."
  },
  {
   "property": "C13",
   "status": "proved",
   "theorems": [
    "C13_circuit_commitment",
    "C13_circuit_commitment_sound"
   ],
   "note": ""
  },
  {
   "property": "C14",
   "status": "proved",
   "theorems": [
    "C14_owner_freezer_nullifier",
    "C14_nullifier_binds"
   ],
   "note": ""
  },
  {
   "property": "C15",
   "status": "proved",
   "theorems": [
    "C15_one_nullifier",
    "C15_nullifier_binds",
    "C15_owner_with_freezer",
    "C15_two_nullifiers_refuted",
    "C15_identity_owner_refuted"
   ],
   "note": "Finding (DESIGN 4.5): two nullifiers for one record if a secret is not reduced or the owner is the identity (C15_two_nullifiers_refuted, C15_identity_owner_refuted). The other theorems state what does hold, with the side conditions in their hypotheses."
  },
  {
   "property": "C16",
   "status": "proved",
   "theorems": [
    "C16_receiver_memo"
   ],
   "note": ""
  },
  {
   "property": "C17",
   "status": "proved",
   "theorems": [
    "C17_txn_fee_info",
    "C17_check_fee"
   ],
   "note": ""
  },
  {
   "property": "C18",
   "status": "proved",
   "theorems": [
    "C18_balance_mod",
    "C18_balance_exact",
    "C18_balance_unbounded_refuted"
   ],
   "note": "Finding (DESIGN 4.5): API and circuit disagree on amounts of 2^127 and more (C18_balance_unbounded_refuted). The other theorems state what does hold, with the side conditions in their hypotheses."
  },
  {
   "property": "C19",
   "status": "proved",
   "theorems": [
    "C19_check_asset_def"
   ],
   "note": ""
  },
  {
   "property": "C20",
   "status": "proved",
   "theorems": [
    "C20_distinct_nullifiers"
   ],
   "note": ""
  },
  {
   "property": "C21",
   "status": "proved",
   "theorems": [
    "C21_freeze_outputs",
    "C21_freeze_twice"
   ],
   "note": ""
  },
  {
   "property": "C22",
   "status": "proved",
   "theorems": [
    "C22_public_input_order",
    "C22_generated_note"
   ],
   "note": ""
  },
  {
   "property": "C23",
   "status": "proved",
   "theorems": [
    "C23_public_input_injective",
    "C23_boundary_refuted"
   ],
   "note": "Finding (DESIGN 4.5): the boundary between nullifiers and commitments is not bound by the proof (C23_boundary_refuted, C36_list_boundary_refuted). The other theorems state what does hold, with the side conditions in their hypotheses."
  },
  {
   "property": "C24",
   "status": "proved",
   "theorems": [
    "C24_circuit_independent_of_secrets"
   ],
   "note": ""
  },
  {
   "property": "C25",
   "status": "proved",
   "theorems": [
    "C25_transfer_conserves"
   ],
   "note": ""
  },
  {
   "property": "C26",
   "status": "proved",
   "theorems": [
    "C26_transfer_assets",
    "C26_asset_code_refuted"
   ],
   "note": "Finding (DESIGN 4.5): a transfer can change the asset code of a record into another with an equal policy (C26_asset_code_refuted). The other theorems state what does hold, with the side conditions in their hypotheses."
  },
  {
   "property": "C27",
   "status": "proved",
   "theorems": [
    "C27_transfer_spends",
    "C27_every_assignment"
   ],
   "note": ""
  },
  {
   "property": "C28",
   "status": "proved",
   "theorems": [
    "C28_transfer_credentials",
    "C28_issuer_refuted"
   ],
   "note": "Finding (DESIGN 4.5): the credential of an accepted transfer is not bound to the policy's issuer (C28_issuer_refuted). The other theorems state what does hold, with the side conditions in their hypotheses."
  },
  {
   "property": "C29",
   "status": "proved",
   "theorems": [
    "C29_viewing_policy"
   ],
   "note": ""
  },
  {
   "property": "C30",
   "status": "proved",
   "theorems": [
    "C30_memo_agrees",
    "C30_address_flags_refuted",
    "C30_threshold_refuted"
   ],
   "note": "Finding (DESIGN 4.5): API and circuit disagree on the memo for some maps and thresholds (C30_address_flags_refuted, C30_threshold_refuted). The other theorems state what does hold, with the side conditions in their hypotheses."
  },
  {
   "property": "C31",
   "status": "proved",
   "theorems": [
    "C31_viewer_sees_policy",
    "C31_wrong_key"
   ],
   "note": ""
  },
  {
   "property": "C32",
   "status": "proved",
   "theorems": [
    "C32_mint_memo",
    "C32_mint_memo_plaintext"
   ],
   "note": ""
  },
  {
   "property": "C33",
   "status": "proved",
   "theorems": [
    "C33_memo_length",
    "C33_memo_plaintext"
   ],
   "note": ""
  },
  {
   "property": "C34",
   "status": "proved",
   "theorems": [
    "C34_transfer_well_formed",
    "C34_native_transfer",
    "C34_non_native_transfer"
   ],
   "note": ""
  },
  {
   "property": "C35",
   "status": "proved",
   "theorems": [
    "C35_transfer_generation_succeeds",
    "C35_non_native_generation_succeeds",
    "C35_native_generation_succeeds",
    "C35_mint_generation_succeeds",
    "C35_freeze_generation_succeeds",
    "C35_generated_transfer_verifies",
    "C35_generated_mint_verifies",
    "C35_generated_freeze_verifies",
    "C35_expiry_refuted"
   ],
   "note": "Finding (DESIGN 4.5): generation succeeds with an expiry for which no proof exists (C35_expiry_refuted). The other theorems state what does hold, with the side conditions in their hypotheses."
  },
  {
   "property": "C36",
   "status": "proved",
   "theorems": [
    "C36_transfer_verify_meaning",
    "C36_tampered_transfer_rejected",
    "C36_tampered_mint_rejected",
    "C36_tampered_freeze_rejected",
    "C36_list_boundary_refuted"
   ],
   "note": "Finding (DESIGN 4.5): the boundary between nullifiers and commitments is not bound by the proof (C23_boundary_refuted, C36_list_boundary_refuted). The other theorems state what does hold, with the side conditions in their hypotheses."
  },
  {
   "property": "C37",
   "status": "proved",
   "theorems": [
    "C37_mint_opening",
    "C37_mint_mints_what_it_says"
   ],
   "note": ""
  },
  {
   "property": "C38",
   "status": "proved",
   "theorems": [
    "C38_mint_fee_covered",
    "C38_freeze_fee_covered",
    "C38_uncovered_mint_fee_refuted",
    "C38_uncovered_freeze_fee_refuted"
   ],
   "note": "Finding (DESIGN 4.5): mint and freeze do not range-check the change: a fee above the input is accepted (C38_uncovered_mint_fee_refuted, C38_uncovered_freeze_fee_refuted). The other theorems state what does hold, with the side conditions in their hypotheses."
  },
  {
   "property": "C39",
   "status": "proved",
   "theorems": [
    "C39_freeze_opening",
    "C39_freeze_flips_flags"
   ],
   "note": ""
  },
  {
   "property": "C40",
   "status": "proved",
   "theorems": [
    "C40_batch_and_individual",
    "C40_native_mint_in_batch_refuted"
   ],
   "note": "Finding (DESIGN 4.5): batch verification accepts mints of foreign codes that single verification refuses (C40_native_mint_in_batch_refuted). The other theorems state what does hold, with the side conditions in their hypotheses."
  },
  {
   "property": "C41",
   "status": "proved",
   "theorems": [
    "C41_accessors",
    "C41_root_is_verified",
    "C41_note_encoding",
    "C41_key_encoding"
   ],
   "note": ""
  },
  {
   "property": "C42",
   "status": "proved",
   "theorems": [
    "C42_memo_signature"
   ],
   "note": ""
  },
  {
   "property": "C43",
   "status": "proved",
   "theorems": [
    "C43_fee_records"
   ],
   "note": ""
  },
  {
   "property": "C44",
   "status": "proved",
   "theorems": [
    "C44_openings_exist",
    "C44_nullifiers_once",
    "C44_spent_records_exist",
    "C44_no_double_spend",
    "C44_noncanonical_secret_refuted"
   ],
   "note": "Finding (DESIGN 4.5): consequences for ledgers: double spend with an unreduced secret, supply out of nothing (C44_noncanonical_secret_refuted, C45_*_refuted). The other theorems state what does hold, with the side conditions in their hypotheses."
  },
  {
   "property": "C45",
   "status": "proved",
   "theorems": [
    "C45_supply_by_minting",
    "C45_without_side_conditions_refuted",
    "C45_uncovered_fee_refuted",
    "C45_native_supply_refuted"
   ],
   "note": "Finding (DESIGN 4.5): consequences for ledgers: double spend with an unreduced secret, supply out of nothing (C44_noncanonical_secret_refuted, C45_*_refuted). The other theorems state what does hold, with the side conditions in their hypotheses."
  },
  {
   "property": "C46",
   "status": "proved",
   "theorems": [
    "C46_transfer_keys",
    "C46_mint_keys",
    "C46_freeze_keys",
    "C46_transfer_verifying_key",
    "C46_mint_verifying_key",
    "C46_freeze_verifying_key",
    "C46_universal_parameters",
    "C46_explicit_path_holds_verifying_key",
    "C46_embedded_parameters",
    "C46_explicit_path_refuted",
    "C46_atomic_refuted"
   ],
   "note": "Finding (DESIGN 4.5): a proving key stored under an explicit path is overwritten by the verifying key; storing is not atomic (C46_explicit_path_refuted, C46_atomic_refuted). The other theorems state what does hold, with the side conditions in their hypotheses."
  },
  {
   "property": "C47",
   "status": "proved",
   "theorems": [
    "C47_default_paths_distinct"
   ],
   "note": ""
  },
  {
   "property": "C48",
   "status": "proved",
   "theorems": [
    "C48_mint_generation"
   ],
   "note": ""
  },
  {
   "property": "C49",
   "status": "proved",
   "theorems": [
    "C49_verification_never_panics",
    "C49_decoding_never_panics",
    "C49_opening_memos",
    "C49_transfer_generation",
    "C49_native_generation",
    "C49_non_native_generation",
    "C49_mint_freeze_generation",
    "C49_preprocessing",
    "C49_native_empty_refuted",
    "C49_open_empty_refuted",
    "C49_large_amount_refuted",
    "C49_long_credential_refuted",
    "C49_validator_refuted",
    "C49_attribute_value"
   ],
   "note": "Finding (DESIGN 4.5): calls that panic (C49_*_refuted). The other theorems state what does hold, with the side conditions in their hypotheses."
  },
  {
   "property": "C50",
   "status": "proved",
   "theorems": [
    "C50_record_encoding",
    "C50_field_encoding_canonical"
   ],
   "note": ""
  },
  {
   "property": "C51",
   "status": "proved",
   "theorems": [
    "C51_freeze_generation"
   ],
   "note": ""
  },
  {
   "property": "C52",
   "status": "proved",
   "theorems": [
    "C52_built_blocks",
    "C52_refused_blocks",
    "C52_single_note"
   ],
   "note": ""
  },
  {
   "property": "C53",
   "status": "proved",
   "theorems": [
    "C53_block_encoding",
    "C53_block_signature"
   ],
   "note": ""
  },
  {
   "property": "C54",
   "status": "proved",
   "theorems": [
    "C54_transfer_memo_hides",
    "C54_mint_memo_shows_all_refuted",
    "C54_mint_memo_hides_refuted"
   ],
   "note": "Finding (DESIGN 4.5): a mint's viewing memo shows address and blinding factor whatever the policy (C54_mint_memo_hides_refuted). The other theorems state what does hold, with the side conditions in their hypotheses."
  },
  {
   "property": "C55",
   "status": "proved",
   "theorems": [
    "C55_frozen_pair",
    "C55_reveal_map_kept_refuted"
   ],
   "note": "Finding (DESIGN 4.5): freezing and releasing can change the reveal map by one (C55_reveal_map_kept_refuted). The other theorems state what does hold, with the side conditions in their hypotheses."
  },
  {
   "property": "C56",
   "status": "proved",
   "theorems": [
    "C56_universal_srs",
    "C56_transfer",
    "C56_freezing_makes_mint_keys",
    "C56_mint_makes_freeze_keys",
    "C56_named_circuit_refuted",
    "C56_circuit_names"
   ],
   "note": "Finding (DESIGN 4.5): the parameter tool swaps the mint and the freeze circuit (C56_named_circuit_refuted). The other theorems state what does hold, with the side conditions in their hypotheses."
  },
  {
   "property": "C57",
   "status": "proved",
   "theorems": [
    "C57_unspent_records",
    "C57_membership",
    "C57_in_step",
    "C57_blocks",
    "C57_scanning_returns"
   ],
   "note": ""
  },
  {
   "property": "C58",
   "status": "proved",
   "theorems": [
    "C58_native_payment",
    "C58_receivers_paid",
    "C58_sender_balance",
    "C58_second_payment_conflicts"
   ],
   "note": "Finding (DESIGN 4.5): the wallet of the test marks records as being spent but never skips them: two payments without a scan in between share an input (C58_second_payment_conflicts, C59_second_payment_conflicts). The other theorems state what does hold, with the side conditions in their hypotheses."
  },
  {
   "property": "C59",
   "status": "proved",
   "theorems": [
    "C59_payment",
    "C59_receivers_paid",
    "C59_sender_balance",
    "C59_second_payment_conflicts"
   ],
   "note": "Finding (DESIGN 4.5): the wallet of the test marks records as being spent but never skips them: two payments without a scan in between share an input (C58_second_payment_conflicts, C59_second_payment_conflicts). The other theorems state what does hold, with the side conditions in their hypotheses."
  },
  {
   "property": "C60",
   "status": "proved",
   "theorems": [
    "C60_new_asset",
    "C60_books",
    "C60_mint_accepted",
    "C60_mint_contents",
    "C60_receiver_paid",
    "C60_issuer_balance",
    "C60_unknown_asset",
    "C60_second_mint_conflicts"
   ],
   "note": "Finding (DESIGN 4.5): the same for two mints (C60_second_mint_conflicts). The other theorems state what does hold, with the side conditions in their hypotheses."
  },
  {
   "property": "C61",
   "status": "proved",
   "theorems": [
    "C61_transfer_seen",
    "C61_mint_seen",
    "C61_every_transfer_seen_refuted",
    "C61_reads_truth_refuted"
   ],
   "note": "Finding (DESIGN 4.5): output addresses are not checked to be points: a further output of amount 0 hides a whole transfer from the viewer (C61_every_transfer_seen_refuted). Also: memos below the threshold or of assets without viewer are not constrained and can claim transfers of another asset (C61_reads_truth_refuted). The other theorems state what does hold, with the side conditions in their hypotheses."
  },
  {
   "property": "C62",
   "status": "proved",
   "theorems": [
    "C62_books",
    "C62_asset",
    "C62_wallet",
    "C62_scans_return",
    "C62_blocks",
    "C62_foreign_mint"
   ],
   "note": "Finding (DESIGN 4.5): the freezer of the test notes any mint with its viewer key as a mint of its own asset, or panics on it (C62_foreign_mint). The other theorems state what does hold, with the side conditions in their hypotheses."
  },
  {
   "property": "C63",
   "status": "proved",
   "theorems": [
    "C63_accepted",
    "C63_effect",
    "C63_turned",
    "C63_owner_loses",
    "C63_owner_regains",
    "C63_spent_record_blocks",
    "C63_second_call"
   ],
   "note": "Finding (DESIGN 4.5): records that their owners spend stay in the freezer's book, and every later freeze of that owner is rejected (C63_spent_record_blocks). Also: a second call for a user before the first note is scanned makes the freezer note the wrong openings (C63_second_call). The other theorems state what does hold, with the side conditions in their hypotheses."
  },
  {
   "property": "C64",
   "status": "proved",
   "theorems": [
    "C64_witnesses_current",
    "C64_depth",
    "C64_depth_refuted",
    "C64_chain_ready",
    "C64_builds",
    "C64_builds_native",
    "C64_last_index_refuted",
    "C64_dummy_order_refuted"
   ],
   "note": "Finding (DESIGN 4.5): `update_input_asset_def`, `set_dummy_input_record` and `update_input_amount` check their index against all inputs but use the next position: the last index that passes the check panics (C64_last_index_refuted). Also: the depth of a tree is the next power of three instead of its exponent, cut to a byte: far deeper than needed, and from 3^38 + 1 records on too small (C64_depth_refuted). Also: setting the threshold or the map of a builder also rewrites the policy of its dummy inputs, which are then no dummies any more (C64_dummy_order_refuted). Also: builders of native transfers ignore the given expiry and bound data (C64_builds_native). The other theorems state what does hold, with the side conditions in their hypotheses."
  },
  {
   "property": "C65",
   "status": "proved",
   "theorems": [
    "C65_random_transfer",
    "C65_mint",
    "C65_freeze",
    "C65_list_verifies",
    "C65_list_made"
   ],
   "note": ""
  },
  {
   "property": "C66",
   "status": "proved",
   "theorems": [
    "C66_transfer_call",
    "C66_freeze_new",
    "C66_freeze_call",
    "C66_mint_new",
    "C66_mint_reveal"
   ],
   "note": ""
  },
  {
   "property": "C67",
   "status": "proved",
   "theorems": [
    "C67_mint_inputs",
    "C67_mint_circuit",
    "C67_freeze_inputs",
    "C67_freeze_circuit",
    "C67_transfer_sound",
    "C67_transfer_satisfied",
    "C67_native_satisfied",
    "C67_memo_key",
    "C67_memo_key_rejected"
   ],
   "note": "Finding (DESIGN 4.5): the transfer circuit does not fix the native code: the public input of a witness takes it from the change record, and only the verifier puts the real one (C67_transfer_sound (native is whatever the public input says)). The other theorems state what does hold, with the side conditions in their hypotheses."
  },
  {
   "property": "C68",
   "status": "proved",
   "theorems": [
    "C68_unspent",
    "C68_in_step",
    "C68_scan"
   ],
   "note": ""
  },
  {
   "property": "C69",
   "status": "proved",
   "theorems": [
    "C69_no_theft",
    "C69_idle"
   ],
   "note": ""
  },
  {
   "property": "C70",
   "status": "proved",
   "theorems": [
    "C70_solvent",
    "C70_minted"
   ],
   "note": ""
  },
  {
   "property": "C71",
   "status": "proved",
   "theorems": [
    "C71_builder",
    "C71_transfer",
    "C71_mint",
    "C71_freeze",
    "C71_batch"
   ],
   "note": ""
  },
  {
   "property": "C72",
   "status": "proved",
   "theorems": [
    "C72_table",
    "C72_batch_table",
    "C72_default_threads",
    "C72_names",
    "C72_table_refuted"
   ],
   "note": "Finding (DESIGN 4.5): a dash in RAYON_NUM_THREADS shifts the columns of the saved table without an error (C72_table_refuted). The other theorems state what does hold, with the side conditions in their hypotheses."
  },
  {
   "property": "C73",
   "status": "proved",
   "theorems": [
    "C73_transfer",
    "C73_mint",
    "C73_freeze",
    "C73_randomness"
   ],
   "note": ""
  },
  {
   "property": "C74",
   "status": "proved",
   "theorems": [
    "C74_native",
    "C74_non_native",
    "C74_misfiled",
    "C74_fee_position",
    "C74_claimed",
    "C74_proposer_refuted"
   ],
   "note": "Finding (DESIGN 4.5): the integration test files the fee record of a block under position `ledger_len + txns.len() - 1`; it is the last leaf of the block, at `ledger_len +` the number of outputs. The wallet shows the fee, but no payment with it can be made (C74_proposer_refuted, C74_claimed, C74_misfiled). The other theorems state what does hold, with the side conditions in their hypotheses."
  },
  {
   "property": "C75",
   "status": "proved",
   "theorems": [
    "C75_transaction",
    "C75_transactions_equal",
    "C75_commitment",
    "C75_values",
    "C75_plain_values",
    "C75_reading_returns"
   ],
   "note": ""
  },
  {
   "property": "C76",
   "status": "proved",
   "theorems": [
    "C76_round_trip",
    "C76_kinds_not_confused",
    "C76_texts",
    "C76_texts_differ",
    "C76_one_text",
    "C76_reading_returns",
    "C76_freezer_pair",
    "C76_freezer_pair_consistent_refuted",
    "C76_types_round_trip"
   ],
   "note": "Finding (DESIGN 4.5): the two halves of a freezer's key pair are not compared when it is read: a stored pair can be read whose public key (given to issuers) belongs to another secret (C76_freezer_pair_consistent_refuted). The other theorems state what does hold, with the side conditions in their hypotheses."
  },
  {
   "property": "C77",
   "status": "proved",
   "theorems": [
    "C77_text_exact",
    "C77_text_round_trip",
    "C77_text_unique",
    "C77_text_returns",
    "C77_hex",
    "C77_operators",
    "C77_sum",
    "C77_sum_exact_refuted"
   ],
   "note": "Finding (DESIGN 4.5): the operators of `Amount` wrap in a build without overflow checks: a sum can be smaller than its parts (the library itself sums with `safe_sum_amount`) (C77_sum_exact_refuted). The other theorems state what does hold, with the side conditions in their hypotheses."
  },
  {
   "property": "C78",
   "status": "proved",
   "theorems": [
    "C78_supported",
    "C78_constants",
    "C78_scalar_bytes",
    "C78_attribute_fits",
    "C78_codes",
    "C78_amount_sums"
   ],
   "note": ""
  },
  {
   "property": "C79",
   "status": "proved",
   "theorems": [
    "C79_keys",
    "C79_sized",
    "C79_size_of_notes",
    "C79_ignored",
    "C79_refused"
   ],
   "note": ""
  },
  {
   "property": "C80",
   "status": "proved",
   "theorems": [
    "C80_freezer_keys",
    "C80_lawful",
    "C80_openings",
    "C80_hash_map",
    "C80_raw_hash_refuted",
    "C80_order",
    "C80_checks"
   ],
   "note": ""
  },
  {
   "property": "C81",
   "status": "proved",
   "theorems": [
    "C81_one_by_one",
    "C81_order",
    "C81_grouping",
    "C81_waiting",
    "C81_conflict"
   ],
   "note": ""
  },
  {
   "property": "C82",
   "status": "proved",
   "theorems": [
    "C82_native",
    "C82_non_native",
    "C82_payment"
   ],
   "note": ""
  },
  {
   "property": "C83",
   "status": "proved",
   "theorems": [
    "C83_origin",
    "C83_native_policy_refuted"
   ],
   "note": "Finding (DESIGN 4.5): a transfer whose further inputs are all dummies may name the native code together with any policy: its native outputs, paid by the fee record, then carry that policy, so their sender can be their freezer, and their owner cannot use them as fees (C83_native_policy_refuted). The other theorems state what does hold, with the side conditions in their hypotheses."
  },
  {
   "property": "C84",
   "status": "proved",
   "theorems": [
    "C84_frozen",
    "C84_unspent"
   ],
   "note": ""
  },
  {
   "property": "C85",
   "status": "proved",
   "theorems": [
    "C85_generated",
    "C85_same_shape",
    "C85_accepted",
    "C85_openings",
    "C85_per_record"
   ],
   "note": ""
  },
  {
   "property": "C86",
   "status": "proved",
   "theorems": [
    "C86_records",
    "C86_history"
   ],
   "note": ""
  },
  {
   "property": "C87",
   "status": "proved",
   "theorems": [
    "C87_reachable",
    "C87_random_policy",
    "C87_random_map",
    "C87_random_amounts"
   ],
   "note": ""
  },
  {
   "property": "C88",
   "status": "proved",
   "theorems": [
    "C88_supply",
    "C88_one_policy",
    "C88_library",
    "C88_code_fixes_policy_refuted"
   ],
   "note": "Finding (DESIGN 4.5): an asset code does not fix its policy: two mints made by the library with one seed and description but different policies are both accepted (C88_code_fixes_policy_refuted)."
  },
  {
   "property": "C89",
   "status": "proved",
   "theorems": [
    "C89_never_wrong",
    "C89_last_store",
    "C89_other_files",
    "C89_pair_matches_refuted"
   ],
   "note": "Finding (DESIGN 4.5): a store call stopped between its two files leaves a proving key and a verifying key of different reference strings, both of which load (C89_pair_matches_refuted)."
  },
  {
   "property": "C90",
   "status": "proved",
   "theorems": [
    "C90_seed_behind_mint",
    "C90_one_seed",
    "C90_ledger",
    "C90_ledger_without_check_refuted"
   ],
   "note": "Finding (DESIGN 4.5): batch verification leaves out the check of the asset code, so blocks can contain mints of anybody's asset (C90_ledger_without_check_refuted). The ledger theorem C90_ledger has this check as a condition."
  }
 ]
}