{
 "C06": [
  "proved",
  "Finding (DESIGN 4.5): the policy builder's invariant fails for default keys (C06_builder_invariant_default_key_refuted). The other theorems state what does hold, with the side conditions in their hypotheses."
 ],
 "C09": [
  "proved",
  "Finding (DESIGN 4.5): reading an attribute's value panics for some attributes (C09_value_total_refuted). The other theorems state what does hold, with the side conditions in their hypotheses."
 ],
 "C12": [
  "proved",
  "Finding (DESIGN 4.5): the encryption key of a record is not committed (C12_commitment_binds_enc_key_refuted). The other theorems state what does hold, with the side conditions in their hypotheses."
 ],
 "C15": [
  "proved",
  "Finding (DESIGN 4.5): two nullifiers for one record if a secret is not reduced or the owner is the identity (C15_two_nullifiers_refuted, C15_identity_owner_refuted). The other theorems state what does hold, with the side conditions in their hypotheses."
 ],
 "C18": [
  "proved",
  "Finding (DESIGN 4.5): API and circuit disagree on amounts of 2^127 and more (C18_balance_unbounded_refuted). The other theorems state what does hold, with the side conditions in their hypotheses."
 ],
 "C23": [
  "proved",
  "Finding (DESIGN 4.5): the boundary between nullifiers and commitments is not bound by the proof (C23_boundary_refuted, C36_list_boundary_refuted). The other theorems state what does hold, with the side conditions in their hypotheses."
 ],
 "C36": [
  "proved",
  "Finding (DESIGN 4.5): the boundary between nullifiers and commitments is not bound by the proof (C23_boundary_refuted, C36_list_boundary_refuted). The other theorems state what does hold, with the side conditions in their hypotheses."
 ],
 "C26": [
  "proved",
  "Finding (DESIGN 4.5): a transfer can change the asset code of a record into another with an equal policy (C26_asset_code_refuted). The other theorems state what does hold, with the side conditions in their hypotheses."
 ],
 "C28": [
  "proved",
  "Finding (DESIGN 4.5): the credential of an accepted transfer is not bound to the policy's issuer (C28_issuer_refuted). The other theorems state what does hold, with the side conditions in their hypotheses."
 ],
 "C30": [
  "proved",
  "Finding (DESIGN 4.5): API and circuit disagree on the memo for some maps and thresholds (C30_address_flags_refuted, C30_threshold_refuted). The other theorems state what does hold, with the side conditions in their hypotheses."
 ],
 "C35": [
  "proved",
  "Finding (DESIGN 4.5): generation succeeds with an expiry for which no proof exists (C35_expiry_refuted). The other theorems state what does hold, with the side conditions in their hypotheses."
 ],
 "C38": [
  "proved",
  "Finding (DESIGN 4.5): mint and freeze do not range-check the change: a fee above the input is accepted (C38_uncovered_mint_fee_refuted, C38_uncovered_freeze_fee_refuted). The other theorems state what does hold, with the side conditions in their hypotheses."
 ],
 "C40": [
  "proved",
  "Finding (DESIGN 4.5): batch verification accepts mints of foreign codes that single verification refuses (C40_native_mint_in_batch_refuted). The other theorems state what does hold, with the side conditions in their hypotheses."
 ],
 "C44": [
  "proved",
  "Finding (DESIGN 4.5): consequences for ledgers: double spend with an unreduced secret, supply out of nothing (C44_noncanonical_secret_refuted, C45_*_refuted). The other theorems state what does hold, with the side conditions in their hypotheses."
 ],
 "C45": [
  "proved",
  "Finding (DESIGN 4.5): consequences for ledgers: double spend with an unreduced secret, supply out of nothing (C44_noncanonical_secret_refuted, C45_*_refuted). The other theorems state what does hold, with the side conditions in their hypotheses."
 ],
 "C46": [
  "proved",
  "Finding (DESIGN 4.5): a proving key stored under an explicit path is overwritten by the verifying key; storing is not atomic (C46_explicit_path_refuted, C46_atomic_refuted). The other theorems state what does hold, with the side conditions in their hypotheses."
 ],
 "C49": [
  "proved",
  "Finding (DESIGN 4.5): calls that panic (C49_*_refuted). The other theorems state what does hold, with the side conditions in their hypotheses."
 ],
 "C54": [
  "proved",
  "Finding (DESIGN 4.5): a mint's viewing memo shows address and blinding factor whatever the policy (C54_mint_memo_hides_refuted). The other theorems state what does hold, with the side conditions in their hypotheses."
 ],
 "C55": [
  "proved",
  "Finding (DESIGN 4.5): freezing and releasing can change the reveal map by one (C55_reveal_map_kept_refuted). The other theorems state what does hold, with the side conditions in their hypotheses."
 ],
 "C56": [
  "proved",
  "Finding (DESIGN 4.5): the parameter tool swaps the mint and the freeze circuit (C56_named_circuit_refuted). The other theorems state what does hold, with the side conditions in their hypotheses."
 ],
 "C58": [
  "proved",
  "Finding (DESIGN 4.5): the wallet of the test marks records as being spent but never skips them: two payments without a scan in between share an input (C58_second_payment_conflicts, C59_second_payment_conflicts). The other theorems state what does hold, with the side conditions in their hypotheses."
 ],
 "C59": [
  "proved",
  "Finding (DESIGN 4.5): the wallet of the test marks records as being spent but never skips them: two payments without a scan in between share an input (C58_second_payment_conflicts, C59_second_payment_conflicts). The other theorems state what does hold, with the side conditions in their hypotheses."
 ],
 "C60": [
  "proved",
  "Finding (DESIGN 4.5): the same for two mints (C60_second_mint_conflicts). The other theorems state what does hold, with the side conditions in their hypotheses."
 ],
 "C61": [
  "proved",
  "Finding (DESIGN 4.5): output addresses are not checked to be points: a further output of amount 0 hides a whole transfer from the viewer (C61_every_transfer_seen_refuted). Also: memos below the threshold or of assets without viewer are not constrained and can claim transfers of another asset (C61_reads_truth_refuted). The other theorems state what does hold, with the side conditions in their hypotheses."
 ],
 "C62": [
  "proved",
  "Finding (DESIGN 4.5): the freezer of the test notes any mint with its viewer key as a mint of its own asset, or panics on it (C62_foreign_mint). The other theorems state what does hold, with the side conditions in their hypotheses."
 ],
 "C63": [
  "proved",
  "Finding (DESIGN 4.5): records that their owners spend stay in the freezer's book, and every later freeze of that owner is rejected (C63_spent_record_blocks). Also: a second call for a user before the first note is scanned makes the freezer note the wrong openings (C63_second_call). The other theorems state what does hold, with the side conditions in their hypotheses."
 ],
 "C64": [
  "proved",
  "Finding (DESIGN 4.5): `update_input_asset_def`, `set_dummy_input_record` and `update_input_amount` check their index against all inputs but use the next position: the last index that passes the check panics (C64_last_index_refuted). Also: the depth of a tree is the next power of three instead of its exponent, cut to a byte: far deeper than needed, and from 3^38 + 1 records on too small (C64_depth_refuted). Also: setting the threshold or the map of a builder also rewrites the policy of its dummy inputs, which are then no dummies any more (C64_dummy_order_refuted). Also: builders of native transfers ignore the given expiry and bound data (C64_builds_native). The other theorems state what does hold, with the side conditions in their hypotheses."
 ],
 "C67": [
  "proved",
  "Finding (DESIGN 4.5): the transfer circuit does not fix the native code: the public input of a witness takes it from the change record, and only the verifier puts the real one (C67_transfer_sound (native is whatever the public input says)). The other theorems state what does hold, with the side conditions in their hypotheses."
 ],
 "C72": [
  "proved",
  "Finding (DESIGN 4.5): a dash in RAYON_NUM_THREADS shifts the columns of the saved table without an error (C72_table_refuted). The other theorems state what does hold, with the side conditions in their hypotheses."
 ],
 "C74": [
  "proved",
  "Finding (DESIGN 4.5): the integration test files the fee record of a block under position `ledger_len + txns.len() - 1`; it is the last leaf of the block, at `ledger_len +` the number of outputs. The wallet shows the fee, but no payment with it can be made (C74_proposer_refuted, C74_claimed, C74_misfiled). The other theorems state what does hold, with the side conditions in their hypotheses."
 ],
 "C76": [
  "proved",
  "Finding (DESIGN 4.5): the two halves of a freezer's key pair are not compared when it is read: a stored pair can be read whose public key (given to issuers) belongs to another secret (C76_freezer_pair_consistent_refuted). The other theorems state what does hold, with the side conditions in their hypotheses."
 ],
 "C77": [
  "proved",
  "Finding (DESIGN 4.5): the operators of `Amount` wrap in a build without overflow checks: a sum can be smaller than its parts (the library itself sums with `safe_sum_amount`) (C77_sum_exact_refuted). The other theorems state what does hold, with the side conditions in their hypotheses."
 ],
 "C83": [
  "proved",
  "Finding (DESIGN 4.5): a transfer whose further inputs are all dummies may name the native code together with any policy: its native outputs, paid by the fee record, then carry that policy, so their sender can be their freezer, and their owner cannot use them as fees (C83_native_policy_refuted). The other theorems state what does hold, with the side conditions in their hypotheses."
 ],
 "C88": [
  "proved",
  "Finding (DESIGN 4.5): an asset code does not fix its policy: two mints made by the library with one seed and description but different policies are both accepted (C88_code_fixes_policy_refuted)."
 ],
 "C89": [
  "proved",
  "Finding (DESIGN 4.5): a store call stopped between its two files leaves a proving key and a verifying key of different reference strings, both of which load (C89_pair_matches_refuted)."
 ],
 "C90": [
  "proved",
  "Finding (DESIGN 4.5): batch verification leaves out the check of the asset code, so blocks can contain mints of anybody's asset (C90_ledger_without_check_refuted). The ledger theorem C90_ledger has this check as a condition."
 ]
}