{"id": "C01", "title": "Amount byte encoding is a lossless 16-byte code", "statement": "Serializing any Amount yields exactly 16 bytes; deserializing those bytes, followed by any other bytes, gives back the same Amount and leaves the rest unread; every 16-byte string decodes and re-encodes to itself; fewer than 16 bytes is an error.", "quantifier": "all u128 amounts, all byte strings", "why_tests_cant": "2^128 amounts and unboundedly many suffixes; tests sample a few values", "anchors": ["src/structs.rs: Amount CanonicalSerialize/CanonicalDeserialize (174-194)"]}
{"id": "C02", "title": "Amount <-> U256 conversion never changes a value", "statement": "Converting an Amount to U256 preserves the integer; converting a U256 to Amount succeeds exactly when the integer is at most u128::MAX, and then preserves it.", "quantifier": "all u128 and all 256-bit integers", "why_tests_cant": "boundary is at 2^128; only the quantified statement excludes silent truncation", "anchors": ["src/structs.rs: From<Amount> for U256, TryFrom<U256> for Amount (196-219)"]}
{"id": "C03", "title": "Total fee computation is exact or an error", "statement": "calculate_fee over any list of transactions returns the exact integer sum of their fees when that sum fits in u128 and IncorrectFee otherwise; it never wraps, and the result does not depend on the order of the transactions.", "quantifier": "all finite lists of transaction notes", "why_tests_cant": "lists of any length whose partial sums approach 2^128", "anchors": ["src/lib.rs: calculate_fee (575-586)", "src/utils/mod.rs: safe_sum_amount (73-78)"]}
{"id": "C04", "title": "Reveal map encoding round trip and canonicity", "statement": "Encoding any reveal map gives 20 bytes that decode to the same map with the rest of the input unread; decoding accepts nothing but such encodings (wrong length prefix or a byte other than 0/1 is an error), so no two byte strings decode to the same map.", "quantifier": "all reveal maps, all byte strings", "why_tests_cant": "the rejection half ranges over every malformed string", "anchors": ["src/structs.rs: RevealMap serialize/deserialize (331-372)"]}
{"id": "C05", "title": "Reveal map packs injectively into one scalar that the circuit can unpack", "statement": "The scalar of a reveal map is below 2^12, determines the map, and its 12 low bits read most-significant first are exactly the map, which is what the transfer circuit relies on when it unpacks it.", "quantifier": "all reveal maps", "why_tests_cant": "the circuit and the API use different code for the same bit order; agreement is needed for all 4096 maps and for the circuit's bit decomposition of any assignment", "anchors": ["src/structs.rs: RevealMap::to_scalar (454-460)", "src/circuit/transfer.rs: is_correct_viewing_memo (203-207)"]}
{"id": "C06", "title": "Policy builder never reveals to nobody", "statement": "Starting from the empty policy and applying any sequence of the public setters and reveal_* calls (failed calls leave the policy as it was): each key and the threshold is the argument of the last call that set it, and the default if none did; the four queries say whether the field differs from its default. If the keys set are not the default key, a reveal bit is set only if a viewer key is set, an attribute bit only if a credential-issuer key is set too, and the two address bits are always equal. Without that restriction the last part is false, because a setter can put the default key back.", "quantifier": "all finite sequences of builder calls", "why_tests_cant": "histories of calls", "anchors": ["src/structs.rs: AssetPolicy setters and reveal_* (525-706)"]}
{"id": "C07", "title": "User-defined assets cannot masquerade as native or dummy", "statement": "AssetDefinition::new fails exactly for the native and the dummy asset code; no definition it returns is reported native or dummy; native and dummy definitions are reported as such and are different.", "quantifier": "all asset codes and policies", "why_tests_cant": "all field elements", "anchors": ["src/structs.rs: AssetDefinition::new/native/dummy_definition/is_native/is_dummy (743-778)"]}
{"id": "C08", "title": "Freeze flag flip and encoding", "statement": "flip is an involution without fixed points; the flag's one-byte encoding round-trips with any suffix, and decoding rejects every other byte and the empty string.", "quantifier": "both flags, all byte strings", "why_tests_cant": "rejection ranges over all bytes and strings", "anchors": ["src/structs.rs: FreezeFlag (875-941)"]}
{"id": "C09", "title": "Identity attribute packing is lossless and never crashes on read", "statement": "IdentityAttribute::new accepts exactly byte strings of length 1..=30, value() of the result returns exactly those bytes, and different strings give different attributes. value() of an arbitrary attribute (for example one decoded from the network) should return a value or an error; this last part is false: a large padding byte makes the subtraction in value() underflow.", "quantifier": "all byte strings, all field elements", "why_tests_cant": "all contents and lengths, all malformed field elements", "anchors": ["src/structs.rs: IdentityAttribute::new/value (1086-1120)", "src/config.rs: PER_ATTR_BYTE_CAPACITY"]}
{"id": "C10", "title": "Credential issue/verify agreement", "statement": "A credential created by an issuer with 8 attributes verifies at every time not later than its expiry and is rejected after it; creation fails exactly when the number of attributes is not 8; verification depends on every signed component (expiry, address, attributes): changing one invalidates it unless the signature scheme is forged.", "quantifier": "all key pairs, addresses, attribute lists, times", "why_tests_cant": "all timestamps and attribute vectors", "anchors": ["src/structs.rs: ExpirableCredential::create/is_expired/verify (1179-1233)"]}
{"id": "C11", "title": "Asset code derivation is checked exactly and domains are separated", "statement": "The internal code is the pseudorandom function, keyed by the seed, of the digest of the description, and the domestic code is the hash of a prefix and the internal code. verify_domestic/verify_foreign accept a code exactly when it is the code derived from the given seed data / description; the byte strings hashed for a domestic and for a foreign code are never equal and each determines its input, so one code can be both, or come from two inputs, only through a hash collision.", "quantifier": "all codes, descriptions, digests", "why_tests_cant": "all descriptions", "anchors": ["src/structs.rs: AssetCode::new_domestic.. verify_foreign (262-319)"]}
{"id": "C12", "title": "A record commitment binds the whole opening except the encryption key", "statement": "Two openings whose commitments are computed from the same field-element message and blind agree on amount, asset code, owner address, viewer/issuer/freezer keys, reveal map, threshold and freeze flag. They may differ in the owner's encryption key, which is not committed.", "quantifier": "all pairs of record openings", "why_tests_cant": "all pairs; the packed reveal-map/freeze-flag word could collide for some pair", "anchors": ["src/structs.rs: RecordOpening::derive_record_commitment (1021-1055)"]}
{"id": "C13", "title": "Circuit commitment equals API commitment", "statement": "For every record opening, the commitment variable computed in the circuit from its honest assignment has the value the API's RecordCommitment has.", "quantifier": "all record openings", "why_tests_cant": "two independent encoders must agree for all inputs", "anchors": ["src/circuit/structs.rs: RecordOpeningVar::new/compute_record_commitment (119-182)", "src/structs.rs: derive_record_commitment"]}
{"id": "C14", "title": "Owner and freezer derive the same nullifier", "statement": "For any user and freezer key pair with both public keys different from the identity, any position and any commitment, UserKeyPair::nullify with the freezer's public key equals FreezerKeyPair::nullify with the user's address; so a record spent by one cannot be spent by the other.", "quantifier": "all key pairs, uids, commitments", "why_tests_cant": "all key pairs", "anchors": ["src/keys.rs: UserKeyPair::nullify, FreezerKeyPair::nullify, compute_nullifier_key (213-240, 523-596)"]}
{"id": "C15", "title": "One record has one nullifier in the circuit", "statement": "A user expects that any two satisfying spend proofs of the same record at the same position, by the owner or by the freezer, expose the same nullifier. The circuits provide it when the secret scalars used are below the order of the embedded group, the owner's address is not the identity and the record is not a dummy. They do not provide it in general: two accepted mint notes can spend the same record at the same position with different nullifiers by using a secret and that secret plus the group order, and the freezer of a record owned by the identity address derives a nullifier different from the owner's.", "quantifier": "all satisfying assignments", "why_tests_cant": "quantifies over adversarial assignments", "anchors": ["src/circuit/gadgets.rs: prove_spend (136-171)", "src/circuit/gadgets_helper.rs: derive_nullifier_key (61-73)"]}
{"id": "C16", "title": "Receiver memo delivers exactly the committed opening", "statement": "A memo built from an opening decrypts, under the owner's key pair and against that opening's commitment, to that opening; decryption returns an opening only if its public key is the reader's and its commitment is the one supplied.", "quantifier": "all openings, key pairs, commitments, memos", "why_tests_cant": "adversarial memos", "anchors": ["src/structs.rs: ReceiverMemo::from_ro/decrypt (1605-1653)"]}
{"id": "C17", "title": "Fee info is always consistent", "statement": "TxnFeeInfo::new succeeds exactly when the fee does not exceed the fee input's amount, and then the change record is native, unfrozen, owned by the same key, with amount exactly input minus fee, so that check_fee accepts it whenever the fee input is native and unfrozen and the key pair matches.", "quantifier": "all fee inputs, fees, blinds", "why_tests_cant": "boundary fee = amount and all u128 values", "anchors": ["src/structs.rs: TxnFeeInfo::new (1692-1717)", "src/utils/mod.rs: check_fee (602-648)"]}
{"id": "C18", "title": "Balance check is exact integer arithmetic", "statement": "For record lists whose amounts are below 2^127 and whose sums fit in i128, the balance check used by transfer generation succeeds exactly when for every asset code the non-dummy input sum equals the output sum, plus the returned non-negative fee for the native code; with amounts of 2^127 and above the signed cast can change the answer.", "quantifier": "all lists of record openings", "why_tests_cant": "all lists and values; overflow corner", "anchors": ["src/utils/mod.rs: check_balance, derive_fee, check_asset_amount (652-752)"]}
{"id": "C19", "title": "Asset definition check forces a single transferred asset", "statement": "check_asset_def accepts exactly when the first input and output are native, all other non-dummy inputs share one asset definition, all other outputs have that definition (native when every other input is dummy), and an asset with a freezer also has a viewer.", "quantifier": "all lists of record openings", "why_tests_cant": "all lists", "anchors": ["src/utils/mod.rs: check_asset_def (420-472)"]}
{"id": "C20", "title": "Distinct-nullifier check is exact", "statement": "check_distinct_input_nullifiers accepts exactly the lists without repetition.", "quantifier": "all lists of nullifiers", "why_tests_cant": "all lists", "anchors": ["src/utils/mod.rs: check_distinct_input_nullifiers (300-311)"]}
{"id": "C21", "title": "Freeze outputs change only the flag and the blind", "statement": "The outputs computed for a freeze transaction are, position by position, the inputs with the freeze flag flipped and a fresh blind, after the fee change record; freezing twice restores the record up to the blind.", "quantifier": "all lists of freeze inputs", "why_tests_cant": "all lists", "anchors": ["src/utils/mod.rs: freeze::get_output_ros (586-599)", "src/freeze.rs: generate (97-156)"]}
{"id": "C22", "title": "Public input order agrees between prover circuit and verifier", "statement": "For every transfer, mint and freeze public input the list of public values exposed by the circuit is the list the verifier recomputes from the note.", "quantifier": "all public inputs of every size", "why_tests_cant": "two independent orderings, any number of inputs/outputs", "anchors": ["src/circuit/{transfer,mint,freeze}.rs: *PubInputVar::new", "src/proof/{transfer,mint,freeze}.rs: to_scalars"]}
{"id": "C23", "title": "Verifier public inputs determine the note", "statement": "For notes with the same numbers of nullifiers and outputs, equal public-input lists imply equal root, fee, expiry, nullifiers, commitments and memo. The numbers are not themselves bound: the boundary between nullifiers and commitments can be moved without changing the list, and verify does not compare the numbers with the verifying key, so two different notes with the same proof both verify.", "quantifier": "all pairs of notes", "why_tests_cant": "all pairs", "anchors": ["src/proof/transfer.rs: to_scalars (443-458)", "src/proof/freeze.rs: to_scalars (331-344)", "src/transfer.rs: verify (345-400)"]}
{"id": "C24", "title": "The circuit does not depend on secrets", "statement": "For any witness of a given shape (numbers of inputs and outputs, tree depth) the constraint system built for proving equals the one built at preprocessing time from the dummy witness.", "quantifier": "all witnesses", "why_tests_cant": "all witnesses of all sizes", "anchors": ["src/circuit/transfer.rs: build/build_for_preprocessing", "src/circuit/mint.rs", "src/circuit/freeze.rs"]}
{"id": "C25", "title": "Verified transfer conserves value", "statement": "Any assignment satisfying the transfer circuit has, in the field, native fee input + (if native) inputs = outputs + fee, and transferred inputs = transferred outputs for a non-native asset; output amounts are below 2^127; and if the inputs are bounded by 2^127 the equations hold over the integers.", "quantifier": "all satisfying assignments, any number of inputs/outputs", "why_tests_cant": "adversarial witnesses; field wrap-around", "anchors": ["src/circuit/gadgets.rs: preserve_balance (79-134)", "src/circuit/transfer.rs: build (53-193)"]}
{"id": "C26", "title": "Verified transfer keeps the asset type", "statement": "A user expects every non-fee, non-dummy input of an accepted transfer to have the asset code of the non-fee outputs. The circuit does not provide it: it compares only the policy, and a record of one asset can be turned into a record of another asset with an equal policy. What it provides is that all non-fee outputs have one asset code and one policy, that every non-fee, non-dummy input has that policy, and that the fee input and change are native.", "quantifier": "all satisfying assignments", "why_tests_cant": "adversarial witnesses", "anchors": ["src/circuit/transfer.rs: build (85-103)"]}
{"id": "C27", "title": "Verified transfer respects ownership, freezing and membership", "statement": "In any satisfying assignment every input is unfrozen, the prover knows a scalar whose multiple of the generator is the owner address, every non-dummy input's commitment is in the tree with the public root, dummy inputs carry amount zero, every exposed nullifier is the PRF of that input's key, position and commitment, and every exposed output commitment opens to an unfrozen output.", "quantifier": "all satisfying assignments", "why_tests_cant": "adversarial witnesses", "anchors": ["src/circuit/transfer.rs: build (73-160)", "src/circuit/gadgets.rs: prove_spend"]}
{"id": "C28", "title": "Verified transfer enforces the credential policy", "statement": "A user expects that, if the transferred asset's policy names a credential issuer, every non-dummy input carries an unexpired credential signed by that issuer for that owner. Neither the API nor the circuit provides it: the issuer key and the subject address are never compared, and a transfer with a credential issued by another key to another user is accepted. What is provided is that for every such input some signature by some key on data unexpired at valid_until, within a window of 2^20, verifies.", "quantifier": "all satisfying assignments and all API calls", "why_tests_cant": "adversarial credentials", "anchors": ["src/circuit/transfer.rs (122-129)", "src/circuit/structs.rs: ExpirableCredVar::verify (397-430)", "src/utils/mod.rs: check_creds (503-519)"]}
{"id": "C29", "title": "Verified transfer enforces the viewing policy", "statement": "In any satisfying assignment with a viewer key and transferred amount above the threshold (both below 2^127 so that no wrap occurs), the public memo is the encryption under the viewer key of the asset code and, per input and output, exactly the fields the reveal map selects.", "quantifier": "all satisfying assignments", "why_tests_cant": "adversarial witnesses", "anchors": ["src/circuit/transfer.rs: is_correct_viewing_memo (197-285)"]}
{"id": "C30", "title": "API viewing memo equals circuit viewing memo", "statement": "For transfers accepted by the API checks with a well-formed policy (equal address bits, threshold below 2^127) the memo put in the note satisfies the circuit's memo condition; for maps with different address bits or thresholds of 2^127 and above it may not, so generation fails.", "quantifier": "all transfer inputs/outputs", "why_tests_cant": "two independent constructions must agree for all inputs", "anchors": ["src/structs.rs: ViewableMemo::new_for_transfer_note (1300-1390)", "src/circuit/transfer.rs: is_correct_viewing_memo"]}
{"id": "C31", "title": "Viewer sees exactly what the policy reveals", "statement": "Opening the memo of a transfer above the threshold with the viewer's key returns, in order, one entry per non-dummy input and one per output, in which a field is present and equal to the true value exactly when the reveal map selects it (an identity owner address being the only exception).", "quantifier": "all transfers, reveal maps, numbers of inputs/outputs", "why_tests_cant": "all maps, sizes and values", "anchors": ["src/keys.rs: open_transfer_viewing_memo (379-434)", "src/structs.rs: ViewableData (1444-1590)"]}
{"id": "C32", "title": "Mint viewing memo round trip", "statement": "Opening a mint note's memo with the viewer's key returns the minted asset code, and the amount, owner address and blind of the minted record each exactly when the policy reveals it.", "quantifier": "all mint parameters", "why_tests_cant": "all values and maps", "anchors": ["src/structs.rs: ViewableMemo::new_for_mint_note, ViewableData::from_mint_note", "src/keys.rs: open_mint_viewing_memo"]}
{"id": "C33", "title": "Viewing memo length leaks nothing", "statement": "The number of field elements in a transfer memo depends only on the numbers of inputs and outputs, not on whether the asset has a viewer, the amounts, the threshold or the presence of dummies; below threshold or without viewer the plaintext is all zeros.", "quantifier": "all transfers", "why_tests_cant": "all combinations", "anchors": ["src/structs.rs: new_for_transfer_note, dummy_for_transfer_note (1300-1415)"]}
{"id": "C34", "title": "Generated transfer is well formed", "statement": "If transfer generation succeeds then: inputs and outputs balance over the integers with the note's fee, one asset definition is moved, no input is frozen, every non-dummy input is owned by the supplied key pair and is in the tree with the note's root, nullifiers are distinct, credentials are unexpired at valid_until, and the note carries exactly the nullifiers, commitments, fee, root, expiry and bound data of its inputs. The fee of a native transfer is the requested fee even in builds without overflow checks.", "quantifier": "all inputs to generate_native/generate_non_native, both build profiles", "why_tests_cant": "all lists, overflow corners", "anchors": ["src/transfer.rs: generate_native, generate_non_native, generate (147-338)"]}
{"id": "C35", "title": "Generated notes verify", "statement": "A transfer produced by generation verifies under the matching verifying key, its own root and any timestamp not after valid_until; so does a generated mint of an amount below 2^127, and a generated freeze whose membership paths have the key's depth. Transfer generation succeeds whenever the API preconditions hold, amounts stay below 2^127, the policy is one the circuit can express and valid_until is below 2^20 with the credential windows fitting 20 bits; an expiry of 2^20 or later always makes it fail.", "quantifier": "all valid generation parameters", "why_tests_cant": "all valid parameters", "anchors": ["src/transfer.rs", "src/mint.rs", "src/freeze.rs", "src/proof/*.rs"]}
{"id": "C36", "title": "Transfer verification honours root and expiry and binds memo key and data", "statement": "TransferNote::verify accepts only if the note's root is the given root, the timestamp is not after valid_until and the proof verifies for exactly the note's public data, memo verification key and extra proof-bound data; altering any field of an honestly generated transfer, mint or freeze note other than the proof makes it rejected, as long as the numbers of nullifiers and of outputs are kept.", "quantifier": "all notes, roots, timestamps", "why_tests_cant": "all tamperings", "anchors": ["src/transfer.rs: verify, check_instance_and_get_public_input_internal (345-400)", "src/proof/transfer.rs: prove/verify (159-212)"]}
{"id": "C37", "title": "Verified mint mints what it says", "statement": "If MintNote::verify accepts, then the mint commitment opens to a record with the public amount (below 2^127), public asset code and policy, unfrozen; the code is the domestic code derived from a seed known to the prover; the spent record is native, unfrozen, owned by the prover, in the tree; and the change is native and owned by the same address.", "quantifier": "all accepted mint notes", "why_tests_cant": "adversarial witnesses", "anchors": ["src/circuit/mint.rs: build (47-131)", "src/mint.rs: verify (155-170)"]}
{"id": "C38", "title": "Mint and freeze fees are covered by the fee input", "statement": "A user expects the fee of an accepted mint or freeze note to be at most the fee input's amount. The circuits do not provide it: the change is not range-checked, so a fee larger than the input is accepted with a change record of negative amount modulo the field order. What holds is that if the change amount is below 2^128 then the fee input equals fee plus change over the integers.", "quantifier": "all satisfying assignments", "why_tests_cant": "adversarial witnesses, field wrap-around", "anchors": ["src/circuit/mint.rs (76, 96-98)", "src/circuit/freeze.rs (96)"]}
{"id": "C39", "title": "Verified freeze only flips freeze flags", "statement": "In any satisfying assignment of the freeze circuit every non-fee output equals the corresponding input in amount, owner, asset code and policy with the flag flipped; every non-dummy input is in the tree and has a non-identity freezer key of which the prover knows the secret; the fee pair is native and unfrozen. The reveal map of a witness is a field element that is not range-checked; what that means for records is C55.", "quantifier": "all satisfying assignments, any number of inputs", "why_tests_cant": "adversarial witnesses", "anchors": ["src/circuit/freeze.rs: build_unchecked (74-178)"]}
{"id": "C40", "title": "Batch verification agrees with individual verification", "statement": "For non-empty batches with keys of the right kinds: every note passes its own verification with the corresponding key, root and timestamp exactly if txn_batch_verify accepts the batch and in addition every mint note's asset code is the domestic code derived from its internal code. The addition cannot be dropped: txn_batch_verify leaves out the asset-code check, and accepts a mint of the native asset that the note's own verification refuses.", "quantifier": "all batches", "why_tests_cant": "all batches, adversarial notes", "anchors": ["src/lib.rs: txn_batch_verify (455-529)", "src/mint.rs: verify (155-170)"]}
{"id": "C41", "title": "Transaction accessors and encoding", "statement": "nullifiers, output_commitments, output_len and merkle_root agree with the wrapped note (output_len is the number of output commitments); the tagged encodings of transaction notes and of verifying keys round-trip with any suffix and reject unknown tags, so encodings (and the preimage of the note commitment) determine the note.", "quantifier": "all notes, all byte strings", "why_tests_cant": "all notes and malformed strings", "anchors": ["src/lib.rs: TransactionNote (206-350), TransactionVerifyingKey (376-449)"]}
{"id": "C42", "title": "Receiver memo signature binds the ordered list of memos", "statement": "A signature made by sign_receiver_memos verifies on that list; the signed bytes determine the ordered list of memos, so a signature transfers to another list only through a hash collision or forgery; the empty list is refused.", "quantifier": "all lists of memos", "why_tests_cant": "all lists", "anchors": ["src/utils/mod.rs: get_receiver_memos_digest (778-793)", "src/lib.rs: sign_receiver_memos, verify_receiver_memos_signature (315-328, 589-598)"]}
{"id": "C43", "title": "Fee records of a block are exact", "statement": "derive_txns_fee_records returns one native unfrozen record commitment per given fee with exactly that fee, the corresponding collector and the corresponding blinding factor, and fails exactly for the empty list or a length mismatch.", "quantifier": "all lists of notes, keys and blinds", "why_tests_cant": "all lists", "anchors": ["src/lib.rs: derive_txns_fee_records (540-572)"]}
{"id": "C44", "title": "No double spending across any ledger history", "statement": "For every history of mints and of blocks accepted by a validator that checks nullifiers and roots and verifies notes (record tree of depth at most 100): every accepted note has an opening; no nullifier occurs twice; and, for any choice of openings and provided the tree hash and the record commitment do not collide on the values occurring in the history, every non-dummy input is an inserted record at its position, and no position is spent twice if the secrets used are below the group order and owners are not the identity. Without the condition on secrets it is false: one block can spend a record twice.", "quantifier": "all finite histories of blocks", "why_tests_cant": "histories of any length with adversarial provers", "anchors": ["tests/examples.rs: LedgerStateMock, ValidatorMock (49-495)", "src/lib.rs: txn_batch_verify"]}
{"id": "C45", "title": "Supply changes only by minting", "statement": "For every such history and every asset, the total amount in unspent records, plus for the native asset the fees of blocks whose total fee exceeds 2^128, equals what the test minted plus what mint notes declared, provided the inputs of each transfer have the transferred asset code and the fee of each mint or freeze is covered, two conditions the circuits do not enforce. Without the conditions it is false: an asset never minted appears, and an uncovered fee multiplies the native asset. The native asset itself can be minted by a note in a block.", "quantifier": "all finite histories", "why_tests_cant": "histories of any length", "anchors": ["tests/examples.rs: LedgerStateMock", "src/circuit/*.rs"]}
{"id": "C46", "title": "Stored parameters can be read back", "statement": "Storing then loading parameters at a path returns what was stored, provided no crash happens during the store; storing a proving key with an explicit destination leaves the verifying key, not the proving key, in that file; after a crash during a store the file may be a strict prefix and the old content is lost.", "quantifier": "all contents, paths, crash points", "why_tests_cant": "crash points", "anchors": ["src/parameters.rs: store_*_proving_key, load_*, store_bytes/load_bytes (113-600)"]}
{"id": "C47", "title": "Default parameter paths do not collide", "statement": "The default file names of different parameter kinds or different (kind, role, inputs, outputs, depth) combinations are different.", "quantifier": "all kinds and sizes", "why_tests_cant": "all numbers", "anchors": ["src/parameters.rs: default paths (485-557)"]}
{"id": "C48", "title": "Mint generation is consistent with its public data", "statement": "If mint generation succeeds the note's code is the domestic code derived from the seed and description digest, the minted record has that code, the fee is covered by the native unfrozen input owned by the minter, and the change is exactly input minus fee.", "quantifier": "all mint parameters", "why_tests_cant": "all parameters", "anchors": ["src/mint.rs: generate (90-152)", "src/utils/mod.rs: mint::* (316-360)"]}
{"id": "C49", "title": "API entry points never panic on any input", "statement": "Verification of a note, a batch or a receiver-memo signature, decoding of any byte string, opening a mint memo or a receiver memo, and mint and freeze generation return a result for every argument, provided the external prover and decoders do. Transfer generation does so when every credential has 8 attributes and, in builds with overflow checks, the amounts add up to less than 2^127; opening a transfer memo when the note has a nullifier and a commitment; freeze preprocessing when there is an input; IdentityAttribute::value except for a large padding byte; generate_native when there is an input. Outside these conditions they panic, as does the validator of the integration test on a note without nullifiers.", "quantifier": "all arguments", "why_tests_cant": "all degenerate arguments", "anchors": ["src/transfer.rs: generate_native (147-224)", "src/keys.rs: open_transfer_viewing_memo (389-390)", "src/structs.rs: IdentityAttribute::value (1105-1120)"]}
{"id": "C50", "title": "Encodings of records, policies and credentials", "statement": "The canonical encodings of record openings, asset definitions, user public keys, credentials and viewing memos read back to the same value with any suffix left over; different record openings have different encodings; and a field element has one encoding only: an integer at or above the field order and a short input are refused.", "quantifier": "all values and all byte strings", "why_tests_cant": "all values and all malformed inputs", "anchors": ["src/structs.rs: derive(CanonicalSerialize, CanonicalDeserialize) on RecordOpening, AssetDefinition, AssetPolicy, ExpirableCredential, ViewableMemo", "src/keys.rs: UserPubKey"]}
{"id": "C51", "title": "Generated freeze is well formed", "statement": "If freeze generation succeeds then every returned output equals its input in amount, asset and owner with the flag flipped and a fresh blinding factor; every input was made by the given freezer key; every non-dummy input has a freezer, and is in the tree with the note's root; the fee input is native, unfrozen, owned by the payer and covers the fee, the change is exactly input minus fee to the same key; and the note carries exactly the distinct nullifiers, commitments, root, fee and memo key of its inputs.", "quantifier": "all freeze generation arguments", "why_tests_cant": "any number of inputs, all keys and records", "anchors": ["src/freeze.rs: generate (100-220)", "src/utils/mod.rs: check_fee, check_distinct_input_nullifiers"]}
{"id": "C52", "title": "Blocks: honest building, replay and refusal", "statement": "A block made by collect_fee_and_build_block is valid exactly if its notes are, and its insertion adds the outputs of its notes and one native unfrozen record of exactly the total fee for its maker, and stores the new root; making it fails exactly if the total fee is 2^128 or more. A validator refuses a block that names a nullifier of the ledger, repeats a nullifier, refers to a root the ledger does not know, names another proposer or contains a note accepted before. Checking a transfer note alone or as a block of one note gives the same answer.", "quantifier": "all ledgers, blocks, notes and histories", "why_tests_cant": "all ledger states and block contents", "anchors": ["tests/examples.rs: ValidatorMock::collect_fee_and_build_block, validate_block, validate_txns_batch, validate_single_xfr_note, LedgerStateMock::insert_block"]}
{"id": "C53", "title": "Blocks are bound by their signature", "statement": "The encoding of a block reads back to the same block with any suffix left over and different blocks have different encodings; a signature with which two different blocks are valid exhibits a hash collision or is a signature valid for two messages.", "quantifier": "all blocks, ledgers, signatures", "why_tests_cant": "all pairs of blocks", "anchors": ["tests/examples.rs: Block (215-220), ValidatorMock::validate_block (349-371)", "src/keys.rs: UserPubKey::verify_sig"]}
{"id": "C54", "title": "A viewing memo contains only what the policy reveals", "statement": "Two transfers of one asset whose inputs and outputs agree on whatever the reveal map shows, on which inputs are dummies and on whether the threshold is exceeded get the same viewing memo from the same randomness. For mints the corresponding statement is false: the memo always carries the address and blinding factor of the minted record, whatever the map.", "quantifier": "all pairs of transfers or mints, all reveal maps", "why_tests_cant": "non-interference: compares all pairs of runs", "anchors": ["src/structs.rs: ViewerMemo::new_for_transfer_note, new_for_mint_note"]}
{"id": "C55", "title": "Freezing keeps the policy of a record", "statement": "If records r and r' have the commitments of a pair of an accepted freeze note's opening and these four records show no commitment collision, then r' has the amount, asset code, owner address, viewer, minter credential and freezer keys and threshold of r and the opposite flag, and its reveal map is that of r or, as a 12-bit number, one less if r was unfrozen and one more if r was frozen. The exception is real: an accepted freeze note followed by a note made by the API turns a record that reveals an attribute into one that reveals nothing.", "quantifier": "all accepted freeze notes, all pairs of records", "why_tests_cant": "adversarial witnesses; needs a forged witness to see the exception", "anchors": ["src/circuit/freeze.rs: build_unchecked", "src/circuit/structs.rs: RecordOpeningVar::compute_record_commitment", "src/structs.rs: RecordCommitment::from(&RecordOpening)"]}
{"id": "C56", "title": "The parameter tool makes what is asked for", "statement": "A user of the gen-parameters tool expects a successful run for a named circuit to leave that circuit's keys under the default paths. It holds for transfers and for universal parameters: what is stored is what preprocessing (setup) returns for the given size, and no other file changes. It is false for the other two names: \"freezing\" stores the mint keys and \"mint\" stores the freeze keys, and the keys asked for are not touched.", "quantifier": "all actions, sizes, paths, file-system states", "why_tests_cant": "all arguments and all prior contents of the file system", "anchors": ["src/bin/gen-parameters.rs: main, Circuit::from_str"]}
{"id": "C57", "title": "A wallet knows exactly its unspent records", "statement": "A wallet that scans every block of the ledger, in whatever order its hash tables iterate and whatever payments it makes or fails to make in between, considers unspent exactly the records that it was given, that a memo opened for it or that are change it waited for, and whose nullifiers are not in the ledger. Each is its own, unfrozen and sits at the recorded position of the tree, so that a membership witness can be made for it; the reported balance is the sum of their amounts. Scanning returns exactly if there is one memo per output but the first. The fee record that a proposer collects is the last record of its block.", "quantifier": "all histories of wallet calls, minted records and blocks, in which the nullifiers of the wallet's own records do not collide and none is shown before its record is created", "why_tests_cant": "all interleavings of payments, scans and blocks, all iteration orders", "anchors": ["tests/examples.rs: SimpleUserWalletMock::{available_funds, add_record_opening, scan_txn, scan_block, mark_spent_if_owned, mark_unconfirmed_spent}, LedgerStateMock::insert_block"]}
{"id": "C58", "title": "Native payments go through", "statement": "If the native balance covers amounts and fee, the payment succeeds, the validator accepts the note at any time below 2^20, its fee is the given fee and its memo signature verifies. Every receiver finds the record made for them by scanning the note, and holds it. The sender's balance, after scanning, has changed by exactly the amounts, the fee and what was paid to the sender itself. But a second payment made before the first was scanned uses an input of the first and is rejected after it.", "quantifier": "all wallets in step with a ledger, all lists of receivers and amounts, fees below the balance, all sampled values", "why_tests_cant": "all reachable wallet states and payments", "anchors": ["tests/examples.rs: SimpleUserWalletMock::{spend_native, find_records, scan_txn}, ValidatorMock::validate_single_xfr_note", "src/transfer.rs: TransferNote::generate_native"]}
{"id": "C59", "title": "Payments in other assets go through", "statement": "If the balance of an asset covers the amounts, one native record covers the fee, and the asset's policy and the wallet's credential meet the conditions under which notes can be generated (C35), the payment succeeds, the validator accepts the note until its expiry and its memo signature verifies. Receivers find and hold their records; the sender's balances change by exactly the amounts and the fee, change included. A second payment of the asset made before the first was scanned is rejected after it.", "quantifier": "all wallets in step with a ledger, all asset definitions, receivers, amounts, fees, credentials, sampled values", "why_tests_cant": "all reachable wallet states and payments", "anchors": ["tests/examples.rs: SimpleUserWalletMock::{spend_non_native, find_record_for_fee, find_records, scan_txn}, ValidatorMock::validate_single_xfr_note", "src/transfer.rs: TransferNote::generate_non_native"]}
{"id": "C60", "title": "The issuer mints what it says", "statement": "A new asset gets the code derived from seed and description. The issuer, at every point of a history in which it scans every transaction, holds exactly its unspent records. If a native record covers the fee, a mint of a known asset of less than 2^127 units succeeds and the validator accepts it; the note declares the asset, amount and fee asked for and commits to the record for the receiver, who finds and holds it after a scan; the issuer's balance drops by the fee and nothing else, except for what it minted to itself. Unknown assets cannot be minted. But a second mint with the same fee made before the first was scanned pays with the same record and is rejected after it.", "quantifier": "all histories of issuer calls, minted records and transactions, all assets, amounts, fees, receivers, sampled values", "why_tests_cant": "all reachable issuer states and mints", "anchors": ["tests/examples.rs: AssetIssuerMock::{new, new_asset_definition, mint, scan_txn} (1528-1639)", "src/mint.rs: MintNote::generate"]}
{"id": "C61", "title": "A viewer sees accepted notes", "statement": "From any accepted transfer of its asset above the threshold whose output addresses are points of the group, whoever made the note and its memo, the viewer reads the inputs that are no padding and for each output after the fee change the revealed data of the record behind the commitment, with the position of that commitment; likewise for a mint. The condition on addresses cannot be dropped: the circuit does not check that the coordinates of an output address are those of a point, and an accepted transfer with one further output of amount 0 to such an address is unreadable as a whole. Nor is everything true that a viewer reads: the memo of a transfer of an asset without viewer is not constrained and may describe a transfer of the viewer's asset.", "quantifier": "all accepted notes, with any opening, all reveal maps, numbers of inputs and outputs; adversarial provers", "why_tests_cant": "adversarial witnesses; needs a forged witness to see the exceptions", "anchors": ["tests/examples.rs: ViewerMock::{scan_xfr, scan_mint} (498-552)", "src/keys.rs: ViewerKeyPair::{open_transfer_viewing_memo, open_mint_viewing_memo}", "src/circuit/structs.rs: RecordOpeningVar::new (119-140)", "src/circuit/transfer.rs: build"]}
{"id": "C62", "title": "The freezer knows what it can freeze", "statement": "At every point of a history in which a freezer scans every transaction of its asset, the freezer lists as freezable exactly the unfrozen and as releasable exactly the frozen records of the asset that no freeze note has replaced, each under its owner, with the position at which the tree holds its commitment and without repetition. The asset of a new freezer reveals owner, amount and blinding factor at every amount. The freezer's wallet behaves as any wallet. Scans of transactions of the asset return if the owners are known. But a mint of another asset with the same viewer key is listed as a record of the freezer's asset, or stops the freezer.", "quantifier": "all histories of freezer calls, transfers, mints and freeze notes of any length and with any numbers of inputs and outputs", "why_tests_cant": "all reachable states of freezer and ledger", "anchors": ["tests/examples.rs: FreezerMock::{new, add_user, scan_txn, scan_xfr, scan_mint, scan_freeze} (554-806)", "tests/examples.rs: ViewerMock"]}
{"id": "C63", "title": "Freezing a user", "statement": "If the records listed for a user are unspent and a native record covers the fee, freezing (releasing) the user succeeds and the validator accepts the note; it replaces every listed record by the same amount of the same asset for the same owner with the other flag. After the scan exactly these records have moved from the one book to the other; the owner's wallet no longer holds the replaced records, and after a release holds the released ones. But records spent by their owner stay listed, and from then on every freeze of that owner is rejected; and a second call for a user before the first note is scanned leaves the freezer with openings that are not those in the tree.", "quantifier": "all reachable freezer states, users, fees, numbers of records, sampled values, ledgers", "why_tests_cant": "all reachable states; liveness for every number of listed records", "anchors": ["tests/examples.rs: FreezerMock::{freeze_user, unfreeze_user, freeze_user_internal, scan_freeze} (640-981)", "src/freeze.rs: FreezeNote::generate", "tests/examples.rs: UserWalletMock::scan_txn"]}
{"id": "C64", "title": "Transfer builders keep their parts together", "statement": "After any chain of calls on a parameter builder every input record belongs to the key pair at its position and its membership witness, with that position as its uid, proves it against the builder's current root. The tree always has room for all records, up to 3^38 of them. After a chain that sets amounts, policy, credentials and dummies (policy before dummies) the inputs and outputs are of the builder's asset or dummies worth 0, owned, unfrozen and credentialed; if amounts balance and nullifiers differ, building gives a note with exactly these inputs, outputs and fee that verifies against the builder's root until its expiry, and memos whose signature verifies. Native builders do so, too, ignoring the given expiry and bound data. False beyond: the last index that three calls accept panics; a change of policy after a dummy spoils the dummy; above 3^38 records the tree is too small.", "quantifier": "all chains of builder calls of any length, numbers of inputs and outputs, amounts, keys, policies, sampled values", "why_tests_cant": "all orders and numbers of calls", "anchors": ["src/utils/params_builder.rs: TransferParamsBuilder::{new_native, new_non_native, policy_reveal, set_reveal_threshold, set_reveal_map, set_input_amounts, set_output_amounts, set_input_creds, refresh_merkle_root, update_acc_member_witnesses, update_input_freeze_flag, update_input_asset_def, set_dummy_input_record, build_transfer_note}, calculate_tree_depth", "src/utils/mod.rs: next_power_of_three"]}
{"id": "C65", "title": "Generated transactions verify", "statement": "A random transfer builder gives, for every outcome of its sampling and also after its records were moved to other positions of a larger tree, a note that verifies. So does a mint builder with any parts of the policy revealed, minting the amount asked for and returning the change, and a freeze builder with any flags, whose outputs are the inputs with their flags flipped. A generated list of transactions has the asked for numbers of transfers, mints and freezes in this order; the keys returned for it are of the right kinds, every note verifies with its key against the common root until the common expiry, and the list passes batch verification.", "quantifier": "all sampled values in the sampled ranges, all numbers of jobs that fit the tree, all depths, schedules of the worker threads (they share nothing)", "why_tests_cant": "all numbers of jobs and all sampled values", "anchors": ["src/utils/params_builder.rs: TxnsParams::{generate_txns, get_verifying_keys, get_merkle_roots}, TransferParamsBuilder::rand, MintParamsBuilder::{new, rand, policy_reveal, build_mint_note}, FreezeParamsBuilder::{new, rand, update_input_freeze_flag, update_fee_input_amount, refresh_merkle_root, update_acc_member_witnesses, build_freeze_note}", "src/lib.rs: txn_batch_verify"]}
{"id": "C66", "title": "Every builder call does what its name says or panics", "statement": "In every state reachable by builder calls, each call on the builder of a transfer is either allowed - its index, the numbers of amounts, keys or records it is given and the state of its inputs are in range - and then changes the named records in the named way, keeps numbers, depth and key pairs, and leaves all else alone; or it panics and returns nothing. A new freeze builder has the given amounts, keys and fee and names the given freezers; each call on it changes one record, and afterwards all witnesses, also that of the fee record, are current. A new mint builder defines a domestic asset with the given viewer and panics only on a reserved code. Revealing more adds exactly the named flags.", "quantifier": "all builders reachable by any chain of calls, every call and argument", "why_tests_cant": "all states and arguments, also out of range", "anchors": ["src/utils/params_builder.rs: TransferParamsBuilder, MintParamsBuilder, FreezeParamsBuilder, PolicyRevealAttr"]}
{"id": "C67", "title": "Builders feed the circuits what they describe", "statement": "The witness and public input of a mint builder exist exactly when the fee record is native and pays the fee, and are the described ones; those of a freeze builder exist exactly when the fee is paid and there is a record to freeze, else it panics. The mint circuit is satisfied by them exactly when the fee record is owned, in the tree and unfrozen, the minted record unfrozen, below 2^127 and of the domestic code; the freeze circuit exactly when the fee record is native, unfrozen, owned and in the tree and every record has the freezer of its key and, unless a dummy, a freezer at all and a place in the tree. A satisfied transfer circuit says of the builder that its records are unfrozen, owned, in the tree or dummies worth 0, credentialed, below 2^127 and balanced; builders that give notes satisfy it. Replacing the memo key of a transaction of a generated list changes nothing else and makes this transaction, and every batch with it, fail, while all others still verify.", "quantifier": "all builders, keys, amounts, policies, blinding factors, lists of jobs and positions", "why_tests_cant": "all values of the fields; tests change one field of one sample at a time", "anchors": ["src/utils/params_builder.rs: {MintParamsBuilder, FreezeParamsBuilder, TransferParamsBuilder}::{build_witness, build_witness_and_public_input}, TxnsParams::update_recv_memos_ver_key", "src/circuit/{transfer,mint,freeze}.rs", "src/proof/{transfer,mint,freeze}.rs: from_witness"]}
{"id": "C68", "title": "A wallet that follows the ledger holds exactly its unspent records", "statement": "A wallet that was new when the ledger was and has since scanned every accepted block, while it made payments or failed to, was given records minted by the test or the fee record of its own block, and blocks were refused, holds exactly those of the records it was ever given or paid that no accepted transaction spends; each is its own, unfrozen and sits in the tree at its position. So the conditions under which payments go through (C57-C59) hold of every such wallet, as long as no hash, commitment or nullifier that occurs collides.", "quantifier": "all wallets, all histories of a wallet and a ledger, all blocks and notes by anybody", "why_tests_cant": "all histories of wallet and ledger", "anchors": ["tests/examples.rs: SimpleUserWalletMock (989-1526), LedgerStateMock (49-213), ValidatorMock (238-496)"]}
{"id": "C69", "title": "Nobody else can take a record from a wallet", "statement": "If a wallet holds a record at one point of a history and not at a later one, a transaction accepted in between has an input with the content and position of that record and was made with the secret of the wallet itself; or it is a freeze note, the record has a freezer and the secret is that of the freezer. So a record without a freezer stays with a wallet whose secret is not used.", "quantifier": "all histories, all transactions by anybody, all wallets", "why_tests_cant": "quantifies over all adversarial transactions and histories", "anchors": ["tests/examples.rs: SimpleUserWalletMock (989-1526), LedgerStateMock (49-213), ValidatorMock (238-496)", "src/proof/transfer.rs", "src/proof/mint.rs", "src/proof/freeze.rs"]}
{"id": "C70", "title": "All wallets together hold what was minted", "statement": "For any number of wallets of different users that follow one ledger, the amounts of an asset they hold together, plus for the native asset the fees nobody collected, are at most what was minted, and exactly that if every record of the asset was handed to one of them; under the conditions of C45 on what the circuits do not enforce.", "quantifier": "all ledgers, all sets of wallets, all histories, all assets", "why_tests_cant": "all histories and sets of wallets", "anchors": ["tests/examples.rs: SimpleUserWalletMock (989-1526), LedgerStateMock (49-213), ValidatorMock (238-496)"]}
{"id": "C71", "title": "The benchmarks time valid transactions", "statement": "For every number of inputs and outputs that fits the tree, the benchmark's builder of transfers is made, with one unit of an asset in each input and all of it in the first output, and for any other size it panics. What the benchmarks of transfers, mints and freezes build passes the verification that they time, at the root stated in the note; any number of copies of the three kinds pass together as a batch, also at the last valid time. So what is measured is accepted notes of the stated size.", "quantifier": "all sizes, depths, keys and sampled values", "why_tests_cant": "all sizes and all outcomes of sampling; the benchmark runs a few", "anchors": ["src/bench_utils/mod.rs: get_key_pairs, get_builder_transfer, get_builder_mint, get_builder_freeze", "benches/transfer.rs, benches/mint.rs, benches/freeze.rs, benches/batch_verification.rs"]}
{"id": "C72", "title": "The table of benchmark results", "statement": "The saved table has one row per measurement, in order, with each value under its heading: the values pass through the name of a directory and are recovered by splitting it at dashes. Different measurements have different names. This holds if RAYON_NUM_THREADS is unset or has no dash; with a dash in it every value silently moves one column to the right.", "quantifier": "all lists of measurements, all values, all contents of the environment variable", "why_tests_cant": "all texts and numbers", "anchors": ["src/bench_utils/mod.rs: number_threads, compute_title_simple, compute_title_batch, build_csv_records_simple, build_csv_records_batch, save_results_to_file, save_result_to_file_simple, save_result_to_file_batch"]}
{"id": "C73", "title": "Notes are generated exactly for valid requests", "statement": "Within stated limits (paths as long as the tree is deep, definitions as the API makes them, amounts that add up to less than 2^127), a transfer, mint or freeze is generated if and only if the request is valid: the records are native or of one asset besides, unfrozen, owned by the given keys, members of the tree with one root, with credentials where the policy asks for them; amounts balance with the fee; no nullifier repeats; for mints the code is derived from seed and description; for freezes the keys are those of the policies. What is sampled does not matter. No valid request is refused and no invalid one is served.", "quantifier": "all requests within the limits, all keys, all randomness", "why_tests_cant": "all combinations of records, keys, paths, credentials and amounts", "anchors": ["src/transfer.rs: TransferNote::generate", "src/mint.rs: MintNote::generate", "src/freeze.rs: FreezeNote::generate"]}
{"id": "C74", "title": "Records filed under a wrong position", "statement": "What a wallet pays with is where the wallet filed it: every record that a successful payment spends is the leaf of the tree at its position, if no hash collides; a wallet with only misfiled native records makes no payment. The fee record of a block is the last leaf that the block adds. The proposer of the integration test files it under another position, that of an output of the block, so that the collected fees are shown in its balance but cannot be spent.", "quantifier": "all wallets, ledgers, blocks and payments", "why_tests_cant": "all ledgers and blocks; the test checks the balance, and never spends the fee", "anchors": ["tests/examples.rs: collect_fee_and_build_block, LedgerStateMock::insert_block, UserWallet::add_record_opening, UserWallet::spend_native, UserWallet::spend_non_native, example_fee_collection_and_batch_verification, example_mint"]}
{"id": "C75", "title": "One encoding per value", "statement": "A transaction, record, asset definition, key, credential, memo, verifying key or block is read from one sequence of bytes only, its own encoding: whatever bytes are accepted are the encoding of the value returned, followed by what was not read. So two messages that are the same transaction are the same message, and the transaction commitment hashes exactly what was received. Amounts, reveal maps, flags and field elements have this without condition, the others as far as the points, keys and proofs in them have one encoding. Reading returns a value or an error for every sequence of bytes.", "quantifier": "all byte sequences and all values", "why_tests_cant": "tests decode what the encoder produced; here the bytes come from anyone", "anchors": ["src/lib.rs: CanonicalDeserialize for TransactionNote, CanonicalDeserialize for TransactionVerifyingKey, Committable for TransactionNote", "src/structs.rs: CanonicalDeserialize for Amount, RevealMap, FreezeFlag, AssetPolicy, AssetDefinition, RecordOpening, ExpirableCredential, ViewableMemo", "tests/examples.rs: Block"]}
{"id": "C76", "title": "Text forms of keys, records and codes", "statement": "The text of a value (tag, ~, base64) is read back as the value. A text of one kind is refused wherever another kind is expected, whatever the two types are: a public key is never read as a secret key, nor a commitment as a nullifier. The texts that can be read are exactly those that could be written, so a changed character is another value or an error, and reading returns for every text. A generated freezer key pair is read back; the halves of a pair are not compared when it is read.", "quantifier": "all texts, kinds, values and checksum functions", "why_tests_cant": "all texts and all pairs of kinds; tests round-trip a few values", "anchors": ["src/keys.rs: tagged_blob types, FreezerKeyPair", "src/structs.rs: tagged_blob types", "src/lib.rs: TransactionVerifyingKey"]}
{"id": "C77", "title": "Amounts as text, arithmetic on amounts", "statement": "An amount is printed in decimal and read back as itself. Reading accepts exactly an optional plus sign followed by decimal digits that denote a number below 2^128, and returns that number: nothing else is accepted and nothing wraps. Apart from the sign and leading zeros an amount has one text. Adding, subtracting, multiplying, dividing and summing are exact whenever the exact result is an amount; otherwise they panic, or wrap in a build without overflow checks. The hexadecimal form consists of the digits 0-9 and a-f, denotes the amount, has no leading zero, and two amounts never have the same one.", "quantifier": "all texts, amounts and lists of amounts", "why_tests_cant": "all texts and the whole 128-bit range, not a few samples", "anchors": ["src/structs.rs: Amount (Display, FromStr, Add, Sub, Mul, Div, Rem, Sum)"]}
{"id": "C78", "title": "Constants taken from the curve", "statement": "For each of the three configurations that can be selected (bn254, bls12_377, bls12_381) a field element occupies 32 bytes and an attribute may have 30. In any field of 253 to 255 bits 32 bytes hold every element and no smaller number does; an attribute of full length together with its padding byte is below the order of the field, so that no two attributes are identified, whereas full 32-byte strings can be; the native, dummy and default asset codes are different; and sums of up to 2^124 amounts do not wrap around in the field.", "quantifier": "all supported curves, all field elements, all byte strings, all lists of amounts", "why_tests_cant": "the unit tests are compiled for one curve at a time and try a few values", "anchors": ["src/config.rs: CapConfig::SCALAR_REPR_BYTE_LEN, PER_ATTR_BYTE_CAPACITY, native_asset_code, dummy_asset_code", "src/config.rs: Config for bn254, bls12_377, bls12_381"]}
{"id": "C79", "title": "Keys and parameter sizes for every shape", "statement": "With sufficient parameters keys can be generated exactly for transfers with at least one input and one output, for mints, and for freezes with at least two inputs, at every depth of the tree. compute_universal_param_size returns for exactly these shapes, and what it returns is two more than the domain size of the circuit of every note of that shape, whatever its records, keys, policy and expiry; the arguments documented as ignored are ignored. Other shapes are refused with an error, except that a freeze without any input panics.", "quantifier": "all note types, numbers of inputs and outputs, depths and witnesses", "why_tests_cant": "all shapes, and all witnesses of a shape", "anchors": ["src/utils/mod.rs: compute_universal_param_size", "src/proof/transfer.rs: preprocess", "src/proof/mint.rs: preprocess", "src/proof/freeze.rs: preprocess", "src/circuit/transfer.rs: build_for_preprocessing", "src/circuit/mint.rs: build_for_preprocessing", "src/circuit/freeze.rs: build_for_preprocessing"]}
{"id": "C80", "title": "Values kept in collections", "statement": "Two freezer keys are equal exactly if they are the same point, in whatever coordinates each of them is stored, and then they have the same hash and the same scalars. For every type of the library that is used as a key (keys, policies, definitions, record openings, with their positions, nullifiers, codes) equality is an equivalence and equal values have equal hashes, so that after any sequence of insertions and removals a hash map returns what was last stored under an equal key. Codes, nullifiers and amounts are totally ordered in agreement with equality; the library's checks for repeated nullifiers and for balances, which rely on that order, find exactly the repetitions and imbalances.", "quantifier": "all coordinates, values, histories of a map, hashers and table sizes", "why_tests_cant": "all representations of a point and all histories of a collection", "anchors": ["src/keys.rs: FreezerPubKey, FreezerKeyPair (PartialEq, Hash)", "src/structs.rs: derived PartialEq, Hash, Ord", "src/utils/mod.rs: check_distinct_input_nullifiers, check_asset_amount", "tests/examples.rs: HashMap and HashSet fields"]}
{"id": "C81", "title": "Transactions do not disturb each other", "statement": "A block is valid exactly if every one of its transactions is valid alone and no nullifier occurs twice in it. So the order of the transactions in a block does not matter for its validity; afterwards the ledger has the same nullifiers, the same commitments in another order and the same fee record. Transactions that are valid in one block are valid in two consecutive blocks, and conversely if those of the second block refer to roots the ledger already had. A valid transaction that waits while anything else happens stays valid exactly until it expires or a transaction with one of its nullifiers is accepted. Of two transactions with a common nullifier at most one is ever accepted, and that once.", "quantifier": "all ledgers, lists of transactions and their permutations, all ways to cut a list in two, and all histories of mints and blocks (valid or not) that happen while a transaction waits", "why_tests_cant": "The number of orders, groupings and interleavings is unbounded; the integration test builds a few blocks in one fixed order.", "anchors": ["tests/examples.rs: ValidatorMock::validate_txns_batch, ValidatorMock::check_txn_input_nullifiers, ValidatorMock::validate_block, ValidatorMock::collect_fee_and_build_block, LedgerStateMock::insert_block, LedgerStateMock::check_valid_root", "src/lib.rs: txn_batch_verify, calculate_fee"]}
{"id": "C82", "title": "Others cannot block a payment", "statement": "A payment that a wallet following the ledger has made, and that the ledger would accept, stays acceptable until it expires whatever others do on the ledger meanwhile. It can only become unacceptable through a transaction that spends one of the records of the wallet with the own secret of the wallet, a freeze made with the secret of the freezer of such a record, or a transaction that shows the nullifier of the dummy record sampled for the payment. In particular a payment in the native asset that the balance covers is accepted at any later time before 2^20 if the secret of the wallet was not used meanwhile and that dummy nullifier was not shown.", "quantifier": "all wallets that followed the ledger through any history, all payments, and all histories of mints and blocks (valid or not, by anybody) that happen while the payment waits", "why_tests_cant": "Other users are adversaries who may submit any notes in any order; a test has a few honest users.", "anchors": ["tests/examples.rs: SimpleUserWalletMock::spend_native, SimpleUserWalletMock::spend_non_native, ValidatorMock::validate_txns_batch, LedgerStateMock", "src/transfer.rs: TransferNote::verify", "src/structs.rs: Nullifier", "src/keys.rs: UserKeyPair::nullify"]}
{"id": "C83", "title": "Every asset in circulation was minted", "statement": "Whenever a record of a positive amount exists on the ledger, its asset was minted before: the history contains a mint of a positive amount with the same asset code and, unless it is the native asset, the same viewer key, issuer key, freezer key and threshold. So nobody can put an asset into circulation, or an asset with a policy of their own under the code of somebody else, except by a mint. Assumed, as for the supply: inputs of a transfer have its asset code, fees are covered, secrets are reduced. For native records the keys are not fixed: a transfer can give native outputs any policy, including a freezer of its own choice.", "quantifier": "all histories of mints and blocks, all records on the ledger at any time", "why_tests_cant": "The record may be any number of transfers, freezes and blocks away from its mint; a test follows one chain of notes, and forged notes are not made by the API.", "anchors": ["src/circuit/transfer.rs: TransferCircuit::build", "src/circuit/mint.rs: MintCircuit::build", "src/circuit/freeze.rs: FreezeCircuit::build", "src/circuit/gadgets.rs", "src/transfer.rs: TransferNote::verify", "src/lib.rs: calculate_fee", "tests/examples.rs: LedgerStateMock, ValidatorMock"]}
{"id": "C84", "title": "Frozen records stay until their freezer releases them", "statement": "A record that is frozen on the ledger cannot be spent by its owner or anybody else: whatever is accepted later, the only transaction that consumes it is a freeze note made with the secret of the freezer named in its policy, and this note puts a record of the same owner, amount, asset and policy keys in its place. While nobody uses that secret the record remains unspent.", "quantifier": "all histories of mints and blocks, all frozen records and all later transactions", "why_tests_cant": "The owner may try any transaction, including forged ones with wrong flags, another policy or as fee payment; tests try a few of them.", "anchors": ["src/circuit/freeze.rs: FreezeCircuit::build", "src/circuit/transfer.rs: TransferCircuit::build", "src/circuit/mint.rs: MintCircuit::build", "src/structs.rs: RecordOpening::derive_record_commitment", "src/structs.rs: FreezeFlag", "src/freeze.rs: FreezeNote", "tests/examples.rs: LedgerStateMock, ValidatorMock"]}
{"id": "C85", "title": "The size of a transaction shows only its shape", "statement": "The number of bytes of an encoded transaction made by the library is a function of its kind, of the numbers of its inputs and outputs and of the length of the data bound to it. It does not depend on the asset, policy, amounts, fee, owners, credentials, expiry or threshold, on whether inputs are dummies, nor on whether a viewer can read anything. The same holds for every transaction that verifies, however it was made, if its proof has the size of a proof. What is encrypted for a receiver has the same size for every record.", "quantifier": "all requests, all random choices, all notes accepted for some key", "why_tests_cant": "Sizes would have to be compared for all pairs of requests; a test sees a few encodings, all of the same policy.", "anchors": ["src/transfer.rs: TransferNote, AuxInfo", "src/mint.rs: MintNote, MintAuxInfo", "src/freeze.rs: FreezeNote, FreezeAuxInfo", "src/structs.rs: ViewableMemo::new_for_transfer_note, ViewableMemo::new_for_mint_note, RevealMap, RecordOpening", "src/lib.rs: TransactionNote"]}
{"id": "C86", "title": "A ledger of transactions made with this library needs no side conditions", "statement": "If every transaction that a validator accepts was returned by transfer generation, mint generation or freeze generation (with the proving keys for trees of that depth), then each of them spends exactly the records offered to the call and creates exactly the records asked for; and for the whole history: no record is spent twice, for every asset the unspent records hold exactly what was minted, and every record of a positive amount is of an asset, with a policy, that was minted. Nothing else has to be assumed about secrets, asset codes or fees: the checks of the constructors imply the conditions that the circuits leave out.", "quantifier": "Every sequence of mints and blocks, every choice of inputs, outputs, keys, randomness and fees for which the constructors succeed; hash collisions among the occurring values and the neutral public key as owner are excluded.", "why_tests_cant": "It combines the checks of three constructors with an invariant over histories of any length; a test runs one history.", "anchors": ["src/transfer.rs: TransferNote::generate_native, generate_non_native", "src/mint.rs: MintNote::generate", "src/freeze.rs: FreezeNote::generate", "src/utils/mod.rs", "tests/examples.rs: MockLedger, Validator"]}
{"id": "C87", "title": "Exactly the sound policies can be built, and random test policies are among them", "statement": "A policy is the result of some sequence of the public setters and reveal calls, with keys other than the default one, exactly when it reveals fields only to a set viewer key, attributes only with a set issuer key, and both coordinates of the user address or neither. For secrets other than zero every random policy of the test helpers is such a policy, whatever the random generator returns; the random reveal maps are exactly those whose two address flags agree; and the amounts of up to 2^63 random records never exceed what one transaction can hold.", "quantifier": "Every policy, every sequence of builder calls, every outcome of the random generator, every list of up to 2^63 random records.", "why_tests_cant": "Reachability quantifies over all call sequences and the random helpers over all random streams; tests draw a few.", "anchors": ["src/structs.rs: AssetPolicy::{set_viewer_pub_key, set_cred_creator_pub_key, set_freezer_pub_key, set_reveal_threshold, reveal_user_address, reveal_amount, reveal_blinding_factor, reveal_ith_attribute, reveal_all_attributes, reveal_record_opening, reveal_all}", "src/utils/params_builder.rs: RevealMap::rand_for_test, AssetPolicy::rand_for_test, AssetDefinition::rand_for_test, RecordOpening::rand_for_test"]}
{"id": "C88", "title": "Units never change their policy, although a code does not fix it", "statement": "For every asset code other than the native one and every policy (keys and threshold), the unspent records of that code under that policy hold exactly what was minted of the code under that policy, at every point of every history of the ledger: a holder cannot move units out from under a viewer, an issuer or a freezer, even if the same code was also minted without them. If all mints of a code name the same policy, all records of it do. The code alone does not fix the policy: with the same seed and description the library makes mints of one code under different policies, and both are accepted.", "quantifier": "Every history of blocks and mints in which no two occurring records collide in their hash, every asset code, every policy.", "why_tests_cant": "The claim is a sum over all records of a ledger after any number of blocks, for every code and policy.", "anchors": ["src/mint.rs: MintNote::generate", "src/transfer.rs: TransferNote::generate_non_native", "src/freeze.rs: FreezeNote::generate", "src/circuit/transfer.rs: TransferCircuit::build", "src/circuit/mint.rs: MintCircuit::build", "src/circuit/freeze.rs: FreezeCircuit::build", "src/structs.rs: AssetCode::new_domestic"]}
{"id": "C89", "title": "The parameter directory after any history of stores and crashes", "statement": "After any sequence of calls of the seven store functions with their default destination, each of which the operating system may stop after any number of its steps, a load function that does not return an error returns what preprocessing gave, for exactly the sizes asked for, in one of these calls; it never returns a mixture or the key of another shape. If a store call returned without error, its files are read back unchanged until another call for the same file. No call touches any file other than its own. The two keys of one shape need not belong together: after a store that was stopped between its two files, the proving key is the new one and the verifying key the old one.", "quantifier": "Every history of store calls for any sizes and reference strings, every point at which each call may be stopped, every file.", "why_tests_cant": "The claim ranges over histories of calls and over the crash point of each of them.", "anchors": ["src/parameters.rs: store_universal_parameter_for_demo", "src/parameters.rs: store_transfer_proving_key", "src/parameters.rs: store_mint_proving_key", "src/parameters.rs: store_freeze_proving_key", "src/parameters.rs: load_transfer_proving_key", "src/parameters.rs: load_mint_verifying_key", "src/parameters.rs: load_freeze_verifying_key", "src/parameters.rs: store_data", "src/parameters.rs: load_data"]}
{"id": "C90", "title": "Only the holder of the seed can mint an asset, unless notes are verified in batches", "statement": "A mint note that is accepted on its own was made with a seed and a description digest from which the code of its asset is derived, and two such notes for one code were made with the same seed and digest, up to hash collisions between the two. In a ledger that checks the code of each mint in its blocks, every record of a positive amount is of an asset that was set up at the start or whose code some mint derived from its maker's seed. Batch verification leaves the check out: a ledger that verifies blocks with txn_batch_verify, like that of the integration test, accepts mints of anybody's asset made with any seed.", "quantifier": "Every mint note, every pair of mint notes, every history of blocks in which no two occurring values collide.", "why_tests_cant": "The claim is about every note that verifies, including those that were not made with the library, and about every ledger history.", "anchors": ["src/mint.rs: MintNote::verify", "src/lib.rs: txn_batch_verify", "src/structs.rs: AssetCode::verify_domestic", "src/structs.rs: AssetCode::new_domestic_from_digest", "src/circuit/mint.rs: MintCircuit::build", "tests/examples.rs: ValidatorMock::validate_txns_batch"]}
