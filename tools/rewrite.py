import json
P='/verif/properties.jsonl'
L=[json.loads(l) for l in open(P)]
D={o['id']:o for o in L}
S={
"C06":"Starting from the empty policy and applying any sequence of the public setters and reveal_* calls (failed calls leave the policy as it was): each key and the threshold is the argument of the last call that set it, and the default if none did; the four queries say whether the field differs from its default. If the keys set are not the default key, a reveal bit is set only if a viewer key is set, an attribute bit only if a credential-issuer key is set too, and the two address bits are always equal. Without that restriction the last part is false, because a setter can put the default key back.",
"C11":"The internal code is the pseudorandom function, keyed by the seed, of the digest of the description, and the domestic code is the hash of a prefix and the internal code. verify_domestic/verify_foreign accept a code exactly when it is the code derived from the given seed data / description; the byte strings hashed for a domestic and for a foreign code are never equal and each determines its input, so one code can be both, or come from two inputs, only through a hash collision.",
'C39':"In any satisfying assignment of the freeze circuit every non-fee output equals the corresponding input in amount, owner, asset code and policy with the flag flipped; every non-dummy input is in the tree and has a non-identity freezer key of which the prover knows the secret; the fee pair is native and unfrozen. The reveal map of a witness is a field element that is not range-checked; what that means for records is C55.",
'C15':"A user expects that any two satisfying spend proofs of the same record at the same position, by the owner or by the freezer, expose the same nullifier. The circuits provide it when the secret scalars used are below the order of the embedded group, the owner's address is not the identity and the record is not a dummy. They do not provide it in general: two accepted mint notes can spend the same record at the same position with different nullifiers by using a secret and that secret plus the group order, and the freezer of a record owned by the identity address derives a nullifier different from the owner's.",
'C23':"For notes with the same numbers of nullifiers and outputs, equal public-input lists imply equal root, fee, expiry, nullifiers, commitments and memo. The numbers are not themselves bound: the boundary between nullifiers and commitments can be moved without changing the list, and verify does not compare the numbers with the verifying key, so two different notes with the same proof both verify.",
'C26':"A user expects every non-fee, non-dummy input of an accepted transfer to have the asset code of the non-fee outputs. The circuit does not provide it: it compares only the policy, and a record of one asset can be turned into a record of another asset with an equal policy. What it provides is that all non-fee outputs have one asset code and one policy, that every non-fee, non-dummy input has that policy, and that the fee input and change are native.",
'C28':"A user expects that, if the transferred asset's policy names a credential issuer, every non-dummy input carries an unexpired credential signed by that issuer for that owner. Neither the API nor the circuit provides it: the issuer key and the subject address are never compared, and a transfer with a credential issued by another key to another user is accepted. What is provided is that for every such input some signature by some key on data unexpired at valid_until, within a window of 2^20, verifies.",
'C32':"Opening a mint note's memo with the viewer's key returns the minted asset code, and the amount, owner address and blind of the minted record each exactly when the policy reveals it.",
'C38':"A user expects the fee of an accepted mint or freeze note to be at most the fee input's amount. The circuits do not provide it: the change is not range-checked, so a fee larger than the input is accepted with a change record of negative amount modulo the field order. What holds is that if the change amount is below 2^128 then the fee input equals fee plus change over the integers.",
'C40':"For non-empty batches with keys of the right kinds: every note passes its own verification with the corresponding key, root and timestamp exactly if txn_batch_verify accepts the batch and in addition every mint note's asset code is the domestic code derived from its internal code. The addition cannot be dropped: txn_batch_verify leaves out the asset-code check, and accepts a mint of the native asset that the note's own verification refuses.",
'C43':"derive_txns_fee_records returns one native unfrozen record commitment per given fee with exactly that fee, the corresponding collector and the corresponding blinding factor, and fails exactly for the empty list or a length mismatch.",
'C36':"TransferNote::verify accepts only if the note's root is the given root, the timestamp is not after valid_until and the proof verifies for exactly the note's public data, memo verification key and extra proof-bound data; altering any field of an honestly generated transfer, mint or freeze note other than the proof makes it rejected, as long as the numbers of nullifiers and of outputs are kept.",
'C35':"A transfer produced by generation verifies under the matching verifying key, its own root and any timestamp not after valid_until; so does a generated mint of an amount below 2^127, and a generated freeze whose membership paths have the key's depth. Transfer generation succeeds whenever the API preconditions hold, amounts stay below 2^127, the policy is one the circuit can express and valid_until is below 2^20 with the credential windows fitting 20 bits; an expiry of 2^20 or later always makes it fail.",
'C49':"Verification of a note, a batch or a receiver-memo signature, decoding of any byte string, opening a mint memo or a receiver memo, and mint and freeze generation return a result for every argument, provided the external prover and decoders do. Transfer generation does so when every credential has 8 attributes and, in builds with overflow checks, the amounts add up to less than 2^127; opening a transfer memo when the note has a nullifier and a commitment; freeze preprocessing when there is an input; IdentityAttribute::value except for a large padding byte; generate_native when there is an input. Outside these conditions they panic, as does the validator of the integration test on a note without nullifiers.",
"C44":"For every history of mints and of blocks accepted by a validator that checks nullifiers and roots and verifies notes (record tree of depth at most 100): every accepted note has an opening; no nullifier occurs twice; and, for any choice of openings and provided the tree hash and the record commitment do not collide on the values occurring in the history, every non-dummy input is an inserted record at its position, and no position is spent twice if the secrets used are below the group order and owners are not the identity. Without the condition on secrets it is false: one block can spend a record twice.",
"C45":"For every such history and every asset, the total amount in unspent records, plus for the native asset the fees of blocks whose total fee exceeds 2^128, equals what the test minted plus what mint notes declared, provided the inputs of each transfer have the transferred asset code and the fee of each mint or freeze is covered, two conditions the circuits do not enforce. Without the conditions it is false: an asset never minted appears, and an uncovered fee multiplies the native asset. The native asset itself can be minted by a note in a block.",
}
for k,v in S.items(): D[k]['statement']=v
def add(id,title,statement,quantifier,why,anchors):
    if id not in D:
        o=dict(id=id,title=title,statement=statement,quantifier=quantifier,why_tests_cant=why,anchors=anchors); D[id]=o; L.append(o)
add('C50','Encodings of records, policies and credentials','The canonical encodings of record openings, asset definitions, user public keys, credentials and viewing memos read back to the same value with any suffix left over; different record openings have different encodings; and a field element has one encoding only: an integer at or above the field order and a short input are refused.','all values and all byte strings','all values and all malformed inputs',['src/structs.rs: derive(CanonicalSerialize, CanonicalDeserialize) on RecordOpening, AssetDefinition, AssetPolicy, ExpirableCredential, ViewableMemo','src/keys.rs: UserPubKey'])
add('C51','Generated freeze is well formed','If freeze generation succeeds then every returned output equals its input in amount, asset and owner with the flag flipped and a fresh blinding factor; every input was made by the given freezer key; every non-dummy input has a freezer, and is in the tree with the note\'s root; the fee input is native, unfrozen, owned by the payer and covers the fee, the change is exactly input minus fee to the same key; and the note carries exactly the distinct nullifiers, commitments, root, fee and memo key of its inputs.','all freeze generation arguments','any number of inputs, all keys and records',['src/freeze.rs: generate (100-220)','src/utils/mod.rs: check_fee, check_distinct_input_nullifiers'])
add('C52','Blocks: honest building, replay and refusal','A block made by collect_fee_and_build_block is valid exactly if its notes are, and its insertion adds the outputs of its notes and one native unfrozen record of exactly the total fee for its maker, and stores the new root; making it fails exactly if the total fee is 2^128 or more. A validator refuses a block that names a nullifier of the ledger, repeats a nullifier, refers to a root the ledger does not know, names another proposer or contains a note accepted before. Checking a transfer note alone or as a block of one note gives the same answer.','all ledgers, blocks, notes and histories','all ledger states and block contents',['tests/examples.rs: ValidatorMock::collect_fee_and_build_block, validate_block, validate_txns_batch, validate_single_xfr_note, LedgerStateMock::insert_block'])
add('C53','Blocks are bound by their signature','The encoding of a block reads back to the same block with any suffix left over and different blocks have different encodings; a signature with which two different blocks are valid exhibits a hash collision or is a signature valid for two messages.','all blocks, ledgers, signatures','all pairs of blocks',['tests/examples.rs: Block (215-220), ValidatorMock::validate_block (349-371)','src/keys.rs: UserPubKey::verify_sig'])
add('C54','A viewing memo contains only what the policy reveals','Two transfers of one asset whose inputs and outputs agree on whatever the reveal map shows, on which inputs are dummies and on whether the threshold is exceeded get the same viewing memo from the same randomness. For mints the corresponding statement is false: the memo always carries the address and blinding factor of the minted record, whatever the map.','all pairs of transfers or mints, all reveal maps','non-interference: compares all pairs of runs',['src/structs.rs: ViewerMemo::new_for_transfer_note, new_for_mint_note'])
add('C55','Freezing keeps the policy of a record','If records r and r\' have the commitments of a pair of an accepted freeze note\'s opening and these four records show no commitment collision, then r\' has the amount, asset code, owner address, viewer, minter credential and freezer keys and threshold of r and the opposite flag, and its reveal map is that of r or, as a 12-bit number, one less if r was unfrozen and one more if r was frozen. The exception is real: an accepted freeze note followed by a note made by the API turns a record that reveals an attribute into one that reveals nothing.','all accepted freeze notes, all pairs of records','adversarial witnesses; needs a forged witness to see the exception',['src/circuit/freeze.rs: build_unchecked','src/circuit/structs.rs: RecordOpeningVar::compute_record_commitment','src/structs.rs: RecordCommitment::from(&RecordOpening)'])
add('C56','The parameter tool makes what is asked for','A user of the gen-parameters tool expects a successful run for a named circuit to leave that circuit\'s keys under the default paths. It holds for transfers and for universal parameters: what is stored is what preprocessing (setup) returns for the given size, and no other file changes. It is false for the other two names: "freezing" stores the mint keys and "mint" stores the freeze keys, and the keys asked for are not touched.','all actions, sizes, paths, file-system states','all arguments and all prior contents of the file system',['src/bin/gen-parameters.rs: main, Circuit::from_str'])
add('C57','A wallet knows exactly its unspent records','A wallet that scans every block of the ledger, in whatever order its hash tables iterate and whatever payments it makes or fails to make in between, considers unspent exactly the records that it was given, that a memo opened for it or that are change it waited for, and whose nullifiers are not in the ledger. Each is its own, unfrozen and sits at the recorded position of the tree, so that a membership witness can be made for it; the reported balance is the sum of their amounts. Scanning returns exactly if there is one memo per output but the first. The fee record that a proposer collects is the last record of its block.','all histories of wallet calls, minted records and blocks, in which the nullifiers of the wallet\'s own records do not collide and none is shown before its record is created','all interleavings of payments, scans and blocks, all iteration orders',['tests/examples.rs: SimpleUserWalletMock::{available_funds, add_record_opening, scan_txn, scan_block, mark_spent_if_owned, mark_unconfirmed_spent}, LedgerStateMock::insert_block'])
add('C58','Native payments go through','If the native balance covers amounts and fee, the payment succeeds, the validator accepts the note at any time below 2^20, its fee is the given fee and its memo signature verifies. Every receiver finds the record made for them by scanning the note, and holds it. The sender\'s balance, after scanning, has changed by exactly the amounts, the fee and what was paid to the sender itself. But a second payment made before the first was scanned uses an input of the first and is rejected after it.','all wallets in step with a ledger, all lists of receivers and amounts, fees below the balance, all sampled values','all reachable wallet states and payments',['tests/examples.rs: SimpleUserWalletMock::{spend_native, find_records, scan_txn}, ValidatorMock::validate_single_xfr_note','src/transfer.rs: TransferNote::generate_native'])
add('C59','Payments in other assets go through','If the balance of an asset covers the amounts, one native record covers the fee, and the asset\'s policy and the wallet\'s credential meet the conditions under which notes can be generated (C35), the payment succeeds, the validator accepts the note until its expiry and its memo signature verifies. Receivers find and hold their records; the sender\'s balances change by exactly the amounts and the fee, change included. A second payment of the asset made before the first was scanned is rejected after it.','all wallets in step with a ledger, all asset definitions, receivers, amounts, fees, credentials, sampled values','all reachable wallet states and payments',['tests/examples.rs: SimpleUserWalletMock::{spend_non_native, find_record_for_fee, find_records, scan_txn}, ValidatorMock::validate_single_xfr_note','src/transfer.rs: TransferNote::generate_non_native'])
add('C60','The issuer mints what it says','A new asset gets the code derived from seed and description. The issuer, at every point of a history in which it scans every transaction, holds exactly its unspent records. If a native record covers the fee, a mint of a known asset of less than 2^127 units succeeds and the validator accepts it; the note declares the asset, amount and fee asked for and commits to the record for the receiver, who finds and holds it after a scan; the issuer\'s balance drops by the fee and nothing else, except for what it minted to itself. Unknown assets cannot be minted. But a second mint with the same fee made before the first was scanned pays with the same record and is rejected after it.','all histories of issuer calls, minted records and transactions, all assets, amounts, fees, receivers, sampled values','all reachable issuer states and mints',['tests/examples.rs: AssetIssuerMock::{new, new_asset_definition, mint, scan_txn} (1528-1639)','src/mint.rs: MintNote::generate'])
add('C61','A viewer sees accepted notes','From any accepted transfer of its asset above the threshold whose output addresses are points of the group, whoever made the note and its memo, the viewer reads the inputs that are no padding and for each output after the fee change the revealed data of the record behind the commitment, with the position of that commitment; likewise for a mint. The condition on addresses cannot be dropped: the circuit does not check that the coordinates of an output address are those of a point, and an accepted transfer with one further output of amount 0 to such an address is unreadable as a whole. Nor is everything true that a viewer reads: the memo of a transfer of an asset without viewer is not constrained and may describe a transfer of the viewer\'s asset.','all accepted notes, with any opening, all reveal maps, numbers of inputs and outputs; adversarial provers','adversarial witnesses; needs a forged witness to see the exceptions',['tests/examples.rs: ViewerMock::{scan_xfr, scan_mint} (498-552)','src/keys.rs: ViewerKeyPair::{open_transfer_viewing_memo, open_mint_viewing_memo}','src/circuit/structs.rs: RecordOpeningVar::new (119-140)','src/circuit/transfer.rs: build'])
add('C62','The freezer knows what it can freeze','At every point of a history in which a freezer scans every transaction of its asset, the freezer lists as freezable exactly the unfrozen and as releasable exactly the frozen records of the asset that no freeze note has replaced, each under its owner, with the position at which the tree holds its commitment and without repetition. The asset of a new freezer reveals owner, amount and blinding factor at every amount. The freezer\'s wallet behaves as any wallet. Scans of transactions of the asset return if the owners are known, and blocks are scanned with the positions at which the ledger stores them. But a mint of another asset with the same viewer key is listed as a record of the freezer\'s asset, or stops the freezer.','all histories of freezer calls, transfers, mints and freeze notes of any length and with any numbers of inputs and outputs','all reachable states of freezer and ledger',['tests/examples.rs: FreezerMock::{new, add_user_key, scan_block, scan_txn, scan_xfr, scan_mint, scan_freeze} (601-806)','tests/examples.rs: ViewerMock'])
add('C63','Freezing a user','If the records listed for a user are unspent and a native record covers the fee, freezing (releasing) the user succeeds and the validator accepts the note; it replaces every listed record by the same amount of the same asset for the same owner with the other flag. After the scan exactly these records have moved from the one book to the other; the owner\'s wallet no longer holds the replaced records, and after a release holds the released ones. But records spent by their owner stay listed, and from then on every freeze of that owner is rejected; and a second call for a user before the first note is scanned leaves the freezer with openings that are not those in the tree.','all reachable freezer states, users, fees, numbers of records, sampled values, ledgers','all reachable states; liveness for every number of listed records',['tests/examples.rs: FreezerMock::{freeze_user, unfreeze_user, freeze_user_internal, scan_freeze} (765-981)','src/freeze.rs: FreezeNote::generate','tests/examples.rs: UserWalletMock::scan_txn'])
add('C64','Transfer builders keep their parts together','After any chain of calls on a parameter builder every input record belongs to the key pair at its position and its membership witness, with that position as its uid, proves it against the builder\'s current root. The tree always has room for all records, up to 3^38 of them. After a chain that sets amounts, policy, credentials and dummies (policy before dummies) the inputs and outputs are of the builder\'s asset or dummies worth 0, owned, unfrozen and credentialed; if amounts balance and nullifiers differ, building gives a note with exactly these inputs, outputs and fee that verifies against the builder\'s root until its expiry, and memos whose signature verifies. Native builders do so, too, ignoring the given expiry and bound data. False beyond: the last index that three calls accept panics; a change of policy after a dummy spoils the dummy; above 3^38 records the tree is too small.','all chains of builder calls of any length, numbers of inputs and outputs, amounts, keys, policies, sampled values','all orders and numbers of calls',['src/utils/params_builder.rs: TransferParamsBuilder::{new_native, new_non_native, policy_reveal, set_reveal_threshold, set_reveal_map, set_input_amounts, set_output_amounts, set_input_creds, refresh_merkle_root, update_acc_member_witnesses, update_input_freeze_flag, update_input_asset_def, set_dummy_input_record, build_transfer_note}, calculate_tree_depth','src/utils/mod.rs: next_power_of_three'])
add('C65','Generated transactions verify','A random transfer builder gives, for every outcome of its sampling and also after its records were moved to other positions of a larger tree, a note that verifies. So does a mint builder with any parts of the policy revealed, minting the amount asked for and returning the change, and a freeze builder with any flags, whose outputs are the inputs with their flags flipped. A generated list of transactions has the asked for numbers of transfers, mints and freezes in this order; the keys returned for it are of the right kinds, every note verifies with its key against the common root until the common expiry, and the list passes batch verification.','all sampled values in the sampled ranges, all numbers of jobs that fit the tree, all depths, schedules of the worker threads (they share nothing)','all numbers of jobs and all sampled values',['src/utils/params_builder.rs: TxnsParams::{generate_txns, get_verifying_keys, get_merkle_roots}, TransferParamsBuilder::rand, MintParamsBuilder::{new, rand, policy_reveal, build_mint_note}, FreezeParamsBuilder::{new, rand, update_input_freeze_flag, update_fee_input_amount, refresh_merkle_root, update_acc_member_witnesses, build_freeze_note}','src/lib.rs: txn_batch_verify'])
add('C66','Every builder call does what its name says or panics','In every state reachable by builder calls, each call on the builder of a transfer is either allowed - its index, the numbers of amounts, keys or records it is given and the state of its inputs are in range - and then changes the named records in the named way, keeps numbers, depth and key pairs, and leaves all else alone; or it panics and returns nothing. A new freeze builder has the given amounts, keys and fee and names the given freezers; each call on it changes one record, and afterwards all witnesses, also that of the fee record, are current. A new mint builder defines a domestic asset with the given viewer and panics only on a reserved code. Revealing more adds exactly the named flags.','all builders reachable by any chain of calls, every call and argument','all states and arguments, also out of range',['src/utils/params_builder.rs: TransferParamsBuilder, MintParamsBuilder, FreezeParamsBuilder, PolicyRevealAttr'])
add('C67','Builders feed the circuits what they describe','The witness and public input of a mint builder exist exactly when the fee record is native and pays the fee, and are the described ones; those of a freeze builder exist exactly when the fee is paid and there is a record to freeze, else it panics. The mint circuit is satisfied by them exactly when the fee record is owned, in the tree and unfrozen, the minted record unfrozen, below 2^127 and of the domestic code; the freeze circuit exactly when the fee record is native, unfrozen, owned and in the tree and every record has the freezer of its key and, unless a dummy, a freezer at all and a place in the tree. A satisfied transfer circuit says of the builder that its records are unfrozen, owned, in the tree or dummies worth 0, credentialed, below 2^127 and balanced; builders that give notes satisfy it. Replacing the memo key of a transaction of a generated list changes nothing else and makes this transaction, and every batch with it, fail, while all others still verify.','all builders, keys, amounts, policies, blinding factors, lists of jobs and positions','all values of the fields; tests change one field of one sample at a time',['src/utils/params_builder.rs: {MintParamsBuilder, FreezeParamsBuilder, TransferParamsBuilder}::{build_witness, build_witness_and_public_input}, TxnsParams::update_recv_memos_ver_key','src/circuit/{transfer,mint,freeze}.rs','src/proof/{transfer,mint,freeze}.rs: from_witness'])
add('C68','A wallet that follows the ledger holds exactly its unspent records','A wallet that was new when the ledger was and has since scanned every accepted block, while it made payments or failed to, was given records minted by the test or the fee record of its own block, and blocks were refused, holds exactly those of the records it was ever given or paid that no accepted transaction spends; each is its own, unfrozen and sits in the tree at its position. So the conditions under which payments go through (C57-C59) hold of every such wallet, as long as no hash, commitment or nullifier that occurs collides.','all wallets, all histories of a wallet and a ledger, all blocks and notes by anybody','all histories of wallet and ledger',['tests/examples.rs: SimpleUserWalletMock (989-1526), LedgerStateMock (49-213), ValidatorMock (238-496)'])
add('C69','Nobody else can take a record from a wallet','If a wallet holds a record at one point of a history and not at a later one, a transaction accepted in between has an input with the content and position of that record and was made with the secret of the wallet itself; or it is a freeze note, the record has a freezer and the secret is that of the freezer. So a record without a freezer stays with a wallet whose secret is not used.','all histories, all transactions by anybody, all wallets','quantifies over all adversarial transactions and histories',['tests/examples.rs: SimpleUserWalletMock (989-1526), LedgerStateMock (49-213), ValidatorMock (238-496)','src/proof/transfer.rs','src/proof/mint.rs','src/proof/freeze.rs'])
add('C70','All wallets together hold what was minted','For any number of wallets of different users that follow one ledger, the amounts of an asset they hold together, plus for the native asset the fees nobody collected, are at most what was minted, and exactly that if every record of the asset was handed to one of them; under the conditions of C45 on what the circuits do not enforce.','all ledgers, all sets of wallets, all histories, all assets','all histories and sets of wallets',['tests/examples.rs: SimpleUserWalletMock (989-1526), LedgerStateMock (49-213), ValidatorMock (238-496)'])
add('C71','The benchmarks time valid transactions','For every number of inputs and outputs that fits the tree, the benchmark\'s builder of transfers is made, with one unit of an asset in each input and all of it in the first output, and for any other size it panics. What the benchmarks of transfers, mints and freezes build passes the verification that they time, at the root stated in the note; any number of copies of the three kinds pass together as a batch, also at the last valid time. So what is measured is accepted notes of the stated size.','all sizes, depths, keys and sampled values','all sizes and all outcomes of sampling; the benchmark runs a few',['src/bench_utils/mod.rs: get_key_pairs, get_builder_transfer, get_builder_mint, get_builder_freeze','benches/transfer.rs, benches/mint.rs, benches/freeze.rs, benches/batch_verification.rs'])
add('C72','The table of benchmark results','The saved table has one row per measurement, in order, with each value under its heading: the values pass through the name of a directory and are recovered by splitting it at dashes. Different measurements have different names. This holds if RAYON_NUM_THREADS is unset or has no dash; with a dash in it every value silently moves one column to the right.','all lists of measurements, all values, all contents of the environment variable','all texts and numbers',['src/bench_utils/mod.rs: number_threads, compute_title_simple, compute_title_batch, build_csv_records_simple, build_csv_records_batch, save_results_to_file, save_result_to_file_simple, save_result_to_file_batch'])
add('C73','Notes are generated exactly for valid requests','Within stated limits (paths as long as the tree is deep, definitions as the API makes them, amounts that add up to less than 2^127), a transfer, mint or freeze is generated if and only if the request is valid: the records are native or of one asset besides, unfrozen, owned by the given keys, members of the tree with one root, with credentials where the policy asks for them; amounts balance with the fee; no nullifier repeats; for mints the code is derived from seed and description; for freezes the keys are those of the policies. What is sampled does not matter. No valid request is refused and no invalid one is served.','all requests within the limits, all keys, all randomness','all combinations of records, keys, paths, credentials and amounts',['src/transfer.rs: TransferNote::generate','src/mint.rs: MintNote::generate','src/freeze.rs: FreezeNote::generate'])
add('C74','Records filed under a wrong position','What a wallet pays with is where the wallet filed it: every record that a successful payment spends is the leaf of the tree at its position, if no hash collides; a wallet with only misfiled native records makes no payment. The fee record of a block is the last leaf that the block adds. The proposer of the integration test files it under another position, that of an output of the block, so that the collected fees are shown in its balance but cannot be spent.','all wallets, ledgers, blocks and payments','all ledgers and blocks; the test checks the balance, and never spends the fee',['tests/examples.rs: collect_fee_and_build_block, LedgerStateMock::insert_block, UserWallet::add_record_opening, UserWallet::spend_native, UserWallet::spend_non_native, example_fee_collection_and_batch_verification, example_mint'])
add('C75','One encoding per value','A transaction, record, asset definition, key, credential, memo, verifying key or block is read from one sequence of bytes only, its own encoding: whatever bytes are accepted are the encoding of the value returned, followed by what was not read. So two messages that are the same transaction are the same message, and the transaction commitment hashes exactly what was received. Amounts, reveal maps, flags and field elements have this without condition, the others as far as the points, keys and proofs in them have one encoding. Reading returns a value or an error for every sequence of bytes.','all byte sequences and all values','tests decode what the encoder produced; here the bytes come from anyone',['src/lib.rs: CanonicalDeserialize for TransactionNote, CanonicalDeserialize for TransactionVerifyingKey, Committable for TransactionNote','src/structs.rs: CanonicalDeserialize for Amount, RevealMap, FreezeFlag, AssetPolicy, AssetDefinition, RecordOpening, ExpirableCredential, ViewableMemo','tests/examples.rs: Block'])
add('C76','Text forms of keys, records and codes','The text of a value (tag, ~, base64) is read back as the value. A text of one kind is refused wherever another kind is expected, whatever the two types are: a public key is never read as a secret key, nor a commitment as a nullifier. The texts that can be read are exactly those that could be written, so a changed character is another value or an error, and reading returns for every text. A generated freezer key pair is read back; the halves of a pair are not compared when it is read.','all texts, kinds, values and checksum functions','all texts and all pairs of kinds; tests round-trip a few values',['src/keys.rs: tagged_blob types, FreezerKeyPair','src/structs.rs: tagged_blob types','src/lib.rs: TransactionVerifyingKey'])
add('C77','Amounts as text, arithmetic on amounts','An amount is printed in decimal and read back as itself. Reading accepts exactly an optional plus sign followed by decimal digits that denote a number below 2^128, and returns that number: nothing else is accepted and nothing wraps. Apart from the sign and leading zeros an amount has one text. Adding, subtracting, multiplying, dividing and summing are exact whenever the exact result is an amount; otherwise they panic, or wrap in a build without overflow checks.','all texts, amounts and lists of amounts','all texts and the whole 128-bit range, not a few samples',['src/structs.rs: Amount (Display, FromStr, Add, Sub, Mul, Div, Rem, Sum)'])
add('C78','Constants taken from the curve','For each of the three configurations that can be selected (bn254, bls12_377, bls12_381) a field element occupies 32 bytes and an attribute may have 30. In any field of 253 to 255 bits 32 bytes hold every element and no smaller number does; an attribute of full length together with its padding byte is below the order of the field, so that no two attributes are identified, whereas full 32-byte strings can be; the native, dummy and default asset codes are different; and sums of up to 2^124 amounts do not wrap around in the field.','all supported curves, all field elements, all byte strings, all lists of amounts','the unit tests are compiled for one curve at a time and try a few values',['src/config.rs: CapConfig::SCALAR_REPR_BYTE_LEN, PER_ATTR_BYTE_CAPACITY, native_asset_code, dummy_asset_code','src/config.rs: Config for bn254, bls12_377, bls12_381'])
add('C79','Keys and parameter sizes for every shape','With sufficient parameters keys can be generated exactly for transfers with at least one input and one output, for mints, and for freezes with at least two inputs, at every depth of the tree. compute_universal_param_size returns for exactly these shapes, and what it returns is two more than the domain size of the circuit of every note of that shape, whatever its records, keys, policy and expiry; the arguments documented as ignored are ignored. Other shapes are refused with an error, except that a freeze without any input panics.','all note types, numbers of inputs and outputs, depths and witnesses','all shapes, and all witnesses of a shape',['src/utils/mod.rs: compute_universal_param_size','src/proof/transfer.rs: preprocess','src/proof/mint.rs: preprocess','src/proof/freeze.rs: preprocess','src/circuit/transfer.rs: build_for_preprocessing','src/circuit/mint.rs: build_for_preprocessing','src/circuit/freeze.rs: build_for_preprocessing'])
add('C80','Values kept in collections','Two freezer keys are equal exactly if they are the same point, in whatever coordinates each of them is stored, and then they have the same hash and the same scalars. For every type of the library that is used as a key (keys, policies, definitions, record openings, with their positions, nullifiers, codes) equality is an equivalence and equal values have equal hashes, so that after any sequence of insertions and removals a hash map returns what was last stored under an equal key. Codes, nullifiers and amounts are totally ordered in agreement with equality; the library\'s checks for repeated nullifiers and for balances, which rely on that order, find exactly the repetitions and imbalances.','all coordinates, values, histories of a map, hashers and table sizes','all representations of a point and all histories of a collection',['src/keys.rs: FreezerPubKey, FreezerKeyPair (PartialEq, Hash)','src/structs.rs: derived PartialEq, Hash, Ord','src/utils/mod.rs: check_distinct_input_nullifiers, check_asset_amount','tests/examples.rs: HashMap and HashSet fields'])
add('C81','Transactions do not disturb each other','A block is valid exactly if every one of its transactions is valid alone and no nullifier occurs twice in it. So the order of the transactions in a block does not matter for its validity; afterwards the ledger has the same nullifiers, the same commitments in another order and the same fee record. Transactions that are valid in one block are valid in two consecutive blocks, and conversely if those of the second block refer to roots the ledger already had. A valid transaction that waits while anything else happens stays valid exactly until it expires or a transaction with one of its nullifiers is accepted. Of two transactions with a common nullifier at most one is ever accepted, and that once.','all ledgers, lists of transactions and their permutations, all ways to cut a list in two, and all histories of mints and blocks (valid or not) that happen while a transaction waits','The number of orders, groupings and interleavings is unbounded; the integration test builds a few blocks in one fixed order.',['tests/examples.rs: ValidatorMock::validate_txns_batch, ValidatorMock::check_txn_input_nullifiers, ValidatorMock::validate_block, ValidatorMock::collect_fee_and_build_block, LedgerStateMock::insert_block, LedgerStateMock::check_valid_root','src/lib.rs: txn_batch_verify, calculate_fee'])
add('C82','Others cannot block a payment','A payment that a wallet following the ledger has made, and that the ledger would accept, stays acceptable until it expires whatever others do on the ledger meanwhile. It can only become unacceptable through a transaction that spends one of the records of the wallet with the own secret of the wallet, a freeze made with the secret of the freezer of such a record, or a transaction that shows the nullifier of the dummy record sampled for the payment. In particular a payment in the native asset that the balance covers is accepted at any later time before 2^20 if the secret of the wallet was not used meanwhile and that dummy nullifier was not shown.','all wallets that followed the ledger through any history, all payments, and all histories of mints and blocks (valid or not, by anybody) that happen while the payment waits','Other users are adversaries who may submit any notes in any order; a test has a few honest users.',['tests/examples.rs: SimpleUserWalletMock::spend_native, SimpleUserWalletMock::spend_non_native, ValidatorMock::validate_txns_batch, LedgerStateMock','src/transfer.rs: TransferNote::verify','src/structs.rs: Nullifier','src/keys.rs: UserKeyPair::nullify'])
add('C83','Every asset in circulation was minted','Whenever a record of a positive amount exists on the ledger, its asset was minted before: the history contains a mint of a positive amount with the same asset code and, unless it is the native asset, the same viewer key, issuer key, freezer key and threshold. So nobody can put an asset into circulation, or an asset with a policy of their own under the code of somebody else, except by a mint. Assumed, as for the supply: inputs of a transfer have its asset code, fees are covered, secrets are reduced. For native records the keys are not fixed: a transfer can give native outputs any policy, including a freezer of its own choice.','all histories of mints and blocks, all records on the ledger at any time','The record may be any number of transfers, freezes and blocks away from its mint; a test follows one chain of notes, and forged notes are not made by the API.',['src/circuit/transfer.rs: TransferCircuit::build','src/circuit/mint.rs: MintCircuit::build','src/circuit/freeze.rs: FreezeCircuit::build','src/circuit/gadgets.rs','src/transfer.rs: TransferNote::verify','src/lib.rs: calculate_fee','tests/examples.rs: LedgerStateMock, ValidatorMock'])
add('C84','Frozen records stay until their freezer releases them','A record that is frozen on the ledger cannot be spent by its owner or anybody else: whatever is accepted later, the only transaction that consumes it is a freeze note made with the secret of the freezer named in its policy, and this note puts a record of the same owner, amount, asset and policy keys in its place. While nobody uses that secret the record remains unspent.','all histories of mints and blocks, all frozen records and all later transactions','The owner may try any transaction, including forged ones with wrong flags, another policy or as fee payment; tests try a few of them.',['src/circuit/freeze.rs: FreezeCircuit::build','src/circuit/transfer.rs: TransferCircuit::build','src/circuit/mint.rs: MintCircuit::build','src/structs.rs: RecordOpening::derive_record_commitment','src/structs.rs: FreezeFlag','src/freeze.rs: FreezeNote','tests/examples.rs: LedgerStateMock, ValidatorMock'])
add('C85','The size of a transaction shows only its shape','The number of bytes of an encoded transaction made by the library is a function of its kind, of the numbers of its inputs and outputs and of the length of the data bound to it. It does not depend on the asset, policy, amounts, fee, owners, credentials, expiry or threshold, on whether inputs are dummies, nor on whether a viewer can read anything. The same holds for every transaction that verifies, however it was made, if its proof has the size of a proof. What is encrypted for a receiver has the same size for every record.','all requests, all random choices, all notes accepted for some key','Sizes would have to be compared for all pairs of requests; a test sees a few encodings, all of the same policy.',['src/transfer.rs: TransferNote, AuxInfo','src/mint.rs: MintNote, MintAuxInfo','src/freeze.rs: FreezeNote, FreezeAuxInfo','src/structs.rs: ViewableMemo::new_for_transfer_note, ViewableMemo::new_for_mint_note, RevealMap, RecordOpening','src/lib.rs: TransactionNote'])
add('C86','A ledger of transactions made with this library needs no side conditions',
 'If every transaction that a validator accepts was returned by transfer generation, mint generation or freeze generation (with the proving keys for trees of that depth), then each of them spends exactly the records offered to the call and creates exactly the records asked for; and for the whole history: no record is spent twice, for every asset the unspent records hold exactly what was minted, and every record of a positive amount is of an asset, with a policy, that was minted. Nothing else has to be assumed about secrets, asset codes or fees: the checks of the constructors imply the conditions that the circuits leave out.',
 'Every sequence of mints and blocks, every choice of inputs, outputs, keys, randomness and fees for which the constructors succeed; hash collisions among the occurring values and the neutral public key as owner are excluded.',
 'It combines the checks of three constructors with an invariant over histories of any length; a test runs one history.',
 ['src/transfer.rs: TransferNote::generate_native, generate_non_native','src/mint.rs: MintNote::generate','src/freeze.rs: FreezeNote::generate','src/utils/mod.rs','tests/examples.rs: MockLedger, Validator'])
add('C87','Exactly the sound policies can be built, and random test policies are among them',
 'A policy is the result of some sequence of the public setters and reveal calls, with keys other than the default one, exactly when it reveals fields only to a set viewer key, attributes only with a set issuer key, and both coordinates of the user address or neither. For secrets other than zero every random policy of the test helpers is such a policy, whatever the random generator returns; the random reveal maps are exactly those whose two address flags agree; and the amounts of up to 2^63 random records never exceed what one transaction can hold.',
 'Every policy, every sequence of builder calls, every outcome of the random generator, every list of up to 2^63 random records.',
 'Reachability quantifies over all call sequences and the random helpers over all random streams; tests draw a few.',
 ['src/structs.rs: AssetPolicy::{set_viewer_pub_key, set_cred_creator_pub_key, set_freezer_pub_key, set_reveal_threshold, reveal_user_address, reveal_amount, reveal_blinding_factor, reveal_ith_attribute, reveal_all_attributes, reveal_record_opening, reveal_all}','src/utils/params_builder.rs: RevealMap::rand_for_test, AssetPolicy::rand_for_test, AssetDefinition::rand_for_test, RecordOpening::rand_for_test'])
add('C88','Units never change their policy, although a code does not fix it',
 'For every asset code other than the native one and every policy (keys and threshold), the unspent records of that code under that policy hold exactly what was minted of the code under that policy, at every point of every history of the ledger: a holder cannot move units out from under a viewer, an issuer or a freezer, even if the same code was also minted without them. If all mints of a code name the same policy, all records of it do. The code alone does not fix the policy: with the same seed and description the library makes mints of one code under different policies, and both are accepted.',
 'Every history of blocks and mints in which no two occurring records collide in their hash, every asset code, every policy.',
 'The claim is a sum over all records of a ledger after any number of blocks, for every code and policy.',
 ['src/mint.rs: MintNote::generate','src/transfer.rs: TransferNote::generate_non_native','src/freeze.rs: FreezeNote::generate','src/circuit/transfer.rs: TransferCircuit::build','src/circuit/mint.rs: MintCircuit::build','src/circuit/freeze.rs: FreezeCircuit::build','src/structs.rs: AssetCode::new_domestic'])
add('C89','The parameter directory after any history of stores and crashes',
 'After any sequence of calls of the seven store functions with their default destination, each of which the operating system may stop after any number of its steps, a load function that does not return an error returns what preprocessing gave, for exactly the sizes asked for, in one of these calls; it never returns a mixture or the key of another shape. If a store call returned without error, its files are read back unchanged until another call for the same file. No call touches any file other than its own. The two keys of one shape need not belong together: after a store that was stopped between its two files, the proving key is the new one and the verifying key the old one.',
 'Every history of store calls for any sizes and reference strings, every point at which each call may be stopped, every file.',
 'The claim ranges over histories of calls and over the crash point of each of them.',
 ['src/parameters.rs: store_universal_parameter_for_demo','src/parameters.rs: store_transfer_proving_key','src/parameters.rs: store_mint_proving_key','src/parameters.rs: store_freeze_proving_key','src/parameters.rs: load_transfer_proving_key','src/parameters.rs: load_mint_verifying_key','src/parameters.rs: load_freeze_verifying_key','src/parameters.rs: store_data','src/parameters.rs: load_data'])
add('C90','Only the holder of the seed can mint an asset, unless notes are verified in batches',
 'A mint note that is accepted on its own was made with a seed and a description digest from which the code of its asset is derived, and two such notes for one code were made with the same seed and digest, up to hash collisions between the two. In a ledger that checks the code of each mint in its blocks, every record of a positive amount is of an asset that was set up at the start or whose code some mint derived from its maker\'s seed. Batch verification leaves the check out: a ledger that verifies blocks with txn_batch_verify, like that of the integration test, accepts mints of anybody\'s asset made with any seed.',
 'Every mint note, every pair of mint notes, every history of blocks in which no two occurring values collide.',
 'The claim is about every note that verifies, including those that were not made with the library, and about every ledger history.',
 ['src/mint.rs: MintNote::verify','src/lib.rs: txn_batch_verify','src/structs.rs: AssetCode::verify_domestic','src/structs.rs: AssetCode::new_domestic_from_digest','src/circuit/mint.rs: MintCircuit::build','tests/examples.rs: ValidatorMock::validate_txns_batch'])
open(P,'w').write(''.join(json.dumps(o)+'\n' for o in L))
