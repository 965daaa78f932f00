# Formal model of EspressoSystems/cap in Rocq (Coq 8.16.1)

## 1. Approach

The Rust code in `/repo/src` is modelled function by function as total, computable Gallina functions in
`rocq/theories/`. Every definition cites the file and lines it models. Three layers:

1. **API layer** (`structs.rs`, `keys.rs`, `utils/mod.rs`, `transfer.rs`, `mint.rs`, `freeze.rs`, `lib.rs`,
   `parameters.rs`): ordinary functions returning `res A := Ok a | Err e | Panic`. Machine integers, field
   elements and bytes are *typed* (`zmod m`, an integer with a proof that it is in `[0,m)`), so every theorem that
   says "for all amounts" ranges over exactly the 2^128 values. Unchecked Rust arithmetic goes through functions
   that take the build profile (overflow checks on: `Panic`; off: wrap).
2. **Circuit layer** (`circuit/*.rs`): a *deep* model of the constraint system. The builder is a state monad
   over (witness values, gates, public variables); each function that the Rust code calls on `PlonkCircuit`
   is one builder primitive that allocates variables and appends gates. Soundness theorems quantify over **every
   assignment** of field values to variables that satisfies the gates (a malicious prover), not only over the
   honest one; completeness theorems are about the honest values; shape theorems are about the gates themselves.
3. **Ledger layer** (`tests/examples.rs` `LedgerStateMock`/`ValidatorMock`, the only ledger in the repository):
   a state machine over blocks, for the history properties.

What lives in external crates (arkworks, jellyfish, aead, sha3) is not in `/repo`; it is a field of the record
`CapConfig` (mirroring the Rust trait `CapConfig`) with the laws that are assumed of it collected in the record
`CapLaws` (group laws, decryption inverts encryption, signature correctness, SNARK completeness and knowledge
soundness, codecs round-trip ...). Theorems that need laws take them as visible hypotheses; there are no axioms.
A concrete instance of `CapConfig` satisfying `CapLaws` is defined in `Toy.v`; it shows the hypotheses are satisfiable and is
used for the non-vacuity examples and for the refutation witnesses. Collision resistance is never assumed as
injectivity of a hash on the whole (finite) domain, which would be false; it is either avoided (statements about
hash *preimages*) or assumed only on the values occurring in the statement (a satisfiable hypothesis).

## 2. Plan per property

See `properties.jsonl` for the English. M = what is modelled, P = how it is proved.

| id | M | P |
|----|---|---|
| C01 | Amount codec | round trip by digit arithmetic, canonicity |
| C02 | U256 conversions | arithmetic |
| C03 | `safe_sum_amount`, `calculate_fee` | induction on the list |
| C04 | RevealMap codec | induction, canonicity |
| C05 | `to_scalar`, circuit `unpack` | positional-number lemma for any list of bits |
| C06 | AssetPolicy builder as a step function | invariant by induction over call sequences, last setter wins; refutation for default keys |
| C07 | AssetDefinition | case analysis over field elements |
| C08 | FreezeFlag | case analysis |
| C09 | IdentityAttribute | little-endian digit lemma; refutation by witness |
| C10 | ExpirableCredential | from signature laws |
| C11 | asset codes | preimage injectivity |
| C12 | record commitment message | packing lemma; refutation for enc key |
| C13 | circuit commitment | honest-evaluation Hoare logic over builder |
| C14 | nullify | DH commutation |
| C15 | prove_spend | soundness Hoare logic; two refutations |
| C16 | ReceiverMemo | from aead laws and codec laws |
| C17 | TxnFeeInfo, check_fee | arithmetic |
| C18 | check_balance & co. | map semantics by induction; refutation at 2^127 |
| C19 | check_asset_def | induction, iff |
| C20 | distinct nullifiers | induction, iff NoDup |
| C21 | get_output_ros | induction (Forall2) |
| C22 | public input variables vs to_scalars | honest evaluation of the builder |
| C23 | to_scalars | list injectivity; refutation |
| C24 | build vs preprocessing build | relational (two-run) Hoare logic |
| C25-C29 | transfer circuit | soundness Hoare logic; refutations by explicit satisfying assignment |
| C30 | memo: API vs circuit | equality of messages |
| C31-C33 | viewing memos | list induction |
| C34 | transfer generate | unfolding + C17-C20 |
| C35 | generate then verify | C22, C24, completeness of circuits, SNARK completeness |
| C36 | transfer verify | decision rules + SNARK binding |
| C37-C38 | mint circuit | soundness Hoare logic; refutation |
| C39 | freeze circuit | soundness Hoare logic |
| C40 | batch verify | induction; refutation |
| C41 | TransactionNote | codec combinators |
| C42 | memo digest | prefix-code concatenation injectivity |
| C43 | fee records | induction |
| C44-C45 | ledger | invariants over histories |
| C46 | parameters | file-system model with crash points |
| C47 | default paths | string injectivity |
| C48 | mint generate | unfolding |
| C49 | panics | no-panic logic over `res` and over the circuit builder; refutations by witness |
| C50 | encodings of records, policies, credentials, memos | codec combinators |
| C51 | freeze generate | unfolding |
| C52-C53 | blocks of the integration test | decision lemmas; codec injectivity |
| C54 | viewing memos, two runs | non-interference by list induction; refutation for mints |
| C55 | freeze circuit and record packing | circuit soundness + packing arithmetic; refutation by forged note |
| C56 | gen-parameters tool on the file-system model | unfolding + C46/C47; refutation by a concrete run |
| C57 | the user wallet next to the ledger | invariant over histories of wallet and ledger calls |
| C58-C59 | payments of the wallet | wallet invariant + liveness of generation (C35) + opening of memos (C16); the conflict of two payments by the iteration order of an unchanged set |
| C60 | the issuer next to the ledger | history of the issuer is a history of its wallet (C57); liveness of mint generation; opening of memos |
| C61 | the viewer on accepted notes | circuit soundness + decoding of the memo; refutations by two forged notes |
| C62 | the freezer next to the ledger | invariant over histories of freezer and ledger calls (two books against the list of revealed records) |
| C63 | calls of the freezer | books (C62) + liveness of freeze generation (C51) + wallet histories (C57); the two failures by the same invariant |
| C64 | the builder of transfers | invariant over chains of calls (records, key pairs and witnesses at equal positions); liveness of generation (C35) |
| C65 | random builders, builders of mints and freezes, lists of transactions | the same invariant for freezes; positions in the common tree by induction over the three loops; batch verification (C40) |
| C66 | every call of the builders | case per call over the invariant of C64; the panics are explicit |
| C67 | witnesses and public inputs of the builders, memo keys in lists | both directions of circuit soundness and completeness (C22-C31) specialised to builders; binding of proofs to their memo key (C36) |
| C68 | a wallet next to the ledger, one step at a time | induction over the steps: every recorded nullifier of the ledger is explained by an opening, so the conditions of C57 follow from the absence of collisions |
| C69 | the same runs | difference of C68 at two points of a run; the circuit relations say who knew which secret |
| C70 | any set of such wallets | distinct users hold distinct positions of the tree; sums over positions; C45 |
| C71 | the programs of `benches/` as functions of what they sample | the builder calls of C66, one after the other; C64, C65 and batch verification (C40) |
| C72 | names and rows as strings | splitting inverts joining for parts without dashes, by induction; a row with a dash by computation |
| C73 | the `generate` functions of the three notes (Notes.v), against plain conditions in `ExactSpec.v` | one direction from inversion of `generate` (C34, C42), the other from C35; the limits (`usual_*`) are only needed for the second |
| C74 | how the proposer files the fee record (`Proposer.v`), payments of a wallet | membership binds the position if no hash collides (C44); hence what a payment spends is where it is filed; refutation by computation and this theorem |
| C75 | the decoders of `Serde.v`, read backwards (`Canon.v`) | combinator by combinator: what is read is the encoding of what is returned; conditions only on the external encodings of the points, keys and proofs in the value |
| C76 | the 21 text forms (`Text.v`): tag, `~`, base64 of the encoding and a checksum | base64 and the splitting at `~` are inverted exactly; tags pairwise distinct by computation |
| C77 | decimal text and operators of `Amount` (`AmountText.v`), which `structs.rs` derives from `u128` | induction over digits, reading and printing are inverse; case analysis on overflow |
| C78 | the field orders of the three configurations and the two byte lengths computed from them (`Curves.v`) | computation for each curve; bounds on logarithms and powers for any field of 253 to 255 bits |
| C79 | `compute_universal_param_size` (`ParamSize.v`) with the choice of the domain as an argument that depends only on the circuit's gates | a total-correctness logic for circuit building (`CircuitTotal.v`): every step of the three builders succeeds for every shape; shape independence of the values from `CircuitShape.v` |
| C80 | coordinates of points as stored by ark_ec, `PartialEq`/`Hash`/`Ord` of keys and records, a hash table, a search tree (`Collections.v`) | extended Euclid for the division; equality of quotients is equality up to a factor; induction over histories of a table; refinement of the list-based checks of `Utils.v` by search trees |
| C81 | the validator and the ledger (`Ledger.v`), already modelled; `timely` (`ScheduleSpec.v`) | an exact characterisation of what the validator accepts, by induction over the list; permutations, two blocks and histories follow from it, the last by induction over events (`Schedule.v`) |
| C82 | nothing new: the wallet, the ledger and the assumptions of C68–C70 (`Wallet.v`, `WorldSpec.v`) | C81's exact account of waiting, with C69's theorem that a record's nullifier is only shown with its secret (`Waiting.v`); `C82_payment` composes this with C58 |
| C83 | the ledger and its notes, already modelled; `minted`, `defines`, `same_policy` (`OriginSpec.v`) | strong induction on the position of a record: an output of positive amount leads to an input of the same asset, whose record is earlier in the tree because the root it was proved against is, or to a mint (`Origin.v`) |
| C84 | the same; `frozen` (`OriginSpec.v`) | the commitment packs flag and map in one field element; every circuit but freeze fixes the flag of its inputs to unfrozen, so an opening of a frozen record fits none of them (`Origin.v`) |
| C85 | nothing new: the encodings of notes (`Serde.v`); `Fixed` (points, encryption keys and generated proofs have fixed lengths) and the three size formulas (`SizesSpec.v`) | lengths of the parts add up (`Sizes.v`); the number of memo elements comes from C33 for generated notes and from the number of public inputs for accepted ones |
| C86 | `LibrarySpec.v`: `made d t ins outs` says that one of the three constructors returned note `t` when called with the records `ins` to spend and `outs` to create | `Library.v`: inversion of the constructors (`NoteGen.v`) gives an opening with exactly these records that meets the supply condition; key pairs hold reduced secrets; a choice over the finitely many accepted notes turns this into the hypotheses of C44, C45 and C83, whose conclusions then hold with only the absence of collisions left. |
| C87 | nothing new: policy builder calls (`PolicyProofs.v`), `rm_rand`, `policy_rand` (`Builder.v`); `ro_rand` (`PolicyReach.v`) | one direction is the invariant of C06; for the other a call sequence is written down for each sound policy and run; the random map is sound by inspection of its bits |
| C88 | `ClassSpec.v`: `class_total c p`, the sum over the records of code `c` under the keys and threshold of `p`, and `class_mints c p`, what an event mints of them | `Class.v`: per note the inputs and outputs of a code have one policy (transfer), the declared one (mint) or agree pairwise (freeze), so the balance of C45 splits by policy; induction over the events; `C88_library` uses the openings of C86. That the code fixes the policy is refuted by two library-made mints in one block |
| C89 | `ParamHistory.v`: `contents c`, the files a store call is to write and what is to be read from them; `after`, the file system after a history of calls of which each is stopped after a given number of steps | induction over the history: per call `call_ok` (from the crash theorems of C46/C47), file names are distinct for distinct shapes |
| C90 | the seed behind a mint (`mv_seed` of its opening) and the code of its asset | `MintRight.v`: the circuit ties the internal code to the seed (C37), single verification ties the code to the internal code (C11); with C83 over histories. Without the check of the code refuted by a forged mint in a block |

The properties that cannot be expressed in this model are listed in 4.4.

## 3. Trusted base

* Coq 8.16.1's kernel (including its virtual machine: concrete cases and refutations are checked with `vm_compute`;
  `coqchk` re-checks them without it).
* `Print Assumptions` is run after every theorem of the `Props*.v` files and prints "Closed under the global
  context" for each: no theorem depends on any axiom. `coqchk -o` over all modules lists seven axioms, all from the
  standard library: a library file that is loaded indirectly declares them (a module type of `ssreflect`'s `under`
  tactic); no theorem of this development uses them: `Coq.ssr.ssrunder.Under_rel.{Over_rel, Under_rel_from_rel, over_rel, over_rel_done, Under_rel,
  Under_relE, under_rel_done}`.
* The reading of the Rust source. Every definition cites the lines it models; simplifications are in its comment
  and collected in 4.3.
* What is said about code outside `/repo`: the *fields* of the classes `CapConfig`, `Snark`, `Ser`, `ParSer`, `RoCodec`
  have no content beyond the laws below, and the gate semantics of `Plonk.v` is a definition.

### Laws taken as hypotheses

Each theorem that needs one of these records has it as an explicit argument (`L : CapLaws C`, `SL : SnarkLaws S`, ...);
`Toy.v`, `ToySnark.v`, `ToySer.v`, `LedgerSamples.v`, `PropsParams.v` build instances that satisfy them.

| record | what it says | idealised? |
|---|---|---|
| `FieldCfg` | bounds of the two field orders (true of bn254, bls12-377, bls12-381); primality is not used | no |
| `CapLaws` | group laws of the embedded curve's subgroup, coordinates of points, signing then verifying succeeds, the signature gadget agrees with the verifier on points of the subgroup, decrypting what was encrypted to one's own key returns it | no (functional correctness only) |
| `SnarkLaws` | keys depend on the circuit's shape; completeness; knowledge soundness as existence of a satisfying assignment; an honestly made proof verifies only for its own public input and message; batch verification of a non-empty batch is the conjunction; encoding of a verification key is injective and of fixed length | **yes**: error probabilities are left out |
| `SerLaws`, `ParSerLaws`, `RoCodecLaws`, memo encodings | external encodings (points, proofs, keys, SRS, bincode of a record) read back | no |
| `SerReturns`, `one_encoding_of` (C75) | reading an external encoding returns; the points and proofs of the value at hand have one encoding (asked per value, because the identity of the curve may have several) | no |

No law says that a hash, a commitment or a PRF is injective. A theorem that needs collision resistance either *names the
two colliding inputs* in its conclusion or assumes that no collision occurs among the finitely many values of the
history in question (`hash_collision_free`, `commitment_binding` in `LedgerSpec.v`, `collision_free` in `WorldSpec.v`), which the toy instance is shown to
meet on concrete histories.

## 4. What is modelled

### 4.1 Modelled, function by function

| source | model |
|---|---|
| `constants.rs`, `config.rs` | `Config.v`, `Curves.v` (the three concrete configurations: field orders only, copied from the external crates) |
| `structs.rs` | `Structs.v`, `Memo.v`, `Serde.v` (encodings), `Text.v` (text forms), `AmountText.v` (text and operators of amounts) |
| `keys.rs` | `Keys.v`, `Memo.v` (opening of memos), `Text.v` (text forms) |
| `utils/mod.rs` | `Utils.v`, `Builder.v` (`next_power_of_three`, but not the rounding of its logarithm), `ParamSize.v` (`compute_universal_param_size`; jellyfish's domain size is an argument) |
| `utils/params_builder.rs` | `Builder.v`, `BuilderWit.v`, `PolicyReach.v` (`RecordOpening::rand_for_test`) |
| `circuit/{structs,gadgets,gadgets_helper,transfer,mint,freeze}.rs` | `Circuits.v` on top of `Plonk.v` |
| `proof/{transfer,mint,freeze}.rs` | `Witness.v`, `Notes.v` |
| `transfer.rs`, `mint.rs`, `freeze.rs`, `lib.rs` | `Notes.v`, `Serde.v` |
| `parameters.rs`, `proof/mod.rs` (`load_srs`) | `Params.v` |
| `bin/gen-parameters.rs` | `GenParams.v` |
| `tests/examples.rs` ledger, validator, blocks | `Ledger.v` |
| `tests/examples.rs` user wallet (984-1526) | `Wallet.v` |
| `tests/examples.rs` viewer, freezer (498-981), issuer (1528-1639) | `Roles.v` |
| `tests/examples.rs` the proposer filing its fee record (2171-2175, 2244-2247) | `Proposer.v` |
| `bench_utils/mod.rs`, `benches/*.rs` | `Bench.v` (not the choice of the universal parameters' size, nor criterion and the file formats; printing and parsing of floating-point numbers are arguments) |

### 4.2 Not modelled

* The proof system, curve and hash implementations (external crates); `errors.rs` display strings.
* `testing_apis.rs` (accessors behind the feature `test_apis`; it imports a name `ViewingMemo` that `structs.rs` does not define and uses
  generic types without their parameter, so that it does not compile under its own feature).
* jellyfish's exact gate counts, which are not in `/repo`: the numbers that `compute_universal_param_size` returns.
* Sampling: every function takes the values it samples as arguments, so theorems hold for every outcome of the
  random generator; nothing is said about distributions, hence nothing about privacy in the computational sense.
  C54 is the possibilistic part of privacy that can be stated.

### 4.3 Simplifications that a reader should know

* `Plonk.v`: one gate per gadget call, with the gadget's documented input/output relation as its meaning. Bit
  decompositions of scalars are taken to be those of *some* integer below `2^scalar_bits` congruent to the value (this
  is what the second nullifier of C15 rests on: it depends on this reading of the external gadget). A gadget call that
  returns an error on an honest out-of-range value adds an unsatisfiable gate; both end in the same API error.
* Merkle paths and trees are those of `jf_primitives::merkle_tree` as documented: ternary, leaf hashed with its index,
  empty subtree 0. Tree capacity is not modelled.
* `freeze::preprocess` builds a tree for its dummy inputs; the model uses the membership witness of one leaf.
* Key pairs are represented by their secrets, so an inconsistent pair cannot be built; only C76 looks at stored pairs with both halves.
* `Text.v`: the external `tagged_blob` formatting as documented; the checksum is any function; all errors of the text layer are one error.
* Files (`Params.v`) are byte strings; a write is a sequence of one-byte steps, a crash may come between any two;
  reordering of unsynchronised writes is not modelled.
* Hash maps and hash sets of the integration test are lists in iteration order. Those of the ledger are used through
  membership only; those of the wallet are iterated, so a history (`runs`, `WalletSpec.v`) may reorder them at any point.
* `usize`/`u64` counters are natural numbers unless a theorem is about their overflow.

### 4.4 Not expressible here

Zero knowledge, unlinkability and unforgeability are statements about probabilistic polynomial-time adversaries; the
model has none. Timing and memory behaviour are not modelled.

### 4.5 Findings

Statements that a user would expect and that are false of the code are kept as `..._refuted` theorems, each with a
concrete witness, next to what does hold:

| id | what | theorems |
|---|---|---|
| C06 | the policy builder's invariant fails for default keys | `C06_builder_invariant_default_key_refuted` |
| C09 | reading an attribute's value panics for some attributes | `C09_value_total_refuted` |
| C12 | the encryption key of a record is not committed | `C12_commitment_binds_enc_key_refuted` |
| C15 | two nullifiers for one record if a secret is not reduced or the owner is the identity | `C15_two_nullifiers_refuted`, `C15_identity_owner_refuted` |
| C18 | API and circuit disagree on amounts of 2^127 and more | `C18_balance_unbounded_refuted` |
| C23, C36 | the boundary between nullifiers and commitments is not bound by the proof | `C23_boundary_refuted`, `C36_list_boundary_refuted` |
| C26 | a transfer can change the asset code of a record into another with an equal policy | `C26_asset_code_refuted` |
| C28 | the credential of an accepted transfer is not bound to the policy's issuer | `C28_issuer_refuted` |
| C30 | API and circuit disagree on the memo for some maps and thresholds | `C30_address_flags_refuted`, `C30_threshold_refuted` |
| C35 | generation succeeds with an expiry for which no proof exists | `C35_expiry_refuted` |
| C38 | mint and freeze do not range-check the change: a fee above the input is accepted | `C38_uncovered_mint_fee_refuted`, `C38_uncovered_freeze_fee_refuted` |
| C40 | batch verification accepts mints of foreign codes that single verification refuses | `C40_native_mint_in_batch_refuted` |
| C44, C45 | consequences for ledgers: double spend with an unreduced secret, supply out of nothing | `C44_noncanonical_secret_refuted`, `C45_*_refuted` |
| C46 | a proving key stored under an explicit path is overwritten by the verifying key; storing is not atomic | `C46_explicit_path_refuted`, `C46_atomic_refuted` |
| C49 | calls that panic | `C49_*_refuted` |
| C54 | a mint's viewing memo shows address and blinding factor whatever the policy | `C54_mint_memo_hides_refuted` |
| C55 | freezing and releasing can change the reveal map by one | `C55_reveal_map_kept_refuted` |
| C56 | the parameter tool swaps the mint and the freeze circuit | `C56_named_circuit_refuted` |
| C58, C59 | the wallet of the test marks records as being spent but never skips them: two payments without a scan in between share an input | `C58_second_payment_conflicts`, `C59_second_payment_conflicts` |
| C60 | the same for two mints | `C60_second_mint_conflicts` |
| C61 | output addresses are not checked to be points: a further output of amount 0 hides a whole transfer from the viewer | `C61_every_transfer_seen_refuted` |
| C61 | memos below the threshold or of assets without viewer are not constrained and can claim transfers of another asset | `C61_reads_truth_refuted` |
| C62 | the freezer of the test notes any mint with its viewer key as a mint of its own asset, or panics on it | `C62_foreign_mint` |
| C63 | records that their owners spend stay in the freezer's book, and every later freeze of that owner is rejected | `C63_spent_record_blocks` |
| C63 | a second call for a user before the first note is scanned makes the freezer note the wrong openings | `C63_second_call` |
| C64 | `update_input_asset_def`, `set_dummy_input_record` and `update_input_amount` check their index against all inputs but use the next position: the last index that passes the check panics | `C64_last_index_refuted` |
| C64 | the depth of a tree is the next power of three instead of its exponent, cut to a byte: far deeper than needed, and from 3^38 + 1 records on too small | `C64_depth_refuted` |
| C64 | setting the threshold or the map of a builder also rewrites the policy of its dummy inputs, which are then no dummies any more | `C64_dummy_order_refuted` |
| C64 | builders of native transfers ignore the given expiry and bound data | `C64_builds_native` |
| C67 | the transfer circuit does not fix the native code: the public input of a witness takes it from the change record, and only the verifier puts the real one | `C67_transfer_sound` (`native` is whatever the public input says) |
| C72 | a dash in RAYON_NUM_THREADS shifts the columns of the saved table without an error | `C72_table_refuted` |
| C74 | the integration test files the fee record of a block under position `ledger_len + txns.len() - 1`; it is the last leaf of the block, at `ledger_len +` the number of outputs. The wallet shows the fee, but no payment with it can be made | `C74_proposer_refuted`, `C74_claimed`, `C74_misfiled` |
| C76 | the two halves of a freezer's key pair are not compared when it is read: a stored pair can be read whose public key (given to issuers) belongs to another secret | `C76_freezer_pair_consistent_refuted` |
| C77 | the operators of `Amount` wrap in a build without overflow checks: a sum can be smaller than its parts (the library itself sums with `safe_sum_amount`) | `C77_sum_exact_refuted` |
| C83 | a transfer whose further inputs are all dummies may name the native code together with any policy: its native outputs, paid by the fee record, then carry that policy, so their sender can be their freezer, and their owner cannot use them as fees | `C83_native_policy_refuted` |
| C88 | an asset code is a hash of seed and description only: whoever knows the seed can mint more of the code under another policy, for instance without freezer, and both mints are accepted | `C88_code_fixes_policy_refuted` |
| C89 | the proving and the verifying key of one shape are written one after the other and nothing ties them together: a store for a new reference string that is stopped between the two leaves a new proving key beside an old verifying key, both of which load without error | `C89_pair_matches_refuted` |
| C90 | `txn_batch_verify` does not check that the code of a mint belongs to its seed (C40), so a block can mint any amount of an asset of somebody else, made with an arbitrary seed | `C90_ledger_without_check_refuted` |

### 4.6 Where to look

Every file starts with a comment that says what it holds. By role:

- **Model of the code**: `Base`, `Config`, `Structs`, `Keys`, `Utils`, `Memo`, `Plonk`, `Witness`, `Circuits`, `Snark`, `Notes`, `Serde`, `Params`,
  `GenParams`, `Ledger`, `Wallet`, `Roles`, `Builder`, `BuilderWit`, `Bench`, `Proposer`, `Text`, `AmountText`, `Curves`, `ParamSize`, `Collections`,
  `PolicyReach` and the first part of `ParamHistory`.
- **Specifications**, stated without the functions they are about: `Relation`, `MovedAsset`, `LedgerSpec`, `WalletSpec`, `RolesSpec`, `FreezerSpec`,
  `BuilderSpec`, `BuilderCallSpec`, `WorldSpec`, `ExactSpec`, `CanonSpec`, `ScheduleSpec`, `OriginSpec`, `SizesSpec`, `LibrarySpec`, `ClassSpec`,
  and the parts headed "Specification" in other files.
- **Property theorems**: `Props*`, and nowhere else. Each theorem there is followed by `Print Assumptions` and by an example that meets its hypotheses.
- **Concrete instances** for the examples: `Toy`, `ToySnark`, `ToySer`, `Samples` and `*Samples*`, `LedgerForged`, `Decide`, the second part of `MintRight`.
- **Proofs**: everything else.

## 5. Testing the theorems

`seeded/LOG.jsonl` records edits of the model that a realistic bug would make, the theorems that then fail and what was
tightened. Each edit is built in a scratch copy, proof file by proof file.
