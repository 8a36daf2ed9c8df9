# Formal model of ViperScience/libcardano in Rocq (Coq 8.16.1)

## Conventions

* Bytes and machine integers are `Z`; a byte string is `list Z` with `bytes_ok` (every element in `[0,256)`).
  Texts (`std::string`) are byte strings as well: C++ `char` content is 8-bit.
  Where C++ arithmetic can wrap, the wrap (`mod 2^32`, `mod 2^64`) is written into the model.
* Results are `outcome A := Ok a | Throw | UB`. `UB` stands for C++ undefined behaviour
  (out-of-bounds access, null dereference, reading uninitialised memory...). It is never merged with `Throw`.
* External cryptography (Botan, libsodium, ed25519-donna, vrf) is a `Section` variable or a record of
  functions with explicit laws as premises of the theorem; each such premise is shown satisfiable by an instance.
* Layout of `rocq/theories`: `Base.v`; per area `Model_X.v` (executable model, every definition cites /repo),
  `Spec_X.v` (independent specification, where needed), `Proof_X.v` (lemmas), `Props_X.v` (only the property
  theorems, `Print Assumptions` and examples).

## Plan per property

| property | what is modelled | how it is proved |
|---|---|---|
| C01, C02 hex | `bytes2hex`, `hex2bytes` | induction on the string; digit table by finite sweep |
| C03–C06 Bech32 | `polymod`, `expand_hrp`, `create_checksum`, `verify_checksum`, `convertbits` (int accumulator), `encode`, `decode` with table reads | big-endian bit-string semantics of `convertbits`; polymod as an affine map over GF(2); burst detection by injectivity of the step; two-error detection by finite sweep of 31 x 1022 syndromes lifted by linearity |
| C07–C10 Base58 | digit loops on uint8/uint32 | positional value invariant; buffer bound via 58^138 > 256^100 |
| C11 packing | `BytePacker` | positional arithmetic |
| C12–C14 addresses | `address.cpp` Shelley part over the Bech32 model | corollaries of C03/C04; refutation witnesses for C14 |
| C15 chain pointer | `toBytes` | prefix-free code argument |
| C16–C18 mnemonic | `generate`, `toEntropy`, `verify_checksum`, constructors; generated word-list data | carry invariant; finite sweep on word lists |
| C19–C25 KES | key buffers as byte lists, recursion on depth | induction on depth; hash/ed25519 as section variables with correctness law |
| C26–C30 TSS | scalars mod L, group as Z/L-module, Shamir / direct / signing | polynomial interpolation over Z_L; primality of L by a Pocklington certificate |
| C31–C35 BIP32 | byte-level scalar tweaks, HMAC as oracle | positional arithmetic, module laws |
| C36–C40 tx builder | builder state machine over CBOR sizes | invariants over call sequences; monotone fixpoint argument for the fee loop |
| C41 CBOR | cppbor encoder, RFC 8949 reader | structural induction |
| C42–C45, C52 ledger | serialisers/deserialisers over CBOR trees with null-deref = UB | case analysis / induction on nesting; refutations |
| C46 stake pool | opcert message | injectivity of fixed width concatenation |
| C47 rationalApprox | int64 model of the loop on dyadic inputs | continued-fraction invariants |
| C48 Byron | CBOR payload, CRC-32 | CBOR round trip; CRC linearity |
| C49 genesis | JSON object mappings | case analysis; refutation for Shelley slotLength |
| C50, C57 VRF | `vrf.cpp` wrappers over an abstract proof scheme | direct; hypotheses (correctness, uniqueness) instantiated by a toy scheme; refutations for short and long proofs |
| C51 pool registration | every setter of `RegistrationCertificateManager` over Flocq-free dyadic doubles and `rationalApprox` | invariant over histories of setters; refutation witnesses computed through the model |
| C52, C61, C62 readers | every `deserialize` of `shelley/ledger.cpp` with null views and unchecked `get(i)` as UB | case analysis over CBOR trees; a separate grammar in Spec_Ledger says what bytes mean |
| C53 KES files | `saveToFile` / file constructor over the KES model | drift lemma: a counter that lags behind the stored tree re-seeds a subtree from 32 zero bytes |
| C54, C55 transactions, certificates | bodies, witness sets, transactions, certificates, shelley and babbage | composition of the part lemmas; an independent CDDL predicate |
| C56 balancing | `balance` | frame lemma over the same case split as C36 |
| C58, C59 files | `writeEnvelopeTextFile` and every `saveToFile`; a file as the bytes reached the device, with an arbitrary stop point | text round trip through a JSON reader written in Spec_Files; induction over device events |
| C60 cold keys | `extend`, `fromRootKey`, `fromMnemonic`, `asBech32` | composition with C31, C34, C03 |
| C63 wire form | the whole chain builder -> CBOR -> bytes -> CDDL reader | composition of C41, C55, C64 |
| C64 builder histories | a history of builder calls, and the transaction it should describe, in Spec_Tx | invariant over histories |
| C65 money | `ada2love`/`love2ada` over Flocq binary64 | Flocq `Bmult`/`Bdiv` correctness, error bound |
| C66 curve wrappers | `curve25519.cpp` on bytes | scalars as residues mod L; points as an abstract prime-order module plus torsion |
| C67 Ed25519 keys | `ed25519.cpp` | wrappers over an abstract scheme |
| C68 UTxO JSON | `UTxO::fromJSON` with `nlohmann::json` accessors | case analysis over JSON trees |
| C69 locked arrays | `secmem.hpp` over an abstract memory with pages | invariants over histories of construct / copy / move / write / destroy |
| C70 node acceptance | a ledger rule (`Spec_Node`): inputs unspent, value preserved, fee, size, witnesses, validity interval | composition of C36, C37, C38, C40, C63 |
| C71 watch-only wallet | CIP-1852 paths over the BIP32-Ed25519 and address models (`Props_Wallet`) | composition of C30-C32, C35, C12; primitives abstract with their algebraic laws |
| C72 Babbage node acceptance | a Babbage ledger rule over the submitted bytes (`Spec_NodeB`), the Babbage builder histories | composition of C37, C38, C63, C64; simulation of two histories that differ in amounts of equal width |
| C73 blocks of a pool | the operational-certificate rule and the sum composition over received bytes (`Spec_Block`), KES and certificate models | induction on the depth: the verifier decides the specification for arbitrary signatures; composition of C19, C23, C46 |
| C74 signing by passing bytes around | composition of fromCBOR, sign, serialize (`Props_Cosign`) with the node of `Spec_Node` | induction over the signers with C54 (round trip) and C40 (signing), then C70; the pool registration case from the exact reader (C43) and C40_id_binds_body |
| C75 funded transactions balance | the balancing loop, exactly, by sizes of the serialised transaction (`Props_Fund`), composed with the node of `Spec_Node` (`Props_Fund2`) | three iterations computed symbolically from the fixpoint of the fee loop; induction for the iterations that change nothing; C70 for acceptance |
| C76 phrase to accepted payment | composition of the mnemonic, key, address and transaction models with the node of `Spec_Node` and its UTXO transition (`applied`) (`Props_Spend`, case in `Props_Spend2`) | C16-C18, C71, C12, C04 (a text carries one payload), C75 for acceptance, CBOR prefix-freeness for the body bytes; witnesses traced to the signing keys by induction |
| C77 key-generation program | the example program as a sequence of file-system effects: the list of all intermediate file-system states, the final one, and the outcome (`Model_Keygen`) | list induction over the jobs (`Proof_Keygen`), the file theorems of C58, the key derivation model of C31, and C73 for the blocks |
| C78 reused objects | the `deserialize` members again, as assignments to an object that survive an exception (`Model_Reuse`) | simulation against the fresh-object readers of `Model_Ledger` (statement by statement), induction over the loops and over the history (`Props_Reuse`) |
| C79 signing schedules | any number of `StatefulSigner` objects under a history of calls, `Dealer::generate` and `splitSeed` (`Model_TssNet`) | projection of the history to each signer by induction; the signature equation of a session from C30_history and the Lagrange weights, as an iff (`Props_TssNet`) |
| C80 threshold coins | the builder without keys joined with a signing session on the transaction's id (Model_Tx, Model_TssNet) | C75 with a placeholder key, the witness replaced by the aggregated signature; C79 decides whether it verifies (`Props_Treasury`) |
| C81 certificates on the ledger | the builders' certificate calls and the registration API (Model_Tx, Model_Ledger, Model_Pool) against DELEGS/DELEG/POOL over wire CBOR (`Spec_Stake`) | the ledger state as a function of the calls made so far, by induction from the back; reading back what the serialiser writes; C75 for the funded transaction, C73 for the headers (`Props_Stake`, `Props_Stake2`) |
| C82 a purse that pays again and again | the builder's payment calls (Model_Tx) against the node (Spec_Node) and purses on its UTXO (`Spec_Purse`: coins, worth, room) | one payment: C75 (funding), C70 (acceptance) and C76 (spending) specialised to payments, with a linear size bound; then induction over an inductive `history` of payments, receipts and foreign transactions (`Props_Purse`, `Props_Purse2`); example: a purse that pays twice, the second time out of the change |
| C83 a pool that runs for ever | the KES key, the issue counter and the certificate manager (Model_Kes, Model_Pool) against the OCERT rule (`Spec_Block`) | a labelled step relation of operator and chain events; invariant: some keygen, history, period and number explain the state; C73 for a single header, C21 for the refused update; consequences for prudent and for impatient operators (`Props_Operator`) |
| C84 a purse that stakes | C82's payment with account registration, delegation and withdrawal (Model_Tx) against the UTXO, witness and certificate rules (`Spec_Node`, `Spec_Stake`); plans and their effects in `Spec_Delegator` | C75's exact balancing with deposits and withdrawals, a size bound for the extra parts, C81's certificate semantics; then an inductive relation of lives with books as an invariant (`Props_Delegator`, `Props_Delegator2`) |
| C85 a late or early operator | as C83, with time and the operator's updates independent and certificates for any first period | C83's invariant with the update count in place of the age; acceptance from C73 and, for the refusals, C25's other-period argument through `verify_exact`; catching up by induction on the missing updates; a toy tree with 64 different leaves shows the hypothesis can be met |
| C86 slot leadership | C50, C51, C57, C73 and C81's models together; Spec_Leader adds the VRF checks and the Babbage header body to Spec_Block | registered key by C51_fields and C81_certificates_exact; acceptance from C57_proofs and C73_block_accepted_iff; one value by the VRF's uniqueness, with the second key named |
| C87 real hash functions | BLAKE2b, SHA-2, HMAC and PBKDF2 written from the standards (`Spec_Hashes`) put for the model's hash parameters | lengths by induction over blocks and rounds; the phrase theorems C16, C18 and C76 without their premise (`Props_Hashes`) |
| C88 under-funded transactions | balance() of the Shelley builder as in C75, when the inputs do not suffice | one iteration exactly (`Props_Fund`), induction over the outputs removed, with the hundred-iteration limit (`Props_Short`); joined with C70 (`Props_Short2`) |
| C89 balancing again | balance(), addOutput(), addInput() of the Shelley builder on a balanced transaction | every added output is hopeless in the sense of C88, by induction over the additions; C88's and C75's exact iteration (`Props_Again`) |

## What is modelled, file by file

| file in /repo | model | left out |
|---|---|---|
| `src/encodings.cpp`, `include/cardano/encodings.hpp` | Model_Bech32, Model_Base58 | nothing but exception texts; `int` accumulators cannot overflow for the widths used |
| `include/cardano/util.hpp`, `src/util.cpp` | Model_Hex, Model_Util, Model_Files, Model_Money | the JSON library itself (texts are read by the reader in Spec_Files) |
| `src/address.cpp` | Model_Address, Model_Byron (with Model_Cbor and CRC-32) | copy and move members |
| `src/mnemonic.cpp`, `bip39_dictionary.hpp` | Model_Mnemonic, Data_Bip39 (generated by tools/gen_dict.py from the header) | the random generator (entropy is an argument), PBKDF2 is in Model_Bip32 as an oracle |
| `include/cardano/kes.hpp`, `src/kes.cpp` | Model_Kes | Blake2b-256 and Ed25519 are parameters; mlock failures |
| `src/tss.cpp`, `tss.hpp` | Model_Tss, Model_TssNet | random numbers enter as arguments; SHA-512 and the group are parameters |
| `src/bip32_ed25519.cpp` | Model_Bip32 | HMAC, PBKDF2, ChaCha20-Poly1305 are parameters with stated laws |
| `src/curve25519.cpp`, `src/ed25519.cpp`, `src/vrf.cpp` | Model_Curve, Model_Ed25519, Model_Pool (VRF part) | libsodium is a parameter |
| `src/shelley/transaction.cpp`, `src/babbage/transaction.cpp`, `transaction.hpp` | Model_Tx, Model_Utxo | `emptyWithParams`, babbage `fromCBOR` and `addMint` (declared, never defined), copies and moves |
| `src/shelley/ledger.cpp`, `src/ledger.cpp`, `ledger.hpp`, `serialization.hpp` | Model_Ledger over Model_Cbor; Model_Reuse (objects read into again) | protocol parameter updates and block headers (their serialisers are stubs), bootstrap witnesses' content, metadata (never serialised); Alonzo/Babbage/Conway readers (they throw "not yet implemented") |
| `src/stake_pool.cpp`, `stake_pool.hpp` | Model_Pool, Model_Files | the system clock |
| `src/{byron,shelley,alonzo,conway}/genesis.cpp` | Model_Genesis, Data_Genesis | nlohmann's parser beyond the value grammar; doubles are binary64 values |
| `include/cardano/secmem.hpp` | Model_Secmem | the operating system is a table of locked pages; secure_scrub_memory is a write of zeros that happens |
| `examples/generate_stake_pool_keys/main.cpp` | `Model_Keygen` | std::cout is taken to succeed; the random seeds are arguments |
| `src/debug_utils.*`, `cmake/`, `test/` | not modelled | no API a user relies on |
| cppbor (external) | Model_Cbor: encoder, definite-length reader with its views | indefinite-length items, views of incomplete items |

## Trusted base

* Coq 8.16.1's kernel (including its `vm_compute` machine). No kernel check is switched off, nothing is admitted, there are no axioms,
  functors or module types of ours.
* `Print Assumptions` stands under every theorem of `Props_*.v`. It prints "Closed under the global context" for all of them except
  the C65 theorems, which go through Flocq's binary64 and so through the standard library's real numbers:
  `ClassicalDedekindReals.sig_forall_dec`, `ClassicalDedekindReals.sig_not_dec`, `FunctionalExtensionality.functional_extensionality_dep`,
  `Classical_Prop.classic`. (The checker also lists the abstract fields `Coq.ssr.ssrunder.Under_rel.*`, which belong to the
  SSReflect part of Coq's own distribution and come in by loading it.)
* The faithfulness of `Model_*.v` to /repo: read by hand, nothing was compiled or run. Props_Faithful.v replays test vectors and computed
  examples through the models. Vectors.v runs the models, with BLAKE2b, SHA-256 and SHA-512 written from the standards (Spec_Hashes.v), on
  the test vectors of /repo/test: Bech32, Base58, Shelley and Byron addresses, recovery phrases, pool identifiers, key, counter and
  certificate files, pool certificates, transaction bytes, identifiers and balancing. Every one comes out as the library's tests require.
  What needs Ed25519 itself is too slow for the checker and was run outside the build, by `vm_compute` with the curve written out in Coq
  (tools/ed25519_vectors.txt): the BIP32 derivation, address and signature vectors of /repo/test and the KES keys, updates and signatures
  of cardano-node in /repo/test/data/kes, at depths 1 and 6. They come out equal. The two signatures in Vectors.v are valid for the model's messages.
* The premises about external cryptography named above. They appear as hypotheses in the theorem statements and every one of them is met
  by a concrete instance in the same file, so that no theorem is vacuous.
* cppbor is an external library that is not in /repo: Model_Cbor follows its published encoder and reader. `Int::value()` (relay ports,
  credential and reward-source kinds, MIR amounts) is taken as conversion to int64 and back, with no abort for unsigned items >= 2^63.
* The tools in `tools/` only generate data files (checked against their source by eye) and MANIFEST.json.

## How to read the claims

A property whose plain form is false of the code is stated in `properties.jsonl` in the exact form that is true. The theorem with suffix
`_refuted` is the counterexample to the plain form, kept beside it. The theorems named `..._exact`/`..._exactly` are the two-sided statements:
they say for every input whether the plain claim holds, by an `<->` whose right side is a condition on the input alone.

| file | exact statements |
|---|---|
| Props_Exact, Props_Exact2 | C40, C42, C43, C52, C54, C55, C61 (which values survive, conform or crash a reader), C47 |
| Props_Exact3 | C51: recorded margins, histories of setters, the constructor |
| Props_Exact4 | C48: which byte strings and texts are safe to read as Byron addresses, and what is accepted |
| Props_Exact5 | C56: when outputs are kept, and how they are cut back otherwise |
| Props_Exact6 | C57 (verification of arbitrary bytes), C59 (what a full device leaves behind and when it is reported) |
| Props_Exact7 | C62: what every reader result says about the bytes, loss by loss |
| Props_Exact8 | C44 (scripts), C58 (descriptions), C68 (accepted JSON) |
| Props_Secmem | C69: which pages are locked after any history |

## Findings: places where the code does not do what its user would expect

All are theorems (`_refuted`) or are part of an exact statement, unless marked (read).

* **Bech32** `decode` reads outside its table for characters >= 128 after the separator (C06).
* **Base58** foreign characters are accepted as digit 2^32-1; all-zero strings gain a byte; encoding the empty string is undefined (C08, C09).
* **Addresses** text decoders ignore the prefix and the network nibble (C14).
* **Byron addresses** redeem addresses are written as type 1; the root copy is unchecked (out-of-bounds for more than 28 bytes), short roots are
  zero-padded; missing parts dereference null; encrypted paths of 28..255 bytes are written malformed (C48).
* **KES** `signCompact` writes out of bounds at depth 0; compact verification at depth 0 ignores the key carried by the signature (C73); a key restored from its bytes signs compactly for period 0; the last signature
  verifies at all later periods; `saveToFile` drops the period, and a resumed key ends on the all-zero seed (C24, C25, C53).
* **TSS** n = 1 direct split returns [1+s]B; Shamir with n = 2^32-1 returns no shares; the signer's nonce is zero until the first commitment and
  is reused (C26, C27, C30); aggregation of empty vectors is undefined; direct `compositeKey` does not check that ids differ (read).
* **Curve25519** the explicit Scalar/Point constructors do not validate; `mulBasepoint` ignores libsodium's status; `Point{}` is of order 4 (C66).
* **BIP32** `encrypt` documents that it clears the key but is const; `fromSeed` can leave bit 253 set (read).
* **Transactions** certificate adders keep stale witnesses; duplicate inputs and withdrawals are counted twice; builders made by `fromCBOR` have zero
  totals; `balance` reduces or removes the caller's last output when funds do not suffice: forced, it succeeds as soon as the inputs pay the fee of a transaction without outputs, and burns what is left (C88); a negative minFeeA loops for ever; babbage's
  `calculateFee` changes the body and clears signatures; the time to live defaults to 0, so a transaction without a call to set it is expired; `balance` without force throws for well-funded transactions whose change lies just above 2^32 lovelace
  (C37-C40, C56, C70, C75, C88); payees added after `balance` are dropped by the next `balance`, which
  returns normally, however large the change is (C89).
* **UTxO JSON** missing keys and short ids are undefined behaviour, long ids are cut, negative numbers wrap (C68).
* **Ledger values** IPv6 relays, n-of-k scripts, genesis delegations, pool relays/metadata/owners, witness scripts, metadata, babbage certificates,
  datum options and script references do not survive or crash the reader; unknown certificate kinds become unreadable; ports are cut to 16 bits
  (C42-C44, C52, C54, C55, C61, C62).
* **Objects read into again** a failed read leaves a zero denominator, a new credential kind over the old hash, new inputs over old outputs; `[]` leaves the old transaction and reports success; reward moves accumulate (C78).
* **rationalApprox** loops for ever on NaN, divides by zero from 64 fraction digits on, has a negative denominator at 63 (C47), hence the pool
  margins 0.0003 (crash) and 0.0007 (recorded as (2^64-1)/1429) (C51); every ledger refuses the latter, as it does relay names and metadata URLs of
  more than 64 bytes, which nothing in the API checks (C81).
* **Pool files** extended cold keys are saved without chain code; registration files carry the type of operational certificates; setMetadata reads
  uninitialised bytes for hashes below 32 bytes (C51, C58, C60).
* **VRF** `verifyProof` of the public key reads 80 bytes from any span (C57).
* **Genesis** Shelley's slot length is read from securityParam; initialFunds is written as null; integers narrow silently (C49).
* **Envelope files** no JSON escaping; a full device is not reported below the stream's buffer size; not atomic (C58, C59).
* **Key-generation program** cold.counter is saved before the certificate is issued: it names the number pool.cert already uses (C77).
* **Money** `ada2love` truncates (2.01 ADA -> 2009999); undefined from 9223372036855 ADA on (C65).
* **SecureByteArray** copies are not locked; unlocking is by page and unlocks neighbours (C69).
