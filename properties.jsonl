{"id": "C01", "title": "Hex round trip", "statement": "BASE16::encode produces exactly two lower-case hex digits per byte, and BASE16::decode(BASE16::encode(b)) returns b; conversely decoding any accepted text and re-encoding gives the text in lower case.", "quantifier": "every byte string; every accepted hex text", "why_tests_cant": "Unbounded set of inputs; tests sample a few strings.", "anchors": ["src/encodings.cpp: bytes2hex, hex2bytes, BASE16::encode, BASE16::decode"]}
{"id": "C02", "title": "Hex decoder accepts exactly the hex texts", "statement": "BASE16::decode throws if and only if the text has odd length or contains a character outside 0-9a-fA-F; otherwise it returns half as many bytes as characters.", "quantifier": "every text over 8-bit characters", "why_tests_cant": "An acceptance set is a statement about all texts.", "anchors": ["src/encodings.cpp: hex2bytes"]}
{"id": "C03", "title": "Bech32 round trip", "statement": "For every human-readable part that is non-empty and has no upper-case ASCII letter (a '1' inside is allowed), and every payload, BECH32::encode succeeds and BECH32::decode of the result returns the same human-readable part and payload. The variant that takes hexadecimal text encodes the bytes it denotes (either case), comes back in lower case, and refuses anything that is not even-length hexadecimal.", "quantifier": "all hrps and payloads of any length", "why_tests_cant": "Unbounded inputs; bit regrouping has length-dependent padding.", "anchors": ["src/encodings.cpp: BECH32::encode, BECH32::decode, convertbits, create_checksum, verify_checksum"]}
{"id": "C04", "title": "Bech32 texts are canonical", "statement": "If BECH32::decode accepts a text and returns (hrp, payload), then BECH32::encode(hrp, payload) is exactly that text in lower case: two different lower-case texts never decode to the same value. The variant that returns hexadecimal text gives the two lower-case digits of every payload byte.", "quantifier": "every text", "why_tests_cant": "Second-preimage statements range over all texts.", "anchors": ["src/encodings.cpp: BECH32::decode, convertbits, verify_checksum"]}
{"id": "C05", "title": "Bech32 detects typing errors", "statement": "Replacing any characters of a valid text's data part that all lie within a window of six consecutive positions makes decoding throw, for texts of any length; replacing any one or two characters at most 1022 positions apart does as well.", "quantifier": "every accepted text and every such substitution", "why_tests_cant": "Number of texts and error patterns is unbounded.", "anchors": ["src/encodings.cpp: polymod, verify_checksum, BECH32::decode"]}
{"id": "C06", "title": "Bech32 decoder is memory safe on any text", "statement": "BECH32::decode never reads outside its lookup table on 7-bit text; on arbitrary text it does so exactly when, after the last '1' (which is not the first character and is followed by at least six characters), alphabet characters are followed by a character of code 128 or more. On all other texts it returns or throws.", "quantifier": "every text over 8-bit characters", "why_tests_cant": "Absence of out-of-bounds reads needs all byte values in all positions.", "anchors": ["src/encodings.cpp: B32_CHARSET_REV, BECH32::decode"]}
{"id": "C07", "title": "Base58 round trip", "statement": "For every byte string that contains at least one non-zero byte BASE58::decode(BASE58::encode(b)) returns b, leading zero bytes included. The hexadecimal variants agree: even-length hexadecimal text not all zeros encodes and decodes back to itself in lower case.", "quantifier": "every byte string with a non-zero byte", "why_tests_cant": "Unbounded big-number conversion.", "anchors": ["src/encodings.cpp: BASE58::encode, BASE58::decode"]}
{"id": "C08", "title": "Base58 handles the degenerate inputs", "statement": "The byte strings without a non-zero byte: n >= 1 zero bytes encode to n ones, but n ones decode to n+1 zero bytes, so no all-zero string survives encode/decode; BASE58::encode is undefined behaviour for exactly one input, the empty byte string. The hexadecimal variant throws exactly on text that is not even-length hexadecimal and is undefined exactly on the empty text.", "quantifier": "the empty string and all-zero strings of every length", "why_tests_cant": "Edge cases at every length; the failure is a size_t wrap.", "anchors": ["src/encodings.cpp: BASE58::encode, BASE58::decode"]}
{"id": "C09", "title": "Base58 decoder rejects foreign characters", "statement": "BASE58::decode throws exactly on texts with a character of code 128 or more and is never undefined. Every other text is accepted and gives one zero byte per leading '1' followed by the shortest form of the number it spells; characters outside the alphabet are not refused but counted as the digit -1 (or 2^32-1 when the number so far is a multiple of 256). The hexadecimal variant decodes and refuses exactly as the byte variant does.", "quantifier": "every text", "why_tests_cant": "Acceptance set over all texts.", "anchors": ["src/encodings.cpp: BASE58::decode, B58_CHARSET_REV"]}
{"id": "C10", "title": "Base58 encoder stays inside its buffer", "statement": "The digit buffer that BASE58::encode allocates from the input size is large enough for every non-empty input: no write past its end, and the digits produced are all below 58.", "quantifier": "every non-empty byte string", "why_tests_cant": "The worst case grows with the input; needs log_58(256) < 1.38.", "anchors": ["src/encodings.cpp: BASE58::encode"]}
{"id": "C11", "title": "Fixed-width integer packing round trip", "statement": "Packing an unsigned integer to bytes and unpacking with the same byte order returns it; big-endian output is the positional base-256 expansion and little-endian its reverse; unpack then pack is the identity on byte strings of the width.", "quantifier": "all values of every width and both byte orders", "why_tests_cant": "2^64 values.", "anchors": ["include/cardano/util.hpp: BytePacker::pack, BytePacker::unpack"]}
{"id": "C12", "title": "Shelley address text round trip", "statement": "For every network and credential hash(es) of the right size, BaseAddress/EnterpriseAddress/RewardsAddress toBech32 followed by fromBech32 returns an equal address; toBytes is the header byte followed by the hashes.", "quantifier": "all networks and 28-byte hashes", "why_tests_cant": "2^224 or more inputs.", "anchors": ["src/address.cpp: BaseAddress, EnterpriseAddress, RewardsAddress"]}
{"id": "C13", "title": "Address decoders reject other kinds", "statement": "fromBech32 of each Shelley address kind accepts a bech32 text only when the payload has exactly that kind's length and type nibble; a valid text of one kind is rejected by the decoders of the other kinds.", "quantifier": "every text", "why_tests_cant": "All texts.", "anchors": ["src/address.cpp: fromBech32"]}
{"id": "C14", "title": "Address decoders respect prefix and network", "statement": "fromBech32 takes the address from the payload alone: the human-readable prefix has no influence and any network nibble is accepted (so a text of another kind or network is read as an address). Writing the address again and comparing with the text finds exactly the texts whose prefix is not the one belonging to the address kind and the header's network.", "quantifier": "every text", "why_tests_cant": "All texts; a prefix/header mismatch is not covered by round-trip tests.", "anchors": ["src/address.cpp: fromBech32, toBech32"]}
{"id": "C15", "title": "Chain pointer encoding is injective and minimal", "statement": "ChainPointer::toBytes is injective: two pointers with equal bytes are equal, and the encoding is the minimal big-endian base-128 form of slot, transaction index and certificate index.", "quantifier": "all triples of 64-bit values", "why_tests_cant": "2^192 triples.", "anchors": ["src/address.cpp: ChainPointer::toBytes"]}
{"id": "C16", "title": "Mnemonic generation round trip", "statement": "For every supported size, a generated phrase has exactly that many words, every index is below 2048, its checksum verifies, and toEntropy/toSeed gives back exactly the random bytes used.", "quantifier": "all sizes and all entropy values", "why_tests_cant": "2^256 entropy values.", "anchors": ["src/mnemonic.cpp: Mnemonic::generate, toEntropy, toSeed, verify_checksum"]}
{"id": "C17", "title": "Mnemonic decoding is positional", "statement": "For any phrase of a supported size with word indices below 2048, the entropy is the leading 32 bits per three words of the concatenated 11-bit indices and verify_checksum succeeds iff the remaining bits equal the leading bits of SHA-256(entropy); two phrases with equal entropy and valid checksum are equal.", "quantifier": "all phrases of 9..24 words", "why_tests_cant": "2048^24 phrases.", "anchors": ["src/mnemonic.cpp: toEntropy, verify_checksum"]}
{"id": "C18", "title": "Word lists are sound", "statement": "In each of the ten built-in languages, the word list has 2048 entries that are pairwise distinct and contain no separator, so phrase text and word indices determine each other.", "quantifier": "every language, every index sequence", "why_tests_cant": "Finite lists but all phrases built from them.", "anchors": ["include/cardano/bip39_dictionary.hpp", "src/mnemonic.cpp: Mnemonic constructors"]}
{"id": "C19", "title": "KES signatures verify at every period", "statement": "For every depth, seed, message and number of updates u < 2^depth, the signature made after u updates verifies under the original public key at period u.", "quantifier": "all depths, seeds, messages, update counts", "why_tests_cant": "Depth and history are unbounded.", "anchors": ["include/cardano/kes.hpp: SumKesPrivateKey, SumKesSignature"]}
{"id": "C20", "title": "KES public key never changes", "statement": "Updating the secret key any number of times leaves the public key it reports unchanged.", "quantifier": "all depths, seeds and histories of updates", "why_tests_cant": "Histories.", "anchors": ["include/cardano/kes.hpp: update, publicKey"]}
{"id": "C21", "title": "KES key lifetime", "statement": "Exactly 2^depth - 1 updates succeed; the next throws and leaves the key unchanged, and period() counts the successful ones.", "quantifier": "all depths and histories", "why_tests_cant": "Histories of exponential length.", "anchors": ["include/cardano/kes.hpp: update, period"]}
{"id": "C22", "title": "KES forward security of the stored key", "statement": "After an update to period p the serialised key contains nothing from which a leaf key or seed of an earlier period can be derived by the key-expansion functions.", "quantifier": "all depths, seeds, periods", "why_tests_cant": "Needs the derivability closure over all stored bytes.", "anchors": ["include/cardano/kes.hpp: SumKesPrivateKey::update, update_buffer, keygen"]}
{"id": "C23", "title": "KES sizes and layout", "statement": "Secret keys, signatures and compact signatures have sizes 32+96d+4, 64+64d and 64+32(d+1); serialising and parsing a signature of the right size is the identity and other sizes are rejected.", "quantifier": "all depths and byte strings", "why_tests_cant": "All depths.", "anchors": ["include/cardano/kes.hpp: KesSeed::size, SumKesPrivateKey::bytes, SumKesSignature::bytes, SumKesPrivateKey and SumKesSignature (from bytes)"]}
{"id": "C24", "title": "KES compact signatures", "statement": "At every depth from 1 to 7, a compact signature made after u updates, however often the key was stored and restored in between, has the documented length and verifies at period u under the original public key; the exceptions are exactly these: a key restored from its bytes after its last update and past period 0 makes compact signatures that do not verify (unless Blake2b-256 collides), and at depth 0 signing is an out-of-bounds write.", "quantifier": "all depths, seeds, histories including save/restore", "why_tests_cant": "Histories with crash/restore points.", "anchors": ["include/cardano/kes.hpp: SumKesCompactSignature, SumKesPrivateKey::signCompact"]}
{"id": "C25", "title": "KES signatures are bound to their period", "statement": "A signature made at period p verifies at a period q if and only if q, cut to the last period of the key's life, is p: within the lifetime it is bound to its period (up to Ed25519 forgery, for compact signatures up to a Blake2b collision), and past the lifetime exactly the signatures of the last period verify.", "quantifier": "all depths and pairs of periods", "why_tests_cant": "All pairs of periods, including ones beyond the key's lifetime.", "anchors": ["include/cardano/kes.hpp: SumKesSignature::verify"]}
{"id": "C26", "title": "Shamir reconstruction", "statement": "For every n below 2^32-1 and 1 <= t <= n, any t or more distinct shares of a Shamir split reconstruct exactly the split secret scalar, in any order and with duplicated copies; fewer than t distinct shares, and conflicting copies of one share, are refused. For n = 2^32-1, which the constructor accepts, the split returns no shares at all.", "quantifier": "all secrets, coefficients, thresholds, participant subsets and orders", "why_tests_cant": "Exponentially many subsets over a 252-bit field.", "anchors": ["src/tss.cpp: Dealer, Signer, Dealer::computeLagrangeCoefficients"]}
{"id": "C27", "title": "Direct (n-of-n) splitting", "statement": "The shares of a direct split sum to the secret scalar and the sum of their public keys is the secret's public key, for every n >= 1; the public key the split itself returns is the secret's for every n >= 2, and for n = 1 it is the one of the secret plus one.", "quantifier": "all secrets, random shares and n", "why_tests_cant": "All n; n = 1 is a special path.", "anchors": ["src/tss.cpp: Dealer direct split"]}
{"id": "C28", "title": "Threshold signatures verify", "statement": "The aggregate of the signature shares computed by any qualified group with honest commitments verifies under the shared public key, for direct and Shamir splits.", "quantifier": "all groups, messages, nonces", "why_tests_cant": "Algebraic identity over all groups.", "anchors": ["src/tss.cpp: signatureShare, aggregateSignatureShares, aggregateCommitmentShares"]}
{"id": "C29", "title": "Fewer than t shares reveal nothing", "statement": "For every set of t-1 shares and every candidate secret scalar there is exactly one polynomial consistent with both.", "quantifier": "all secrets, share sets", "why_tests_cant": "Counting argument over the field.", "anchors": ["src/tss.cpp: Shamir split"]}
{"id": "C30", "title": "Signer nonces are used once", "statement": "Over any history of calls on a stateful signer, every signature share is made with the nonce of the last commitment made before it, and with nonce zero if there was none. So a signer that commits before every share uses each nonce once, while two shares for different challenges without a commitment between them, or a share before the first commitment, reveal the key share.", "quantifier": "all call sequences", "why_tests_cant": "Call histories.", "anchors": ["src/tss.cpp: StatefulSigner"]}
{"id": "C31", "title": "Public and private soft derivation agree", "statement": "For both derivation modes and every soft index, the public key of a derived child equals the child derived from the public key, chain code included, along paths of any length; the public derivation may instead throw only when the tweak is zero modulo the group order. In mode V2 the child scalar is the BIP32-Ed25519 formula, as long as 256 bits are not exceeded.", "quantifier": "all keys, chain codes, indices, path lengths", "why_tests_cant": "All keys and paths.", "anchors": ["src/bip32_ed25519.cpp: PublicKey::deriveChild, PrivateKey::deriveChild"]}
{"id": "C32", "title": "Hardened derivation needs the private key", "statement": "Deriving a hardened index from a public key throws, soft ones do not; hardening an index is idempotent, sets the top bit and never collides with a soft index.", "quantifier": "all 32-bit indices", "why_tests_cant": "2^32 indices.", "anchors": ["include/cardano/bip32_ed25519.hpp: HardenIndex", "src/bip32_ed25519.cpp: PublicKey::deriveChild"]}
{"id": "C33", "title": "Encrypted key round trip", "statement": "decrypt(encrypt(key, password), password) returns the key, for the empty and every other password. The encrypted bytes are the key xored with ChaCha20 keyed by PBKDF2-HMAC-SHA512 of the password (15000 iterations, salt \"encrypted wallet salt\\0\"); the chain code is left as it is.", "quantifier": "all keys and passwords", "why_tests_cant": "Unbounded.", "anchors": ["src/bip32_ed25519.cpp: PrivateKey::encrypt, EncryptedPrivateKey::decrypt"]}
{"id": "C34", "title": "Root keys are well formed", "statement": "Every root key made from a seed, a mnemonic or random bytes has the three low bits of the left half clear, the top bit clear and the second-highest bit set; all but those made from a raw seed have the third-highest bit clear too, and from these every V2 path of up to 2^25 steps derives without overflowing 256 bits, to keys that have a public key.", "quantifier": "all seeds, passwords", "why_tests_cant": "2^256 seeds.", "anchors": ["src/bip32_ed25519.cpp: tweak_bits_icarus, tweak_bits_byron, fromSeed, fromMnemonic"]}
{"id": "C35", "title": "Extended-key signatures verify", "statement": "A signature by an extended private key verifies under its public key for every message.", "quantifier": "all keys and messages", "why_tests_cant": "All messages.", "anchors": ["src/bip32_ed25519.cpp: sign, verify"]}
{"id": "C36", "title": "Balanced transactions conserve value", "statement": "When balance() returns, inputs plus withdrawals equal outputs plus fee plus deposits, the fee covers the minimum for the requested number of witnesses, and without force the fee is exactly that minimum; with non-negative fee parameters and amounts within 64 bits it always returns or throws.", "quantifier": "all builder states and witness counts", "why_tests_cant": "All histories of builder calls.", "anchors": ["src/shelley/transaction.cpp: TransactionBuilder::balance"]}
{"id": "C37", "title": "Fee estimate is exact", "statement": "calculateFee returns a*size+b for the size of the transaction with that fee and the requested number of witnesses, in both eras, and that size does not depend on witness contents; it terminates for all fee parameters that are not negative and do not overflow 64 bits (a negative parameter can make it loop for ever).", "quantifier": "all bodies, fee parameters, witness counts", "why_tests_cant": "Fixpoint iteration over all states.", "anchors": ["src/shelley/transaction.cpp: calculateFee, updateFee"]}
{"id": "C38", "title": "Edits invalidate signatures", "statement": "Every builder call that changes the transaction body, other than adding a certificate, discards the witnesses; adding a certificate keeps them. So over any history each witness signs the present body without the certificates appended after it was made, and is valid exactly if none was. In the Babbage builder witnesses are always current.", "quantifier": "all call sequences", "why_tests_cant": "Call histories.", "anchors": ["src/shelley/transaction.cpp: addInput, addOutput, setFee, setTtl, certificate adders"]}
{"id": "C39", "title": "Value bookkeeping matches the body", "statement": "The builder's running totals are the sums of everything handed in; they are at least the value of the inputs and withdrawals it will serialise, with equality if and only if no input and no reward account was handed in twice. A builder loaded from bytes has totals zero.", "quantifier": "all call sequences", "why_tests_cant": "Call histories incl. duplicates.", "anchors": ["src/shelley/transaction.cpp: addInput, addOutput, addWithdrawal"]}
{"id": "C40", "title": "Transaction id and witness set", "statement": "The transaction id depends only on the body. Two transactions have the same id exactly when their bodies are equal up to the IPv6 addresses of pool relays that also have an IPv4 address (those are never written), unless the hash function collides. Signing adds exactly one witness per distinct key, replaces that key's earlier witness, keeps all others and does not change the body.", "quantifier": "all histories of sign calls", "why_tests_cant": "Call histories.", "anchors": ["src/shelley/transaction.cpp: sign, getID"]}
{"id": "C41", "title": "CBOR output parses back", "statement": "Every CBOR item the library emits is decoded by an RFC 8949 reader to the item it stands for, heads are minimal length, and no serialisation is a proper prefix of another.", "quantifier": "all CBOR items of the kinds used", "why_tests_cant": "Unbounded trees.", "anchors": ["src/shelley/ledger.cpp", "include/cardano/serialization.hpp"]}
{"id": "C42", "title": "Pool relays serialise per the ledger rules", "statement": "A relay survives serialisation, and serialises to the CDDL form, exactly when it is a host name, a multi-host name or an address relay with an IPv4 and no IPv6 address.", "quantifier": "all relay values", "why_tests_cant": "All combinations of optional fields.", "anchors": ["src/shelley/ledger.cpp: Relay"]}
{"id": "C43", "title": "Certificates round trip", "statement": "A certificate survives serialisation exactly when it is a stake registration, deregistration or delegation, a pool retirement, an instantaneous-reward transfer, or a pool registration without relays and metadata; this holds for every certificate of every kind, so pool registrations with relays or metadata and genesis delegations never survive.", "quantifier": "all certificates", "why_tests_cant": "All contents.", "anchors": ["src/shelley/ledger.cpp: Certificate"]}
{"id": "C44", "title": "Native scripts round trip", "statement": "A multisig script of any nesting depth survives serialisation exactly when no n-of-k (or empty) part occurs in it; otherwise reading what was written throws, and no byte string is ever read as a script with an n-of-k part.", "quantifier": "all scripts of any depth", "why_tests_cant": "Unbounded nesting.", "anchors": ["src/shelley/ledger.cpp: MultisigScript"]}
{"id": "C45", "title": "Transaction inputs are a canonical set", "statement": "Input ordering is a strict total order on (id, index); the serialised body does not depend on the order in which inputs or withdrawals were added and contains no duplicate.", "quantifier": "all insertion orders", "why_tests_cant": "Factorially many orders.", "anchors": ["include/cardano/ledger.hpp: TransactionInput::operator<", "src/shelley/transaction.cpp"]}
{"id": "C46", "title": "Operational certificates verify and bind their fields", "statement": "A certificate signed by the cold key verifies under it; the signed message determines hot key, sequence number and KES period; verifying under changed fields amounts to a forged signature. However often a certificate is signed and by whichever keys, it certifies the same fields and carries the last signature, over their message; never signed, it carries 64 zero bytes.", "quantifier": "all keys, counters, periods", "why_tests_cant": "2^128 field values.", "anchors": ["src/stake_pool.cpp: OperationalCertificate"]}
{"id": "C47", "title": "Rational approximation is bounded and exact", "statement": "rationalApprox, for every double with at most 62 binary fraction digits and every limit below 2^62, returns a reduced fraction with positive denominator at most the limit, of the input's sign and within [0,1] when the input is; for limits up to 2^43 it is within 1/limit and exact when the reduced denominator is below the limit; a limit of at most one gives the integer part. Outside: NaN never returns, infinities and 64 or more fraction digits are undefined behaviour, and 63 digits give a denominator of the wrong sign.", "quantifier": "all dyadic rationals with denominator up to 2^62 and all limits", "why_tests_cant": "Continued-fraction loop over all inputs.", "anchors": ["src/util.cpp: rationalApprox"]}
{"id": "C48", "title": "Byron addresses", "statement": "Written Byron addresses follow the CDDL and every CDDL address is read as what it says; the checksum is CRC-32, so every corruption confined to four consecutive payload bytes is rejected. Addresses of public-key and script type survive toCBOR/fromCBOR and Base58 (redeem addresses come back as script addresses). For arbitrary bytes or text, exactly the listed shapes are undefined behaviour, and what is accepted is exactly what is characterised. Derivation paths that are encrypted into an address decrypt to themselves; paths of up to 23 indices are the CBOR list of their indices, paths of 28 to 255 are not (fromRootKey accepts only two).", "quantifier": "all roots, attributes, types; all byte strings", "why_tests_cant": "All inputs.", "anchors": ["src/address.cpp: ByronAddress"]}
{"id": "C49", "title": "Genesis files round trip", "statement": "Reading back a written genesis configuration gives the same configuration for Byron, Alonzo and Conway, as a value and through text; for Shelley everything comes back except the slot length, which is read from the security parameter, so the round trip holds exactly when the two are equal. Files that lack a field are refused, except for slotLength. Of any JSON value a field of given width keeps: an integer modulo the width, the integer part of a number with a fraction (undefined behaviour outside the field's range), a truth value as 0 or 1 in the narrow fields only; anything else is refused.", "quantifier": "all configurations", "why_tests_cant": "All field values.", "anchors": ["src/shelley/genesis.cpp", "src/byron/genesis.cpp", "src/alonzo/genesis.cpp", "src/conway/genesis.cpp"]}
{"id": "C50", "title": "VRF key structure", "statement": "A VRF secret key built from any seed is valid, its public key is its trailing half, and isValid accepts exactly the keys whose halves match.", "quantifier": "all seeds and 64-byte strings", "why_tests_cant": "2^512 keys.", "anchors": ["src/vrf.cpp"]}
{"id": "C51", "title": "Pool registration invariants", "statement": "For every history of setters on a pool registration: the cost is the last one set; the margin is the one recorded for the last setMargin, a fraction within [0,1] with positive denominator whenever the double has at most 62 binary fraction digits; margins outside [0,1] throw, NaN never returns and 64 or more fraction digits are undefined behaviour. A registration so produced is valid (margin within [0,1], cost at least 170 ADA) exactly when the last cost is at least 170 ADA: the constructor checks the cost, setCost does not.", "quantifier": "all call sequences", "why_tests_cant": "Call histories.", "anchors": ["src/stake_pool.cpp: RegistrationCertificateManager"]}
{"id": "C52", "title": "Ledger deserialisers are memory safe", "statement": "For every CBOR item, a reader of the ledger layer is undefined behaviour exactly when the item has one of the listed shapes (an optional view dereferenced without check, a fixed-size element missing), and otherwise returns or throws; relays, pool metadata, credentials, inputs, outputs and rationals have no such shape, and the readers of byte strings behave as those of the item they denote.", "quantifier": "all CBOR items", "why_tests_cant": "All inputs.", "anchors": ["src/shelley/ledger.cpp"]}
{"id": "C53", "title": "KES keys saved to a file resume correctly", "statement": "A KES signing key written with saveToFile and read back has the saved secret bytes and period 0, so it continues as the original exactly if it had never been updated; after any update, a read-back key still signs for its old period, but further updates drive it onto keys derived from 32 zero bytes.", "quantifier": "all depths, seeds, numbers of updates before and after saving", "why_tests_cant": "ranges over every save point in the key's life", "anchors": ["src/stake_pool.cpp:KesSigningKey::saveToFile", "include/cardano/kes.hpp:SumKesPrivateKey::SumKesPrivateKey", "include/cardano/kes.hpp:SumKesPrivateKey::update"]}
{"id": "C54", "title": "Transactions round trip", "statement": "A transaction body survives serialisation exactly when all its certificates do (C43); a transaction survives exactly when its body does and it has no script witnesses, no bootstrap witnesses and no metadata.", "quantifier": "all bodies, witness sets and transactions", "why_tests_cant": "the claim is about every combination of optional fields and container contents", "anchors": ["src/shelley/ledger.cpp: TransactionBody, TransactionWitnessSet, Transaction"]}
{"id": "C55", "title": "Certificates serialise per the ledger rules", "statement": "A certificate serialises to the CDDL form of its kind exactly when it is not a pool registration, or is one with owners, metadata and relays that all have a CDDL form (C42); Babbage bodies leave out all certificates and script references.", "quantifier": "all certificates", "why_tests_cant": "the claim ranges over all field values and all presence combinations of optional parts", "anchors": ["src/shelley/ledger.cpp: Certificate::serializer", "src/ledger.cpp: babbage::TransactionBody"]}
{"id": "C56", "title": "Balancing leaves the caller's outputs alone", "statement": "When balance() returns, every output the caller added is still there with its address and amount, followed by at most one output to the change address of at least the minimum UTxO amount, exactly when the inputs cover outputs, deposits and the fee without change. Otherwise outputs are cut back from the end: some last outputs are gone and the one before may be reduced, never below the minimum, and all others are unchanged.", "quantifier": "all builder states, witness counts and force flags", "why_tests_cant": "Depends on the interplay of amounts, fee convergence and iterations for every state.", "anchors": ["src/shelley/transaction.cpp: TransactionBuilder::balance"]}
{"id": "C57", "title": "VRF proofs", "statement": "A proof constructed by a valid VRF key verifies under its public key, and every proof that verifies for a message has the hash the key computes. verifyProof of a public key on arbitrary bytes is undefined behaviour exactly for fewer than 80 bytes and otherwise answers for the first 80, ignoring the rest.", "quantifier": "all valid keys, messages and byte strings", "why_tests_cant": "All keys, messages and candidate proofs of any length.", "anchors": ["src/vrf.cpp: VRFSecretKey::constructProof, VRFSecretKey::verifyProof, VRFPublicKey::verifyProof, VRFSecretKey::hash"]}
{"id": "C58", "title": "Saved files hold what they were saved from", "statement": "The text saveToFile writes for any verification or signing key (cold, VRF, KES), issue counter, operational certificate or pool certificate is a JSON object with a type, a description and a cborHex member; reading it back gives the type and exactly the key bytes (of an extended key without its chain code, of a KES key without its period), the count and cold key, the certificate's fields; key files of different keys or kinds differ, while a pool registration file has the type of an operational certificate. A description given by the caller comes back exactly when it has no quote, backslash or control character. Word for word: every such file has exactly the three members, with the type and description of its kind and the hexadecimal text of exactly one CBOR item.", "quantifier": "all keys, counts, certificates, types and descriptions", "why_tests_cant": "A test saves a few literal keys; the claim is about every key, every count and every description a caller may give, and about two different objects never giving the same file.", "anchors": ["src/util.cpp:writeEnvelopeTextFile", "src/stake_pool.cpp:saveToFile", "include/cardano/stake_pool.hpp"]}
{"id": "C59", "title": "What an interrupted save leaves behind", "statement": "A save that cannot open the file throws and leaves it untouched. Otherwise, whatever the device's room, the file ends up holding exactly the prefix of the text that fits, at every crash point a prefix, which no reader accepts as a key unless it is the whole text; a save with enough room returns. The failure is reported exactly when the hexadecimal payload has at least 1024 characters and more than the last three characters of the text do not fit; shorter texts are truncated silently, and the old content is always lost on opening.", "quantifier": "all crash points, all amounts of free space, all buffering policies of the stream library, all texts and previous contents", "why_tests_cant": "Crash points and full devices cannot be scheduled in a unit test, and their number grows with the text.", "anchors": ["src/util.cpp:writeEnvelopeTextFile", "src/stake_pool.cpp:saveToFile"]}
{"id": "C60", "title": "Stake pool cold keys", "statement": "extend() of a plain Ed25519 pool key has the same verification key and pool id and signs every message identically; fromRootKey derives exactly 1853'/1815'/0'/0' and fromMnemonic is fromRootKey of the mnemonic's root key, and always succeeds; asBech32 decodes to the key bytes under the prefix of the key's kind, for an extended key to its 64 key bytes without the chain code.", "quantifier": "all seeds, root keys, mnemonics, messages and keys", "why_tests_cant": "Equality of two signing procedures over all seeds and messages, and totality of a derivation over all root keys, are beyond sampled vectors.", "anchors": ["src/stake_pool.cpp:ColdSigningKey::extend", "src/stake_pool.cpp:ExtendedColdSigningKey::fromRootKey", "src/stake_pool.cpp:ExtendedColdSigningKey::fromMnemonic", "src/stake_pool.cpp:asBech32", "src/bip32_ed25519.cpp:PrivateKey::fromSeed"]}
{"id": "C61", "title": "Readers return well-formed values that survive being written again", "statement": "For every byte string the CBOR readers accept (rational, pool metadata, relay, stake credential, instantaneous-reward transfer, output, input, multisig script, certificate, transaction body, witness set, transaction), the value returned lies within the ranges of its type: key hashes of 28 bytes, transaction ids and VRF hashes of 32, public keys of 32, signatures of 64, unsigned 64-bit amounts, 16-bit ports, non-zero denominators, and input sets, owner sets and withdrawal maps sorted without duplicates. Writing the certificate, body or transaction read and reading that again returns the same value exactly when no certificate of an unknown kind was read.", "quantifier": "every byte string, of any length and nesting, accepted or not", "why_tests_cant": "the readers face arbitrary, possibly hostile bytes: malformed lengths, tags around values, duplicate keys, unsorted sets, zero denominators; a suite samples a handful of well-formed files", "anchors": ["src/shelley/ledger.cpp: the deserializer functions of PoolMetadata, Relay, StakeCredential, MoveInstantaneousReward, MultisigScript, Certificate, TransactionInput, TransactionOutput, TransactionBody, TransactionWitnessSet, Transaction"]}
{"id": "C62", "title": "What a reader returns is what the bytes say", "statement": "Whenever a CBOR reader of the ledger layer (inputs, outputs, rationals, scripts, certificates, relays, pool metadata, witness sets, transaction bodies, transactions) returns a value, that value is exactly what the CBOR item says, tags apart, with these losses and no others: ports are cut to 16 bits, the fourth element of an address relay is ignored, unknown kinds of relay, script and certificate are read as empty ones, a pool registration loses relays and metadata, elements after an instantaneous-reward transfer, after a witness or after a transaction's first two are ignored, keys and signatures of witnesses are cut to 32 and 64 bytes, missing or mistyped fields of a body count as empty or zero, and of several withdrawals from one account the last counts.", "quantifier": "all byte strings, all values a reader can return", "why_tests_cant": "Tests read back what the library wrote; that a reader never drops, invents or cuts anything has to hold for every byte string, including ones other tools write.", "anchors": ["src/shelley/ledger.cpp: the Deserialize functions"]}
{"id": "C63", "title": "Transactions on the wire", "statement": "The serialised Shelley body is a CBOR map with distinct keys holding inputs under 0, outputs under 1, fee under 2, ttl under 3, certificates under 4, withdrawals under 5 and the metadata hash under 7, optional entries present exactly when there is something to write; the Shelley transaction is the array of body, witness map (keys 0, 1, 2) and null metadata; the Babbage transaction is the array of body, witness map, validity flag and null, whose body has exactly the entries 0, 1, 2 and, when there is something to write, 3 and 5, and nothing else whatever the transaction holds, and whose witness map has only entry 0.", "quantifier": "all transaction bodies and witness sets with well-formed parts", "why_tests_cant": "A test fixes one transaction; the key-by-key correspondence and the absence of any other key must hold for every combination of present and absent parts.", "anchors": ["src/shelley/ledger.cpp: TransactionBody::serialize, TransactionWitnessSet::serialize, Transaction::serialize", "include/cardano/ledger.hpp: babbage, TransactionBody, TransactionWitnessSet, Transaction"]}
{"id": "C64", "title": "The transaction says what was asked", "statement": "After any sequence of builder calls on an empty builder (adders, setters, signing, fee calculation, balancing, in any order, with repeats), the body holds exactly what those calls put in: the inputs are the set of inputs added, each once; the outputs are the ones added, in order (unless balance was called); the certificates are the ones asked for, of the kind asked for, with the account's key hash, in order; each withdrawal carries the amount of the last call for its account; ttl and fee are the last ones set (fee unless computed); nothing else is in the transaction. Likewise for the Babbage builder.", "quantifier": "every finite history of builder calls with any arguments", "why_tests_cant": "A test runs one sequence of calls; interference between calls (lost updates, wrong certificate kind, stale values, duplicated inputs) depends on the order and repetition of calls, of which there are unboundedly many.", "anchors": ["src/shelley/transaction.cpp: TransactionBuilder::addInput, addOutput, addWithdrawal, add*Certificate, setFee, setTtl", "src/babbage/transaction.cpp: TransactionBuilder"]}
{"id": "C65", "title": "Lovelaces and ADA", "statement": "Converting lovelaces to ADA and back returns the amount or one lovelace less in magnitude for every amount below 2^52 lovelaces, and is off by at most 1 + |n|/2^51 lovelaces for any amount up to 2^62; whole numbers of ADA (up to 5.7e11) convert exactly both ways; both conversions are monotone, and amounts below 2^52 are never confused; ADA to lovelaces is defined for every double of magnitude at most 9223372036854 and undefined behaviour above that, for infinities and for NaN. Exactness in general is refuted (249 lovelaces come back as 248; 2.01 ADA as 2009999).", "quantifier": "every 64-bit amount and every IEEE double", "why_tests_cant": "Rounding depends on the exact bits: 2^64 amounts and 2^64 doubles; the failing ones are sparse (the smallest is 249) and error bounds need a proof over all of them.", "anchors": ["include/cardano/util.hpp: love2ada, ada2love"]}
{"id": "C66", "title": "Scalar and Point arithmetic on bytes", "statement": "On canonical scalars (32 little-endian bytes below the group order) +, -, *, /, reduce, fromUint, fromUintPow give canonical scalars with the value the operation has modulo the order; the field laws hold for the byte arrays; / throws exactly for zero and undoes *; == and isZero compare values; random() is canonical, non-zero and uniform; mulBasepoint turns + of scalars into + of points and is injective. The explicit constructor does not check canonicity, and then the laws fail.", "quantifier": "all canonical scalars, all 64-bit integers and exponents, all random draws", "why_tests_cant": "2^252 scalars and all exponents; uniformity is a counting statement.", "anchors": ["include/cardano/curve25519.hpp: Scalar, Point", "src/curve25519.cpp"]}
{"id": "C67", "title": "Plain Ed25519 keys", "statement": "The public key and the signatures of a 32-byte Ed25519 private key are those of RFC 8032. A signature is 64 bytes, verifies under the key's public key, cannot be changed in its second half, and is accepted for another message only on a collision of the challenge hash. A generated key is the drawn random bytes.", "quantifier": "all keys, messages and alternative second halves", "why_tests_cant": "Unbounded messages and 2^256 alternatives.", "anchors": ["src/ed25519.cpp: PrivateKey, PublicKey", "include/cardano/ed25519.hpp"]}
{"id": "C68", "title": "Unspent outputs from JSON", "statement": "Reading an unspent output from the JSON an Ogmios server writes gives exactly its transaction id, index and value; ids that are not hexadecimal text throw. A description is accepted exactly when all members are there, the id is hexadecimal text of at least 32 bytes and index and value are numbers that fit; the id is then its first 32 bytes and the numbers are taken modulo 2^64. Missing members and short ids are undefined behaviour. Unspent outputs are strictly and totally ordered by id and index, like the transaction inputs made from them, and equality ignores the value.", "quantifier": "all JSON values, all ids, indices and values, all triples of outputs", "why_tests_cant": "The JSON trees, ids and 64-bit numbers are unbounded in number; order laws range over all triples.", "anchors": ["include/cardano/transaction.hpp: UTxO", "src/shelley/transaction.cpp: UTxO::fromJSON"]}
{"id": "C69", "title": "Arrays for secrets are erased and locked", "statement": "A SecureByteArray starts zeroed with its pages locked in memory, or its constructor throws and there is no array. When it is destroyed its bytes are erased, no other array changes, and nothing of what was stored in arrays remains in memory outside the arrays still alive; page locks are given back. Whether a page is locked is decided by the last construction (locks) or destruction (unlocks) of an array on it, so an array stays locked while it lives if it was not made by copying and shares no page with an array destroyed meanwhile.", "quantifier": "all programs (sequences of constructions, copies, assignments, stores, destructions and unrelated stores), all addresses and sizes, all page sizes, every outcome of the lock call", "why_tests_cant": "It is a statement about all histories of the whole program's memory and, for what remains, about pairs of histories.", "anchors": ["include/cardano/secmem.hpp: SecureByteArray"]}
{"id": "C70", "title": "A transaction built, balanced and signed with the library is one a node accepts", "statement": "If a Shelley transaction is built with arguments that state what is the case (input values, reward balances, deposits, fee parameters, a time to live in the future, outputs of at least the minimum), balanced for as many signatures as are then made, and signed with a key for every hash that must sign, then the serialised bytes pass a node's checks: inputs present, distinct and unspent, not expired, fee at least a*size+b, value preserved exactly (inputs + withdrawals + refunds = outputs + fee + deposits), minimum output values, every signature valid over the hash of the body bytes within the transaction, and every required key among the witnesses. Exceptions established: a transaction with a stake deregistration is never accepted (balance() ignores the refund), nor one whose time to live was never set. Exactly: with truthful arguments the bytes are accepted if and only if the transaction has an input, has not expired, pays a*size+b, is not too large, deregisters no account (or the key deposit is zero), and every hash that must sign is the hash of a signing key.", "quantifier": "every history of builder calls followed by balancing and any set of signatures, every node state it is truthful about, every key and signature scheme in which signatures verify", "why_tests_cant": "Acceptance couples serialisation, fee fixpoint, balancing, hashing and signing over unbounded histories and amounts; tests submit a handful of transactions, and none to an independent implementation of the ledger rules.", "anchors": ["src/shelley/transaction.cpp: TransactionBuilder", "src/shelley/ledger.cpp: Transaction, TransactionBody, TransactionWitnessSet serialisation", "include/cardano/transaction.hpp"]}
{"id": "C71", "title": "A watch-only wallet shows the owner's keys and addresses, and cannot leave its account", "statement": "For every mnemonic and account, the keys m/1852'/1815'/account' and everything below exist. Holding only the account's extended public key, deriving role/index publicly gives the public key of the private key the owner derives, or throws, and it throws only if an HMAC tweak on the way is a multiple of the group order; so the base and reward addresses the watch-only wallet builds are the owner's CIP-19 addresses, whose text reads back, and what the owner signs with the payment key verifies under the derived public key. No hardened step ever succeeds from a public key, at any depth.", "quantifier": "all entropies and passphrases, all accounts below 2^31, all soft roles and indices, both networks, all messages, all public paths", "why_tests_cant": "It relates two separate derivations (private and public) through group arithmetic for all keys and indices; a test compares finitely many pairs.", "anchors": ["src/bip32_ed25519.cpp: PrivateKey::fromMnemonic, PrivateKey::deriveChild, PrivateKey::publicKey, PrivateKey::sign, PublicKey::deriveChild", "src/address.cpp: BaseAddress::fromKeys, toBech32, fromBech32, RewardsAddress::fromKey"]}
{"id": "C72", "title": "A Babbage transaction built and signed with the library is accepted exactly if its amounts add up", "statement": "If a Babbage transaction is built from inputs that exist, withdrawals of what the accounts hold, outputs of at least the minimum and a time to live in the future, given its fee by calculateFee for as many signatures as are then made, and signed with a key for every hash that must sign, then its fee is exactly a*size+b of the serialised bytes, and a node accepts the bytes (unspent distinct inputs, validity, fee, value preservation, minimum values, size, signatures over the hash of the body bytes within the transaction, all required keys) if and only if inputs plus withdrawals equal outputs plus fee: the builder's balance() always throws, so the caller must choose the change. calculateFee depends on the amounts only through the width of their CBOR encoding, so a second pass with the right change of the same width gets the same fee. These calls cannot fail when the transaction ids have 32 bytes and no fee overflows.", "quantifier": "all histories of Babbage builder calls (duplicated inputs and overwritten withdrawals included), all keys and signature schemes that verify, all nodes' parameters and ledger states", "why_tests_cant": "It is a statement about every history and every ledger state, relating the bytes produced to a node's independent reading of them; a test submits finitely many transactions.", "anchors": ["src/babbage/transaction.cpp: TransactionBuilder::addInput, addOutput, addWithdrawal, setTtl, setFee, calculateFee, sign, getID, serialize", "src/ledger.cpp: babbage::TransactionBody::serializer, babbage::TransactionWitnessSet::serializer, babbage::Transaction::serializer"]}
{"id": "C73", "title": "A pool's block headers are accepted exactly while its certificate is in force, and only its own", "statement": "If a pool generates a depth-6 KES key, evolves it u < 64 times (storing and restoring it from its bytes at will), certifies its public key from KES period c0 with certificate number n under its cold key, and signs a header with the evolved key, then a node following the operational-certificate rule accepts the serialised certificate and the signature at period c0+u if and only if the pool is registered, u is below the maximum number of evolutions and n is the number of the pool's last block or one more. Conversely any accepted header carries a certificate the cold key signed and a signature by the hot key's leaf for exactly that period, unless an Ed25519 signature was forged or Blake2b collides. The library's own verification accepts an arbitrary byte string of the right length at a period of the key's life exactly if it is valid in the sum composition, for plain and (at depth at least 1) compact signatures, and never reads outside it; at depth 0 a compact signature is accepted exactly if its first 64 bytes are an Ed25519 signature under the key, the key it carries being ignored.", "quantifier": "all seeds, histories of updates and restores, headers, certificate numbers and start periods, chain states, and all signature byte strings an adversary may present", "why_tests_cant": "It covers every evolution history, every chain state and every adversarial signature; a test covers a few.", "anchors": ["include/cardano/kes.hpp: SumKesPrivateKey::keygen, update, sign, SumKesSignature::verify, SumKesCompactSignature::recompute, verify", "src/stake_pool.cpp: OperationalCertificate::generate, sign, verify, serialize"]}
{"id": "C74", "title": "Parties that sign by passing the transaction's bytes around get what one signer with all keys would get", "statement": "Take any transaction built with the Shelley builder whose certificates are not pool registrations with relays or metadata, and which has no script or bootstrap witnesses and no metadata. If its serialisation is passed from party to party, each loading it with fromCBOR, signing with its own key and serialising again, then in every order no party sees an error and the final bytes equal, byte for byte, those of one builder signing with all the keys; after sound building and balancing for that many signatures a Shelley node accepts them. The restriction is needed: if one party registers a pool (with relays and metadata, as the node requires) and signs, and another loads the bytes and signs, no error is reported, but the result registers the pool without relays and metadata and the first signature no longer covers the body, so that the node can only accept it if the hash collides or a signature verifies for a message never signed.", "quantifier": "all building histories, balances, sets and orders of signers and keys, and node states", "why_tests_cant": "Orders of signers, histories and keys are unbounded; the lost relays raise no error and show only when the whole chain of parties and the node's checks are considered.", "anchors": ["include/cardano/transaction.hpp: TransactionBuilder::fromCBOR, serialize", "src/shelley/transaction.cpp: TransactionBuilder::sign, getID, makeWitness, balance", "src/shelley/ledger.cpp: Transaction::serialize, Transaction::deserialize, Certificate deserialization"]}
{"id": "C75", "title": "Balancing a transaction whose inputs cover its costs succeeds, exactly when", "statement": "Let a Shelley builder's inputs and withdrawals cover outputs, deposits and the fee a*n0+b of the transaction as it stands (n0 bytes with the expected signatures), leaving rest >= 0; let n1 be the size with an output of rest to the change address and change = rest - a*(n1-n0). balance(force = true) then always succeeds and keeps the caller's outputs: if rest is above and change at least the minimum output, it appends exactly one output of change and sets the fee to a*n1+b; otherwise it adds rest to the fee. Followed by signing with every key that must sign, a node accepts the serialised bytes. balance(force = false) gives the same result if rest = 0, or if change is returned and the change output of change lovelace takes as many bytes as one of rest lovelace (or a = 0), and throws in every other case. In particular it throws, however large the funds, whenever rest lies in [2^32, 2^32 + a*(11 + length of the change address)).", "quantifier": "all builders with non-negative deposits and amounts, all fee parameters with 2^16 <= b and fees below 2^32, all numbers of witnesses, both values of force; for acceptance all building histories and node states", "why_tests_cant": "Success depends on the amounts, sizes and parameters together; the failing amounts near 2^32 are a window of some 1800 lovelace that no sampled test hits.", "anchors": ["src/shelley/transaction.cpp: TransactionBuilder::balance, updateFee, calculateFee, totalOutgoing, sign", "include/cardano/transaction.hpp: TransactionBuilder"]}
{"id": "C76", "title": "From the written phrase to an accepted payment", "statement": "The phrase generated from any entropy, written down, reads back, and is the only valid phrase of its language that gives that entropy. The wallet (phrase entropy, passphrase, account) whose watch-only copy, holding only the account's public key, shows base-address texts, can spend what was paid to those texts: if the outputs it spends are locked by the payment part of the data such a text carries and its withdrawals and delegations are of the shown reward account, and it has the money, then building, balancing with force and signing with the derived keys yields a transaction the node accepts (unless the signature nonce of a key is zero, where sign throws). After the node applies it, the inputs are gone, and each amount paid to the address parsed from a text shown by any wallet is found under the transaction's id, locked by the hash of exactly the key that wallet's owner derives.", "quantifier": "all entropies, passphrases, accounts, roles, indices and networks of payer and payee, all building histories, node states and fee parameters as in C75; all SHA-2, HMAC, PBKDF2, Blake2b and Ed25519 implementations of the right shape", "why_tests_cant": "It composes mnemonic, derivation, address, transaction and signature code over all keys, texts, amounts and ledger states; a fixed vector checks one path.", "anchors": ["src/mnemonic.cpp: generate, toSeed", "src/bip32_ed25519.cpp: PrivateKey::fromMnemonic, deriveChild, sign; PublicKey::deriveChild", "src/address.cpp: BaseAddress, RewardsAddress", "src/shelley/transaction.cpp: TransactionBuilder"]}
{"id": "C77", "title": "The key-generation program leaves a working pool, whatever moment it is stopped", "statement": "Run on a valid seed phrase, the key-generation program writes eight files: the cold key pair at m/1853'/1815'/0'/0' of the phrase, a KES and a VRF key pair that belong together, an issue counter, and a certificate for the KES key (number 0, from period 1) signed by the cold key; it prints the pool's id in bech32. At every moment, whatever the file system does (files that do not open, disks that fill up, a crash), each of the eight files is as before, complete, or cut short so that it is no JSON text, they are written in order, and no other file is touched; the run ends normally or with an exception, and normally when every file opens and has room. After a normal run the KES key read from its file, evolved u times, signs headers that a node in period 1+u accepts with the certificate read from pool.cert and the key read from cold.vkey, exactly when the pool is registered, the key's allowed evolutions are not used up, and no later certificate was used. With an invalid phrase nothing is printed or written.", "quantifier": "all phrases, random seeds, initial files, behaviours of the file system (which opens fail, how many bytes each file takes, buffering) and moments of a run; all key evolutions, headers and chain states; all SHA-2, HMAC, PBKDF2, Blake2b and Ed25519 implementations of the right shape", "why_tests_cant": "It ranges over every crash point and every disk-full point of eight writes, and over all keys and chain states; a test run sees one complete run.", "anchors": ["examples/generate_stake_pool_keys/main.cpp: main", "src/stake_pool.cpp: saveToFile, KesSigningKey::generate, OperationalCertificateManager::generate", "src/util.cpp: writeEnvelopeTextFile", "include/cardano/kes.hpp: keygen, update, sign"]}
{"id": "C78", "title": "Ledger objects that are read into again, and after reads that failed", "statement": "Calling deserialize on an object that already holds a value, or that an earlier failed call left half written, ends the same way and with the same value as on a fresh object, for rationals, pool metadata, stake credentials, transaction inputs, outputs, bodies and witness sets. For relays, certificates and native scripts the same holds except that bytes of an unknown kind leave the object as it was (and report success); for transactions the parts the bytes contain are as new, the others are the old ones. Reward moves add what is read to what is there, over any sequence of reads. Inputs, outputs, relays, certificates and scripts are unchanged by a read that throws, so that after any sequence of reads with exceptions caught they hold the value of the last bytes that had one. After a failed read of a body, the members before the first bad entry are the new ones, the one with the bad entry holds the entries before it, and the later ones are still the old ones. The Alonzo and Babbage types throw on every read and stay as they are.", "quantifier": "all byte strings, all previous values of the object, all sequences of reads with caught exceptions", "why_tests_cant": "It ranges over all histories of an object: tests read once into a fresh object.", "anchors": ["include/cardano/serialization.hpp: deserialize", "src/shelley/ledger.cpp: deserializer of PoolMetadata, Relay, StakeCredential, MoveInstantaneousReward, Certificate, TransactionOutput, TransactionInput, MultisigScript, TransactionBody, TransactionWitnessSet, Transaction", "include/cardano/ledger.hpp: deserializer (alonzo, babbage)"]}
{"id": "C79", "title": "Threshold signing works in every schedule, and exactly when the members keep their nonces", "statement": "Any number of stateful signers may be called in any order: every call succeeds, and each signer answers as if its own calls were made alone. For any quorum of a t-of-n group (or all members of a direct group), whatever other calls come before, between and after, the signature shares always aggregate, and the signature verifies under the group key if and only if the nonces the members held when they signed add up to those of the commitments that were aggregated (and the aggregate is not the identity). So a quorum whose members sign after they commit and do not commit in between always makes a good signature, with the coefficient given to the constructor or in the call; one member that commits again to another nonce spoils it, though no call reports an error. Splitting any seed, or a generated root key, into a t-of-n group succeeds and gives that key's public key.", "quantifier": "all histories of calls on all numbers of signers, all groups, thresholds, quorums, orders, messages, entropies drawn, places of the commit and sign calls", "why_tests_cant": "It ranges over all interleavings of calls on any number of objects and all quorums; a test runs one session in order.", "anchors": ["src/tss.cpp: StatefulSigner::commitmentShare, StatefulSigner::signatureShare, Dealer::aggregateCommitmentShares, Dealer::aggregateSignatureShares, Dealer::computeLagrangeCoefficients, Dealer::generate, Dealer::splitSeed", "include/cardano/tss.hpp: StatefulSigner"]}
{"id": "C80", "title": "The coins of a threshold group can be spent by any quorum, and no key is ever put together", "statement": "Take coins, reward accounts and certificates that a node holds under the hash of a threshold group's key (t of n, or a direct group), and any sequence of builder calls that states what is the case and leaves enough money for outputs, deposits and fee. Then the transaction can be built and balanced without any private key. For every history of calls on stateful signers in which a quorum of the group commits to nonces and signs the transaction's id, in any order and with other calls in between, the shares aggregate, the transaction with the group's public key and that signature as its only witness serialises, and a node takes it if and only if the nonces held when signing add up to the ones committed to and their aggregate is not the identity; in particular whenever no member commits again before it signs.", "quantifier": "all groups, thresholds, quorums, signing histories, builder call sequences, node states and amounts", "why_tests_cant": "It ranges over all groups, all interleavings of the signing protocol and all transactions and ledger states; a test runs one payment.", "anchors": ["src/tss.cpp: Dealer::splitRootKey, Dealer::compositeKey, StatefulSigner, Dealer::aggregateSignatureShares", "src/shelley/transaction.cpp: TransactionBuilder::balance, TransactionBuilder::getID", "include/cardano/transaction.hpp: TransactionBuilder, serialize"]}
{"id": "C81", "title": "What becomes of certificates: the ledger takes exactly the sensible ones and then holds what the calls said", "statement": "Take any sequence of builder calls that adds staking and pool certificates (account registration, deregistration, delegation, pool registration, pool retirement) in any order, mixed with other calls, and the certificates as they stand in the serialised transaction. A ledger in any state takes them all if and only if every call makes sense after the ones before it: an account is registered only when it is not, deregistered only when it is and is empty, delegates only when it and the pool exist, a pool is retired only when it exists and in an epoch ahead within the limit, and a registered pool is within the ledger's limits (cost, margin, 29-byte account, names and URL of at most 64 bytes). Afterwards every account's balance and delegation and every pool's parameters, announced parameters and retirement are those of the last call that concerns them (the first registration for a new pool), and nothing else has changed. A funded and signed transaction that registers an account, registers a pool and delegates to it is admitted exactly if the account is new and the pool within the limits; the ledger then holds the pool exactly as it was told, and a node following that ledger accepts the pool's block headers. A pool built with the registration API from values the ledger has room for, with an owner, a relay and metadata, is within the limits exactly if its cost is at least the minimum; a name of more than 64 bytes or a margin such as 0.0007 is taken by the API, serialised, and refused by every ledger.", "quantifier": "all call sequences, ledger states and limits, pool parameters, node states, keys and amounts", "why_tests_cant": "It ranges over all sequences of certificates and all ledger states; a test runs one sequence against one state.", "anchors": ["src/shelley/transaction.cpp: TransactionBuilder::addStakeRegistrationCertificate, addStakeDeregistrationCertificate, addStakeDelegationCertificate, addPoolRegistrationCertificate, addPoolRetirementCertificate", "src/shelley/ledger.cpp: StakeRegistration, StakeDeregistration, StakeDelegation, PoolRegistration, PoolRetirement serialize", "src/stake_pool.cpp: RegistrationCertificateManager"]}
{"id": "C82", "title": "A purse that pays again and again: every covered payment is accepted, and its books are right to the last lovelace in every history", "statement": "Take a node with parameters like those of the main network and a purse: unspent outputs the node has, each with a key one holds. Pay out of any of its coins to any addresses: add the chosen coins as inputs, the outputs, a time to live, the node's fee parameters and a change address locked by a key of one's own, balance with one dummy witness per signature, and sign with the keys. If the chosen coins exceed the outputs, the fee for a generous size bound and 1 ada, and that size bound is within the node's maximum, then every call succeeds, the node accepts the transaction, its outputs are those asked for followed by the change, the fee is at least the minimum and at most the minimum for four bytes more, and the change is exactly the chosen coins less outputs and fee. When the node has applied it, the coins not chosen together with the change are again a purse of that node (the change is spendable by its key, under the id the library reports), the chosen coins are gone, the payees have their amounts and nothing else has moved. Hence in every history of such payments, receipts and other people's transactions, the purse is real at every moment and its worth plus everything paid and all fees equals its worth at the start plus everything received.", "quantifier": "all histories (any number of payments, receipts and other transactions), all purses, choices of coins, payees, amounts, change addresses, keys and usual node parameters", "why_tests_cant": "It ranges over all histories and purses; a test runs one payment, and the outcome of each depends on sizes, fee iteration and the id of the transaction before it.", "anchors": ["src/shelley/transaction.cpp: TransactionBuilder::addInput, addOutput, setTtl, balance, getID, makeWitness, sign, serialize", "include/cardano/transaction.hpp: TransactionBuilder::setMinFeeA, setMinFeeB, setChangeAddress"]}
{"id": "C83", "title": "A pool that runs for ever: at every moment of every operating history its headers are accepted exactly if certificate number, age and registration are right", "statement": "An operator issues a depth-6 hot key and a certificate for it with the issue counter's number, from the present KES period on. From then on, in any order and number: periods end and he updates the key (if the key refuses, it stays as it is), he stores the key and makes it again from its bytes, he changes the counter with its calls and issues a new key and certificate, he makes blocks, and the chain goes on around him, the pool's own registration and the chain's parameters included. At every moment of every such history the key signs any header, and the chain accepts it exactly if the pool is registered, the certificate is younger than the chain's limit and than 64 periods, and its number is that of the pool's last block or one more. Hence an operator who increments the counter once per renewal and renews only after the present certificate has made a block is never refused while registered and in time; one who has got two numbers ahead of his last block (two renewals, or two increments, without a block between) and only increments is refused for ever whatever else happens; and setting the counter to one more than the last block's number and renewing ends this at once.", "quantifier": "all operating histories (any number of periods, restarts, renewals, counter calls, blocks and foreign chain events), seeds, cold keys, headers, chain states and limits", "why_tests_cant": "It ranges over unboundedly long histories of interleaved operator and chain events; a test runs one such history.", "anchors": ["include/cardano/kes.hpp: SumKesPrivateKey::keygen, update, sign, bytes, constructor from bytes", "include/cardano/stake_pool.hpp: OperationalCertificateIssueCounter", "src/stake_pool.cpp: OperationalCertificateManager::generate, serialize"]}
{"id": "C84", "title": "A purse that stakes: registering, delegating, collecting rewards and paying, for ever, with exact books of the purse and of the reward account", "statement": "The holder of unspent outputs and of a reward account builds transactions out of any of his coins that pay any addresses and may at once register the account (stating the key deposit), delegate it to a pool and withdraw all its rewards; he balances with force and signs with the keys of the coins and, if he delegates or withdraws, of the account. If the staking part makes sense (an unregistered account is registered, a registered one withdrawn from, one that is or becomes registered is delegated to a registered pool) and the coins and the rewards cover payments, deposit, fee and 1 ada, the library builds the transaction, a node's UTXO, witness and certificate rules take it, the account is then registered, empty and delegated as said, nobody else's staking data changes, and the change is coins plus rewards less payments, deposit and fee, exactly. In every life of the purse (such transactions, receipts, rewards arriving, pools disappearing, other people's transactions, in any order and number) the coins are real, the node's rewards figure is the books' figure, what the purse holds plus everything paid, fees and deposits is what it began with plus receipts and rewards collected, what the account holds plus what was collected is what it began with plus what was earned, and it is registered and delegated as last asked.", "quantifier": "all lives of a purse: all coins, keys, choices, outputs, plans, rewards, pools, nodes and parameters within the usual bounds, any number of events in any order", "why_tests_cant": "It ranges over unboundedly long histories of interleaved payments, staking actions, rewards and foreign events and over all amounts; the invariant is about exact sums.", "anchors": ["src/shelley/transaction.cpp: TransactionBuilder::addInput, addOutput, addWithdrawal, addStakeRegistrationCertificate, addStakeDelegationCertificate, setTtl, balance, getID, makeWitness, sign, serialize", "include/cardano/transaction.hpp: TransactionBuilder"]}
{"id": "C85", "title": "An operator who is late or early: a header is accepted exactly when the hot key is in step with the chain", "statement": "A pool operator has a hot key and a certificate for it; the chain's time passes whether or not he updates the key, he may update it at any time, store and restore it, and issue certificates for any first period. At every moment the key signs and reports the number of updates since its certificate was issued. A header that is accepted lies in the certificate's span, at most 63 periods into it, from a registered pool and with a number that fits; if the number of updates equals the number of periods since the certificate's first one, that is enough; and where the keys of the key's tree are told apart (no equal neighbouring subtree keys, no leaf's signature verifying under another leaf's key) it is also necessary. An operator who has fallen behind catches up by exactly the missing updates, none of which is refused; one who has updated too often is refused until the chain reaches his key's period whatever he does with the key; a new certificate for the present period with a fitting number always helps.", "quantifier": "all histories of updates, restarts, renewals with any counter calls and first periods, and chain changes; all headers, seeds, keys and chains", "why_tests_cant": "It ranges over all interleavings of the operator's acts with the passing of time, over 64 by 64 pairs of key and chain periods and over every seed and header; the refusals are statements about all signatures the key can make.", "anchors": ["include/cardano/kes.hpp: SumKesPrivateKey::update, SumKesPrivateKey::sign, SumKesPrivateKey::period, SumKesPrivateKey::keygen", "src/stake_pool.cpp: OperationalCertificateIssueCounter, OperationalCertificateManager::generate, OperationalCertificateManager::serialize"]}
{"id": "C86", "title": "A registered pool leads exactly the slots its VRF key wins, and for every slot there is one value", "statement": "A pool registered through the API, whatever is set between, stands on the ledger under the hash of its cold key with the hash of the VRF key given last (at once if new, announced for the next epoch otherwise). For every slot the owner's VRF key gives a value and a proof beforehand. A header for the slot carrying them, with the certificate and the signature of a hot key in step with the slot's period, is accepted exactly if the value wins, the hot key is not used for too long and the certificate's number fits. Whoever made it, an accepted header for the pool carries the value that the owner's key has for its slot, or its VRF key is a second preimage of the registered hash; so a slot whose value does not win is closed to everybody, the owner included.", "quantifier": "all VRF, cold and hot keys, registrations and histories of setters, ledgers, slots, networks (inputs, thresholds, period lengths) and headers from anyone", "why_tests_cant": "The acceptance is an equivalence over all slots, keys and ledger states; the second half is about every header any adversary can make.", "anchors": ["src/vrf.cpp: VRFSecretKey::constructProof, VRFSecretKey::hash, VRFSecretKey::publicKey, VRFPublicKey::verifyProof", "src/stake_pool.cpp: RegistrationCertificateManager, OperationalCertificateManager::generate", "include/cardano/kes.hpp: SumKesPrivateKey::sign"]}
{"id": "C87", "title": "Recovery phrases and key trees with the real hash functions: nothing is assumed of them", "statement": "With SHA-256 itself, for every number of words, language and random bytes, the generated phrase has that many words, its checksum verifies, it gives the bytes back, its word indexes are the BIP-39 groups of the bytes followed by the leading bits of their SHA-256, typing it in again gives the same phrase, and no other valid phrase of the language gives the same bytes. For every message and key, BLAKE2b-224/256, SHA-256, SHA-512, HMAC-SHA-512 and PBKDF2 as the library calls them return the number of bytes that every other property here assumes of them, so that for wallets, pool identifiers and KES key trees only laws of Ed25519 remain assumptions.", "quantifier": "all messages, keys, iteration counts and output lengths; all entropies, phrase sizes and languages", "why_tests_cant": "Tests replay a handful of digests; the shape laws are used for every message, including those whose padding needs a further block.", "anchors": ["src/mnemonic.cpp: Mnemonic::generate, Mnemonic::verify_checksum, Mnemonic::toSeed", "src/bip32_ed25519.cpp: PrivateKey::fromMnemonic", "src/stake_pool.cpp: ColdVerificationKey::poolId", "include/cardano/kes.hpp: SumKesPrivateKey::keygen"]}
{"id": "C88", "title": "What happens to the payees of an under-funded transaction", "statement": "When the inputs do not cover outputs, deposits and fee, balance() works from the end of the list of outputs: an output goes when taking the missing amount from it would leave less than the minimum UTxO amount. With exactly the last outputs gone for which that holds, either the rest suffices, and then the outputs before stay unchanged and (if forced) everything left over becomes the fee, never change; or the last remaining output is reduced by exactly what is missing and the fee is that of the transaction before the reduction; or no output remains and it throws. Exactly one of these applies to every transaction. Without force it throws unless nothing is left over. The fee stays below the cost of the transaction with one output more, plus the minimum. With a hundred outputs to remove it throws. So, forced, with up to 98 outputs, it succeeds exactly when the inputs pay the deposits and the fee of the transaction without any output; signed by everyone who must, a node accepts the result, and the payees got what was asked exactly if the money covers it.", "quantifier": "all builder states whose last outputs are not covered, any number of outputs, all witness counts and force flags, ordinary ranges of amounts and fee parameters", "why_tests_cant": "The amount each payee gets depends on all amounts, sizes and fee parameters together; tests fund their transactions.", "anchors": ["src/shelley/transaction.cpp: TransactionBuilder::balance, TransactionBuilder::updateFee, TransactionBuilder::totalOutgoing"]}
{"id": "C89", "title": "A balanced transaction that is added to and balanced again", "statement": "Balancing twice is balancing once. If payees are added to a transaction after balance() and balance() is called again, with or without force, it succeeds and returns exactly the transaction of the first balance(): none of the new payees is paid, whatever amount the change output holds. A certificate added after balancing is paid, with its deposit and its bytes, by the last output alone. A further input that brings no more than the minimum UTxO amount over its own cost makes balance() throw; with force the whole input goes to the fee and the change output stays as it was.", "quantifier": "all transactions balance() leaves, all lists of up to 99 further outputs of any amounts, all further inputs of such values, all certificates and deposits the last output can bear, all witness counts and force flags, ordinary ranges of amounts and a positive fee per byte", "why_tests_cant": "Tests balance once, at the end; what a second call does depends on all amounts and sizes of the first result and of the additions.", "anchors": ["src/shelley/transaction.cpp: TransactionBuilder::balance, TransactionBuilder::addOutput, TransactionBuilder::addInput"]}
