{
 "C24": {
  "status": "proved",
  "note": "The exact statement is proved. The plain claim (all histories, all depths) is refuted: at depth 0 signCompact writes out of bounds; a key just restored from bytes signs compactly for period 0."
 },
 "C25": {
  "status": "proved",
  "note": "The exact statement is proved, reduced to Ed25519 unforgeability and Blake2b collisions. The plain claim is refuted past the lifetime (the last signature verifies at every later period)."
 },
 "C53": {
  "status": "proved",
  "note": "The exact statement is proved. The plain claim (a saved key resumes) is refuted: saveToFile drops the period, and every key saved after an update ends on the all-zero seed."
 },
 "C26": {
  "status": "proved",
  "note": "The exact statement is proved; C26_max_refuted is the case n = 2^32-1, where the loop bound wraps."
 },
 "C27": {
  "status": "proved",
  "note": "The exact statement is proved; C27_single_refuted is the case n = 1 ([1+s]B instead of [s]B)."
 },
 "C28": {
  "note": "Under the Ed25519 group laws and verification equation stated in Spec_Ed25519; the sums of nonces and of keys must not be the identity (verification rejects it)."
 },
 "C29": {
  "note": "Information-theoretic part proved. C29_rules_out_own_value records that redrawing zero coefficients excludes one candidate when t = 2."
 },
 "C30": {
  "status": "proved",
  "note": "The exact statement is proved (C30_history). The plain claim that nonces are used once is refuted: reuse and the zero nonce reveal the key."
 },
 "C42": {
  "status": "proved",
  "note": "The exact statement is proved. The plain claim is refuted: IPv6-only relays throw, IPv4+IPv6 drops the IPv6 address, address relays without address are written in a form the reader rejects."
 },
 "C43": {
  "status": "proved",
  "note": "The exact statement is proved. The plain claim is refuted: relays and metadata of pool registrations are lost, and genesis delegations and registrations with relays but without owners make the reader dereference null."
 },
 "C44": {
  "status": "proved",
  "note": "The exact statement is proved. The plain claim is refuted: n-of-k scripts are written but never read."
 },
 "C45": {
  "note": "Over the model of std::set and std::map as sorted lists."
 },
 "C52": {
  "status": "proved",
  "note": "The exact statement is proved. The plain claim is refuted: explicit byte strings make the readers of certificates, scripts, witness sets and bodies dereference null."
 },
 "C54": {
  "status": "proved",
  "note": "The exact statement is proved. The plain claim is refuted: scripts, bootstrap witnesses and metadata are lost."
 },
 "C55": {
  "status": "proved",
  "note": "The exact statement is proved. The plain claim is refuted: pool registrations without owners, relays or metadata do not conform, Babbage bodies drop certificates."
 },
 "C36": {
  "status": "proved",
  "note": "All states, amounts below 2^63; C36_history_conserves states it for whole call histories."
 },
 "C37": {
  "status": "proved",
  "note": "Fuel models the while loop: None is a loop that goes on. Termination in both eras under the stated condition; C37_negative_fee_parameter_refuted shows the condition is needed."
 },
 "C38": {
  "status": "proved",
  "note": "Exact statement proved for all histories. The plain claim is refuted for the certificate adders of the Shelley builder."
 },
 "C39": {
  "status": "proved",
  "note": "Exact statement proved for all histories that describe their inputs truthfully. The plain claim is refuted for duplicates and for builders made by fromCBOR."
 },
 "C40": {
  "status": "proved",
  "note": "The exact statement is proved. The plain claim is refuted: IPv6 addresses of relays are not bound by the id (C40_ipv6_unbound_refuted). The hash function is arbitrary; equality of ids gives equality of bodies or an explicit collision."
 },
 "C56": {
  "status": "proved",
  "note": "The exact statement is proved. The plain claim is refuted: balance() may reduce or remove the caller's last outputs."
 },
 "C47": {
  "status": "proved",
  "note": "The exact statement is proved. The plain claim is refuted: NaN, infinities and doubles with 63 or more fraction digits."
 },
 "C51": {
  "status": "proved",
  "note": "The exact statement is proved. The plain claim is refuted: setCost is unchecked, a NaN margin hangs, 0.0003 crashes, 0.0007 is recorded as (2^64-1)/1429."
 },
 "C57": {
  "status": "proved",
  "note": "The exact statement is proved. The plain claim is refuted: short proofs are read out of bounds, trailing bytes are ignored. libsodium's VRF is assumed correct and unique (hypotheses, with a toy instance)."
 },
 "C46": {
  "note": "Signature scheme abstract; verifying under other fields is reduced to an existential forgery."
 },
 "C48": {
  "status": "proved",
  "note": "The exact statement is proved. The plain claim is refuted: redeem addresses change type, malformed shapes dereference null, long paths are written wrongly."
 },
 "C49": {
  "status": "proved",
  "note": "The exact statement is proved. The plain claim is refuted: the Shelley slot length is read from the wrong member."
 },
 "C58": {
  "status": "proved",
  "note": "The exact statement is proved. The plain claim is refuted: registration files carry the type of operational certificates, chain codes are left out, descriptions are not escaped."
 },
 "C59": {
  "status": "proved",
  "note": "The exact statement is proved. The plain claim is refuted: a full device is not always reported and the old content is lost before the new is complete."
 },
 "C60": {
  "status": "proved",
  "note": "The exact statement is proved. The plain claim is refuted: the Bech32 text of an extended key omits the chain code."
 },
 "C61": {
  "status": "proved",
  "note": "The exact statement is proved. The plain claim is refuted: an unknown certificate is read as an empty one, written as an empty array, which the reader refuses."
 },
 "C62": {
  "status": "proved",
  "note": "The exact statement is proved. The plain claim is refuted: the listed losses (C62_silent_losses_refuted, C62_missing_fields_refuted)."
 },
 "C63": {
  "status": "proved",
  "note": "The exact statement is proved. The plain claim is refuted: the Babbage writer leaves out certificates, datum options, script references and scripts (C54/C55)."
 },
 "C64": {
  "note": "For histories from the empty builder; what Balance does to the outputs and the fee is C36 and C56, what UpdateFee does to the fee is C37."
 },
 "C65": {
  "status": "proved",
  "note": "Doubles are SpecFloat binary64 of Coq's standard library; the proofs go through Flocq, hence the real numbers' axioms (sig_forall_dec, sig_not_dec, functional_extensionality_dep, classic). The statement includes where exactness and definedness fail (C65_roundtrip_inexact_refuted, C65_ada2love_undefined_refuted)."
 },
 "C68": {
  "status": "proved",
  "note": "The exact statement is proved. The plain claim is refuted: malformed descriptions are not all refused (C68_malformed_refuted)."
 },
 "C69": {
  "status": "proved",
  "note": "The exact statement is proved. The plain claim is refuted: a live array does not always stay locked: copies are never locked and destroying a neighbour unlocks the shared page."
 },
 "C70": {
  "status": "proved",
  "note": "End to end over the calls, against an independent statement of the ledger's UTXO and UTXOW rules about bytes (Spec_Node). Not covered: the effects of certificates (DELEGS/POOL rules), scripts, metadata. The two refuted theorems are the exceptions the statement names."
 },
 "C06": {
  "status": "proved",
  "note": "Exact: C06_bech32_unsafe_exactly is an equivalence. The plain claim 'memory safe on any text' is false of the code (C06_bech32_memory_safety_refuted)."
 },
 "C08": {
  "status": "proved",
  "note": "Every string not covered by C07. The plain claim 'degenerate inputs survive' is false of the code for all of them (C08_base58_all_zero_refuted, C08_base58_undefined_exactly)."
 },
 "C09": {
  "status": "proved",
  "note": "Exact acceptance and exact value for every text. The plain claim 'foreign characters are refused' is false of the code (C09_base58_reject_foreign_refuted)."
 },
 "C14": {
  "status": "proved",
  "note": "The plain claim 'fromBech32 checks prefix and network' is false of the code (C14_prefix_refuted, C14_network_refuted, C14_unknown_network_refuted); what it does instead is characterised exactly."
 },
 "C74": {
  "status": "proved",
  "note": "The statement as given, including its restriction, is proved; C74_pool_registration_refuted is the case outside the restriction."
 },
 "C73": {
  "status": "proved",
  "note": "The exact statement is proved. That a compact signature is accepted only if valid is refuted at depth 0, where the key the signature carries is ignored."
 },
 "C75": {
  "status": "proved",
  "note": "The exact statement is proved. The plain claim (a funded transaction can be balanced) holds with force and is refuted without."
 },
 "C76": {
  "status": "proved",
  "note": "Pool certificates and stake deregistrations are left out of the wallet's calls (C70 covers the former and refutes the latter)."
 },
 "C77": {
  "status": "proved",
  "note": "C77_counter_stale_refuted is a finding beside the claim: cold.counter is saved before the certificate is issued and names the number that pool.cert already uses. If the signature nonce of the certificate is zero, the program throws (C77_files, last part)."
 },
 "C78": {
  "status": "proved",
  "note": "C78_half_written_refuted and C78_stale_refuted are findings beside the claim: failed reads leave a zero denominator, a new credential kind over an old hash, new inputs over old outputs; reading [] leaves a transaction, and an object that reads back its own rewards holds every payment twice."
 },
 "C79": {
  "note": "C79_shamir_exact and C79_direct give the condition for a good signature exactly; C79_recommit_spoils shows that a second commitment between the collected one and the signature silently ruins the session."
 },
 "C80": {
  "note": "Joins C75 and C79. The node is Spec_Node.accepts; placing the aggregated signature into the transaction's witness list is the caller's assignment (set_vkeys), as the library has no call for it."
 },
 "C81": {
  "status": "proved",
  "note": "The ledger is Spec_Stake (DELEGS, DELEG, POOL rules over wire CBOR). Key credentials; deregistrations are covered in the certificate theorem, not in the funded one (the builder forgets the refund, C70). The exact statements are proved; the plain claim (what the registration API takes, the ledger takes) is refuted by long names and small margins."
 },
 "C82": {
  "status": "proved",
  "note": "Purses are defined on the node's UTXO (Spec_Purse), the node is Spec_Node. The id of an applied transaction must be new to the purse (a premise: collision of a hash)."
 },
 "C83": {
  "status": "proved",
  "note": "The acceptance rule is Spec_Block (OCERT). Restarting goes through bytes(); through the key file it does not work (C53). An operator who misses an update is not covered."
 },
 "C84": {
  "status": "proved",
  "note": "The ledger is Spec_Node, Spec_Stake. Deregistration is left out: the builder forgets its refund (C70). A plan that makes no sense is refused by C81. One account per purse."
 },
 "C85": {
  "status": "proved",
  "note": "The OCERT rule is Spec_Block. 'Told apart' is a hypothesis about hash and signature scheme on this key's own tree; a toy instance meets it. A key that was updated and read back from its file is not covered (C53: it loses its period)."
 },
 "C86": {
  "status": "proved",
  "note": "The VRF's properties (proofs exist, verify, have one value) are hypotheses about libsodium; the ledger snapshot, the threshold and the slot's input are the network's and arbitrary. The header's body is built by the caller (the library has no serializer for it): any body that says so."
 },
 "C87": {
  "status": "proved",
  "note": "Botan's implementations are taken to compute the functions of the standards, which Spec_Hashes writes out and which reproduce the published examples and, through the model, the library's own test vectors (Vectors.v)."
 },
 "C88": {
  "status": "proved",
  "note": "Finding: with force, payees silently get less or nothing and the call returns normally; up to the minimum UTxO amount more than the fee is burned instead of being returned as change (C88_ex_all: 5 ada paid out of up to 6.165 ada, the rest is fee)."
 },
 "C89": {
  "status": "proved",
  "note": "Finding: the change output of the first balance() is an ordinary output to the second one, which takes what is missing from the last output, the new payee: it is removed and the call returns normally (C89_ex_lost: a payee of 3 ada is dropped while 14.8 ada of change stand before it)."
 }
}