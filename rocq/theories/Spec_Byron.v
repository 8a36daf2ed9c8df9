(** Byron addresses, from the Byron CDDL (cardano-ledger, eras/byron/cddl-spec/byron.cddl):
      address = [ #6.24(bytes .cbor ([addressid, addrattr, addrtype])), u32 crc of those bytes ]
      addressid = blake2b-224 (28 bytes), addrattr = {? 1 : bytes .cbor bytes, ? 2 : bytes .cbor u32}, addrtype = 0 public key / 1 script / 2 redeem.
    The addresses here are described with these words only; CBOR data items as in Spec_Cbor.v. *)
From Verif Require Import Base Spec_Cbor.

Inductive addr_kind := KPubkey | KScript | KRedeem.
Definition kind_number (k : addr_kind) : Z := match k with KPubkey => 0 | KScript => 1 | KRedeem => 2 end.
(** [cipher] = [] and [magic] = 0 stand for absent attributes (main network addresses carry no magic). *)
Record address_data := { ad_root : list Z; ad_cipher : list Z; ad_magic : Z; ad_kind : addr_kind }.
Definition address_data_ok (a : address_data) : Prop :=
  bytes_ok (ad_root a) /\ length (ad_root a) = 28%nat /\ bytes_ok (ad_cipher a) /\ zlen (ad_cipher a) < 2 ^ 32 /\ 0 <= ad_magic a < 2 ^ 32.

(** [s] is exactly one CBOR item, [c] *)
Definition cbor_of (s : list Z) (c : cbor) : Prop := cbor_read s = Some (c, []).
Definition cddl_attr_cipher (cipher : list Z) (entries : list (cbor * cbor)) : Prop :=
  (cipher = [] /\ entries = []) \/ (cipher <> [] /\ exists s, cbor_of s (CBytes cipher) /\ entries = [(CUint 1, CBytes s)]).
Definition cddl_attr_magic (magic : Z) (entries : list (cbor * cbor)) : Prop :=
  (magic = 0 /\ entries = []) \/ (magic <> 0 /\ exists s, cbor_of s (CUint magic) /\ entries = [(CUint 2, CBytes s)]).
Definition cddl_payload (a : address_data) (payload : list Z) : Prop :=
  exists e1 e2, cddl_attr_cipher (ad_cipher a) e1 /\ cddl_attr_magic (ad_magic a) e2 /\
    cbor_of payload (CArray [CBytes (ad_root a); CMap (e1 ++ e2); CUint (kind_number (ad_kind a))]).

(** CRC-32 as ISO 3309 defines it, by polynomial division over GF(2) with bit strings: the message's bits (low bit of each byte first), the first 32
    complemented, times x^32, modulo x^32 + x^26 + x^23 + x^22 + x^16 + x^12 + x^11 + x^10 + x^8 + x^7 + x^5 + x^4 + x^2 + x + 1, complemented, and the
    remainder's coefficients read so that x^31 is bit 0. *)
Definition crc_poly : list bool := (* coefficients of x^31 .. x^0 *)
  map (fun i => existsb (Nat.eqb i) [26; 23; 22; 16; 12; 11; 10; 8; 7; 5; 4; 2; 1; 0]%nat) (rev (seq 0 32)).
Definition byte_bits (b : Z) : list bool := map (fun i => Z.testbit b (Z.of_nat i)) (seq 0 8).
Definition xor_bits (a b : list bool) : list bool := map (fun p => xorb (fst p) (snd p)) (combine a b).
(** one step of long division: [r] holds the coefficients x^31 .. x^0 of the remainder so far; bring down the next bit *)
Definition div_step (r : list bool) (next : bool) : list bool :=
  match r with
  | [] => []
  | top :: r => let shifted := r ++ [next] in if top then xor_bits shifted crc_poly else shifted
  end.
Definition remainder (bits : list bool) : list bool := fold_left div_step bits (repeat false 32).
Definition complement_first (n : nat) (bits : list bool) : list bool := map negb (firstn n bits) ++ skipn n bits.
Definition crc_bits (bytes : list Z) : list bool :=
  map negb (remainder (complement_first 32 (concat (map byte_bits bytes) ++ repeat false 32))).
(** the 32-bit number whose bit i is the i-th element *)
Fixpoint number_of_bits (l : list bool) : Z := match l with [] => 0 | b :: l => Z.b2z b + 2 * number_of_bits l end.
Definition crc32_spec (bytes : list Z) : Z := number_of_bits (crc_bits bytes).

(** The whole address. *)
Definition cddl_address (a : address_data) (s : list Z) : Prop :=
  exists payload, cddl_payload a payload /\ cbor_of s (CArray [CTag 24 (CBytes payload); CUint (crc32_spec payload)]).

(** ** Addresses of a wallet
    The derivation path in the address is an indefinite-length CBOR array of unsigned integers (RFC 8949 section 3.2.2): 0x9F, the items, 0xFF. *)
Definition indefinite_uints (path : list Z) (s : list Z) : Prop :=
  exists parts, Forall2 (fun i p => cbor_of p (CUint i)) path parts /\ s = 159 :: concat parts ++ [255].
(** The bytes whose hash is the root of a public key address: [0, [0, extended public key], attributes]. *)
Definition root_preimage (xpub_bytes cipher : list Z) (magic : Z) (s : list Z) : Prop :=
  exists e1 e2, cddl_attr_cipher cipher e1 /\ cddl_attr_magic magic e2 /\
    cbor_of s (CArray [CUint 0; CArray [CUint 0; CBytes xpub_bytes]; CMap (e1 ++ e2)]).
(** What is assumed of ChaCha20-Poly1305: decryption inverts encryption, and the 16-byte tag is appended. *)
Record aead (seal : list Z -> list Z -> list Z -> list Z) (open : list Z -> list Z -> list Z -> option (list Z)) : Prop := {
  aead_open : forall k n m, bytes_ok m -> open k n (seal k n m) = Some m;
  aead_len : forall k n m, length (seal k n m) = (length m + 16)%nat;
  aead_bytes : forall k n m, bytes_ok m -> bytes_ok (seal k n m)
}.
