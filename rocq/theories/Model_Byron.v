(** Model of ByronAddress (/repo/src/address.cpp:359-691, /repo/include/cardano/address.hpp:266-378).
    CRC-32 is Botan's (the standard reflected one, polynomial 0x04C11DB7), written bit by bit.  PBKDF2, ChaCha20-Poly1305, SHA-3 and Blake2b are
    parameters.  cppbor as in Model_Ledger.v: null views and missing array elements are undefined behaviour (not exceptions). *)
From Verif Require Import Base Model_Hex Spec_Cbor Model_Cbor Model_Ledger Model_Base58 Model_Bip32.

(** ** CRC-32, compute_crc32: address.cpp:405-413; the four hash bytes are most significant first *)
(** address.cpp:408-410: one bit of Botan's CRC32 (external) *)
Definition crc_step (s : Z) : Z := if Z.odd s then Z.lxor (Z.shiftr s 1) 0xEDB88320 else Z.shiftr s 1.
(** address.cpp:408-410: one byte *)
Definition crc_byte (s b : Z) : Z := Nat.iter 8 crc_step (Z.lxor s b).
(** address.cpp:406-413; the four hash bytes are most significant first *)
Definition crc32 (bytes : list Z) : Z := Z.lxor (fold_left crc_byte bytes 0xFFFFFFFF) 0xFFFFFFFF.

(** ** Types *)
(** include/cardano/address.hpp:309-314 *)
Inductive byron_type := Pubkey | Script | Redeem.
(** address.cpp:425-444, typeToUint *)
Definition type_to_uint (t : byron_type) : Z := match t with Pubkey => 0 | Script => 1 | Redeem => 1 end.
(** address.cpp:446-465, uintToType *)
Definition uint_to_type (v : Z) : outcome byron_type := if v =? 0 then Ok Pubkey else if v =? 1 then Ok Script else if v =? 2 then Ok Redeem else Throw.
(** include/cardano/address.hpp:270-306 *)
Record attributes := { ba_cipher : list Z; ba_magic : Z }.
(** include/cardano/address.hpp:266-267, 317-324, 364-366 *)
Record byron := { by_root : list Z; by_attrs : attributes; by_type : byron_type }.

(** ** toCBOR, address.cpp:580-618 *)
(** address.cpp:591-602 and 668-679 *)
Definition attrs_item (a : attributes) : cbor :=
  CMap ((if 0 <? zlen (ba_cipher a) then [(CUint 1, CBytes (cbor_encode (CBytes (ba_cipher a))))] else []) ++
        (if negb (ba_magic a =? 0) then [(CUint 2, CBytes (cbor_encode (CUint (ba_magic a))))] else [])).
(** address.cpp:584-606 *)
Definition payload_item (a : byron) : cbor := CArray [CBytes (by_root a); attrs_item (by_attrs a); CUint (type_to_uint (by_type a))].
(** address.cpp:612-614 *)
Definition addr_item (payload : list Z) : cbor := CArray [CTag 24 (CBytes payload); CUint (crc32 payload)].
(** address.cpp:580-618 *)
Definition byron_toCBOR (a : byron) : list Z := cbor_encode (addr_item (cbor_encode (payload_item a))).
(** toBase58, address.cpp:620-623 *)
Definition byron_toBase58 (a : byron) : outcome (list Z) := base58_encode (byron_toCBOR a).

(** ** fromCBOR, address.cpp:520-571.  The root is copied into a 28-byte array without a size check. *)
(** address.cpp:536-561.  The root is copied into a 28-byte array without a size check *)
Definition byron_payload (payload : list Z) : outcome byron :=
  let* item := cbor_parse payload in
  let* arr := deref (as_array item) in
  let* i0 := get_ub arr 0 in let* i1 := get_ub arr 1 in let* i2 := get_ub arr 2 in
  let* root := deref (as_bytes i0) in
  if 28 <? zlen root then UB
  else
    let* m := deref (as_map i1) in
    let* cipher := match map_get m 1 with
                   | None => Ok []
                   | Some c => let* b := deref (as_bytes c) in let* d := cbor_parse b in deref (as_bytes d)
                   end in
    let* magic := match map_get m 2 with
                  | None => Ok 0
                  | Some c => let* b := deref (as_bytes c) in let* d := cbor_parse b in let* v := deref (as_uint d) in Ok (v mod 2 ^ 32)
                  end in
    let* v := deref (as_uint i2) in
    let* t := uint_to_type v in
    Ok {| by_root := root ++ repeat 0 (28 - length root); by_attrs := {| ba_cipher := cipher; ba_magic := magic |}; by_type := t |}.
(** address.cpp:520-571 *)
Definition byron_fromCBOR (bytes : list Z) : outcome byron :=
  let* item := cbor_parse bytes in
  let* arr := deref (as_array item) in
  let* i0 := get_ub arr 0 in let* payload := deref (as_bytes i0) in
  let* i1 := get_ub arr 1 in let* crc := deref (as_uint i1) in
  if negb (crc32 payload =? crc mod 2 ^ 32) then Throw
  else byron_payload payload.
(** fromBase58, address.cpp:573-578 *)
Definition byron_fromBase58 (s : list Z) : outcome byron := let* b := base58_decode s in byron_fromCBOR b.

(** ** Attributes::fromKey and fromRootKey *)
(** address.cpp:495-501: the plaintext; the definite array's first byte is overwritten with 0x9F and 0xFF is appended *)
Definition path_plaintext (path : list Z) : list Z :=
  match cbor_encode (CArray (map CUint path)) with [] => [] | _ :: r => 159 :: r end ++ [255].
(** address.cpp:370-386 *)
Definition dp_salt : list Z := str "address-hashing".   (* address.cpp:370-386 *)
(** address.cpp:390-403 *)
Definition dp_nonce : list Z := str "serokellfore".     (* address.cpp:390-403 *)
Section FromKey.
(** bip32_ed25519.cpp:360-366: Botan's HMAC(SHA-512), abstract, as in Model_Bip32 *)
Variable hmac512 : list Z -> list Z -> list Z.
(** bip32_ed25519.cpp:204-206: encoding of the scalar multiple of the base point, abstract, as in Model_Bip32 *)
Variable enc : Z -> list Z.
(** address.cpp:483-492, PBKDF2(SHA-512), abstract: iterations, output length, password, salt *)
Variable pbkdf2 : Z -> nat -> list Z -> list Z -> list Z.
(** address.cpp:508-513, ChaCha20-Poly1305 encryption, abstract: key, nonce, plaintext *)
Variable seal : list Z -> list Z -> list Z -> list Z.
(** address.cpp:628-634: Botan's SHA-3(256) and Blake2b(224), abstract *)
Variables sha3_256 blake2b_224 : list Z -> list Z.
(** bip32_ed25519.cpp:322-330, PublicKey::xbytes *)
Definition pub_xbytes (p : xpub) : list Z := pbytes p ++ pcc p.
(** address.cpp:474-518 *)
Definition attributes_fromKey (xpub : xpub) (path : list Z) (magic : Z) : attributes :=
  {| ba_cipher := seal (pbkdf2 500 32 (pub_xbytes xpub) dp_salt) dp_nonce (path_plaintext path); ba_magic := magic |}.
(** sha3_then_blake2b224, address.cpp:625-637 *)
Definition byron_hash (data : list Z) : list Z := blake2b_224 (sha3_256 data).
(** fromRootKey, address.cpp:639-691 *)
Definition byron_fromRootKey (xprv : xprv) (dpath : list Z) (magic : Z) : outcome byron :=
  let* xpub := publicKey enc xprv in
  let attrs := attributes_fromKey xpub dpath magic in
  match dpath with
  | [i; j] =>
      let* c1 := prv_deriveChild hmac512 enc xprv i V1 in
      let* c2 := prv_deriveChild hmac512 enc c1 j V1 in
      let* apub := publicKey enc c2 in
      let spending := CArray [CUint (type_to_uint Pubkey); CBytes (pub_xbytes apub)] in
      let root := byron_hash (cbor_encode (CArray [CUint (type_to_uint Pubkey); spending; attrs_item attrs])) in
      Ok {| by_root := root; by_attrs := attrs; by_type := Pubkey |}
  | _ => Throw
  end.
End FromKey.
