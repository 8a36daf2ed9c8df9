(** Model of /repo/src/bip32_ed25519.cpp and /repo/include/cardano/bip32_ed25519.hpp.
    Hashes, PBKDF2 and ChaCha20 (Botan) and the group operations (libsodium) are section variables:
    [enc k] is the encoding of [k]B, [padd] is [crypto_core_ed25519_add].
    [crypto_scalarmult_ed25519_base_noclamp] fails exactly when the (reduced) scalar is zero.
    Fixed-size arrays are lists; loops over indices below a fixed size read inside the arrays by their
    types, so no [UB] arises. Not modelled: the random generator, wiping, mlock. *)
From Verif Require Import Base Model_Hex Spec_Ed25519.

(** include/cardano/bip32_ed25519.hpp:73-77 [enum class DerivationMode] *)
Inductive dmode := V1 | V2.
(** include/cardano/bip32_ed25519.hpp:137-260: [prv_] (64 bytes) and [cc_] (32 bytes) of PrivateKey / EncryptedPrivateKey *)
Record xprv := { kbytes : list Z; kcc : list Z }.
(** include/cardano/bip32_ed25519.hpp:82-134: [pub_] and [cc_] (32 bytes each) of PublicKey *)
Record xpub := { pbytes : list Z; pcc : list Z }.

(** bip32_ed25519.cpp:62-65 *)
Definition index_is_hardened (index : Z) : bool := negb (Z.land index 0x80000000 =? 0).
(** bip32_ed25519.hpp:66-70 HardenIndex (uint32 arithmetic) *)
Definition HardenIndex (index : Z) : Z :=
  if index <? 0x80000000 then (index + 0x80000000) mod 2 ^ 32 else index.
(** bip32_ed25519.cpp:68-92 serialize_index32 *)
Definition serialize_index32 (index : Z) (mode : dmode) : list Z :=
  let b k := Z.shiftr index k mod 256 in
  match mode with
  | V1 => [b 24; b 16; b 8; b 0]
  | V2 => [b 0; b 8; b 16; b 24]
  end.

(** bip32_ed25519.cpp:97-101, 107-113: apply a function to one byte of a buffer ([data[i] op= ...]); [i] is inside the buffer *)
Fixpoint upd (i : nat) (f : Z -> Z) (l : list Z) : list Z :=
  match l, i with
  | [], _ => []
  | x :: r, O => f x :: r
  | x :: r, S i => x :: upd i f r
  end.
(** bip32_ed25519.cpp:94-102 tweak_bits_byron *)
Definition tweak_bits_byron (d : list Z) : list Z :=
  upd 31 (fun x => Z.lor x 64) (upd 31 (fun x => Z.land x 127) (upd 0 (fun x => Z.land x 248) d)).
(** bip32_ed25519.cpp:104-114 tweak_bits_icarus *)
Definition tweak_bits_icarus (d : list Z) : list Z :=
  upd 31 (fun x => Z.lor x 64) (upd 31 (fun x => Z.land x 31) (upd 0 (fun x => Z.land x 248) d)).

(** bip32_ed25519.cpp:170-178 reduce_scalar_mod_l, curve25519.cpp:52-72 Scalar::reduce *)
Definition sc_reduce (b : list Z) : Z := lev 256 b mod ell.

(** bip32_ed25519.cpp:374-384, 570-578: 8 * Zl, mode V1; each byte shifted on its own, since
    [prev_acc = z >> 5] never has bit 3 set. *)
Fixpoint times8_v1 (z : list Z) (prev_acc : Z) : list Z :=
  match z with
  | [] => []
  | x :: r => (Z.shiftl x 3 + Z.land prev_acc 8) mod 256 :: times8_v1 r (Z.shiftr x 5)
  end.
(** bip32_ed25519.cpp:385-396, 594-604: 8 * Zl, mode V2, 28 bytes and the final carry *)
Fixpoint times8_v2 (z : list Z) (prev_acc : Z) : list Z :=
  match z with
  | [] => []
  | x :: r => (Z.shiftl x 3 + Z.land prev_acc 7) mod 256 :: times8_v2 r (Z.shiftr x 5)
  end.
(** bip32_ed25519.cpp:374-396, 570-604: the 64-byte array [zl8] (the bytes not written are 0) *)
Definition zl8 (mode : dmode) (z : list Z) : list Z :=
  match mode with
  | V1 => times8_v1 (firstn 32 z) 0 ++ repeat 0 32
  | V2 => times8_v2 (firstn 28 z) 0 ++ [Z.shiftr (nth 27 z 0) 5] ++ repeat 0 35
  end.
(** bip32_ed25519.cpp:606-613: byte-wise addition of two 32-byte numbers, last carry dropped *)
Fixpoint add_carry (a b : list Z) (r : Z) : list Z :=
  match a, b with
  | x :: a, y :: b => let r := x + y + r in r mod 256 :: add_carry a b (Z.shiftr r 8)
  | _, _ => []
  end.
(** bip32_ed25519.cpp:615-624: the same with an explicit 0/1 carry *)
Fixpoint add_carry01 (a b : list Z) (carry : Z) : list Z :=
  match a, b with
  | x :: a, y :: b => let r := x + y + carry in Z.land (r mod 256) 255 :: add_carry01 a b (if 256 <=? r then 1 else 0)
  | _, _ => []
  end.
(** bip32_ed25519.cpp:584-591: addition byte by byte, no carry *)
Fixpoint add_bytes (a b : list Z) : list Z :=
  match a, b with
  | x :: a, y :: b => Z.land (x + y) 255 :: add_bytes a b
  | _, _ => []
  end.

Section Bip32.
(** Botan's hashes: SHA-512 (bip32_ed25519.cpp:116-149, 182-194, 251-292), SHA-256 (bip32_ed25519.cpp:463-477), Blake2b(256) (bip32_ed25519.cpp:151-165) *)
Variable sha512 sha256 blake2b_256 : list Z -> list Z.
(** bip32_ed25519.cpp:128-136, 360-366, 547-560, 628-641: Botan's HMAC(SHA-512), abstract.  HMAC-SHA512: key, message *)
Variable hmac512 : list Z -> list Z -> list Z.
(** bip32_ed25519.cpp:440-452, 486-497, 655-666: Botan's PBKDF2(SHA-512), abstract.  PBKDF2: HMAC(SHA-512), iterations, output length, passphrase, salt *)
Variable pbkdf2 : Z -> nat -> list Z -> list Z -> list Z.
(** bip32_ed25519.cpp:670-675, 718-721: Botan's ChaCha(20), abstract.  ChaCha20: key, nonce, number of keystream bytes *)
Variable chacha20 : list Z -> list Z -> nat -> list Z.
(** bip32_ed25519.cpp:204-206: libsodium's encoding of the multiple of the base point, abstract *)
Variable enc : Z -> list Z.
(** bip32_ed25519.cpp:215-230: libsodium's [crypto_core_ed25519_add], abstract; [None] is its error return *)
Variable padd : list Z -> list Z -> option (list Z).

(** bip32_ed25519.cpp:204-206, 264-270.  [crypto_scalarmult_ed25519_base_noclamp] on a reduced scalar, with its return value checked *)
Definition mul_base (s : Z) : outcome (list Z) := if s =? 0 then Throw else Ok (enc s).
(** bip32_ed25519.cpp:198-211 *)
Definition bip32_publickey (sk : list Z) : outcome (list Z) := mul_base (sc_reduce (firstn 32 sk)).
(** bip32_ed25519.cpp:215-230 *)
Definition bip32_point_add (a b : list Z) : outcome (list Z) :=
  match padd a b with Some p => Ok p | None => Throw end.
(** bip32_ed25519.cpp:233-245 *)
Definition bip32_scalar_add (a b : list Z) : list Z :=
  pack_le 32 ((sc_reduce (firstn 32 a) + sc_reduce (firstn 32 b)) mod ell).
(** bip32_ed25519.cpp:251-292 *)
Definition bip32_sign (msg sk pk : list Z) : outcome (list Z) :=
  let r := lev 256 (sha512 (skipn 32 sk ++ msg)) mod ell in
  let* R := mul_base r in
  let hram := lev 256 (sha512 (R ++ pk ++ msg)) mod ell in
  let a := sc_reduce (firstn 32 sk) in
  Ok (R ++ pack_le 32 (((hram * a) mod ell + r) mod ell)).

(** bip32_ed25519.cpp:522-526 *)
Definition publicKey (k : xprv) : outcome xpub :=
  let* p := bip32_publickey (kbytes k) in Ok {| pbytes := p; pcc := kcc k |}.
(** bip32_ed25519.cpp:528-536 *)
Definition sign (k : xprv) (msg : list Z) : outcome (list Z) :=
  let* p := publicKey k in bip32_sign msg (kbytes k) (pbytes p).

(** bip32_ed25519.cpp:342-414 PublicKey::deriveChild *)
Definition pub_deriveChild (k : xpub) (index : Z) (mode : dmode) : outcome xpub :=
  if index_is_hardened index then Throw
  else
    let idx := serialize_index32 index mode in
    let z := hmac512 (pcc k) ([2] ++ pbytes k ++ idx) in
    let* p := bip32_publickey (zl8 mode z) in
    let* p := bip32_point_add p (pbytes k) in
    let cc := firstn 32 (skipn 32 (hmac512 (pcc k) ([3] ++ pbytes k ++ idx))) in
    Ok {| pbytes := p; pcc := cc |}.

(** bip32_ed25519.cpp:538-648 PrivateKey::deriveChild *)
Definition prv_deriveChild (k : xprv) (index : Z) (mode : dmode) : outcome xprv :=
  let* pk := publicKey k in
  let idx := serialize_index32 index mode in
  let h := index_is_hardened index in
  let z := hmac512 (kcc k) ((if h then [0] ++ kbytes k else [2] ++ pbytes pk) ++ idx) in
  let right := skipn 32 (kbytes k) in
  let res :=
    match mode with
    | V1 => bip32_scalar_add (zl8 V1 z) (kbytes k) ++ add_bytes (firstn 32 (skipn 32 z)) right
    | V2 => add_carry (firstn 32 (zl8 V2 z)) (kbytes k) 0 ++ add_carry01 (firstn 32 (skipn 32 z)) right 0
    end in
  let cc := firstn 32 (skipn 32 (hmac512 (kcc k) ((if h then [1] ++ kbytes k else [3] ++ pbytes pk) ++ idx))) in
  Ok {| kbytes := res; kcc := cc |}.

(** bip32_ed25519.cpp:538-648: repeated calls of PrivateKey::deriveChild, one per index of a path (as in the library's examples) *)
Fixpoint prv_derivePath (k : xprv) (path : list Z) (mode : dmode) : outcome xprv :=
  match path with [] => Ok k | i :: r => let* c := prv_deriveChild k i mode in prv_derivePath c r mode end.
(** bip32_ed25519.cpp:342-414: repeated calls of PublicKey::deriveChild *)
Fixpoint pub_derivePath (k : xpub) (path : list Z) (mode : dmode) : outcome xpub :=
  match path with [] => Ok k | i :: r => let* c := pub_deriveChild k i mode in pub_derivePath c r mode end.

(** bip32_ed25519.cpp:416-431: the constructor from 96 bytes *)
Definition xprv_of_bytes (b : list Z) : xprv := {| kbytes := firstn 64 b; kcc := firstn 32 (skipn 64 b) |}.

(** bip32_ed25519.cpp:433-461 generate, for the 32 random bytes drawn *)
Definition prv_generate (random : list Z) : xprv := xprv_of_bytes (tweak_bits_icarus (pbkdf2 4096 96 [] random)).
(** bip32_ed25519.cpp:182-194 bip32_ed25519_extend, 463-477 fromSeed ([hasher->update(1)] feeds one byte) *)
Definition prv_fromSeed (seed : list Z) : xprv :=
  {| kbytes := tweak_bits_byron (sha512 seed); kcc := sha256 ([1] ++ seed) |}.
(** bip32_ed25519.cpp:479-503 fromMnemonic, for the bytes [mn.toSeed()] returns *)
Definition prv_fromMnemonic (seed passphrase : list Z) : xprv :=
  xprv_of_bytes (tweak_bits_icarus (pbkdf2 4096 96 passphrase seed)).

(** bip32_ed25519.cpp:131-133: [std::to_string(count)], the text appended to the message *)
Variable count_text : Z -> list Z.
(** bip32_ed25519.cpp:116-149 hash_repeatedly; [fuel] counts the calls left before [count > MAX_ITERATIONS] *)
Fixpoint hash_repeatedly (fuel : nat) (key : list Z) (count : Z) : outcome (list Z) :=
  match fuel with
  | O => Throw
  | S fuel =>
      let tag := hmac512 key (str "Root Seed Chain " ++ count_text count) in
      let prv := tweak_bits_byron (sha512 (firstn 32 tag)) in
      if negb (Z.land (nth 31 prv 0) 32 =? 0) then hash_repeatedly fuel key (count + 1)
      else Ok (prv ++ skipn 32 tag)
  end.
(** bip32_ed25519.cpp:153-163: [cppbor::Bstr(...).encode()], the CBOR byte-string encoding *)
Variable cbor_bstr : list Z -> list Z.
(** bip32_ed25519.cpp:151-165 hash_seed *)
Definition hash_seed (seed : list Z) : list Z := cbor_bstr (blake2b_256 (cbor_bstr seed)).
(** bip32_ed25519.cpp:505-510 fromMnemonicByron; calls with counts 1..1000 run *)
Definition prv_fromMnemonicByron (seed : list Z) : outcome xprv :=
  let* key := hash_repeatedly 1000 (hash_seed seed) 1 in Ok (xprv_of_bytes key).

(** bip32_ed25519.cpp:675, 721.  ChaCha20 as used: XOR with the keystream *)
Definition xor_bytes (a b : list Z) : list Z := map (fun p => Z.lxor (fst p) (snd p)) (combine a b).
(** bip32_ed25519.cpp:655, 707.  "encrypted wallet salt" with its terminating zero ([sizeof(salt)]) *)
Definition wallet_salt : list Z := str "encrypted wallet salt" ++ [0].
(** bip32_ed25519.cpp:656-675, 708-721: the keystream of a password *)
Definition stream (password : list Z) : list Z :=
  let buf := pbkdf2 15000 40 password wallet_salt in chacha20 (firstn 32 buf) (firstn 8 (skipn 32 buf)) 64.
(** bip32_ed25519.cpp:650-678 *)
Definition encrypt (k : xprv) (password : list Z) : xprv :=
  match password with
  | [] => k
  | _ => {| kbytes := xor_bytes (kbytes k) (stream password); kcc := kcc k |}
  end.
(** bip32_ed25519.cpp:699-724 *)
Definition decrypt (k : xprv) (password : list Z) : xprv :=
  match password with
  | [] => k
  | _ => {| kbytes := xor_bytes (kbytes k) (stream password); kcc := kcc k |}
  end.
End Bip32.
