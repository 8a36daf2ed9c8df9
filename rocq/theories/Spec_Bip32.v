(** Vocabulary of the BIP32-Ed25519 properties, independent of the byte loops. *)
From Verif Require Import Base Spec_Ed25519 Model_Bip32.

(** Assumed of the hash functions: output sizes. *)
Record hashes_ok (sha512 sha256 : list Z -> list Z) (hmac512 : list Z -> list Z -> list Z)
    (pbkdf2 : Z -> nat -> list Z -> list Z -> list Z) : Prop := {
  sha512_ok : forall x, length (sha512 x) = 64%nat /\ bytes_ok (sha512 x);
  sha256_ok : forall x, length (sha256 x) = 32%nat /\ bytes_ok (sha256 x);
  hmac_ok : forall k x, length (hmac512 k x) = 64%nat /\ bytes_ok (hmac512 k x);
  pbkdf2_ok : forall i n p s, length (pbkdf2 i n p s) = n /\ bytes_ok (pbkdf2 i n p s)
}.

Definition wf_prv (k : xprv) : Prop :=
  length (kbytes k) = 64%nat /\ bytes_ok (kbytes k) /\ length (kcc k) = 32%nat /\ bytes_ok (kcc k).
(** The secret scalar: the left half, little endian; and the right half. *)
Definition kL (k : xprv) : Z := lev 256 (firstn 32 (kbytes k)).
Definition kR (k : xprv) : Z := lev 256 (skipn 32 (kbytes k)).

(** Low three bits clear, bit 255 clear, bit 254 set. *)
Definition clamped (v : Z) : Prop := v mod 8 = 0 /\ 2 ^ 254 <= v < 2 ^ 255.
(** The same and bit 253 clear. *)
Definition clamped3 (v : Z) : Prop := v mod 8 = 0 /\ 2 ^ 254 <= v < 2 ^ 254 + 2 ^ 253.

(** Clamping a 256-bit number: bits 3..253 kept, 254 set, the others cleared; and the same clearing bit 253. *)
Definition clamp (v : Z) : Z := 2 ^ 254 + 8 * (v / 8) mod 2 ^ 254.
Definition clamp3 (v : Z) : Z := 2 ^ 254 + 8 * (v / 8) mod 2 ^ 253.
(** The legacy (Byron) root search: the n-th candidate for an HMAC key. *)
Definition root_tag (hmac512 : list Z -> list Z -> list Z) (count_text : Z -> list Z) (key : list Z) (n : Z) : list Z :=
  hmac512 key (str "Root Seed Chain " ++ count_text n).
Definition root_hash (sha512 : list Z -> list Z) (hmac512 : list Z -> list Z -> list Z) (count_text : Z -> list Z) (key : list Z) (n : Z) : list Z :=
  sha512 (firstn 32 (root_tag hmac512 count_text key n)).

Definition soft (index : Z) : Prop := 0 <= index < 2 ^ 31.

(** The number added to the secret scalar by one derivation step, from the HMAC output [z]:
    mode V2 adds eight times the first 28 bytes; mode V1 shifts each of the first 32 bytes by itself. *)
Definition tweak_of (mode : dmode) (z : list Z) : Z :=
  match mode with
  | V1 => lev 256 (map (fun b => (8 * b) mod 256) (firstn 32 z))
  | V2 => 8 * lev 256 (firstn 28 z)
  end.
(** The child index as the four bytes that enter the HMAC: big endian in mode V1, little endian in mode V2. *)
Definition index_bytes (mode : dmode) (i : Z) : list Z :=
  let le := [i mod 256; i / 2 ^ 8 mod 256; i / 2 ^ 16 mod 256; i / 2 ^ 24 mod 256] in
  match mode with V1 => rev le | V2 => le end.
(** The data of the two HMACs of a private derivation step: the private key for a hardened index, else the public key [pk],
    behind a tag (0 or 2 for the key, 1 or 3 for the chain code), then the index. *)
Definition step_data (hardened_tag soft_tag : Z) (k : xprv) (pk : list Z) (i : Z) (mode : dmode) : list Z :=
  (if 2 ^ 31 <=? i then hardened_tag :: kbytes k else soft_tag :: pk) ++ index_bytes mode i.
(** The HMAC output of a soft step from the public key [pk]. *)
Definition z_soft (hmac512 : list Z -> list Z -> list Z) (pk : xpub) (index : Z) (mode : dmode) : list Z :=
  hmac512 (pcc pk) ([2] ++ pbytes pk ++ index_bytes mode index).

(** The Ed25519 secret scalar is usable: not a multiple of the group order. *)
Definition usable (v : Z) : Prop := v mod ell <> 0.
