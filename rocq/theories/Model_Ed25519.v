(** Model of the plain Ed25519 keys: /repo/src/ed25519.cpp, /repo/include/cardano/ed25519.hpp.
    libsodium's key and signature functions are modelled by what their sources compute on the bytes, over SHA-512 ([sha512]), the encoding [enc k] of [k]B,
    and its verification function [verify] (assumed in Spec_Ed25519.v).  Not modelled: locked memory (Model_Secmem.v), sodium_init. *)
From Verif Require Import Base Model_Hex Spec_Ed25519 Model_Bip32.

Section Ed25519.
(** ed25519.cpp:66, 75, 78 (inside libsodium): SHA-512, abstract *)
Variable sha512 : list Z -> list Z.
(** ed25519.cpp:66, 75, 78 (inside libsodium): encoding of the multiple of the base point, abstract *)
Variable enc : Z -> list Z.
(** ed25519.cpp:44-46, abstract.  crypto_sign_verify_detached(sig, msg, pk) == 0: key, message, signature *)
Variable verify : list Z -> list Z -> list Z -> bool.
(** ed25519.cpp:66, 75, 78 (inside libsodium).  libsodium: az[0] &= 248; az[31] &= 127; az[31] |= 64 *)
Definition sodium_clamp (az : list Z) : list Z := upd 31 (fun x => Z.lor x 64) (upd 31 (fun x => Z.land x 127) (upd 0 (fun x => Z.land x 248) az)).
(** ed25519.cpp:58, 66, 75.  crypto_sign_ed25519_seed_keypair: the public key and the 64-byte secret key, seed then public key *)
Definition sodium_seed_keypair (seed : list Z) : list Z * list Z :=
  let az := sodium_clamp (sha512 seed) in
  let pk := enc (lev 256 (firstn 32 az)) in (pk, seed ++ pk).
(** ed25519.cpp:78-80.  crypto_sign_detached *)
Definition sodium_sign (msg sk : list Z) : list Z :=
  let az := sha512 (firstn 32 sk) in
  let nonce := lev 256 (sha512 (skipn 32 az ++ msg)) mod ell in
  let R := enc nonce in
  let hram := lev 256 (sha512 (R ++ skipn 32 sk ++ msg)) mod ell in
  let az := sodium_clamp az in
  R ++ pack_le 32 ((hram * lev 256 (firstn 32 az) + nonce) mod ell).

(** ed25519.cpp:32-37 the constructor: the 32 bytes are copied *)
Definition ed_PublicKey (b : list Z) : list Z := b.
(** ed25519.cpp:49-52 the constructor: the 32 bytes are copied *)
Definition ed_PrivateKey (b : list Z) : list Z := b.
(** ed25519.cpp:39-47 PublicKey::verifySignature *)
Definition ed_verifySignature (pub msg sig : list Z) : bool := verify pub msg sig.
(** ed25519.cpp:54-60 PrivateKey::generate: crypto_sign_keypair draws a seed; the first 32 bytes of the secret key are kept *)
Definition ed_generate (random : list Z) : list Z := ed_PrivateKey (firstn 32 (snd (sodium_seed_keypair random))).
(** ed25519.cpp:62-68 PrivateKey::publicKey *)
Definition ed_publicKey (prv : list Z) : list Z := ed_PublicKey (fst (sodium_seed_keypair prv)).
(** ed25519.cpp:70-82 PrivateKey::sign *)
Definition ed_sign (prv msg : list Z) : list Z := sodium_sign msg (snd (sodium_seed_keypair prv)).
End Ed25519.
