(** Model of several StatefulSigner objects used together (/repo/src/tss.cpp, /repo/include/cardano/tss.hpp): each call
    of a history goes to one object.  Also the two entry points of the dealer that make the root key themselves.
    The objects share nothing (tss.hpp:339-344 has no static or pointer member), so calls on different objects in
    different threads are interleavings of calls. *)
From Verif Require Import Base Model_Hex Spec_Ed25519 Spec_Tss Model_Bip32 Model_Tss.

(** writing the i-th object of a vector of signers (tss.hpp:339-344); nothing if there is none *)
Fixpoint put {A} (i : nat) (x : A) (l : list A) : list A :=
  match i, l with
  | _, [] => []
  | O, _ :: r => x :: r
  | S i, y :: r => y :: put i x r
  end.

Section Net.
(** tss.cpp:76, 89, 112, 387, 534, 552, 591 SHA-512 and SHA-256; bip32_ed25519.cpp:447-456 PBKDF2: abstract *)
Variable sha512 sha256 : list Z -> list Z.
(** bip32_ed25519.cpp:447-456 PBKDF2: rounds, length, password, salt *)
Variable pbkdf2 : Z -> nat -> list Z -> list Z -> list Z.
(** curve25519.cpp:164-172, 174-185 *)
Variable enc : Z -> list Z.
(** curve25519.cpp:174-185 *)
Variable padd : list Z -> list Z -> option (list Z).

(** tss.cpp:621-656: one call on the object number [fst e] of a vector of signers; there must be one *)
Definition net_step (net : list signer) (e : nat * signer_call) : outcome (list signer * list Z) :=
  match nth_error net (fst e) with
  | None => UB
  | Some g => let* r := signer_step sha512 enc g (snd e) in Ok (put (fst e) (fst r) net, snd r)
  end.
(** tss.cpp:621-656: a history of calls, and what each returned *)
Fixpoint net_run (net : list signer) (tr : list (nat * signer_call)) : outcome (list signer * list (list Z)) :=
  match tr with
  | [] => Ok (net, [])
  | e :: tr => let* r := net_step net e in let* q := net_run (fst r) tr in Ok (fst q, snd r :: snd q)
  end.

(** tss.cpp:290-294 Dealer::generate, for the 32 random bytes drawn by PrivateKey::generate *)
Definition dealer_generate (d : dealer) (random : list Z) (gen : nat -> xprv) (coefs : list Z) : outcome (xpub * list keyshare) :=
  splitRootKey sha512 sha256 enc padd d (prv_generate pbkdf2 random) gen coefs.
(** tss.cpp:296-301 Dealer::splitSeed *)
Definition dealer_splitSeed (d : dealer) (seed : list Z) (gen : nat -> xprv) (coefs : list Z) : outcome (xpub * list keyshare) :=
  splitRootKey sha512 sha256 enc padd d (prv_fromSeed sha512 sha256 seed) gen coefs.
(** tss.cpp:512-520 Signer::commitmentShareAndNonce(), for the 32 random bytes drawn *)
Definition commitmentShareRandom (seed : list Z) : outcome (list Z * list Z) := commitmentShareFromNonce enc seed.
End Net.
