(** What is assumed of the Ed25519 group and of libsodium's verification. *)
From Verif Require Import Base Model_Hex.

(** The order of the prime-order subgroup. *)
Definition ell : Z := 2 ^ 252 + 27742317777372353535851937790883648493.

(** [enc k] is the 32-byte encoding of [k]B, B the base point; [padd] is point addition on encodings
    ([None]: not points).  Points are written by their discrete logarithm only to state the laws. *)
Record ed_group (enc : Z -> list Z) (padd : list Z -> list Z -> option (list Z)) : Prop := {
  enc_len : forall k, length (enc k) = 32%nat;
  enc_bytes : forall k, bytes_ok (enc k);
  enc_mod : forall k, enc (k mod ell) = enc k;
  enc_inj : forall a b, enc a = enc b -> a mod ell = b mod ell;
  padd_enc : forall a b, padd (enc a) (enc b) = Some (enc (a + b))
}.

(** The equation of Ed25519 verification for a public key [a]B and a signature ([r]B, S):
    S is reduced, neither point is the identity, and S = r + SHA512(R, A, m) a modulo the order. *)
Definition ed_verifies (enc : Z -> list Z) (sha512 : list Z -> list Z)
    (verify : list Z -> list Z -> list Z -> bool) : Prop :=
  forall a r S m, 0 <= S < 2 ^ 256 ->
    verify (enc a) m (enc r ++ pack_le 32 S) = true <->
    a mod ell <> 0 /\ r mod ell <> 0 /\ S < ell /\
    S = (r + lev 256 (sha512 (enc r ++ enc a ++ m)) * a) mod ell.
