(** Model of the Scalar and Point classes on their 32 bytes: /repo/include/cardano/curve25519.hpp, /repo/src/curve25519.cpp.
    (Model_Tss.v uses the scalars' values; Props_Curve.v relates the two.)
    libsodium's functions are modelled by what its sources compute on the bytes; [enc k] is the encoding of [k]B, [padd] point addition
    ([None]: an operand is not a point).  Not modelled: sodium_init failing, timing. *)
From Verif Require Import Base Model_Hex Spec_Ed25519 Model_Bip32 Model_Tss.

(** ** libsodium *)
(** curve25519.cpp:61, 70.  crypto_core_ed25519_scalar_reduce: 64 bytes modulo the order *)
Definition sodium_reduce (wide : list Z) : list Z := pack_le 32 (lev 256 wide mod ell).
(** curve25519.cpp:119 (inside libsodium).  sodium_add on 32 bytes: the carry out of the last byte is lost *)
Definition sodium_add32 (a b : list Z) : list Z := pack_le 32 ((lev 256 a + lev 256 b) mod 2 ^ 256).
(** curve25519.cpp:119-121.  crypto_core_ed25519_scalar_add *)
Definition sodium_scalar_add (x y : list Z) : list Z := sodium_reduce (sodium_add32 x y ++ repeat 0 32).
(** curve25519.cpp:133 (inside libsodium).  crypto_core_ed25519_scalar_negate: ell * 2^256 - s in 64 bytes, reduced *)
Definition sodium_scalar_negate (s : list Z) : list Z := sodium_reduce (pack_le 64 ((lev 256 (repeat 0 32 ++ pack_le 32 ell) - lev 256 s) mod 2 ^ 512)).
(** curve25519.cpp:133-135.  crypto_core_ed25519_scalar_sub *)
Definition sodium_scalar_sub (x y : list Z) : list Z := sodium_scalar_add x (sodium_scalar_negate y).
(** curve25519.cpp:142-144.  crypto_core_ed25519_scalar_mul *)
Definition sodium_scalar_mul (x y : list Z) : list Z := pack_le 32 ((lev 256 x * lev 256 y) mod ell).
(** curve25519.cpp:108.  sodium_is_zero *)
Definition sodium_is_zero (b : list Z) : bool := forallb (Z.eqb 0) b.
(** curve25519.cpp:155-157.  crypto_core_ed25519_scalar_invert: the bytes and whether it succeeds (returns 0); it fails on the all-zero bytes only *)
Definition sodium_scalar_invert (s : list Z) : list Z * bool := (pack_le 32 (sc_inv (lev 256 s)), negb (sodium_is_zero s)).
(** curve25519.cpp:79 (inside libsodium).  sc25519_is_canonical: below the order *)
Definition sodium_is_canonical (s : list Z) : bool := lev 256 s <? ell.
(** curve25519.cpp:79.  crypto_core_ed25519_scalar_random: draws 32 bytes, clears the three top bits, until canonical and not zero.
    [None]: the given draws are used up. *)
Fixpoint sodium_scalar_random (draws : list (list Z)) : option (list Z) :=
  match draws with
  | [] => None
  | d :: r =>
      let c := upd 31 (fun x => Z.land x 31) d in
      if sodium_is_canonical c && negb (sodium_is_zero c) then Some c else sodium_scalar_random r
  end.

(** ** Scalar *)
(** include/cardano/curve25519.hpp:42, 66, 88: the default constructor and zero() *)
Definition Scalar_zero : list Z := repeat 0 32.
(** include/cardano/curve25519.hpp:45: the constructor from bytes *)
Definition Scalar_of (b : list Z) : list Z := b.
(** curve25519.cpp:52-63 Scalar::reduce of 32 bytes *)
Definition Scalar_reduce32 (b : list Z) : list Z := sodium_reduce (b ++ repeat 0 32).
(** curve25519.cpp:65-72 Scalar::reduce of 64 bytes *)
Definition Scalar_reduce64 (b : list Z) : list Z := sodium_reduce b.
(** curve25519.cpp:74-81 Scalar::random, for the given draws *)
Definition Scalar_random (draws : list (list Z)) : option (list Z) := sodium_scalar_random draws.
(** curve25519.cpp:83-92 Scalar::fromUint: byte i is v >> 8 i, for i below 8 *)
Definition Scalar_fromUint (v : Z) : list Z := map (fun i => Z.shiftr v (8 * Z.of_nat i) mod 256) (seq 0 8) ++ repeat 0 24.
(** curve25519.cpp:139-146 operator* *)
Definition Scalar_mul (a b : list Z) : list Z := sodium_scalar_mul a b.
(** curve25519.cpp:94-104 Scalar::fromUintPow: p - 1 multiplications *)
Definition Scalar_fromUintPow (v p : Z) : list Z :=
  if p =? 0 then Scalar_fromUint 1
  else let value := Scalar_fromUint v in Z.iter (p - 1) (fun result => Scalar_mul result value) value.
(** curve25519.cpp:106-109 Scalar::isZero *)
Definition Scalar_isZero (a : list Z) : bool := sodium_is_zero a.
(** curve25519.cpp:111-114 operator== *)
Definition Scalar_eq (a b : list Z) : bool := zlist_eqb a b.
(** curve25519.cpp:116-128 operator+ and operator+= *)
Definition Scalar_add (a b : list Z) : list Z := sodium_scalar_add a b.
(** curve25519.cpp:130-137 operator- *)
Definition Scalar_sub (a b : list Z) : list Z := sodium_scalar_sub a b.
(** curve25519.cpp:148-162 operator/ *)
Definition Scalar_div (a b : list Z) : outcome (list Z) :=
  if Scalar_isZero b then Throw
  else let '(inv, ok) := sodium_scalar_invert b in if ok then Ok (Scalar_mul a inv) else Throw.

(** ** Point *)
Section Point.
(** curve25519.cpp:170: libsodium's encoding of the multiple of the base point, abstract *)
Variable enc : Z -> list Z.
(** curve25519.cpp:178-180: libsodium's [crypto_core_ed25519_add], abstract; [None] is its error return *)
Variable padd : list Z -> list Z -> option (list Z).
(** curve25519.cpp:164-172 Point::mulBasepoint: libsodium ignores the top bit; its status (failure for the identity) is not looked at, the encoding is written anyway *)
Definition Point_mulBasepoint (s : list Z) : list Z := enc (lev 256 s mod 2 ^ 255).
(** curve25519.cpp:174-185 Point::operator+ *)
Definition Point_add (a b : list Z) : outcome (list Z) := match padd a b with Some p => Ok p | None => Throw end.
(** curve25519.cpp:187-197 EncodedPointAdd: copies, then operator+ *)
Definition EncodedPointAdd (a b : list Z) : outcome (list Z) := Point_add (firstn 32 a) (firstn 32 b).
End Point.
