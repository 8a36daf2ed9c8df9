(** Model of util::love2ada and util::ada2love (/repo/include/cardano/util.hpp:38-53).
    Doubles are the IEEE 754 binary64 data of Coq's standard library (SpecFloat: precision 53, maximal exponent 1024), rounding to nearest even. *)
From Coq Require Import ZArith SpecFloat.
From Verif Require Import Base Model_Tx.

(** include/cardano/util.hpp:42, 50: the C++ type [double] *)
Definition double : Type := spec_float.
(** include/cardano/util.hpp:44.  static_cast<double>(int64_t), and the literal 1000000.0 (exact) *)
Definition of_int (n : Z) : double := binary_normalize 53 1024 n 0 false.
(** include/cardano/util.hpp:44, 52: the constant 1000000 *)
Definition million : double := of_int 1000000.
(** include/cardano/util.hpp:52.  static_cast<int64_t>(trunc(x)): towards zero; undefined for NaN, infinities and values that do not fit *)
Definition int64_of (x : double) : outcome Z :=
  match x with
  | S754_zero _ => Ok 0
  | S754_finite s m e =>
      let a := if 0 <=? e then Z.pos m * 2 ^ e else Z.pos m / 2 ^ (- e) in
      let v := if s then - a else a in if in_i64 v then Ok v else UB
  | _ => UB
  end.
(** util.hpp:42-45 *)
Definition love2ada (n : Z) : double := SFdiv 53 1024 (of_int n) million.
(** util.hpp:50-53 *)
Definition ada2love (x : double) : outcome Z := int64_of (SFmul 53 1024 million x).
