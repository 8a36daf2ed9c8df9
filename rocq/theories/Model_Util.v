(** Model of util::rationalApprox (/repo/src/util.cpp:63-124, /repo/include/cardano/util.hpp:176-186). *)
From Verif Require Import Base Model_Tx.

(** ** Doubles.  [DFin m e] is m * 2^e; every finite double has this form.  Only comparison with zero, doubling, floor and truncation
    are used; they are exact on doubles (doubling: as long as the value is not an integer, so no overflow). *)
(** util.cpp:63-92: the values of C++ [double] the function computes with *)
Inductive dbl := DFin (m e : Z) | DInf (neg : bool) | DNaN.
(** util.cpp:81: [f < 0] *)
Definition d_neg (f : dbl) : bool := match f with DFin m _ => m <? 0 | DInf neg => neg | DNaN => false end.
(** util.cpp:84: [-f] *)
Definition d_opp (f : dbl) : dbl := match f with DFin m e => DFin (- m) e | DInf neg => DInf (negb neg) | DNaN => DNaN end.
(** util.cpp:90: [f *= 2] *)
Definition d_twice (f : dbl) : dbl := match f with DFin m e => DFin m (e + 1) | f => f end.
(** util.cpp:87.  f == floor(f) *)
Definition d_isint (f : dbl) : bool := match f with DFin m e => (0 <=? e) || (m mod 2 ^ (- e) =? 0) | DInf _ => true | DNaN => false end.
(** util.cpp:77, 92.  static_cast<int64_t>: undefined when the truncated value does not fit *)
Definition d_int64 (f : dbl) : outcome Z :=
  match f with
  | DFin m e => let v := if 0 <=? e then m * 2 ^ e else Z.quot m (2 ^ (- e)) in if in_i64 v then Ok v else UB
  | _ => UB
  end.

(** ** int64_t arithmetic *)
(** util.cpp:105-117: [int64_t] multiplication, undefined on overflow *)
Definition smul (x y : Z) : outcome Z := if in_i64 (x * y) then Ok (x * y) else UB.
(** util.cpp:97, 107: [int64_t] division *)
Definition sdiv (x y : Z) : outcome Z := if y =? 0 then UB else if in_i64 (Z.quot x y) then Ok (Z.quot x y) else UB.
(** util.cpp:102: [int64_t] remainder *)
Definition srem (x y : Z) : outcome Z := if y =? 0 then UB else if in_i64 (Z.quot x y) then Ok (Z.rem x y) else UB.

(** util.cpp:87-91.  [n <<= 1] keeps the low 64 bits (C++20) *)
Fixpoint scale_loop (fuel : nat) (f : dbl) (n : Z) : run (dbl * Z) :=
  if d_isint f then lift (Ok (f, n))
  else match fuel with O => None | S k => scale_loop k (d_twice f) (to_i64 (2 * n)) end.
(** util.cpp:95-120.  [left] iterations remain, [i] is the iteration number; "i = 65" ends the loop after the updates *)
Fixpoint cf_loop (left : nat) (i d n h0 h1 k0 k1 md : Z) : outcome (Z * Z) :=
  match left with
  | O => Ok (h1, k1)
  | S left' =>
      let* a := if n =? 0 then Ok 0 else sdiv d n in
      if negb (i =? 0) && (a =? 0) then Ok (h1, k1)
      else
        let* r := srem d n in
        let* ka := smul k1 a in
        let* t := sadd ka k0 in
        if md <=? t then
          let* s := ssub md k0 in
          let* x := sdiv s k1 in
          let* x2 := smul x 2 in
          if (a <=? x2) || (md <=? k1) then
            let* hx := smul x h1 in let* h2 := sadd hx h0 in
            let* kx := smul x k1 in let* k2 := sadd kx k0 in
            Ok (h2, k2)
          else Ok (h1, k1)
        else
          let* hx := smul a h1 in let* h2 := sadd hx h0 in
          let* kx := smul a k1 in let* k2 := sadd kx k0 in
          cf_loop left' (i + 1) n r h1 h2 k1 k2 md
  end.
(** util.cpp:63-124 rationalApprox *)
Definition rational_approx (fuel : nat) (f : dbl) (md : Z) : run (Z * Z) :=
  if md <=? 1 then let! num := lift (d_int64 f) in lift (Ok (num, 1))
  else
    let neg := d_neg f in
    let f := if neg then d_opp f else f in
    let! r := scale_loop fuel f 1 in
    let (f, n) := r in
    let! d := lift (d_int64 f) in
    let! hk := lift (cf_loop 64 0 d n 0 1 1 0 md) in
    let (h, k) := hk in
    lift (Ok (if neg then - h else h, k)).
