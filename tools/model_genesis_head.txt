(** Model of the genesis parameters' JSON (/repo/src/{byron,shelley,alonzo,conway}/genesis.cpp).  Written by tools/gen_genesis.py from the C++.
    nlohmann::json is modelled as a tree (Spec_Genesis.v); objects and std::map / std::unordered_map are association lists (their order is not observable).
    at(): throws when the value is not an object or the key is missing.  get_to for numbers converts with static_cast whatever the kind of number
    (out-of-range floating point is undefined); bool converts to the narrower integer types only. *)
From Coq Require Import String SpecFloat.
From Verif Require Import Base Spec_Genesis.
Local Open Scope list_scope.

(** byron/genesis.cpp:36-172 and the like, inside nlohmann::json: static_cast from double to an integer type: truncation towards zero; undefined (None) outside the target's range [lo, hi) *)
Definition trunc (f : F) (lo hi : Z) : option Z :=
  match f with
  | S754_zero _ => Some 0
  | S754_finite s m e =>
      let a := if e <? 0 then Z.pos m / 2 ^ (- e) else Z.pos m * 2 ^ e in
      let z := if s then - a else a in
      if (lo <=? z) && (z <? hi) then Some z else None
  | _ => None
  end.

(** byron/genesis.cpp:38 and the like: [j.at(k)] *)
Definition at_ (j : json) (k : string) : outcome json :=
  match j with JObj l => match lookup l (key k) with Some v => Ok v | None => Throw end | _ => Throw end.
(** byron/genesis.cpp:38 and the like: get_to a std::string *)
Definition get_str (j : json) : outcome (list Z) := match j with JStr s => Ok s | _ => Throw end.
(** shelley/genesis.cpp:73-89 and the like: a floating point number read as an integer *)
Definition from_float (f : F) (lo hi : Z) : outcome Z := match trunc f lo hi with Some z => Ok z | None => UB end.
(** shelley/genesis.cpp:74-86 and the like: get_to a uint64_t *)
Definition get_u64 (j : json) : outcome Z :=
  match j with JUint n => Ok n | JInt z => Ok (z mod 2 ^ 64) | JFloat f => from_float f 0 (2 ^ 64) | _ => Throw end.
(** byron/genesis.cpp:82, 104-107 and the like: get_to a narrower unsigned type *)
Definition get_uw (w : Z) (j : json) : outcome Z :=
  match j with
  | JUint n => Ok (n mod 2 ^ w) | JInt z => Ok (z mod 2 ^ w) | JFloat f => from_float f 0 (2 ^ w)
  | JBool b => Ok (Z.b2z b) | _ => Throw
  end.
(** byron/genesis.cpp:104-107 and the like *)
Definition get_u32 := get_uw 32.
(** byron/genesis.cpp:82 *)
Definition get_u16 := get_uw 16.
(** alonzo/genesis.cpp:34-35: two's complement *)
Definition to_i64 (z : Z) : Z := (z + 2 ^ 63) mod 2 ^ 64 - 2 ^ 63.
(** alonzo/genesis.cpp:34-35, 69: get_to an int64_t *)
Definition get_i64 (j : json) : outcome Z :=
  match j with JUint n => Ok (to_i64 n) | JInt z => Ok z | JFloat f => from_float f (- 2 ^ 63) (2 ^ 63) | _ => Throw end.
(** shelley/genesis.cpp:87-89, 125, conway/genesis.cpp:40-74: get_to a double *)
Definition get_dbl (j : json) : outcome F :=
  match j with JFloat f => Ok f | JUint n => Ok (of_int n) | JInt z => Ok (of_int z) | _ => Throw end.
(** byron/genesis.cpp:163-171, shelley/genesis.cpp:127, alonzo/genesis.cpp:69, conway/genesis.cpp:117: get_to a map from strings *)
Definition get_map {A} (get : json -> outcome A) (j : json) : outcome (list (list Z * A)) :=
  match j with JObj l => mapM (fun e => let* v := get (snd e) in Ok (fst e, v)) l | _ => Throw end.
(** conway/genesis.cpp:151: std::array: the elements 0..250 with at(); further elements are ignored *)
Definition get_arr251 (j : json) : outcome (list Z) :=
  match j with
  | JArr l => if (length l <? 251)%nat then Throw else mapM get_i64 (firstn 251 l)
  | _ => Throw
  end.
(** byron/genesis.cpp:148-158 and the like: a map from strings as JSON *)
Definition put_map {A} (put : A -> json) (m : list (list Z * A)) : json := JObj (map (fun e => (fst e, put (snd e))) m).
(** conway/genesis.cpp:133: a std::array as JSON *)
Definition put_arr (l : list Z) : json := JArr (map JInt l).

