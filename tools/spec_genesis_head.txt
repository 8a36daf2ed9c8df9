(** Genesis files: JSON values, the parameters of each era, and which JSON value is a file holding which parameters.
    Written by tools/gen_genesis.py; the keys are those of the main network's genesis files. *)
From Coq Require Import String SpecFloat.
From Verif Require Import Base.
Local Open Scope list_scope.

(** IEEE binary64, and the number nearest to an integer (ties to even); Coq's own specification of floating point *)
Definition F : Type := spec_float.
Definition of_int (z : Z) : F := binary_normalize 53 1024 z 0 false.
Definition finite (f : F) : bool := match f with S754_zero _ | S754_finite _ _ _ => true | _ => false end.

(** A JSON value as the JSON library holds it: unsigned, signed and floating-point numbers are told apart. *)
Inductive json := JNull | JBool (b : bool) | JUint (n : Z) | JInt (z : Z) | JFloat (f : F) | JStr (s : list Z) | JArr (l : list json) | JObj (l : list (list Z * json)).
Definition key (s : string) : list Z := str s.
Fixpoint lookup {A} (l : list (list Z * A)) (k : list Z) : option A :=
  match l with [] => None | (k', v) :: l => if zlist_eqb k' k then Some v else lookup l k end.
(** The object [j] has [v] under the name [k]. *)
Definition field (j : json) (k : string) (v : json) : Prop := exists l, j = JObj l /\ lookup l (key k) = Some v.

Definition is_str (s : list Z) (v : json) : Prop := v = JStr s.
(** a number with an integer value, whichever way it is held *)
Definition is_int (z : Z) (v : json) : Prop := v = JInt z \/ (0 <= z /\ v = JUint z).
Definition is_dbl (f : F) (v : json) : Prop := v = JFloat f \/ exists z, f = of_int z /\ (v = JInt z \/ v = JUint z).
Definition is_ints (l : list Z) (v : json) : Prop := exists vs, v = JArr vs /\ Forall2 is_int l vs.
Definition is_map {A} (is : A -> json -> Prop) (m : list (list Z * A)) (v : json) : Prop :=
  exists l, v = JObj l /\ Forall2 (fun a b => fst a = fst b /\ is (snd a) (snd b)) m l.

