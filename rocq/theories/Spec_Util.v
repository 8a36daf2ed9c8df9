(** Specification side of C47: what number a double stands for, and fractions as Coq rationals. *)
From Coq Require Import ZArith QArith Qabs Qpower.
From Verif Require Import Base Model_Util.

(** The finite double m * 2^e as a rational number. *)
Definition q_of (m e : Z) : Q := (inject_Z m * Qpower 2 e)%Q.
(** p / q for a positive q *)
Definition frac (p q : Z) : Q := (p # Z.to_pos q)%Q.
(** m * 2^e has at most 62 binary fraction digits and an absolute value below 2^63: the doubles the function can handle. *)
Definition in_range (m e : Z) : Prop := - 62 <= e /\ Z.abs m * 2 ^ Z.max 0 e < 2 ^ 63.
