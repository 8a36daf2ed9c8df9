(** Specification vocabulary for threshold signatures: polynomials by Horner evaluation, sums, participants. *)
From Verif Require Import Base Spec_Ed25519.

(** The value at x of the polynomial with the given coefficients, constant term first. *)
Fixpoint peval (p : list Z) (x : Z) : Z := match p with [] => 0 | c :: r => c + x * peval r x end.
(** The sum of a list of integers. *)
Definition total (l : list Z) : Z := fold_right Z.add 0 l.
(** The number of different values in a list. *)
Definition count_distinct (l : list Z) : Z := Z.of_nat (length (nodup Z.eq_dec l)).

(** Calls on a stateful signer: commit with the entropy drawn, sign under an aggregate commitment, sign with
    an explicit coefficient. *)
Inductive signer_call := Commit (seed : list Z) | Sign (agg : list Z) | SignWith (agg coef : list Z).
(** The entropy drawn by the last commitment of a history, if it has one. *)
Fixpoint latest_seed (h : list signer_call) : option (list Z) :=
  match h with
  | [] => None
  | c :: r => match latest_seed r, c with Some s, _ => Some s | None, Commit seed => Some seed | None, _ => None end
  end.
