(** Base58 text form, independent of the code. *)
From Verif Require Import Base.
Definition b58_alphabet : list Z := str "123456789ABCDEFGHJKLMNPQRSTUVWXYZabcdefghijkmnopqrstuvwxyz".
(** [text] stands for [bytes]: as many leading '1' as leading zero bytes, then the base-58
    digits of the number (most significant first, no leading zero digit). *)
Definition is_base58 (bytes text : list Z) : Prop :=
  exists k body digits,
    bytes = repeat 0 k ++ body /\ (forall x r, body = x :: r -> x <> 0) /\
    digits_ok 58 digits /\ (forall d r, digits = d :: r -> d <> 0) /\
    bev 58 digits = bev 256 body /\
    text = repeat 49 k ++ map (fun d => nth (Z.to_nat d) b58_alphabet 0) digits.

(** The digit a character stands for, if it is in the alphabet. *)
Definition b58_digit (c : Z) : option Z :=
  find (fun d => nth (Z.to_nat d) b58_alphabet 0 =? c) (map Z.of_nat (seq 0 58)).
(** How the number read so far continues with the character [c]: a digit is appended; a character
    outside the alphabet counts as the digit -1, or as 2^32-1 if the number is a multiple of 256. *)
Definition b58_continue (v c : Z) : Z :=
  match b58_digit c with
  | Some d => 58 * v + d
  | None => if v mod 256 =? 0 then 58 * v + (2 ^ 32 - 1) else 58 * v - 1
  end.
Definition b58_number (s : list Z) : Z := fold_left b58_continue s 0.
(** The '1' characters a text starts with. *)
Fixpoint ones_of (s : list Z) : nat := match s with c :: r => if c =? 49 then S (ones_of r) else O | [] => O end.
