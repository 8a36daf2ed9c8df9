(** BIP-39, written independently of the code. *)
From Verif Require Import Base.

Definition bip39_size (n : nat) : Prop := In n [9; 12; 15; 18; 21; 24]%nat.

(** [idx] are the 11-bit groups of the entropy followed by the first [length idx / 3] bits of its
    SHA-256 hash. [cs] is the value of these hash bits. *)
Definition leading_bits (n : nat) (hash : list Z) : Z := hd 0 hash / 2 ^ (8 - Z.of_nat n).
Definition is_bip39_split (ent : list Z) (cs : Z) (idx : list Z) : Prop :=
  let n := (length idx / 3)%nat in
  bytes_ok ent /\ length ent = (4 * n)%nat /\ digits_ok 2048 idx /\ 0 <= cs < 2 ^ Z.of_nat n /\
  bev 2048 idx = bev 256 ent * 2 ^ Z.of_nat n + cs.

(** A function with the shape of SHA-256: 32 bytes out. *)
Definition sha256_shape (f : list Z -> list Z) : Prop := forall x, bytes_ok (f x) /\ length (f x) = 32%nat.

(** Words joined by single spaces. *)
Fixpoint join_spaces (ws : list (list Z)) : list Z :=
  match ws with
  | [] => []
  | [w] => w
  | w :: r => w ++ 32 :: join_spaces r
  end.
