(** The sum composition of Malkin, Micciancio and Miner, written independently of the buffers. *)
From Verif Require Import Base.

(** What is assumed of the primitives: output sizes, and that an honest Ed25519 signature verifies. *)
Record kes_crypto (H ed_pk : list Z -> list Z) (ed_sign : list Z -> list Z -> list Z)
    (ed_verify : list Z -> list Z -> list Z -> bool) : Prop := {
  H_len : forall x, length (H x) = 32%nat;
  pk_len : forall s, length (ed_pk s) = 32%nat;
  sign_len : forall s m, length (ed_sign s m) = 64%nat;
  sign_ok : forall s m, ed_verify (ed_pk s) m (ed_sign s m) = true
}.

Section Tree.
Variable H : list Z -> list Z.
Variable ed_pk : list Z -> list Z.

(** Seeds of the left and right subtree. *)
Definition lseed (s : list Z) : list Z := H (1 :: s).
Definition rseed (s : list Z) : list Z := H (2 :: s).
(** The seed of the node reached from the root along a path ([true] = right). *)
Fixpoint seed_at (s : list Z) (path : list bool) : list Z :=
  match path with
  | [] => s
  | b :: r => seed_at (if b then rseed s else lseed s) r
  end.
(** The verification key of a tree of depth [d] grown from a seed. *)
Fixpoint vk (d : nat) (s : list Z) : list Z :=
  match d with
  | O => ed_pk s
  | S e => H (vk e (lseed s) ++ vk e (rseed s))
  end.
(** The first period covered by the subtree at a path, in a tree of depth [d]. *)
Fixpoint first_period (d : nat) (path : list bool) : Z :=
  match d, path with
  | S e, b :: r => (if b then 2 ^ Z.of_nat e else 0) + first_period e r
  | _, _ => 0
  end.
(** The path to the leaf of period [p]. *)
Fixpoint leaf_path (d : nat) (p : Z) : list bool :=
  match d with
  | O => []
  | S e => if p <? 2 ^ Z.of_nat e then false :: leaf_path e p else true :: leaf_path e (p - 2 ^ Z.of_nat e)
  end.

(** A 32-byte block that may be stored in period [p]: erased, a public key of the tree, or the
    seed of a subtree all of whose periods are [p] or later. *)
Definition storable (root : list Z) (d : nat) (p : Z) (b : list Z) : Prop :=
  b = repeat 0 32 \/
  (exists path, (length path <= d)%nat /\ b = vk (d - length path) (seed_at root path)) \/
  (exists path, (length path <= d)%nat /\ b = seed_at root path /\ p <= first_period d path).

(** No two sibling subtrees (other than leaves) share a verification key: true up to a Blake2b collision. *)
Definition siblings_distinct (root : list Z) (d : nat) : Prop :=
  forall path e, (length path + 1 + e)%nat = d -> (1 <= e)%nat ->
    vk e (seed_at root (path ++ [false])) <> vk e (seed_at root (path ++ [true])).
(** The same including leaves. *)
Definition all_siblings_distinct (root : list Z) (d : nat) : Prop :=
  forall path e, (length path + 1 + e)%nat = d ->
    vk e (seed_at root (path ++ [false])) <> vk e (seed_at root (path ++ [true])).
(** [y] breaks the hash on this key's own tree: 64 elements other than the two verification keys below some node, with the digest that is that node's key. *)
Definition second_preimage (root : list Z) (d : nat) (y : list Z) : Prop :=
  exists path e, (length path + 1 + e)%nat = d /\ length y = 64%nat /\
    y <> vk e (seed_at root (path ++ [false])) ++ vk e (seed_at root (path ++ [true])) /\ H y = vk (S e) (seed_at root path).
(** The signature itself shows such a break: its 64 elements stand in a signature, or (compact signatures) half of them do. *)
Definition part_of (a b : list Z) : Prop := exists x z, b = x ++ a ++ z.
Definition breaks (root : list Z) (d : nat) (sig : list Z) : Prop := exists y, part_of y sig /\ second_preimage root d y.
Definition breaks_compact (root : list Z) (d : nat) (sig : list Z) : Prop :=
  exists y, (part_of (firstn 32 y) sig \/ part_of (skipn 32 y) sig) /\ second_preimage root d y.
End Tree.
