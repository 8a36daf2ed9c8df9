(** A purse: coins (unspent outputs) whose keys one holds; what a node says about them, and how a payment changes them.  Stated about a node's UTXO (Spec_Node), not about the library. *)
From Verif Require Import Base Spec_Ledger Model_Tx Spec_Tx Spec_Node.

Section Purse.
Context {key : Type}.
Variables (H224 : list Z -> list Z) (pub : key -> list Z).
(** An unspent output and the key that spends it. *)
Definition coin : Type := utxo * key.
Definition worth (cs : list coin) : Z := total (map (fun c => u_value (fst c)) cs).
Definition place (c : coin) : list Z * Z := (u_id (fst c), u_index (fst c)).
(** The node has the coin, with that value, locked by the hash of that key. *)
Definition real (n : node) (c : coin) : Prop :=
  n_utxo n (u_id (fst c)) (u_index (fst c)) = Some (u_value (fst c), H224 (pub (snd c))) /\ bytesN 32 (u_id (fst c)) /\ u64 (u_index (fst c)) /\ 0 <= u_value (fst c).
(** All the coins are real and at different places; their worth is below 2^62 (the supply is below 2^56). *)
Definition holds (n : node) (cs : list coin) : Prop := Forall (real n) cs /\ NoDup (map place cs) /\ worth cs < 2 ^ 62.
End Purse.
(** Parameters as on the main network: 44 per byte and 155381, 1 ada, 16384 bytes. *)
Definition usual (n : node) : Prop :=
  0 <= n_fee_a n /\ 2 ^ 16 <= n_fee_b n /\ 0 <= n_min_utxo n <= 1000000 /\ 0 <= n_max_size n < 2 ^ 32 /\ 1000000 + n_fee_a n * (n_max_size n + 60) + n_fee_b n < 2 ^ 32.
(** An output as the payer states it: an address and an amount. *)
Definition payable (n : node) (o : list Z * Z) : Prop := text_ok (fst o) /\ n_min_utxo n <= snd o < 2 ^ 63.
(** Bytes that certainly suffice for so many inputs and signatures, those outputs and one output of change. *)
Definition room (ins sigs : Z) (outs : list (list Z * Z)) (change : list Z) : Z :=
  60 + 44 * ins + 101 * sigs + total (map (fun o => zlen (fst o) + 19) outs) + (zlen change + 19).
