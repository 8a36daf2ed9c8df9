(** What a Shelley node checks about a transaction: the UTXO and UTXOW rules of the Shelley ledger specification (IOHK, "A Formal
    Specification of the Cardano Ledger", sections 8 and 9), stated about the bytes submitted and independently of the library.
    Left out: the rules about certificates' effects (DELEGS, POOL), scripts, update proposals, metadata and network ids. *)
From Verif Require Import Base Spec_Cbor.

Record node := {
  n_slot : Z;                                     (* the current slot *)
  n_fee_a : Z; n_fee_b : Z;                       (* minimum fee: a per byte, and b *)
  n_min_utxo : Z; n_max_size : Z;
  n_key_deposit : Z; n_pool_deposit : Z;
  n_utxo : list Z -> Z -> option (Z * list Z);    (* unspent output: its value and the hash of the key that spends it *)
  n_rewards : list Z -> option Z;                 (* reward account (its address): its balance *)
  n_pool : list Z -> bool                         (* pools already registered *)
}.

(** ** Transactions on the wire *)
Record wire_tx := {
  w_ins : list (list Z * Z); w_outs : list (list Z * Z); w_fee : Z; w_ttl : Z; w_certs : list cbor; w_wds : list (list Z * Z);
  w_sigs : list (list Z * list Z)                 (* public keys and signatures *)
}.
Definition bytes_uint (p : list Z * Z) : cbor := CArray [CBytes (fst p); CUint (snd p)].
Definition two_bytes (p : list Z * list Z) : cbor := CArray [CBytes (fst p); CBytes (snd p)].
(** The entries of a CBOR map with integer keys, each key once. *)
Definition at_key (c : cbor) (k : Z) (v : cbor) : Prop := match c with CMap m => In (CUint k, v) m /\ NoDup (map fst m) | _ => False end.
Definition only_keys (c : cbor) (ks : list Z) : Prop := match c with CMap m => forall k, In k (map fst m) -> exists z, In z ks /\ k = CUint z | _ => False end.
(** An entry that is absent when it would be empty. *)
Definition at_key_opt {A} (c : cbor) (k : Z) (l : list A) (v : cbor) : Prop := (l = [] /\ forall x, ~ at_key c k x) \/ (l <> [] /\ at_key c k v).
(** [s] is a transaction: an array of the body, the witnesses and null; [sb] are the body's bytes within it. *)
Definition is_tx (s sb : list Z) (t : wire_tx) : Prop :=
  exists body wits rest,
    cbor_read s = Some (CArray [body; wits; CNull], []) /\ s = 131 :: sb ++ rest /\ cbor_read sb = Some (body, []) /\
    only_keys body [0; 1; 2; 3; 4; 5] /\
    at_key body 0 (CArray (map bytes_uint (w_ins t))) /\ at_key body 1 (CArray (map bytes_uint (w_outs t))) /\
    at_key body 2 (CUint (w_fee t)) /\ at_key body 3 (CUint (w_ttl t)) /\
    at_key_opt body 4 (w_certs t) (CArray (w_certs t)) /\
    at_key_opt body 5 (w_wds t) (CMap (map (fun p => (CBytes (fst p), CUint (snd p))) (w_wds t))) /\
    only_keys wits [0] /\ at_key_opt wits 0 (w_sigs t) (CArray (map two_bytes (w_sigs t))).

(** ** The rules *)
Fixpoint sum (l : list Z) : Z := match l with [] => 0 | x :: r => x + sum r end.
Definition deposit (n : node) (c : cbor) : Z :=
  match c with
  | CArray (CUint 0 :: _) => n_key_deposit n
  | CArray (CUint 3 :: CBytes pool :: _) => if n_pool n pool then 0 else n_pool_deposit n
  | _ => 0
  end.
Definition refund (n : node) (c : cbor) : Z := match c with CArray (CUint 1 :: _) => n_key_deposit n | _ => 0 end.
(** Key hashes that must sign: those of the inputs, of the accounts withdrawn from, and of the certificates. *)
Definition of_bytes (c : cbor) : list (list Z) := match c with CBytes b => [b] | _ => [] end.
Definition cert_signers (c : cbor) : list (list Z) :=
  match c with
  | CArray [CUint 1; CArray [CUint 0; CBytes h]] => [h]
  | CArray [CUint 2; CArray [CUint 0; CBytes h]; _] => [h]
  | CArray [CUint 3; CBytes pool; _; _; _; _; _; CArray owners; _; _] => pool :: concat (map of_bytes owners)
  | CArray [CUint 4; CBytes pool; _] => [pool]
  | _ => []
  end.
Definition signer (n : node) (t : wire_tx) (h : list Z) : Prop :=
  (exists id i v, In (id, i) (w_ins t) /\ n_utxo n id i = Some (v, h)) \/
  (exists a, In a (map fst (w_wds t)) /\ h = skipn 1 a) \/
  (exists c, In c (w_certs t) /\ In h (cert_signers c)).
Definition value_of (n : node) (i : list Z * Z) : Z := match n_utxo n (fst i) (snd i) with Some (v, _) => v | None => 0 end.
Definition preserves_value (n : node) (t : wire_tx) : Prop :=
  sum (map (value_of n) (w_ins t)) + sum (map snd (w_wds t)) + sum (map (refund n) (w_certs t)) =
  sum (map snd (w_outs t)) + w_fee t + sum (map (deposit n) (w_certs t)).
Section Crypto.
Variable hash256 : list Z -> list Z.
Variable hash224 : list Z -> list Z.
Variable verifies : list Z -> list Z -> list Z -> bool.   (* public key, message, signature *)
Definition valid (n : node) (sb : list Z) (size : Z) (t : wire_tx) : Prop :=
  n_slot n <= w_ttl t /\
  w_ins t <> [] /\ NoDup (w_ins t) /\ (forall id i, In (id, i) (w_ins t) -> n_utxo n id i <> None) /\
  (forall a v, In (a, v) (w_wds t) -> n_rewards n a = Some v) /\ NoDup (map fst (w_wds t)) /\
  n_fee_a n * size + n_fee_b n <= w_fee t /\
  preserves_value n t /\
  (forall a v, In (a, v) (w_outs t) -> n_min_utxo n <= v) /\
  size <= n_max_size n /\
  (forall k g, In (k, g) (w_sigs t) -> verifies k (hash256 sb) g = true) /\
  (forall h, signer n t h -> exists k g, In (k, g) (w_sigs t) /\ hash224 k = h).
Definition accepts (n : node) (s : list Z) : Prop := exists sb t, is_tx s sb t /\ valid n sb (zlen s) t.
End Crypto.
