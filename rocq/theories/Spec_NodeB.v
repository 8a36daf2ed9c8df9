(** What a Babbage node checks about a transaction without scripts, certificates, mint or metadata: the UTXO and UTXOW rules of the Babbage ledger, about the bytes
    submitted and independently of the library.  Left out: scripts and collateral, multi-asset values, certificates, network ids, metadata. *)
From Verif Require Import Base Spec_Cbor Spec_Node.

Record bnode := {
  bn_slot : Z; bn_fee_a : Z; bn_fee_b : Z; bn_max_size : Z;
  bn_min : cbor -> Z;                              (* the least value an output must hold, given the output (coinsPerUTxOByte times its size and overhead) *)
  bn_utxo : list Z -> Z -> option (Z * list Z);    (* unspent output: its value and the hash of the key that spends it *)
  bn_rewards : list Z -> option Z                  (* reward account (its address): its balance *)
}.
Record bwire := { bw_ins : list (list Z * Z); bw_outs : list cbor; bw_fee : Z; bw_ttl : option Z; bw_wds : list (list Z * Z); bw_sigs : list (list Z * list Z) }.
(** An output is an array of address and value, or a map with the address at key 0 and the value at key 1. *)
Definition out_value (o : cbor) : option Z :=
  match o with CArray [CBytes _; CUint v] => Some v | CMap [(CUint 0, CBytes _); (CUint 1, CUint v)] => Some v | _ => None end.
(** [s] is a transaction: an array of the body, the witnesses, true and null; [sb] are the body's bytes within it. *)
Definition is_btx (s sb : list Z) (t : bwire) : Prop :=
  exists body wits rest,
    cbor_read s = Some (CArray [body; wits; CBool true; CNull], []) /\ s = 132 :: sb ++ rest /\ cbor_read sb = Some (body, []) /\
    only_keys body [0; 1; 2; 3; 5] /\
    at_key body 0 (CArray (map bytes_uint (bw_ins t))) /\ at_key body 1 (CArray (bw_outs t)) /\ at_key body 2 (CUint (bw_fee t)) /\
    match bw_ttl t with Some l => at_key body 3 (CUint l) | None => forall x, ~ at_key body 3 x end /\
    at_key_opt body 5 (bw_wds t) (CMap (map (fun p => (CBytes (fst p), CUint (snd p))) (bw_wds t))) /\
    only_keys wits [0] /\ at_key_opt wits 0 (bw_sigs t) (CArray (map two_bytes (bw_sigs t))).
Definition bvalue_of (n : bnode) (i : list Z * Z) : Z := match bn_utxo n (fst i) (snd i) with Some (v, _) => v | None => 0 end.
Definition coins (o : cbor) : Z := match out_value o with Some v => v | None => 0 end.
Definition bsigner (n : bnode) (t : bwire) (h : list Z) : Prop :=
  (exists id i v, In (id, i) (bw_ins t) /\ bn_utxo n id i = Some (v, h)) \/ (exists a, In a (map fst (bw_wds t)) /\ h = skipn 1 a).
Section Crypto.
Variable hash256 : list Z -> list Z.
Variable hash224 : list Z -> list Z.
Variable verifies : list Z -> list Z -> list Z -> bool.   (* public key, message, signature *)
Definition bvalid (n : bnode) (sb : list Z) (size : Z) (t : bwire) : Prop :=
  (forall l, bw_ttl t = Some l -> bn_slot n < l) /\
  bw_ins t <> [] /\ NoDup (bw_ins t) /\ (forall id i, In (id, i) (bw_ins t) -> bn_utxo n id i <> None) /\
  (forall a v, In (a, v) (bw_wds t) -> bn_rewards n a = Some v) /\ NoDup (map fst (bw_wds t)) /\
  bn_fee_a n * size + bn_fee_b n <= bw_fee t /\
  sum (map (bvalue_of n) (bw_ins t)) + sum (map snd (bw_wds t)) = sum (map coins (bw_outs t)) + bw_fee t /\
  (forall o, In o (bw_outs t) -> exists v, out_value o = Some v /\ bn_min n o <= v) /\
  size <= bn_max_size n /\
  (forall k g, In (k, g) (bw_sigs t) -> verifies k (hash256 sb) g = true) /\
  (forall h, bsigner n t h -> exists k g, In (k, g) (bw_sigs t) /\ hash224 k = h).
Definition baccepts (n : bnode) (s : list Z) : Prop := exists sb t, is_btx s sb t /\ bvalid n sb (zlen s) t.
End Crypto.
