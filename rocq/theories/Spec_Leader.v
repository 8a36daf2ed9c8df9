(** What a node checks about a block header beyond Spec_Block.v: who may lead a slot (the VRF checks of the Praos protocol) and that the header's body says what is checked,
    about the bytes received and independently of the library.  The threshold that a pool's stake sets, the input that the slot and the epoch's nonce make for
    the lottery, and the length of a KES period are the network's and enter as functions.  Left out: what the header says of the block that follows it and of the one before. *)
From Verif Require Import Base Spec_Cbor Spec_Block Spec_Stake.

Section Leader.
Variable hash256 : list Z -> list Z.
Variable hash224 : list Z -> list Z.
Variable verifies : list Z -> list Z -> list Z -> bool.       (* public key, message, signature *)
Variable vrf_verifies : list Z -> list Z -> list Z -> bool.   (* public key, input, proof *)
Variable vrf_value : list Z -> option (list Z).               (* what a proof stands for *)

Record network := {
  ne_input : Z -> list Z;                    (* the slot's input to the lottery *)
  ne_wins : list Z -> list Z -> Prop;        (* whether that value wins, for that pool *)
  ne_period : Z -> Z;                        (* the slot's KES period *)
  ne_counter : list Z -> option Z;           (* the certificate number of the pool's last block *)
  ne_evolutions : Z                          (* how many periods a hot key may be used for *)
}.
(** In the ledger [st] (the snapshot that the epoch's leaders are drawn from) the pool of [cold] registered the key [vrf], and this key's value for the slot is [value], and wins. *)
Definition leads (st : stake) (ne : network) (slot : Z) (cold vrf value proof : list Z) : Prop :=
  exists q, st_pool st (hash224 cold) = Some q /\ po_vrf q = hash256 vrf /\ length proof = 80%nat /\
    vrf_verifies vrf (ne_input ne slot) proof = true /\ vrf_value proof = Some value /\ ne_wins ne (hash224 cold) value.
(** The body of a Babbage header: number, slot, previous block, the pool's keys, the leader's value with its proof, the block's size and hash, the hot key's certificate, the version. *)
Definition body_says (hb : list Z) (slot : Z) (cold vrf value proof : list Z) (cert : cbor) : Prop :=
  exists number previous size hash version,
    cbor_read hb = Some (CArray [CUint number; CUint slot; previous; CBytes cold; CBytes vrf; CArray [CBytes value; CBytes proof]; CUint size; CBytes hash; cert; version], []).
(** The header with body [hb] and signature [sig] is accepted. *)
Definition header_ok (st : stake) (ne : network) (hb sig : list Z) : Prop :=
  exists slot cold vrf value proof item cert,
    body_says hb slot cold vrf value proof item /\ cbor_read cert = Some (item, []) /\ leads st ne slot cold vrf value proof /\
    block_ok hash256 hash224 verifies {| ch_pools := fun id => st_pool st id <> None; ch_counter := ne_counter ne; ch_evolutions := ne_evolutions ne |} (ne_period ne slot) cold cert hb sig.
End Leader.
