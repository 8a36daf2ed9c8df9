(** What a node checks about the certificate and the signature of a block header (the OCERT rule of the Shelley and Praos ledgers, with the sum
    composition of Malkin, Micciancio and Miner), about the bytes received and independently of the library.  Left out: the VRF proofs and the rest of
    the header's body, which only enters as the bytes that are signed. *)
From Verif Require Import Base Spec_Cbor.

Section Block.
Variable hash256 : list Z -> list Z.
Variable hash224 : list Z -> list Z.
Variable verifies : list Z -> list Z -> list Z -> bool.   (* public key, message, signature *)

(** [sig] is a signature of [m] for period [t] under the key [vk] of a tree of depth [d]. *)
Fixpoint kes_valid (d : nat) (vk : list Z) (t : Z) (m sig : list Z) : Prop :=
  match d with
  | O => t = 0 /\ length sig = 64%nat /\ verifies vk m sig = true
  | S e => exists sub l r, sig = sub ++ l ++ r /\ length l = 32%nat /\ length r = 32%nat /\ hash256 (l ++ r) = vk /\
      (t < 2 ^ Z.of_nat e -> kes_valid e l t m sub) /\ (2 ^ Z.of_nat e <= t -> kes_valid e r (t - 2 ^ Z.of_nat e) m sub)
  end.
(** The same for compact signatures: every level carries the key of the sibling only. *)
Fixpoint ckes_valid (d : nat) (vk : list Z) (t : Z) (m sig : list Z) : Prop :=
  match d with
  | O => t = 0 /\ exists s, sig = s ++ vk /\ length s = 64%nat /\ length vk = 32%nat /\ verifies vk m s = true
  | S e => exists sub l r, length l = 32%nat /\ length r = 32%nat /\ hash256 (l ++ r) = vk /\
      (t < 2 ^ Z.of_nat e -> sig = sub ++ r /\ ckes_valid e l t m sub) /\
      (2 ^ Z.of_nat e <= t -> sig = sub ++ l /\ ckes_valid e r (t - 2 ^ Z.of_nat e) m sub)
  end.

Record chain := {
  ch_pools : list Z -> Prop;              (* ids of the registered pools *)
  ch_counter : list Z -> option Z;        (* the certificate number of the pool's last block *)
  ch_evolutions : Z                       (* how many periods a hot key may be used for *)
}.
(** [s] is the number [n] in eight bytes, most significant first. *)
Definition be8 (n : Z) (s : list Z) : Prop := length s = 8%nat /\ bytes_ok s /\ bev 256 s = n.
(** A header of KES period [p] with the bytes [hb] of its body, the issuer's key [cold], the certificate [cert] and the signature [sig] is accepted. *)
Definition block_ok (c : chain) (p : Z) (cold cert hb sig : list Z) : Prop :=
  exists hot n c0 sigma bn bc,
    cbor_read cert = Some (CArray [CBytes hot; CUint n; CUint c0; CBytes sigma], []) /\ length hot = 32%nat /\ length sigma = 64%nat /\
    ch_pools c (hash224 cold) /\
    c0 <= p < c0 + ch_evolutions c /\
    (let m := match ch_counter c (hash224 cold) with Some m => m | None => 0 end in m <= n <= m + 1) /\
    be8 n bn /\ be8 c0 bc /\ verifies cold (hot ++ bn ++ bc) sigma = true /\
    kes_valid 6 hot (p - c0) hb sig.
End Block.
