(** Model of the Shelley part of /repo/src/address.cpp (lines 40-304) and
    /repo/include/cardano/address.hpp:41-263.
    A [std::array<uint8_t, 28>] is a byte list (its length is a premise where it matters).
    [BECH32::encode]/[decode] are those of Model_Bech32.
    Not modelled: move/copy members; exception messages. *)
From Verif Require Import Base Model_Bech32.

(** include/cardano/address.hpp:44-48 [enum class NetworkID] *)
Inductive network_id := NID_mainnet | NID_testnet.

(** include/cardano/address.hpp:41 *)
Definition KEY_HASH_LENGTH : nat := 28.
(** address.cpp:45 *)
Definition NETWORK_TAG_BIT_MASK : Z := 15.
(** address.cpp:46 *)
Definition ADDRESS_TYPE_BIT_SHIFT : Z := 4.
(** address.cpp:49 *)
Definition NETWORK_TAG_MAINNET : Z := 1.
(** address.cpp:50 *)
Definition NETWORK_TAG_TESTNET : Z := 0.
(** address.cpp:53 *)
Definition SHELLY_ADDR_PAYMENTKEYHASH_STAKEKEYHASH : Z := 0.
(** address.cpp:59 *)
Definition SHELLY_ADDR_PAYMENTKEYHASH : Z := 6.
(** address.cpp:61 *)
Definition STAKE_ADDR_STAKEKEYHASH : Z := 14.

(** address.cpp:66-70 *)
Definition BuildHeaderByte (addr_type network_tag : Z) : Z :=
  Z.lor (Z.shiftl addr_type ADDRESS_TYPE_BIT_SHIFT mod 256) network_tag.
(** address.cpp:72-75 *)
Definition GetAddressType (h : Z) : Z := Z.shiftr h ADDRESS_TYPE_BIT_SHIFT.
(** address.cpp:77-80 *)
Definition GetNetworkTag (h : Z) : Z := Z.land h NETWORK_TAG_BIT_MASK.

(** address.cpp:123, 188, 251, the conditional [nid == mainnet ? ...] *)
Definition tag_of (n : network_id) : Z :=
  match n with NID_mainnet => NETWORK_TAG_MAINNET | NID_testnet => NETWORK_TAG_TESTNET end.

(** address.cpp:94-111: the inner [while (v > 0)] loop, inserting at the front of [out].
    [fuel] bounds the iterations (a [uint64_t] needs at most 9); running out is [UB], shown
    impossible by the theorems. *)
Fixpoint cp_loop (fuel : nat) (v : Z) (out : list Z) : outcome (list Z) :=
  match fuel with
  | O => UB
  | S f =>
      if 0 <? v then cp_loop f (Z.shiftr v 7) (Z.lor 128 (Z.land v 127) :: out)
      else Ok out
  end.
(** address.cpp:101-108: one round of the [for] loop over the three components. *)
Definition cp_field (v : Z) (out : list Z) : outcome (list Z) :=
  cp_loop 10 (Z.shiftr v 7) (Z.land v 127 :: out).
(** include/cardano/address.hpp:51-77 *)
Record chain_pointer := { cp_slot : Z; cp_tx : Z; cp_cert : Z }.
(** address.cpp:94-111 *)
Definition cp_toBytes (p : chain_pointer) : outcome (list Z) :=
  let* a := cp_field (cp_cert p) [] in
  let* b := cp_field (cp_tx p) a in
  cp_field (cp_slot p) b.

(** ** BaseAddress, address.hpp:96-153 *)
(** include/cardano/address.hpp:96-153 *)
Record base_address := { ba_header : Z; ba_pmt : list Z; ba_stk : list Z }.
(** address.cpp:113-125 *)
Definition BaseAddress_mk (nid : network_id) (pmt stk : list Z) : base_address :=
  {| ba_header := BuildHeaderByte SHELLY_ADDR_PAYMENTKEYHASH_STAKEKEYHASH (tag_of nid);
     ba_pmt := pmt; ba_stk := stk |}.
(** address.cpp:136-158.  The reads [data[i]] are below the checked size. *)
Definition BaseAddress_fromBech32 (s : list Z) : outcome base_address :=
  let* (hrp, data) := bech32_decode s in
  if negb (length data =? KEY_HASH_LENGTH * 2 + 1)%nat then Throw
  else
    let* h := get_ub data 0 in
    if negb (GetAddressType h =? SHELLY_ADDR_PAYMENTKEYHASH_STAKEKEYHASH) then Throw
    else
      let* pmt := mapM (fun i => get_ub data (i + 1)) (seq 0 KEY_HASH_LENGTH) in
      let* stk := mapM (fun i => get_ub data (i + 1 + KEY_HASH_LENGTH)) (seq 0 KEY_HASH_LENGTH) in
      Ok {| ba_header := h; ba_pmt := pmt; ba_stk := stk |}.
(** address.cpp:167-171 *)
Definition BaseAddress_toBytesRaw (a : base_address) : list Z := ba_pmt a ++ ba_stk a.
(** address.cpp:160-165 *)
Definition BaseAddress_toBytes (a : base_address) : list Z := ba_header a :: ba_pmt a ++ ba_stk a.
(** address.cpp:173-178 *)
Definition BaseAddress_toBech32 (a : base_address) : outcome (list Z) :=
  if GetNetworkTag (ba_header a) =? NETWORK_TAG_MAINNET
  then bech32_encode (str "addr") (BaseAddress_toBytes a)
  else bech32_encode (str "addr_test") (BaseAddress_toBytes a).

(** ** EnterpriseAddress, address.hpp:156-207 *)
(** include/cardano/address.hpp:156-207 *)
Record enterprise_address := { ea_header : Z; ea_hash : list Z }.
(** address.cpp:180-190 *)
Definition EnterpriseAddress_mk (nid : network_id) (h : list Z) : enterprise_address :=
  {| ea_header := BuildHeaderByte SHELLY_ADDR_PAYMENTKEYHASH (tag_of nid); ea_hash := h |}.
(** address.cpp:200-219 *)
Definition EnterpriseAddress_fromBech32 (s : list Z) : outcome enterprise_address :=
  let* (hrp, data) := bech32_decode s in
  if negb (length data =? KEY_HASH_LENGTH + 1)%nat then Throw
  else
    let* h := get_ub data 0 in
    if negb (GetAddressType h =? SHELLY_ADDR_PAYMENTKEYHASH) then Throw
    else
      let* k := mapM (fun i => get_ub data (i + 1)) (seq 0 KEY_HASH_LENGTH) in
      Ok {| ea_header := h; ea_hash := k |}.
(** address.cpp:221-227 *)
Definition EnterpriseAddress_toBytes (a : enterprise_address) : list Z := ea_header a :: ea_hash a.
(** address.cpp:229-234 *)
Definition EnterpriseAddress_toBytesRaw (a : enterprise_address) : list Z := ea_hash a.
(** address.cpp:236-241 *)
Definition EnterpriseAddress_toBech32 (a : enterprise_address) : outcome (list Z) :=
  if GetNetworkTag (ea_header a) =? NETWORK_TAG_MAINNET
  then bech32_encode (str "addr") (EnterpriseAddress_toBytes a)
  else bech32_encode (str "addr_test") (EnterpriseAddress_toBytes a).

(** ** RewardsAddress, address.hpp:210-263 *)
(** include/cardano/address.hpp:210-263 *)
Record rewards_address := { ra_header : Z; ra_hash : list Z }.
(** address.cpp:243-253 *)
Definition RewardsAddress_mk (nid : network_id) (h : list Z) : rewards_address :=
  {| ra_header := BuildHeaderByte STAKE_ADDR_STAKEKEYHASH (tag_of nid); ra_hash := h |}.
(** address.cpp:263-282 *)
Definition RewardsAddress_fromBech32 (s : list Z) : outcome rewards_address :=
  let* (hrp, data) := bech32_decode s in
  if negb (length data =? KEY_HASH_LENGTH + 1)%nat then Throw
  else
    let* h := get_ub data 0 in
    if negb (GetAddressType h =? STAKE_ADDR_STAKEKEYHASH) then Throw
    else
      let* k := mapM (fun i => get_ub data (i + 1)) (seq 0 KEY_HASH_LENGTH) in
      Ok {| ra_header := h; ra_hash := k |}.
(** address.cpp:284-290 *)
Definition RewardsAddress_toBytes (a : rewards_address) : list Z := ra_header a :: ra_hash a.
(** address.cpp:292-297 *)
Definition RewardsAddress_toBytesRaw (a : rewards_address) : list Z := ra_hash a.
(** address.cpp:299-304 *)
Definition RewardsAddress_toBech32 (a : rewards_address) : outcome (list Z) :=
  if GetNetworkTag (ra_header a) =? NETWORK_TAG_MAINNET
  then bech32_encode (str "stake") (RewardsAddress_toBytes a)
  else bech32_encode (str "stake_test") (RewardsAddress_toBytes a).

(** ** Addresses from keys: address.cpp:82-91 [HashPublicKey] and 127-134, 192-198, 255-261.
    [blake2b_224] is Botan's hash (external); [bip32_ed25519::PublicKey::bytes] is the raw key. *)
Section FromKeys.
(** address.cpp:82-90, HashPublicKey: Botan's Blake2b(224) of key.bytes(), abstract *)
Variable blake2b_224 : list Z -> list Z.
(** address.cpp:127-134 *)
Definition BaseAddress_fromKeys (nid : network_id) (pmt stk : list Z) : base_address :=
  BaseAddress_mk nid (blake2b_224 pmt) (blake2b_224 stk).
(** address.cpp:192-198 *)
Definition EnterpriseAddress_fromKey (nid : network_id) (k : list Z) : enterprise_address :=
  EnterpriseAddress_mk nid (blake2b_224 k).
(** address.cpp:255-261 *)
Definition RewardsAddress_fromKey (nid : network_id) (k : list Z) : rewards_address :=
  RewardsAddress_mk nid (blake2b_224 k).
End FromKeys.
