(** Properties C12-C15: Shelley addresses and chain pointers. *)
From Verif Require Import Base Model_Bech32 Spec_Bech32 Model_Address Spec_Address Proof_Address.

(** C12: the text of an address is the CIP-5 / CIP-19 one and reads back as the same address. *)
Theorem C12_base_round_trip : forall n p k, hash28 p -> hash28 k ->
  exists text,
    BaseAddress_toBech32 (BaseAddress_mk (nid_of n) p k) = Ok text /\
    is_bech32 (cip5_addr n) (cip19_header TYPE_BASE n :: p ++ k) text /\
    BaseAddress_fromBech32 text = Ok (BaseAddress_mk (nid_of n) p k).
Proof. exact base_round_trip. Qed.
Print Assumptions C12_base_round_trip.

Theorem C12_enterprise_round_trip : forall n k, hash28 k ->
  exists text,
    EnterpriseAddress_toBech32 (EnterpriseAddress_mk (nid_of n) k) = Ok text /\
    is_bech32 (cip5_addr n) (cip19_header TYPE_ENTERPRISE n :: k) text /\
    EnterpriseAddress_fromBech32 text = Ok (EnterpriseAddress_mk (nid_of n) k).
Proof. exact ent_round_trip. Qed.
Print Assumptions C12_enterprise_round_trip.

Theorem C12_rewards_round_trip : forall n k, hash28 k ->
  exists text,
    RewardsAddress_toBech32 (RewardsAddress_mk (nid_of n) k) = Ok text /\
    is_bech32 (cip5_stake n) (cip19_header TYPE_REWARDS n :: k) text /\
    RewardsAddress_fromBech32 text = Ok (RewardsAddress_mk (nid_of n) k).
Proof. exact rew_round_trip. Qed.
Print Assumptions C12_rewards_round_trip.

(** C12: the byte form is the CIP-19 header byte followed by the hashes. *)
Theorem C12_base_bytes : forall n p k,
  BaseAddress_toBytes (BaseAddress_mk (nid_of n) p k) = cip19_header TYPE_BASE n :: p ++ k /\
  BaseAddress_toBytesRaw (BaseAddress_mk (nid_of n) p k) = p ++ k.
Proof. exact base_bytes. Qed.
Print Assumptions C12_base_bytes.

Theorem C12_enterprise_bytes : forall n k,
  EnterpriseAddress_toBytes (EnterpriseAddress_mk (nid_of n) k) = cip19_header TYPE_ENTERPRISE n :: k /\
  EnterpriseAddress_toBytesRaw (EnterpriseAddress_mk (nid_of n) k) = k.
Proof. exact ent_bytes. Qed.
Print Assumptions C12_enterprise_bytes.

Theorem C12_rewards_bytes : forall n k,
  RewardsAddress_toBytes (RewardsAddress_mk (nid_of n) k) = cip19_header TYPE_REWARDS n :: k /\
  RewardsAddress_toBytesRaw (RewardsAddress_mk (nid_of n) k) = k.
Proof. exact rew_bytes. Qed.
Print Assumptions C12_rewards_bytes.

(** C12: addresses made from keys carry the Blake2b-224 hashes of the keys, in order. *)
Theorem C12_base_from_keys : forall H n pmt stk,
  BaseAddress_toBytes (BaseAddress_fromKeys H (nid_of n) pmt stk) = cip19_header TYPE_BASE n :: H pmt ++ H stk.
Proof. exact (fun H n pmt stk => proj1 (base_bytes n (H pmt) (H stk))). Qed.
Print Assumptions C12_base_from_keys.

Theorem C12_single_from_keys : forall H n k,
  EnterpriseAddress_toBytes (EnterpriseAddress_fromKey H (nid_of n) k) = cip19_header TYPE_ENTERPRISE n :: H k /\
  RewardsAddress_toBytes (RewardsAddress_fromKey H (nid_of n) k) = cip19_header TYPE_REWARDS n :: H k.
Proof. exact (fun H n k => conj (proj1 (ent_bytes n (H k))) (proj1 (rew_bytes n (H k)))). Qed.
Print Assumptions C12_single_from_keys.

Example C12_nontrivial : hash28 (repeat 7 28) /\
  EnterpriseAddress_toBech32 (EnterpriseAddress_mk NID_mainnet (repeat 7 28)) =
  Ok (str "addr1vyrswpc8qurswpc8qurswpc8qurswpc8qurswpc8qurswpcfxqeyc").
Proof. split; [split; [apply bytes_okb_spec|]; reflexivity|vm_compute; reflexivity]. Qed.

(** C13: each decoder accepts exactly the Bech32 texts whose payload has that kind's length
    and type nibble, and returns the payload's fields. *)
Theorem C13_base_accepts : forall s a, BaseAddress_fromBech32 s = Ok a <->
  exists hrp h p k, bech32_decode s = Ok (hrp, h :: p ++ k) /\ length p = 28%nat /\ length k = 28%nat /\
    h / 16 = TYPE_BASE /\ a = {| ba_header := h; ba_pmt := p; ba_stk := k |}.
Proof. exact base_accepts. Qed.
Print Assumptions C13_base_accepts.

Theorem C13_enterprise_accepts : forall s a, EnterpriseAddress_fromBech32 s = Ok a <->
  exists hrp h k, bech32_decode s = Ok (hrp, h :: k) /\ length k = 28%nat /\ h / 16 = TYPE_ENTERPRISE /\
    a = {| ea_header := h; ea_hash := k |}.
Proof. exact ent_accepts. Qed.
Print Assumptions C13_enterprise_accepts.

Theorem C13_rewards_accepts : forall s a, RewardsAddress_fromBech32 s = Ok a <->
  exists hrp h k, bech32_decode s = Ok (hrp, h :: k) /\ length k = 28%nat /\ h / 16 = TYPE_REWARDS /\
    a = {| ra_header := h; ra_hash := k |}.
Proof. exact rew_accepts. Qed.
Print Assumptions C13_rewards_accepts.

(** C13: no text is accepted by two of the decoders. *)
Theorem C13_kinds_exclusive : forall s,
  ~ (is_ok (BaseAddress_fromBech32 s) = true /\ is_ok (EnterpriseAddress_fromBech32 s) = true) /\
  ~ (is_ok (BaseAddress_fromBech32 s) = true /\ is_ok (RewardsAddress_fromBech32 s) = true) /\
  ~ (is_ok (EnterpriseAddress_fromBech32 s) = true /\ is_ok (RewardsAddress_fromBech32 s) = true).
Proof. exact kinds_exclusive. Qed.
Print Assumptions C13_kinds_exclusive.

Example C13_nontrivial :
  is_ok (EnterpriseAddress_fromBech32 (str "addr1vyrswpc8qurswpc8qurswpc8qurswpc8qurswpc8qurswpcfxqeyc")) = true /\
  RewardsAddress_fromBech32 (str "addr1vyrswpc8qurswpc8qurswpc8qurswpc8qurswpc8qurswpcfxqeyc") = Throw.
Proof. vm_compute. split; reflexivity. Qed.

(** C14 fails: the prefix and the network nibble are not looked at.  A pool-id text is read as
    a rewards address when its payload fits, *)
Theorem C14_prefix_refuted : exists s a pay,
  bech32_decode s = Ok (str "pool", pay) /\ RewardsAddress_fromBech32 s = Ok a.
Proof.
  exists (str "pool1uyrswpc8qurswpc8qurswpc8qurswpc8qurswpc8qurswpce8hrty"),
    (RewardsAddress_mk NID_mainnet (repeat 7 28)), (225 :: repeat 7 28).
  vm_compute. split; reflexivity.
Qed.
Print Assumptions C14_prefix_refuted.

(** a test-network text can hold a main-network address and vice versa, *)
Theorem C14_network_refuted : exists s a pay,
  bech32_decode s = Ok (cip5_addr Testnet, pay) /\ BaseAddress_fromBech32 s = Ok a /\
  ba_header a = cip19_header TYPE_BASE Mainnet /\ BaseAddress_toBech32 a <> Ok s.
Proof.
  exists (str "addr_test1qyrswpc8qurswpc8qurswpc8qurswpc8qurswpc8qurswpc8qurswpc8qurswpc8qurswpc8qurswpc8qurswpc8qurss5e9nd"),
    (BaseAddress_mk NID_mainnet (repeat 7 28) (repeat 7 28)), (1 :: repeat 7 56).
  vm_compute. repeat split; try reflexivity. discriminate.
Qed.
Print Assumptions C14_network_refuted.

(** and a network tag that no network has is accepted. *)
Theorem C14_unknown_network_refuted : exists s a,
  EnterpriseAddress_fromBech32 s = Ok a /\ forall n, ea_header a <> cip19_header TYPE_ENTERPRISE n.
Proof.
  exists (str "addr1v5rswpc8qurswpc8qurswpc8qurswpc8qurswpc8qurswpcfuj0yy"),
    {| ea_header := 101; ea_hash := repeat 7 28 |}.
  split; [vm_compute; reflexivity|]. intros []; discriminate.
Qed.
Print Assumptions C14_unknown_network_refuted.

(** C14: in general the prefix has no influence on what is read: the same payload under any two
    prefixes gives the same answer. *)
Theorem C14_prefix_ignored : forall hrp hrp' payload t t',
  bytes_ok hrp -> bytes_ok hrp' -> bytes_ok payload -> no_upper hrp -> no_upper hrp' -> hrp <> [] -> hrp' <> [] ->
  bech32_encode hrp payload = Ok t -> bech32_encode hrp' payload = Ok t' ->
  BaseAddress_fromBech32 t = BaseAddress_fromBech32 t' /\ EnterpriseAddress_fromBech32 t = EnterpriseAddress_fromBech32 t' /\
  RewardsAddress_fromBech32 t = RewardsAddress_fromBech32 t'.
Proof. exact prefix_ignored. Qed.
Print Assumptions C14_prefix_ignored.

(** C14: comparing the text with the address written again finds exactly the texts whose prefix is
    not the one of the kind and the header's network. *)
Theorem C14_rewriting_detects : forall s hrp payload, bytes_ok s -> bech32_decode s = Ok (hrp, payload) ->
  (forall a, BaseAddress_fromBech32 s = Ok a ->
    (BaseAddress_toBech32 a = Ok (map ascii_lower s) <-> hrp = cip5_addr (tag_net (ba_header a)))) /\
  (forall a, EnterpriseAddress_fromBech32 s = Ok a ->
    (EnterpriseAddress_toBech32 a = Ok (map ascii_lower s) <-> hrp = cip5_addr (tag_net (ea_header a)))) /\
  (forall a, RewardsAddress_fromBech32 s = Ok a ->
    (RewardsAddress_toBech32 a = Ok (map ascii_lower s) <-> hrp = cip5_stake (tag_net (ra_header a)))).
Proof.
  intros s hrp payload B D. split; [|split]; intros a E.
  - exact (base_reproduced_iff s a hrp payload B E D).
  - exact (ent_reproduced_iff s a hrp payload B E D).
  - exact (rew_reproduced_iff s a hrp payload B E D).
Qed.
Print Assumptions C14_rewriting_detects.

(** C14: in particular a text whose prefix and header agree is reproduced (in lower case). *)
Theorem C14_base_reproduced : forall s a n, bytes_ok s -> BaseAddress_fromBech32 s = Ok a ->
  ba_header a = cip19_header TYPE_BASE n -> (exists pay, bech32_decode s = Ok (cip5_addr n, pay)) ->
  BaseAddress_toBech32 a = Ok (map ascii_lower s).
Proof. exact base_reproduced. Qed.
Print Assumptions C14_base_reproduced.

Theorem C14_enterprise_reproduced : forall s a n, bytes_ok s -> EnterpriseAddress_fromBech32 s = Ok a ->
  ea_header a = cip19_header TYPE_ENTERPRISE n -> (exists pay, bech32_decode s = Ok (cip5_addr n, pay)) ->
  EnterpriseAddress_toBech32 a = Ok (map ascii_lower s).
Proof. exact ent_reproduced. Qed.
Print Assumptions C14_enterprise_reproduced.

Theorem C14_rewards_reproduced : forall s a n, bytes_ok s -> RewardsAddress_fromBech32 s = Ok a ->
  ra_header a = cip19_header TYPE_REWARDS n -> (exists pay, bech32_decode s = Ok (cip5_stake n, pay)) ->
  RewardsAddress_toBech32 a = Ok (map ascii_lower s).
Proof. exact rew_reproduced. Qed.
Print Assumptions C14_rewards_reproduced.

Example C14_nontrivial :
  exists a, RewardsAddress_fromBech32 (str "pool1uyrswpc8qurswpc8qurswpc8qurswpc8qurswpc8qurswpce8hrty") = Ok a /\
    RewardsAddress_toBech32 a <> Ok (str "pool1uyrswpc8qurswpc8qurswpc8qurswpc8qurswpc8qurswpce8hrty").
Proof. eexists. split; [vm_compute; reflexivity|vm_compute; discriminate]. Qed.

(** C15: the bytes are the minimal variable-length forms of slot, transaction index and
    certificate index, in this order. *)
Theorem C15_pointer_bytes : forall p, cp_ok p -> exists s t c, cp_toBytes p = Ok (s ++ t ++ c) /\
  is_varlen (cp_slot p) s /\ is_varlen (cp_tx p) t /\ is_varlen (cp_cert p) c.
Proof. exact cp_spec. Qed.
Print Assumptions C15_pointer_bytes.

(** C15: injective, and no encoding is a proper prefix of another. *)
Theorem C15_pointer_prefix_free : forall p q r r' bs bs', cp_ok p -> cp_ok q ->
  cp_toBytes p = Ok bs -> cp_toBytes q = Ok bs' -> bs ++ r = bs' ++ r' -> p = q /\ r = r'.
Proof. exact cp_injective. Qed.
Print Assumptions C15_pointer_prefix_free.

Example C15_nontrivial : cp_ok {| cp_slot := 2498243; cp_tx := 27; cp_cert := 2 ^ 64 - 1 |} /\
  cp_toBytes {| cp_slot := 2498243; cp_tx := 27; cp_cert := 2 ^ 64 - 1 |} =
  Ok [129; 152; 189; 67; 27; 129; 255; 255; 255; 255; 255; 255; 255; 255; 127].
Proof. split; [unfold cp_ok; cbn; lia|vm_compute; reflexivity]. Qed.
