(** CIP-19 / CIP-5, written independently of the code. *)
From Verif Require Import Base.

Inductive net := Mainnet | Testnet.
Definition net_tag (n : net) : Z := match n with Mainnet => 1 | Testnet => 0 end.

(** CIP-19 header byte: the type in the high nibble, the network tag in the low one. *)
Definition cip19_header (type : Z) (n : net) : Z := 16 * type + net_tag n.
Definition TYPE_BASE : Z := 0.         (* payment key hash, stake key hash *)
Definition TYPE_ENTERPRISE : Z := 6.   (* payment key hash *)
Definition TYPE_REWARDS : Z := 14.     (* stake key hash *)

(** CIP-5 prefixes *)
Definition cip5_addr (n : net) : list Z := match n with Mainnet => str "addr" | Testnet => str "addr_test" end.
Definition cip5_stake (n : net) : list Z := match n with Mainnet => str "stake" | Testnet => str "stake_test" end.

(** The network whose prefix a header byte calls for: tag 1 is the main network. *)
Definition tag_net (h : Z) : net := if h mod 16 =? 1 then Mainnet else Testnet.

(** A 28-byte credential hash. *)
Definition hash28 (h : list Z) : Prop := bytes_ok h /\ length h = 28%nat.

(** Ledger pointers: a natural number as big-endian 7-bit digits, all but the last with the
    continuation bit set, without a leading zero digit. *)
Definition is_varlen (v : Z) (bs : list Z) : Prop :=
  exists ds d, digits_ok 128 (ds ++ [d]) /\ bev 128 (ds ++ [d]) = v /\
    bs = map (fun x => 128 + x) ds ++ [d] /\ (ds <> [] -> hd 0 ds <> 0).
