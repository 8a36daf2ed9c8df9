(** Model of the stake pool operator classes (/repo/src/stake_pool.cpp, /repo/include/cardano/stake_pool.hpp) and of the VRF key classes
    (/repo/src/vrf.cpp, /repo/include/cardano/vrf.hpp).
    Ed25519, Blake2b and libsodium's VRF are parameters: a theorem quantifies over them and says what it assumes of them. *)
From Verif Require Import Base Model_Hex Spec_Cbor Model_Cbor Model_Ledger Model_Tx Model_Util Model_Address.

(** ** Operational certificates *)
(** shelley::OperationalCert (ledger.hpp:1074-1080); 32-byte key, 64-bit integers, 64-byte signature *)
Record opcert := { oc_hot : list Z; oc_seq : Z; oc_period : Z; oc_sigma : list Z }.
(** include/cardano/stake_pool.hpp:396-416: the mutating calls of OperationalCertificateIssueCounter *)
Inductive counter_op := Increment | Decrement | SetCount (n : Z).
(** include/cardano/stake_pool.hpp:371-422; count_ is a 64-bit size_t *)
Definition counter_step (c : Z) (o : counter_op) : Z :=
  match o with Increment => to_u64 (c + 1) | Decrement => to_u64 (c - 1) | SetCount n => to_u64 n end.
(** stake_pool.cpp:134-143 *)
Definition counter_serialize (count : Z) (vkey : list Z) : list Z := cbor_encode (CArray [CUint count; CBytes vkey]).
(** opCertMessageToSign, stake_pool.cpp:157-168; BytePacker packs big endian by default (util.hpp:110-113) *)
Definition opcert_message (c : opcert) : list Z := (oc_hot c ++ pack_be 8 (oc_seq c)) ++ pack_be 8 (oc_period c).
(** generateUnsigned, stake_pool.cpp:170-181; the signature array is zero-initialised *)
Definition opcert_unsigned (hot : list Z) (count period : Z) : opcert :=
  {| oc_hot := hot; oc_seq := count; oc_period := period; oc_sigma := repeat 0 64 |}.
Section OpCert.
(** ColdSigningKey/ExtendedColdSigningKey::sign and ColdVerificationKey::verifySignature *)
Variables (SK : Type) (sign : SK -> list Z -> list Z) (verify : list Z -> list Z -> list Z -> bool).
(** sign, stake_pool.cpp:211-220 *)
Definition opcert_sign (c : opcert) (sk : SK) : opcert :=
  {| oc_hot := oc_hot c; oc_seq := oc_seq c; oc_period := oc_period c; oc_sigma := sign sk (opcert_message c) |}.
(** generate, stake_pool.cpp:183-209 *)
Definition opcert_generate (hot : list Z) (count period : Z) (sk : SK) : opcert := opcert_sign (opcert_unsigned hot count period) sk.
(** verify, stake_pool.cpp:222-227 *)
Definition opcert_verify (c : opcert) (vkey : list Z) : bool := verify vkey (opcert_message c) (oc_sigma c).
End OpCert.
(** stake_pool.cpp:233-238, 249-254: the array of a certificate *)
Definition opcert_item (c : opcert) : cbor := CArray [CBytes (oc_hot c); CUint (oc_seq c); CUint (oc_period c); CBytes (oc_sigma c)].
(** stake_pool.cpp:229-240 *)
Definition opcert_serialize (c : opcert) : list Z := cbor_encode (opcert_item c).
(** stake_pool.cpp:242-258 *)
Definition opcert_serialize_with (c : opcert) (vkey : list Z) : list Z := cbor_encode (CArray [opcert_item c; CBytes vkey]).

(** ** Pool registration certificates *)
(** stake_pool.cpp:38 *)
Definition MIN_POOL_COST_LOVELACE : Z := 170000000.  (* stake_pool.cpp:38 *)
(** stake_pool.cpp:279, 301: [margin > 1.0] *)
Definition d_gt1 (f : dbl) : bool :=
  match f with DFin m e => if 0 <=? e then 1 <? m * 2 ^ e else 2 ^ (- e) <? m | DInf neg => negb neg | DNaN => false end.
(** makeByteArray<n>, util.hpp:69-76: the first n bytes; a shorter input leaves array elements uninitialised, which are then read *)
Definition make_array (n : nat) (b : list Z) : outcome (list Z) := if (length b <? n)%nat then UB else Ok (firstn n b).

Section Registration.
Variables (blake2b_224 blake2b_256 : list Z -> list Z).
(** stake_pool.cpp:55-63 poolId *)
Definition pool_id (vkey : list Z) : list Z := firstn 28 (blake2b_224 vkey).
(** stake_pool.cpp:386-393 keyHash *)
Definition vrf_key_hash (vkey : list Z) : list Z := firstn 32 (blake2b_256 vkey).
(** the margin setter, stake_pool.cpp:299-307: the checks, the approximation, the casts to uint64_t *)
Definition checked_margin (fuel : nat) (margin : dbl) : run rational :=
  if d_neg margin || d_gt1 margin then lift Throw
  else let! nd := rational_approx fuel margin 4096 in lift (Ok {| rnum := to_u64 (fst nd); rden := to_u64 (snd nd) |}).
(** the constructor from keys, stake_pool.cpp:270-297 *)
Definition registration_new (fuel : nat) (vkey vrf_vkey : list Z) (pledge cost : Z) (margin : dbl) (account : rewards_address) : run pool_params :=
  if d_neg margin || d_gt1 margin then lift Throw
  else if cost <? MIN_POOL_COST_LOVELACE then lift Throw
  else
    let! nd := rational_approx fuel margin 4096 in
    lift (Ok {| pp_operator := pool_id vkey; pp_vrf := vrf_key_hash vrf_vkey; pp_pledge := pledge; pp_cost := cost;
                pp_margin := {| rnum := to_u64 (fst nd); rden := to_u64 (snd nd) |}; pp_account := RewardsAddress_toBytes account;
                pp_owners := []; pp_relays := []; pp_metadata := None |}).
(** include/cardano/stake_pool.hpp:554-628: the other public operations *)
Inductive reg_op :=
| SetOperatorKey (vkey : list Z) | SetOperatorId (id : list Z) | SetVrfKey (vkey : list Z) | SetPledge (n : Z) | SetCost (n : Z) | SetMargin (f : dbl)
| SetRewardAccount (a : rewards_address) | AddOwner (a : rewards_address) | AddRelayMulti (dns : list Z) | AddRelayName (dns : list Z) (port : Z)
| AddRelayV4 (ip : list Z) (port : Z) | AddRelayV6 (ip : list Z) (port : Z) | SetMetadata (url hash : list Z).
(** stake_pool.cpp:299-366, include/cardano/stake_pool.hpp:554-597 *)
Definition reg_step (fuel : nat) (p : pool_params) (o : reg_op) : run pool_params :=
  let with_relay r := {| pp_operator := pp_operator p; pp_vrf := pp_vrf p; pp_pledge := pp_pledge p; pp_cost := pp_cost p; pp_margin := pp_margin p; pp_account := pp_account p;
                         pp_owners := pp_owners p; pp_relays := pp_relays p ++ [r]; pp_metadata := pp_metadata p |} in
  let upd op vrf pledge cost margin account owners meta :=
    {| pp_operator := op; pp_vrf := vrf; pp_pledge := pledge; pp_cost := cost; pp_margin := margin; pp_account := account; pp_owners := owners; pp_relays := pp_relays p; pp_metadata := meta |} in
  match o with
  | SetOperatorKey k => lift (Ok (upd (pool_id k) (pp_vrf p) (pp_pledge p) (pp_cost p) (pp_margin p) (pp_account p) (pp_owners p) (pp_metadata p)))
  | SetOperatorId i => lift (Ok (upd i (pp_vrf p) (pp_pledge p) (pp_cost p) (pp_margin p) (pp_account p) (pp_owners p) (pp_metadata p)))
  | SetVrfKey k => lift (Ok (upd (pp_operator p) (vrf_key_hash k) (pp_pledge p) (pp_cost p) (pp_margin p) (pp_account p) (pp_owners p) (pp_metadata p)))
  | SetPledge n => lift (Ok (upd (pp_operator p) (pp_vrf p) n (pp_cost p) (pp_margin p) (pp_account p) (pp_owners p) (pp_metadata p)))
  | SetCost n => lift (Ok (upd (pp_operator p) (pp_vrf p) (pp_pledge p) n (pp_margin p) (pp_account p) (pp_owners p) (pp_metadata p)))
  | SetMargin f => let! r := checked_margin fuel f in lift (Ok (upd (pp_operator p) (pp_vrf p) (pp_pledge p) (pp_cost p) r (pp_account p) (pp_owners p) (pp_metadata p)))
  | SetRewardAccount a => lift (Ok (upd (pp_operator p) (pp_vrf p) (pp_pledge p) (pp_cost p) (pp_margin p) (RewardsAddress_toBytes a) (pp_owners p) (pp_metadata p)))
  | AddOwner a => let! h := lift (make_array 28 (RewardsAddress_toBytesRaw a)) in
      lift (Ok (upd (pp_operator p) (pp_vrf p) (pp_pledge p) (pp_cost p) (pp_margin p) (pp_account p) (set_insert lex_lt h (pp_owners p)) (pp_metadata p)))
  | AddRelayMulti dns => lift (Ok (with_relay (RMulti dns)))
  | AddRelayName dns port => lift (Ok (with_relay (RName dns (Some port))))
  | AddRelayV4 ip port => lift (Ok (with_relay (RAddr (Some ip) None (Some port))))
  | AddRelayV6 ip port => lift (Ok (with_relay (RAddr None (Some ip) (Some port))))
  | SetMetadata url hash => let! h := lift (make_array 32 hash) in
      lift (Ok (upd (pp_operator p) (pp_vrf p) (pp_pledge p) (pp_cost p) (pp_margin p) (pp_account p) (pp_owners p) (Some {| pm_url := url; pm_hash := h |})))
  end.
(** stake_pool.cpp:299-366.  A caller that catches exceptions: an operation that throws leaves the object as it was (the checks come before any assignment) *)
Fixpoint reg_run (fuel : nat) (p : pool_params) (ops : list reg_op) : run pool_params :=
  match ops with
  | [] => lift (Ok p)
  | o :: r => match reg_step fuel p o with
              | None => None | Some UB => Some UB
              | Some Throw => reg_run fuel p r
              | Some (Ok p') => reg_run fuel p' r
              end
  end.
End Registration.
(** serialize, stake_pool.hpp:640-644 and 695-699 *)
Definition registration_serialize (p : pool_params) : outcome (list Z) := serialize (cert_ser (PoolReg p)).

(** ** VRF keys *)
Section Vrf.
(** [ed_pub]: crypto_sign_ed25519_seed_keypair's and ed25519::PrivateKey::publicKey's map from seed to public key; [ed_sign]; libsodium's VRF *)
Variables (ed_pub : list Z -> list Z) (ed_sign : list Z -> list Z -> list Z).
Variables (vrf_prove : list Z -> list Z -> option (list Z)) (vrf_verify : list Z -> list Z -> list Z -> bool) (vrf_to_hash : list Z -> option (list Z)).
(** fromSeed, vrf.cpp:57-64: libsodium's secret key is the seed followed by the public key *)
Definition vrf_fromSeed (seed : list Z) : list Z := seed ++ ed_pub seed.
(** publicKey, vrf.cpp:66-75 *)
Definition vrf_publicKey (sk : list Z) : list Z := firstn 32 (skipn 32 sk).
(** isValid, vrf.cpp:77-83 *)
Definition vrf_isValid (sk : list Z) : bool := zlist_eqb (skipn (length sk - 32) sk) (ed_pub (firstn 32 sk)).
(** sign, vrf.cpp:85-91 *)
Definition vrf_sign (sk msg : list Z) : list Z := ed_sign (firstn 32 sk) msg.
(** constructProof, vrf.cpp:93-105 *)
Definition vrf_constructProof (sk msg : list Z) : outcome (list Z) := want (vrf_prove sk msg).
(** VRFPublicKey::verifyProof, vrf.cpp:32-43: the span has any length, libsodium reads 80 bytes *)
Definition vrf_pk_verifyProof (pk msg proof : list Z) : outcome bool :=
  if (length proof <? 80)%nat then UB else Ok (vrf_verify pk msg (firstn 80 proof)).
(** VRFSecretKey::verifyProof, vrf.cpp:107-114: the span has 80 bytes *)
Definition vrf_verifyProof (sk msg proof : list Z) : outcome bool := vrf_pk_verifyProof (vrf_publicKey sk) msg proof.
(** vrf.cpp:116-127 *)
Definition vrf_proofToHash (proof : list Z) : outcome (list Z) := want (vrf_to_hash proof).
(** vrf.cpp:129-133 *)
Definition vrf_hash (sk msg : list Z) : outcome (list Z) := let* p := vrf_constructProof sk msg in vrf_proofToHash p.
End Vrf.
