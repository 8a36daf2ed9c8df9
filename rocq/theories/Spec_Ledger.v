(** Vocabulary of the ledger properties: value ranges of the structures' fields, and the CBOR forms the
    Shelley CDDL prescribes (cardano-ledger, shelley.cddl), written independently of the serialisers. *)
From Verif Require Import Base Spec_Cbor Model_Ledger.
From Coq Require Import Sorted.

(** ** Field ranges, as the C++ types fix them *)
Definition bytesN (n : Z) (b : list Z) : Prop := bytes_ok b /\ zlen b = n.
Definition u64 (n : Z) : Prop := 0 <= n < 2 ^ 64.
Definition text_ok (b : list Z) : Prop := bytes_ok b /\ zlen b < 2 ^ 64.
Definition opt {A} (P : A -> Prop) (o : option A) : Prop := match o with Some x => P x | None => True end.
(** A container of elements satisfying [P] (it fits in memory). *)
Definition many {A} (P : A -> Prop) (l : list A) : Prop := Forall P l /\ zlen l < 2 ^ 64.

Definition rational_wf (r : rational) : Prop := u64 (rnum r) /\ u64 (rden r) /\ rden r <> 0.
Definition pm_wf (m : pool_metadata) : Prop := text_ok (pm_url m) /\ bytesN 32 (pm_hash m).
Definition port_ok (p : Z) : Prop := 0 <= p < 2 ^ 16.
Definition relay_wf (r : relay) : Prop :=
  match r with
  | RNone => True
  | RAddr v4 v6 p => opt (bytesN 4) v4 /\ opt (bytesN 16) v6 /\ opt port_ok p
  | RName d p => text_ok d /\ opt port_ok p
  | RMulti d => text_ok d
  end.
Definition cred_wf (c : stake_cred) : Prop := bytesN 28 (sc_hash c).
Definition mir_wf (m : mir) : Prop := many (fun p => cred_wf (fst p) /\ u64 (snd p)) (mir_creds m).
Definition pool_wf (p : pool_params) : Prop :=
  bytesN 28 (pp_operator p) /\ bytesN 32 (pp_vrf p) /\ u64 (pp_pledge p) /\ u64 (pp_cost p) /\ rational_wf (pp_margin p) /\
  text_ok (pp_account p) /\ many (bytesN 28) (pp_owners p) /\ StronglySorted (fun a b => lex_lt a b = true) (pp_owners p) /\
  many relay_wf (pp_relays p) /\ opt pm_wf (pp_metadata p).
Definition cert_wf (c : cert) : Prop :=
  match c with
  | CertNone => True
  | StakeReg c | StakeDereg c => cred_wf c
  | StakeDeleg c p => cred_wf c /\ bytesN 28 p
  | PoolReg p => pool_wf p
  | PoolRetire p e => bytesN 28 p /\ u64 e
  | GenesisDeleg g d v => bytesN 28 g /\ bytesN 28 d /\ bytesN 32 v
  | MirCert m => mir_wf m
  end.
Definition txin_wf (i : txin) : Prop := bytesN 32 (ti_id i) /\ u64 (ti_index i).
Definition txout_wf (o : txout) : Prop := text_ok (to_addr o) /\ u64 (to_amount o).
(** std::set and std::map contents: strictly increasing *)
Definition body_wf (b : txbody) : Prop :=
  many txin_wf (tb_inputs b) /\ StronglySorted (fun a b => txin_lt a b = true) (tb_inputs b) /\
  many txout_wf (tb_outputs b) /\ u64 (tb_fee b) /\ u64 (tb_ttl b) /\ many cert_wf (tb_certs b) /\
  many (fun p => text_ok (fst p) /\ u64 (snd p)) (tb_withdrawals b) /\
  StronglySorted (fun a b => lex_lt (fst a) (fst b) = true) (tb_withdrawals b) /\ opt (bytesN 32) (tb_metadata_hash b).
Fixpoint ms_wf (s : mscript) : Prop :=
  match s with
  | MNone => True
  | MPub h => bytesN 28 h
  | MAll l | MAny l => zlen l < 2 ^ 64 /\ fold_right (fun x P => ms_wf x /\ P) True l
  | MNofK n l => u64 n /\ zlen l < 2 ^ 64 /\ fold_right (fun x P => ms_wf x /\ P) True l
  end.
Definition vkey_wf (w : list Z * list Z) : Prop := bytesN 32 (fst w) /\ bytesN 64 (snd w).
Definition wits_wf (w : witset) : Prop := many vkey_wf (ws_vkeys w) /\ many ms_wf (ws_scripts w) /\ 0 <= ws_bootstrap w.

(** ** CDDL forms *)
Definition or_null {A} (f : A -> cbor) (o : option A) : cbor := match o with Some x => f x | None => CNull end.
Definition cddl_relay (r : relay) : option cbor :=
  match r with
  | RNone => None
  | RAddr v4 v6 port => Some (CArray [CUint 0; or_null CUint port; or_null CBytes v4; or_null CBytes v6])
  | RName dns port => Some (CArray [CUint 1; or_null CUint port; CText dns])
  | RMulti dns => Some (CArray [CUint 2; CText dns])
  end.
Definition cddl_cred (c : stake_cred) : cbor :=
  CArray [CUint (match sc_type c with AddrKeyhash => 0 | Scripthash => 1 end); CBytes (sc_hash c)].
Fixpoint all_some {A} (l : list (option A)) : option (list A) :=
  match l with
  | [] => Some []
  | None :: _ => None
  | Some x :: r => match all_some r with Some r => Some (x :: r) | None => None end
  end.
Definition cddl_cert (c : cert) : option cbor :=
  match c with
  | CertNone => None
  | StakeReg c => Some (CArray [CUint 0; cddl_cred c])
  | StakeDereg c => Some (CArray [CUint 1; cddl_cred c])
  | StakeDeleg c p => Some (CArray [CUint 2; cddl_cred c; CBytes p])
  | PoolReg p =>
      match all_some (map cddl_relay (pp_relays p)) with
      | None => None
      | Some relays => Some (CArray [CUint 3; CBytes (pp_operator p); CBytes (pp_vrf p); CUint (pp_pledge p); CUint (pp_cost p);
            CTag 30 (CArray [CUint (rnum (pp_margin p)); CUint (rden (pp_margin p))]); CBytes (pp_account p);
            CArray (map CBytes (pp_owners p)); CArray relays;
            or_null (fun m => CArray [CText (pm_url m); CBytes (pm_hash m)]) (pp_metadata p)])
      end
  | PoolRetire p e => Some (CArray [CUint 4; CBytes p; CUint e])
  | GenesisDeleg g d v => Some (CArray [CUint 5; CBytes g; CBytes d; CBytes v])
  | MirCert m => Some (CArray [CUint 6; CArray [CUint (match mir_source m with Reserves => 0 | Treasury => 1 end);
                                                CMap (map (fun p => (cddl_cred (fst p), CUint (snd p))) (mir_creds m))]])
  end.

(** Scripts made of keys, all-of and any-of, without n-of-k and without empty scripts. *)
Fixpoint no_nofk (s : mscript) : Prop :=
  match s with
  | MPub _ => True
  | MAll l | MAny l => fold_right (fun x P => no_nofk x /\ P) True l
  | MNone | MNofK _ _ => False
  end.
(** The certificates that survive a round trip. *)
Definition simple_cert (c : cert) : Prop :=
  match c with
  | StakeReg _ | StakeDereg _ | StakeDeleg _ _ | PoolRetire _ _ | MirCert _ => True
  | PoolReg p => pp_relays p = [] /\ pp_metadata p = None
  | CertNone | GenesisDeleg _ _ _ => False
  end.
