(** What a Shelley node does with the certificates and withdrawals of a transaction: the DELEGS, DELPL, DELEG and POOL rules of the Shelley ledger
    specification (IOHK, "A Formal Specification of the Cardano Ledger", section 9), about the CBOR values on the wire and independently of the
    library.  Left out: script credentials' witnesses, pointers, genesis and MIR certificates (refused here: the builders make none), and the epoch boundary. *)
From Verif Require Import Base Spec_Cbor Spec_Node.

(** ** What the ledger keeps *)
Inductive endpoint :=
| At_address (v4 v6 : option (list Z)) (port : option Z)
| At_name (dns : list Z) (port : option Z)
| At_service (dns : list Z).
Record pool := {
  po_vrf : list Z; po_pledge : Z; po_cost : Z; po_margin : Z * Z; po_account : list Z;
  po_owners : list (list Z); po_relays : list endpoint; po_metadata : option (list Z * list Z)
}.
Record stake := {
  st_balance : list Z -> option Z;             (* registered key hashes and their rewards *)
  st_delegated : list Z -> option (list Z);    (* key hash: the pool it delegates to *)
  st_pool : list Z -> option pool;             (* registered pools *)
  st_next : list Z -> option pool;             (* their parameters from the next epoch on, if announced *)
  st_retiring : list Z -> option Z             (* the epoch in which they retire, if announced *)
}.
Record rules := { ru_epoch : Z; ru_max_ahead : Z; ru_min_cost : Z }.

Definition put {A} (f : list Z -> option A) (k : list Z) (v : option A) : list Z -> option A :=
  fun x => if list_eq_dec Z.eq_dec x k then v else f x.

(** ** Reading a certificate *)
Definition limit {A} (b : bool) (x : A) : option A := if b then Some x else None.
Definition sized_bytes (n : Z) (c : cbor) : option (list Z) := match c with CBytes b => limit (zlen b =? n) b | _ => None end.
Definition nullable {A} (f : cbor -> option A) (c : cbor) : option (option A) :=
  match c with CNull => Some None | _ => match f c with Some x => Some (Some x) | None => None end end.
Definition short_text (c : cbor) : option (list Z) := match c with CText t => limit (zlen t <=? 64) t | _ => None end.
Definition port (c : cbor) : option Z := match c with CUint n => limit (n <? 65536) n | _ => None end.
Definition read_endpoint (c : cbor) : option endpoint :=
  match c with
  | CArray [CUint 0; p; v4; v6] =>
      match nullable port p, nullable (sized_bytes 4) v4, nullable (sized_bytes 16) v6 with
      | Some p, Some v4, Some v6 => Some (At_address v4 v6 p) | _, _, _ => None end
  | CArray [CUint 1; p; d] => match nullable port p, short_text d with Some p, Some d => Some (At_name d p) | _, _ => None end
  | CArray [CUint 2; d] => match short_text d with Some d => Some (At_service d) | _ => None end
  | _ => None
  end.
Definition read_metadata (c : cbor) : option (list Z * list Z) :=
  match c with CArray [u; h] => match short_text u, sized_bytes 32 h with Some u, Some h => Some (u, h) | _, _ => None end | _ => None end.
Fixpoint read_each {A} (f : cbor -> option A) (l : list cbor) : option (list A) :=
  match l with [] => Some [] | c :: r => match f c, read_each f r with Some x, Some y => Some (x :: y) | _, _ => None end end.
Definition read_pool (fields : list cbor) : option (list Z * pool) :=
  match fields with
  | [id; vrf; CUint pledge; CUint cost; CTag 30 (CArray [CUint a; CUint b]); account; CArray owners; CArray relays; metadata] =>
      match sized_bytes 28 id, sized_bytes 32 vrf, sized_bytes 29 account, read_each (sized_bytes 28) owners, read_each read_endpoint relays, nullable read_metadata metadata with
      | Some id, Some vrf, Some account, Some owners, Some relays, Some metadata =>
          limit ((0 <? b) && (a <=? b)) (id, {| po_vrf := vrf; po_pledge := pledge; po_cost := cost; po_margin := (a, b); po_account := account; po_owners := owners; po_relays := relays; po_metadata := metadata |})
      | _, _, _, _, _, _ => None
      end
  | _ => None
  end.

(** ** The rules: [None] means that the certificate is refused, and the transaction with it. *)
Definition enact (r : rules) (st : stake) (c : cbor) : option stake :=
  match c with
  | CArray [CUint 0; CArray [CUint 0; CBytes k]] =>
      match st_balance st k with
      | None => Some {| st_balance := put (st_balance st) k (Some 0); st_delegated := st_delegated st; st_pool := st_pool st; st_next := st_next st; st_retiring := st_retiring st |}
      | Some _ => None
      end
  | CArray [CUint 1; CArray [CUint 0; CBytes k]] =>
      match st_balance st k with
      | Some 0 => Some {| st_balance := put (st_balance st) k None; st_delegated := put (st_delegated st) k None; st_pool := st_pool st; st_next := st_next st; st_retiring := st_retiring st |}
      | _ => None
      end
  | CArray [CUint 2; CArray [CUint 0; CBytes k]; CBytes p] =>
      match st_balance st k, st_pool st p with
      | Some _, Some _ => Some {| st_balance := st_balance st; st_delegated := put (st_delegated st) k (Some p); st_pool := st_pool st; st_next := st_next st; st_retiring := st_retiring st |}
      | _, _ => None
      end
  | CArray (CUint 3 :: fields) =>
      match read_pool fields with
      | None => None
      | Some (id, q) =>
          if po_cost q <? ru_min_cost r then None else
          match st_pool st id with
          | None => Some {| st_balance := st_balance st; st_delegated := st_delegated st; st_pool := put (st_pool st) id (Some q); st_next := st_next st; st_retiring := st_retiring st |}
          | Some _ => Some {| st_balance := st_balance st; st_delegated := st_delegated st; st_pool := st_pool st; st_next := put (st_next st) id (Some q); st_retiring := put (st_retiring st) id None |}
          end
      end
  | CArray [CUint 4; CBytes p; CUint e] =>
      match st_pool st p with
      | Some _ => limit ((ru_epoch r <? e) && (e <=? ru_epoch r + ru_max_ahead r))
                    {| st_balance := st_balance st; st_delegated := st_delegated st; st_pool := st_pool st; st_next := st_next st; st_retiring := put (st_retiring st) p (Some e) |}
      | None => None
      end
  | _ => None
  end.
Fixpoint enact_all (r : rules) (st : stake) (cs : list cbor) : option stake :=
  match cs with [] => Some st | c :: cs => match enact r st c with Some st => enact_all r st cs | None => None end end.
(** The accounts withdrawn from are emptied first; an account's address is a header byte and the key hash. *)
Definition emptied (st : stake) (accounts : list (list Z)) : stake :=
  {| st_balance := fun k => match st_balance st k with Some v => if existsb (fun a => if list_eq_dec Z.eq_dec (skipn 1 a) k then true else false) accounts then Some 0 else Some v | None => None end;
     st_delegated := st_delegated st; st_pool := st_pool st; st_next := st_next st; st_retiring := st_retiring st |}.
(** A node takes the bytes [s] for a transaction, and goes from [st] to [st']. *)
Definition admits (hash256 hash224 : list Z -> list Z) (verifies : list Z -> list Z -> list Z -> bool) (r : rules) (n : node) (st : stake) (s : list Z) (st' : stake) : Prop :=
  exists sb t, is_tx s sb t /\ valid hash256 hash224 verifies n sb (zlen s) t /\ enact_all r (emptied st (map fst (w_wds t))) (w_certs t) = Some st'.
