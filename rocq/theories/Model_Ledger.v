(** Model of the ledger structures and their CBOR forms: /repo/src/shelley/ledger.cpp,
    /repo/include/cardano/ledger.hpp, /repo/include/cardano/serialization.hpp, /repo/src/ledger.cpp.
    Fixed-size arrays and vectors are lists of bytes; std::set and std::map are sorted lists.
    cppbor (external): a semantic tag answers asUint, asBstr, asTstr, asArray and asMap for the item it tags;
    get(i) of an array is an unchecked vector access; dereferencing a null view is undefined.
    [Int::value()] converts to int64 and back where it is used, so the unsigned value is kept.
    Not modelled: protocol parameter updates, bootstrap witnesses' content, transaction metadata (never serialised). *)
From Verif Require Import Base Model_Hex Spec_Cbor Model_Cbor.

(** ** cppbor views *)
(** cppbor asUint, as used in shelley/ledger.cpp:138, 666 *)
Fixpoint as_uint (c : cbor) : option Z := match c with CUint n => Some n | CTag _ c => as_uint c | _ => None end.
(** cppbor asBstr, as used in shelley/ledger.cpp:60, 666 *)
Fixpoint as_bytes (c : cbor) : option (list Z) := match c with CBytes b => Some b | CTag _ c => as_bytes c | _ => None end.
(** cppbor asTstr, as used in shelley/ledger.cpp:60, 193 *)
Fixpoint as_text (c : cbor) : option (list Z) := match c with CText b => Some b | CTag _ c => as_text c | _ => None end.
(** cppbor asArray, as used in shelley/ledger.cpp:458, 943 *)
Fixpoint as_array (c : cbor) : option (list cbor) := match c with CArray l => Some l | CTag _ c => as_array c | _ => None end.
(** cppbor asMap, as used in shelley/ledger.cpp:310, 996 *)
Fixpoint as_map (c : cbor) : option (list (cbor * cbor)) := match c with CMap l => Some l | CTag _ c => as_map c | _ => None end.
(** cppbor asSemanticTag, as used in shelley/ledger.cpp:535 and include/cardano/serialization.hpp:131 *)
Definition as_tag (c : cbor) : option (Z * cbor) := match c with CTag t c => Some (t, c) | _ => None end.
(** A view dereferenced without a test, as in shelley/ledger.cpp:334, 543, 949: undefined for a null view *)
Definition deref {A} (o : option A) : outcome A := match o with Some x => Ok x | None => UB end.
(** if (!view) throw, as in shelley/ledger.cpp:60-65, 666-671 *)
Definition want {A} (o : option A) : outcome A := match o with Some x => Ok x | None => Throw end.
(** The size test before a copy_n into an array of [n] bytes, as in shelley/ledger.cpp:70-76, 279-285, 709-712 *)
Definition fixed (n : Z) (b : list Z) : outcome (list Z) := if zlen b =? n then Ok b else Throw.
(** cppbor Map::get of a small unsigned key, as used in shelley/ledger.cpp:943-1017: the first entry with that key *)
Definition map_get (m : list (cbor * cbor)) (k : Z) : option cbor :=
  match find (fun p => match fst p with CUint n => n =? k | _ => false end) m with Some p => Some (snd p) | None => None end.

(** ** Ordered containers *)
(** operator< of std::array and std::vector of uint8_t, the order of the containers of include/cardano/ledger.hpp:692, 999, 961 *)
Fixpoint lex_lt (a b : list Z) : bool :=
  match a, b with
  | [], [] => false
  | [], _ :: _ => true
  | _ :: _, [] => false
  | x :: a, y :: b => if x <? y then true else if y <? x then false else lex_lt a b
  end.
(** std::set::insert, as used in shelley/ledger.cpp:552, 950 *)
Fixpoint set_insert {A} (lt : A -> A -> bool) (x : A) (l : list A) : list A :=
  match l with
  | [] => [x]
  | y :: r => if lt x y then x :: l else if lt y x then y :: set_insert lt x r else l
  end.
(** std::map::operator[] = value, as used in shelley/ledger.cpp:1004 *)
Fixpoint map_assign {A} (k : list Z) (v : A) (l : list (list Z * A)) : list (list Z * A) :=
  match l with
  | [] => [(k, v)]
  | (k', v') :: r => if lex_lt k k' then (k, v) :: l else if lex_lt k' k then (k', v') :: map_assign k v r else (k', v) :: r
  end.

(** ** Rational: serialization.hpp:141-196 *)
(** include/cardano/serialization.hpp:144-149 *)
Record rational := { rnum : Z; rden : Z }.
(** include/cardano/serialization.hpp:152-155 *)
Definition rational_ser (r : rational) : cbor := CTag 30 (CArray [CUint (rnum r); CUint (rden r)]).
(** include/cardano/serialization.hpp:158-195 *)
Definition rational_des (tag : Z) (c : cbor) : outcome rational :=
  if negb (tag =? 30) then Throw
  else let* arr := want (as_array c) in
  match arr with
  | [a; b] =>
      let* n := want (as_uint a) in let* d := want (as_uint b) in
      if d =? 0 then Throw else Ok {| rnum := n; rden := d |}
  | _ => Throw
  end.

(** ** PoolMetadata: ledger.cpp:38-77 *)
(** include/cardano/ledger.hpp:572-589 *)
Record pool_metadata := { pm_url : list Z; pm_hash : list Z }.
(** shelley/ledger.cpp:38-43 *)
Definition pm_ser (m : pool_metadata) : cbor := CArray [CText (pm_url m); CBytes (pm_hash m)].
(** shelley/ledger.cpp:45-77 *)
Definition pm_des (data : list cbor) : outcome pool_metadata :=
  match data with
  | [u; h] =>
      let* url := want (as_text u) in let* hash := want (as_bytes h) in
      let* hash := fixed 32 hash in Ok {| pm_url := url; pm_hash := hash |}
  | _ => Throw
  end.

(** ** Relay: ledger.cpp:79-239 *)
(** include/cardano/ledger.hpp:616-667; [RNone] is the empty variant *)
Inductive relay :=
| RNone
| RAddr (ipv4 ipv6 : option (list Z)) (port : option Z)
| RName (dns : list Z) (port : option Z)
| RMulti (dns : list Z).
(** shelley/ledger.cpp:89-96, 115-122 *)
Definition port_ser (p : option Z) : cbor := match p with Some p => CUint p | None => CNull end.
(** shelley/ledger.cpp:79-134 *)
Definition relay_ser (r : relay) : outcome cbor :=
  match r with
  | RNone => Ok (CArray [])
  | RAddr v4 v6 port =>
      let arr := [CUint 0; port_ser port] in
      match v4, v6 with
      | Some a, _ => Ok (CArray (arr ++ [CBytes a; CNull]))
      | None, Some _ => Throw   (* line 108: arg.ipv4.value() of an empty optional *)
      | None, None => Ok (CArray arr)
      end
  | RName dns port => Ok (CArray [CUint 1; port_ser port; CText dns])
  | RMulti dns => Ok (CArray [CUint 2; CText dns])
  end.
(** shelley/ledger.cpp:159-162, 206-209: static_cast to Port (uint16_t) *)
Definition port_des (c : cbor) : option Z := match as_uint c with Some p => Some (p mod 2 ^ 16) | None => None end.
(** shelley/ledger.cpp:136-239, on a fresh object (an unknown kind leaves it empty) *)
Definition relay_des (data : list cbor) : outcome relay :=
  if zlen data <? 2 then Throw
  else
    let* c0 := get_ub data 0 in
    let* tag := want (as_uint c0) in
    if tag =? 0 then
      if negb (zlen data =? 4) then Throw
      else
        let* c1 := get_ub data 1 in let* c2 := get_ub data 2 in
        let port := port_des c1 in
        match as_bytes c2 with
        | Some b => if zlen b =? 4 then Ok (RAddr (Some b) None port) else if zlen b =? 16 then Ok (RAddr None (Some b) port) else Ok (RAddr None None port)
        | None => Ok (RAddr None None port)
        end
    else if tag =? 1 then
      if negb (zlen data =? 3) then Throw
      else
        let* c2 := get_ub data 2 in let* dns := want (as_text c2) in
        let* c1 := get_ub data 1 in
        Ok (RName dns (port_des c1))
    else if tag =? 2 then
      if negb (zlen data =? 2) then Throw
      else let* c1 := get_ub data 1 in let* dns := want (as_text c1) in Ok (RMulti dns)
    else Ok RNone.

(** ** StakeCredential: ledger.cpp:241-286 *)
(** include/cardano/ledger.hpp:708-712 *)
Inductive cred_type := AddrKeyhash | Scripthash.
(** include/cardano/ledger.hpp:706-724 *)
Record stake_cred := { sc_type : cred_type; sc_hash : list Z }.
(** shelley/ledger.cpp:241-246 *)
Definition cred_ser (c : stake_cred) : cbor :=
  CArray [CUint (match sc_type c with AddrKeyhash => 0 | Scripthash => 1 end); CBytes (sc_hash c)].
(** shelley/ledger.cpp:248-286 *)
Definition cred_des (data : list cbor) : outcome stake_cred :=
  match data with
  | [t; h] =>
      let* ty := want (as_uint t) in let* hash := want (as_bytes h) in
      let* ty := if ty =? 0 then Ok AddrKeyhash else if ty =? 1 then Ok Scripthash else Throw in
      let* hash := fixed 28 hash in Ok {| sc_type := ty; sc_hash := hash |}
  | _ => Throw
  end.

(** ** MoveInstantaneousReward: ledger.cpp:288-339 *)
(** include/cardano/ledger.hpp:737-741 *)
Inductive reward_source := Reserves | Treasury.
(** include/cardano/ledger.hpp:734-756 *)
Record mir := { mir_source : reward_source; mir_creds : list (stake_cred * Z) }.
(** shelley/ledger.cpp:288-298 *)
Definition mir_ser (m : mir) : cbor :=
  CArray [CUint (match mir_source m with Reserves => 0 | Treasury => 1 end);
          CMap (map (fun p => (cred_ser (fst p), CUint (snd p))) (mir_creds m))].
(** shelley/ledger.cpp:333-337 *)
Definition mir_entry (e : cbor * cbor) : outcome (stake_cred * Z) :=
  let* a := deref (as_array (fst e)) in let* c := cred_des a in
  let* n := deref (as_uint (snd e)) in Ok (c, n).
(** shelley/ledger.cpp:300-339.  [old]: the credentials the object holds already; they are not cleared *)
Definition mir_des (old : list (stake_cred * Z)) (data : list cbor) : outcome mir :=
  match data with
  | [s; m] =>
      let* src := want (as_uint s) in let* m := want (as_map m) in
      let* src := if src =? 0 then Ok Reserves else if src =? 1 then Ok Treasury else Throw in
      let* creds := mapM mir_entry m in
      Ok {| mir_source := src; mir_creds := old ++ creds |}
  | _ => Throw
  end.

(** ** Certificate: ledger.hpp PoolParams, ledger.cpp:341-642 *)
(** include/cardano/ledger.hpp:684-695 *)
Record pool_params := {
  pp_operator : list Z; pp_vrf : list Z; pp_pledge : Z; pp_cost : Z; pp_margin : rational; pp_account : list Z;
  pp_owners : list (list Z); pp_relays : list relay; pp_metadata : option pool_metadata }.
(** include/cardano/ledger.hpp:764-921; [CertNone] is the empty variant *)
Inductive cert :=
| CertNone
| StakeReg (c : stake_cred)
| StakeDereg (c : stake_cred)
| StakeDeleg (c : stake_cred) (pool : list Z)
| PoolReg (p : pool_params)
| PoolRetire (pool : list Z) (epoch : Z)
| GenesisDeleg (genesis delegate vrf : list Z)
| MirCert (m : mir).
(** shelley/ledger.cpp:341-444 *)
Definition cert_ser (c : cert) : outcome cbor :=
  match c with
  | CertNone => Ok (CArray [])
  | StakeReg c => Ok (CArray [CUint 0; cred_ser c])
  | StakeDereg c => Ok (CArray [CUint 1; cred_ser c])
  | StakeDeleg c p => Ok (CArray [CUint 2; cred_ser c; CBytes p])
  | PoolReg p =>
      let* relays := mapM relay_ser (pp_relays p) in
      Ok (CArray ([CUint 3; CBytes (pp_operator p); CBytes (pp_vrf p); CUint (pp_pledge p); CUint (pp_cost p);
                   rational_ser (pp_margin p); CBytes (pp_account p)]
        ++ match pp_owners p with [] => [] | o => [CArray (map CBytes o)] end
        ++ match relays with [] => [] | r => [CArray r] end
        ++ match pp_metadata p with None => [] | Some m => [pm_ser m] end))
  | PoolRetire p e => Ok (CArray [CUint 4; CBytes p; CUint e])
  | GenesisDeleg g d v => Ok (CArray [CUint 5; CBytes g; CBytes d; CBytes v])
  | MirCert m => Ok (CArray [CUint 6; mir_ser m])
  end.
(** shelley/ledger.cpp:542-551: one owner *)
Definition owner_des (c : cbor) : outcome (list Z) := let* b := deref (as_bytes c) in fixed 28 b.
(** shelley/ledger.cpp:537-554: the owners *)
Definition owners_des (o : option (list cbor)) : outcome (list (list Z)) :=
  match o with
  | None => Ok []
  | Some arr => let* os := mapM owner_des arr in Ok (fold_left (fun s x => set_insert lex_lt x s) os [])
  end.
(** has_value() of an std::optional, as in shelley/ledger.cpp:89, 404 *)
Definition is_some {A} (o : option A) : bool := match o with Some _ => true | None => false end.
(** shelley/ledger.cpp:503-571; the loop bodies for relays and metadata are empty *)
Definition pool_reg_des (data : list cbor) : outcome cert :=
  if zlen data <? 7 then Throw
  else
    let* c1 := get_ub data 1 in let* op := want (as_bytes c1) in
    let* c2 := get_ub data 2 in let* vrf := want (as_bytes c2) in
    let* c3 := get_ub data 3 in let* pledge := want (as_uint c3) in
    let* c4 := get_ub data 4 in let* cost := want (as_uint c4) in
    let* c5 := get_ub data 5 in let* _ := want (as_array c5) in
    let* c6 := get_ub data 6 in let* acct := want (as_bytes c6) in
    let* op := fixed 28 op in let* vrf := fixed 32 vrf in
    let* tg := deref (as_tag c5) in
    let* margin := rational_des (fst tg) (snd tg) in
    let* owners := if 7 <? zlen data then let* c7 := get_ub data 7 in owners_des (as_array c7) else Ok [] in
    Ok (PoolReg {| pp_operator := op; pp_vrf := vrf; pp_pledge := pledge; pp_cost := cost; pp_margin := margin;
                   pp_account := acct; pp_owners := owners; pp_relays := []; pp_metadata := None |}).
(** shelley/ledger.cpp:446-642, on a fresh object (an unknown kind leaves it empty) *)
Definition cert_des (data : list cbor) : outcome cert :=
  if zlen data <? 2 then Throw
  else
    let* c0 := get_ub data 0 in
    let* tag := want (as_uint c0) in
    if tag =? 0 then
      if negb (zlen data =? 2) then Throw
      else let* c1 := get_ub data 1 in let* a := want (as_array c1) in let* c := cred_des a in Ok (StakeReg c)
    else if tag =? 1 then
      if negb (zlen data =? 2) then Throw
      else let* c1 := get_ub data 1 in let* a := want (as_array c1) in let* c := cred_des a in Ok (StakeDereg c)
    else if tag =? 2 then
      if negb (zlen data =? 3) then Throw
      else
        let* c1 := get_ub data 1 in let* a := want (as_array c1) in
        let* c2 := get_ub data 2 in let* h := want (as_bytes c2) in
        let* c := cred_des a in let* h := fixed 28 h in Ok (StakeDeleg c h)
    else if tag =? 3 then pool_reg_des data
    else if tag =? 4 then
      if negb (zlen data =? 3) then Throw
      else
        let* c1 := get_ub data 1 in let* h := want (as_bytes c1) in
        let* c2 := get_ub data 2 in let* e := want (as_uint c2) in
        let* h := fixed 28 h in Ok (PoolRetire h e)
    else if tag =? 5 then  (* lines 596-628: reads elements 0, 1, 2 *)
      let* g := deref (as_bytes c0) in let* g := fixed 28 g in
      let* c1 := get_ub data 1 in let* d := deref (as_bytes c1) in let* d := fixed 28 d in
      let* c2 := get_ub data 2 in let* v := deref (as_bytes c2) in let* v := fixed 32 v in
      Ok (GenesisDeleg g d v)
    else if tag =? 6 then
      let* c1 := get_ub data 1 in let* a := deref (as_array c1) in let* m := mir_des [] a in Ok (MirCert m)
    else Ok CertNone.

(** ** TransactionOutput: ledger.cpp:644-675; TransactionInput: 677-714 and ledger.hpp operator< *)
(** include/cardano/ledger.hpp:929-944 *)
Record txout := { to_addr : list Z; to_amount : Z }.
(** shelley/ledger.cpp:644-649 *)
Definition txout_ser (o : txout) : cbor := CArray [CBytes (to_addr o); CUint (to_amount o)].
(** shelley/ledger.cpp:651-675 *)
Definition txout_des (data : list cbor) : outcome txout :=
  match data with
  | [a; n] => let* a := want (as_bytes a) in let* n := want (as_uint n) in Ok {| to_addr := a; to_amount := n |}
  | _ => Throw
  end.
(** include/cardano/ledger.hpp:954-976 *)
Record txin := { ti_id : list Z; ti_index : Z }.
(** include/cardano/ledger.hpp:960-967, operator< *)
Definition txin_lt (a b : txin) : bool :=
  if zlist_eqb (ti_id a) (ti_id b) then ti_index a <? ti_index b else lex_lt (ti_id a) (ti_id b).
(** shelley/ledger.cpp:677-683 *)
Definition txin_ser (i : txin) : cbor := CArray [CBytes (ti_id i); CUint (ti_index i)].
(** shelley/ledger.cpp:685-714 *)
Definition txin_des (data : list cbor) : outcome txin :=
  match data with
  | [a; n] => let* a := want (as_bytes a) in let* n := want (as_uint n) in let* a := fixed 32 a in Ok {| ti_id := a; ti_index := n |}
  | _ => Throw
  end.

(** ** MultisigScript: ledger.cpp:716-873 *)
(** include/cardano/ledger.hpp:438-487.  Simplification: a null shared_ptr in the variant is not represented (serialising one is undefined) *)
Inductive mscript :=
| MNone
| MPub (h : list Z)
| MAll (l : list mscript)
| MAny (l : list mscript)
| MNofK (n : Z) (l : list mscript).
(** shelley/ledger.cpp:716-769 *)
Fixpoint ms_ser (s : mscript) : cbor :=
  match s with
  | MNone => CArray []
  | MPub h => CArray [CUint 0; CBytes h]
  | MAll l => CArray [CUint 1; CArray (map ms_ser l)]
  | MAny l => CArray [CUint 2; CArray (map ms_ser l)]
  | MNofK n l => CArray [CUint 3; CUint n; CArray (map ms_ser l)]
  end.
(** shelley/ledger.cpp:819, 840, 862 and 771-873, on a fresh object: [s.deserializer( *(c->asArray()) )]; undefined when [c] is no array *)
Fixpoint ms_item (c : cbor) : outcome mscript :=
  match c with
  | CTag _ c => ms_item c
  | CArray data =>
      let nested := fix go (l : list cbor) : outcome (list mscript) :=
        match l with [] => Ok [] | x :: r => let* y := ms_item x in let* ys := go r in Ok (y :: ys) end in
      let scripts := fix strip (a : cbor) : outcome (list mscript) :=
        match a with CTag _ a => strip a | CArray l => nested l | _ => Throw end in
      match data with
      | [] | [_] => Throw
      | t :: a :: more =>
          match as_uint t with
          | None => Throw
          | Some tag =>
              if tag =? 0 then
                match more with
                | [] => let* h := want (as_bytes a) in let* h := fixed 28 h in Ok (MPub h)
                | _ => Throw
                end
              else if tag =? 1 then
                match more with [] => let* l := scripts a in Ok (MAll l) | _ => Throw end
              else if tag =? 2 then
                match more with [] => let* l := scripts a in Ok (MAny l) | _ => Throw end
              else if tag =? 3 then  (* lines 848-849: the size must be 2, then element 2 is read *)
                match more with [] => let* _ := want (as_uint a) in UB | _ => Throw end
              else Ok MNone
          end
      end
  | _ => UB
  end.
(** shelley/ledger.cpp:771-873 *)
Definition ms_des (data : list cbor) : outcome mscript := ms_item (CArray data).

(** ** TransactionBody: ledger.cpp:875-1029 *)
(** include/cardano/ledger.hpp:993-1011.  Simplification: the protocol parameter update is left out, it is neither written nor read *)
Record txbody := {
  tb_inputs : list txin; tb_outputs : list txout; tb_fee : Z; tb_ttl : Z; tb_certs : list cert;
  tb_withdrawals : list (list Z * Z); tb_metadata_hash : option (list Z) }.
(** shelley/ledger.cpp:875-931 *)
Definition txbody_ser (b : txbody) : outcome cbor :=
  let* certs := mapM cert_ser (tb_certs b) in
  Ok (CMap ([(CUint 0, CArray (map txin_ser (tb_inputs b)));
             (CUint 1, CArray (map txout_ser (tb_outputs b)));
             (CUint 2, CUint (tb_fee b));
             (CUint 3, CUint (tb_ttl b))]
    ++ match certs with [] => [] | cs => [(CUint 4, CArray cs)] end
    ++ match tb_withdrawals b with [] => [] | w => [(CUint 5, CMap (map (fun p => (CBytes (fst p), CUint (snd p))) w))] end
    ++ match tb_metadata_hash b with None => [] | Some h => [(CUint 7, CBytes h)] end)).
(** shelley/ledger.cpp:943-945, 956-958, 983-985: the array under key [k], if the key is present and its value is an array *)
Definition body_array (m : list (cbor * cbor)) (k : Z) : list cbor :=
  match map_get m k with Some c => match as_array c with Some l => l | None => [] end | None => [] end.
(** shelley/ledger.cpp:968-979: the unsigned value under key [k], or 0 *)
Definition body_uint (m : list (cbor * cbor)) (k : Z) : Z :=
  match map_get m k with Some c => match as_uint c with Some n => n | None => 0 end | None => 0 end.
(** shelley/ledger.cpp:949, 962, 989: the deserialiser applied to the array view of an element, dereferenced without a test *)
Definition item_des {A} (des : list cbor -> outcome A) (c : cbor) : outcome A := let* a := deref (as_array c) in des a.
(** shelley/ledger.cpp:1002-1003 *)
Definition wdrl_entry (e : cbor * cbor) : outcome (list Z * Z) :=
  let* a := deref (as_bytes (fst e)) in let* n := deref (as_uint (snd e)) in Ok (a, n).
(** shelley/ledger.cpp:933-1029 *)
Definition txbody_des (m : list (cbor * cbor)) : outcome txbody :=
  let* ins := mapM (item_des txin_des) (body_array m 0) in
  let* outs := mapM (item_des txout_des) (body_array m 1) in
  let* certs := mapM (item_des cert_des) (body_array m 4) in
  let* ws := mapM wdrl_entry (match map_get m 5 with Some c => match as_map c with Some l => l | None => [] end | None => [] end) in
  let* mh := match map_get m 7 with
             | Some c => match as_bytes c with Some b => let* b := fixed 32 b in Ok (Some b) | None => Ok None end
             | None => Ok None end in
  Ok {| tb_inputs := fold_left (fun s x => set_insert txin_lt x s) ins [];
        tb_outputs := outs; tb_fee := body_uint m 2; tb_ttl := body_uint m 3; tb_certs := certs;
        tb_withdrawals := fold_left (fun s p => map_assign (fst p) (snd p) s) ws [];
        tb_metadata_hash := mh |}.

(** ** TransactionWitnessSet: ledger.cpp:1031-1105; [ws_bootstrap] is the number of bootstrap witnesses *)
(** include/cardano/ledger.hpp:1023-1036; [ws_bootstrap] is the number of bootstrap witnesses *)
Record witset := { ws_vkeys : list (list Z * list Z); ws_scripts : list mscript; ws_bootstrap : Z }.
(** shelley/ledger.cpp:1039-1042 *)
Definition vkey_ser (w : list Z * list Z) : cbor := CArray [CBytes (fst w); CBytes (snd w)].
(** shelley/ledger.cpp:1031-1062 *)
Definition witset_ser (w : witset) : cbor :=
  CMap (match ws_vkeys w with [] => [] | v => [(CUint 0, CArray (map vkey_ser v))] end
     ++ match ws_scripts w with [] => [] | s => [(CUint 1, CArray (map ms_ser s))] end
     ++ (if 0 <? ws_bootstrap w then [(CUint 2, CArray [])] else [])).
(** include/cardano/util.hpp:69-76 makeByteArray<N>: a shorter source leaves the tail uninitialised *)
Definition make_array (n : Z) (b : list Z) : outcome (list Z) := if zlen b <? n then UB else Ok (firstn (Z.to_nat n) b).
(** shelley/ledger.cpp:1079-1090 *)
Definition vkey_des (c : cbor) : outcome (option (list Z * list Z)) :=
  match as_array c with
  | None => Ok None
  | Some a =>
      let* c0 := get_ub a 0 in let* k := deref (as_bytes c0) in let* k := make_array 32 k in
      let* c1 := get_ub a 1 in let* s := deref (as_bytes c1) in let* s := make_array 64 s in Ok (Some (k, s))
  end.
(** shelley/ledger.cpp:1080-1082: only the witnesses that are arrays are pushed *)
Definition keep_some {A} (l : list (option A)) : list A := flat_map (fun o => match o with Some x => [x] | None => [] end) l.
(** shelley/ledger.cpp:1064-1105 *)
Definition witset_des (m : list (cbor * cbor)) : outcome witset :=
  let* vs := mapM vkey_des (body_array m 0) in
  Ok {| ws_vkeys := keep_some vs; ws_scripts := []; ws_bootstrap := 0 |}.

(** ** Transaction: ledger.cpp:1107-1145; [tx_meta]: transaction_metadata is set *)
(** include/cardano/ledger.hpp:1048-1061; [tx_meta]: transaction_metadata is set (its content is never written) *)
Record tx := { tx_body : txbody; tx_wits : witset; tx_meta : bool }.
(** shelley/ledger.cpp:1107-1121 *)
Definition tx_ser (t : tx) : outcome cbor :=
  let* b := txbody_ser (tx_body t) in
  Ok (CArray ([b; witset_ser (tx_wits t)] ++ if tx_meta t then [] else [CNull])).
(** include/cardano/ledger.hpp:993-1002: the default members *)
Definition empty_body : txbody := {| tb_inputs := []; tb_outputs := []; tb_fee := 0; tb_ttl := 0; tb_certs := []; tb_withdrawals := []; tb_metadata_hash := None |}.
(** include/cardano/ledger.hpp:1023-1027: the default members *)
Definition empty_wits : witset := {| ws_vkeys := []; ws_scripts := []; ws_bootstrap := 0 |}.
(** shelley/ledger.cpp:1123-1145, on a fresh object *)
Definition tx_des (data : list cbor) : outcome tx :=
  let* b := match nth_error data 0 with Some c => match as_map c with Some m => txbody_des m | None => Ok empty_body end | None => Ok empty_body end in
  let* w := match nth_error data 1 with Some c => match as_map c with Some m => witset_des m | None => Ok empty_wits end | None => Ok empty_wits end in
  Ok {| tx_body := b; tx_wits := w; tx_meta := false |}.

(** ** serialize() and deserialize(): serialization.hpp:36-139 *)
(** include/cardano/serialization.hpp:43-46, 80-83, 117-120 *)
Definition serialize (c : outcome cbor) : outcome (list Z) := let* c := c in Ok (cbor_encode c).
(** include/cardano/serialization.hpp:50-62 *)
Definition deserialize_array {A} (des : list cbor -> outcome A) (s : list Z) : outcome A :=
  let* c := cbor_parse s in let* a := want (as_array c) in des a.
(** include/cardano/serialization.hpp:87-99 *)
Definition deserialize_map {A} (des : list (cbor * cbor) -> outcome A) (s : list Z) : outcome A :=
  let* c := cbor_parse s in let* m := want (as_map c) in des m.
(** include/cardano/serialization.hpp:124-136 *)
Definition deserialize_tag {A} (des : Z -> cbor -> outcome A) (s : list Z) : outcome A :=
  let* c := cbor_parse s in let* t := want (as_tag c) in des (fst t) (snd t).

(** ** Later eras (serialisers only): /repo/src/ledger.cpp *)
(** include/cardano/ledger.hpp:1424-1444, alonzo::TransactionOutput *)
Record atxout := { ao_addr : list Z; ao_amount : Z; ao_datum : option (list Z) }.
(** src/ledger.cpp:31-41 *)
Definition atxout_ser (o : atxout) : cbor :=
  CArray ([CBytes (ao_addr o); CUint (ao_amount o)] ++ match ao_datum o with Some h => [CBytes h] | None => [] end).
(** include/cardano/ledger.hpp:1746-1769, babbage::PostAlonzoTransactionOutput *)
Record ptxout := { po_addr : list Z; po_amount : Z; po_script_ref : option (list Z) }.
(** src/ledger.cpp:48-57: datum option and script reference are never written *)
Definition ptxout_ser (o : ptxout) : cbor := CMap [(CUint 0, CBytes (po_addr o)); (CUint 1, CUint (po_amount o))].
(** include/cardano/ledger.hpp:1717, 1779-1780: the variant of the two kinds of output *)
Inductive btxout := BPre (o : atxout) | BPost (o : ptxout).
(** src/ledger.cpp:73-82 *)
Definition btxout_ser (o : btxout) : cbor := match o with BPre o => atxout_ser o | BPost o => ptxout_ser o end.
(** include/cardano/ledger.hpp:1814-1850, babbage::TransactionBody, the members that are written and the certificates *)
Record btxbody := { bb_inputs : list txin; bb_outputs : list btxout; bb_fee : Z; bb_ttl : option Z; bb_certs : list cert; bb_withdrawals : list (list Z * Z) }.
(** src/ledger.cpp:59-122: certificates are never written *)
Definition btxbody_ser (b : btxbody) : cbor :=
  CMap ([(CUint 0, CArray (map txin_ser (bb_inputs b)));
         (CUint 1, CArray (map btxout_ser (bb_outputs b)));
         (CUint 2, CUint (bb_fee b))]
    ++ match bb_ttl b with Some t => [(CUint 3, CUint t)] | None => [] end
    ++ match bb_withdrawals b with [] => [] | w => [(CUint 5, CMap (map (fun p => (CBytes (fst p), CUint (snd p))) w))] end).
(** src/ledger.cpp:124-141: only the key witnesses are written *)
Definition bwitset_ser (v : list (list Z * list Z)) : cbor :=
  CMap (match v with [] => [] | v => [(CUint 0, CArray (map vkey_ser v))] end).
(** src/ledger.cpp:148-157 *)
Definition btx_ser (b : btxbody) (v : list (list Z * list Z)) (flag : bool) : cbor :=
  CArray [btxbody_ser b; bwitset_ser v; CBool flag; CNull].
(** src/ledger.cpp:43-46, babbage::ScriptRef *)
Definition scriptref_ser (script_cbor : list Z) : cbor := CTag 24 (CBytes script_cbor).
