(** Model of the [deserialize] member functions as what they are: assignments to the members of an object that may hold a value already, and that keeps what was assigned when an
    exception is thrown half way.  (Model_Ledger has the same functions on a fresh object, as functions to values.) *)
From Verif Require Import Base Spec_Cbor Model_Cbor Model_Ledger.

(** A piece of a member function: from the object before to the object after and how it ends.  include/cardano/serialization.hpp:39, 76, 113 *)
Definition member (S A : Type) : Type := S -> S * outcome A.
(** include/cardano/serialization.hpp:50-62: a computation that does not touch the object *)
Definition local {S A} (o : outcome A) : member S A := fun s => (s, o).
(** an assignment to members, e.g. shelley/ledger.cpp:66 *)
Definition assign {S} (f : S -> S) : member S unit := fun s => (f s, Ok tt).
(** one statement after the other, e.g. shelley/ledger.cpp:66-76; an exception leaves the assignments made so far *)
Definition seq {S A B} (p : member S A) (q : A -> member S B) : member S B := fun s =>
  match p s with
  | (s, Ok x) => q x s
  | (s, Throw) => (s, Throw)
  | (s, UB) => (s, UB)
  end.
Notation "'set' x <- p ; q" := (seq p (fun x => q)) (at level 200, x pattern, p at level 100, q at level 200).
(** a range-for, e.g. shelley/ledger.cpp:330-338 *)
Fixpoint each {S A} (f : A -> member S unit) (l : list A) : member S unit :=
  match l with [] => local (Ok tt) | x :: r => set _ <- f x; each f r end.
(** a call on a member object, e.g. shelley/ledger.cpp:1134 *)
Definition within {S T A} (get : S -> T) (put : T -> S -> S) (p : member T A) : member S A := fun s =>
  let '(t, o) := p (get s) in (put t s, o).

(** include/cardano/serialization.hpp:158-195 *)
Definition rational_into (tag : Z) (c : cbor) : member rational unit :=
  if negb (tag =? 30) then local Throw
  else set arr <- local (want (as_array c));
  match arr with
  | [a; b] =>
      set n <- local (want (as_uint a)); set d <- local (want (as_uint b));
      set _ <- assign (fun r => {| rnum := n; rden := rden r |});
      set _ <- assign (fun r => {| rnum := rnum r; rden := d |});
      if d =? 0 then local Throw else local (Ok tt)
  | _ => local Throw
  end.
(** shelley/ledger.cpp:45-77 *)
Definition pm_into (data : list cbor) : member pool_metadata unit :=
  match data with
  | [u; h] =>
      set url <- local (want (as_text u)); set hash <- local (want (as_bytes h));
      set _ <- assign (fun m => {| pm_url := url; pm_hash := pm_hash m |});
      set hash <- local (fixed 32 hash);
      assign (fun m => {| pm_url := pm_url m; pm_hash := hash |})
  | _ => local Throw
  end.
(** shelley/ledger.cpp:136-239: the known kinds fill a local value and assign it (197, 214, 230); any other kind falls through the switch (233-236) *)
Definition relay_into (data : list cbor) : member relay unit :=
  if zlen data <? 2 then local Throw
  else
    set c0 <- local (get_ub data 0);
    set tag <- local (want (as_uint c0));
    if (tag =? 0) || (tag =? 1) || (tag =? 2) then set r <- local (relay_des data); assign (fun _ => r)
    else local (Ok tt).
(** shelley/ledger.cpp:248-286: the type is assigned before the length of the hash is looked at *)
Definition cred_into (data : list cbor) : member stake_cred unit :=
  match data with
  | [t; h] =>
      set ty <- local (want (as_uint t)); set hash <- local (want (as_bytes h));
      set _ <- (if ty =? 0 then assign (fun c => {| sc_type := AddrKeyhash; sc_hash := sc_hash c |})
                else if ty =? 1 then assign (fun c => {| sc_type := Scripthash; sc_hash := sc_hash c |}) else local Throw);
      set hash <- local (fixed 28 hash);
      assign (fun c => {| sc_type := sc_type c; sc_hash := hash |})
  | _ => local Throw
  end.
(** shelley/ledger.cpp:300-339: the source is assigned, then the credentials are pushed to those already there *)
Definition mir_into (data : list cbor) : member mir unit :=
  match data with
  | [s; m] =>
      set src <- local (want (as_uint s)); set m <- local (want (as_map m));
      set _ <- (if src =? 0 then assign (fun x => {| mir_source := Reserves; mir_creds := mir_creds x |})
                else if src =? 1 then assign (fun x => {| mir_source := Treasury; mir_creds := mir_creds x |}) else local Throw);
      each (fun e => set p <- local (mir_entry e); assign (fun x => {| mir_source := mir_source x; mir_creds := mir_creds x ++ [p] |})) m
  | _ => local Throw
  end.
(** shelley/ledger.cpp:446-642: the known kinds fill a local value and assign it; any other kind falls through the switch (636-639) *)
Definition cert_into (data : list cbor) : member cert unit :=
  if zlen data <? 2 then local Throw
  else
    set c0 <- local (get_ub data 0);
    set tag <- local (want (as_uint c0));
    if (0 <=? tag) && (tag <=? 6) then set c <- local (cert_des data); assign (fun _ => c)
    else local (Ok tt).
(** shelley/ledger.cpp:651-675 *)
Definition txout_into (data : list cbor) : member txout unit :=
  match data with
  | [a; n] =>
      set a <- local (want (as_bytes a)); set n <- local (want (as_uint n));
      set _ <- assign (fun o => {| to_addr := a; to_amount := to_amount o |});
      assign (fun o => {| to_addr := to_addr o; to_amount := n |})
  | _ => local Throw
  end.
(** shelley/ledger.cpp:685-714 *)
Definition txin_into (data : list cbor) : member txin unit :=
  match data with
  | [a; n] =>
      set a <- local (want (as_bytes a)); set n <- local (want (as_uint n));
      set a <- local (fixed 32 a);
      set _ <- assign (fun i => {| ti_id := a; ti_index := ti_index i |});
      assign (fun i => {| ti_id := ti_id i; ti_index := n |})
  | _ => local Throw
  end.
(** shelley/ledger.cpp:771-873: the known kinds fill a local value and assign it; any other kind falls through the switch (867-870) *)
Definition ms_into (data : list cbor) : member mscript unit :=
  match data with
  | t :: _ :: _ =>
      set tag <- local (want (as_uint t));
      if (0 <=? tag) && (tag <=? 3) then set s <- local (ms_des data); assign (fun _ => s)
      else local (Ok tt)
  | _ => local Throw
  end.

(** include/cardano/ledger.hpp:994-1002: assignment to one member of a body, the others kept *)
Definition put_inputs (v : list txin) (b : txbody) : txbody := {| tb_inputs := v; tb_outputs := tb_outputs b; tb_fee := tb_fee b; tb_ttl := tb_ttl b; tb_certs := tb_certs b; tb_withdrawals := tb_withdrawals b; tb_metadata_hash := tb_metadata_hash b |}.
(** include/cardano/ledger.hpp:994-1002 *)
Definition put_outputs (v : list txout) (b : txbody) : txbody := {| tb_inputs := tb_inputs b; tb_outputs := v; tb_fee := tb_fee b; tb_ttl := tb_ttl b; tb_certs := tb_certs b; tb_withdrawals := tb_withdrawals b; tb_metadata_hash := tb_metadata_hash b |}.
(** include/cardano/ledger.hpp:994-1002 *)
Definition put_fee (v : Z) (b : txbody) : txbody := {| tb_inputs := tb_inputs b; tb_outputs := tb_outputs b; tb_fee := v; tb_ttl := tb_ttl b; tb_certs := tb_certs b; tb_withdrawals := tb_withdrawals b; tb_metadata_hash := tb_metadata_hash b |}.
(** include/cardano/ledger.hpp:994-1002 *)
Definition put_ttl (v : Z) (b : txbody) : txbody := {| tb_inputs := tb_inputs b; tb_outputs := tb_outputs b; tb_fee := tb_fee b; tb_ttl := v; tb_certs := tb_certs b; tb_withdrawals := tb_withdrawals b; tb_metadata_hash := tb_metadata_hash b |}.
(** include/cardano/ledger.hpp:994-1002 *)
Definition put_certs (v : list cert) (b : txbody) : txbody := {| tb_inputs := tb_inputs b; tb_outputs := tb_outputs b; tb_fee := tb_fee b; tb_ttl := tb_ttl b; tb_certs := v; tb_withdrawals := tb_withdrawals b; tb_metadata_hash := tb_metadata_hash b |}.
(** include/cardano/ledger.hpp:994-1002 *)
Definition put_withdrawals (v : list (list Z * Z)) (b : txbody) : txbody := {| tb_inputs := tb_inputs b; tb_outputs := tb_outputs b; tb_fee := tb_fee b; tb_ttl := tb_ttl b; tb_certs := tb_certs b; tb_withdrawals := v; tb_metadata_hash := tb_metadata_hash b |}.
(** include/cardano/ledger.hpp:994-1002 *)
Definition put_metadata (v : option (list Z)) (b : txbody) : txbody := {| tb_inputs := tb_inputs b; tb_outputs := tb_outputs b; tb_fee := tb_fee b; tb_ttl := tb_ttl b; tb_certs := tb_certs b; tb_withdrawals := tb_withdrawals b; tb_metadata_hash := v |}.
(** shelley/ledger.cpp:933-1029, statement by statement *)
Definition txbody_into (m : list (cbor * cbor)) : member txbody unit :=
  set _ <- assign (put_inputs []);
  set _ <- each (fun c => set i <- local (item_des txin_des c); assign (fun b => put_inputs (set_insert txin_lt i (tb_inputs b)) b)) (body_array m 0);
  set _ <- assign (put_outputs []);
  set _ <- each (fun c => set o <- local (item_des txout_des c); assign (fun b => put_outputs (tb_outputs b ++ [o]) b)) (body_array m 1);
  set _ <- assign (put_fee 0);
  set _ <- assign (put_fee (body_uint m 2));
  set _ <- assign (put_ttl 0);
  set _ <- assign (put_ttl (body_uint m 3));
  set _ <- assign (put_certs []);
  set _ <- each (fun c => set x <- local (item_des cert_des c); assign (fun b => put_certs (tb_certs b ++ [x]) b)) (body_array m 4);
  set _ <- assign (put_withdrawals []);
  set _ <- each (fun e => set p <- local (wdrl_entry e); assign (fun b => put_withdrawals (map_assign (fst p) (snd p) (tb_withdrawals b)) b))
     (match map_get m 5 with Some c => match as_map c with Some l => l | None => [] end | None => [] end);
  set _ <- assign (put_metadata None);
  match map_get m 7 with
  | Some c => match as_bytes c with Some h => set h <- local (fixed 32 h); assign (put_metadata (Some h)) | None => local (Ok tt) end
  | None => local (Ok tt)
  end.
(** shelley/ledger.cpp:1064-1105 *)
Definition witset_into (m : list (cbor * cbor)) : member witset unit :=
  set _ <- assign (fun w => {| ws_vkeys := []; ws_scripts := ws_scripts w; ws_bootstrap := ws_bootstrap w |});
  set _ <- each (fun c => set v <- local (vkey_des c);
      match v with Some v => assign (fun w => {| ws_vkeys := ws_vkeys w ++ [v]; ws_scripts := ws_scripts w; ws_bootstrap := ws_bootstrap w |}) | None => local (Ok tt) end) (body_array m 0);
  set _ <- assign (fun w => {| ws_vkeys := ws_vkeys w; ws_scripts := []; ws_bootstrap := ws_bootstrap w |});
  assign (fun w => {| ws_vkeys := ws_vkeys w; ws_scripts := ws_scripts w; ws_bootstrap := 0 |}).
(** shelley/ledger.cpp:1123-1145 *)
Definition tx_into (data : list cbor) : member tx unit :=
  set _ <- match nth_error data 0 with
    | Some c => match as_map c with Some m => within tx_body (fun b t => {| tx_body := b; tx_wits := tx_wits t; tx_meta := tx_meta t |}) (txbody_into m) | None => local (Ok tt) end
    | None => local (Ok tt) end;
  match nth_error data 1 with
  | Some c => match as_map c with Some m => within tx_wits (fun w t => {| tx_body := tx_body t; tx_wits := w; tx_meta := tx_meta t |}) (witset_into m) | None => local (Ok tt) end
  | None => local (Ok tt) end.

(** include/cardano/serialization.hpp:50-62 *)
Definition array_into {S} (des : list cbor -> member S unit) (s : list Z) : member S unit :=
  set c <- local (cbor_parse s); set a <- local (want (as_array c)); des a.
(** include/cardano/serialization.hpp:87-99 *)
Definition map_into {S} (des : list (cbor * cbor) -> member S unit) (s : list Z) : member S unit :=
  set c <- local (cbor_parse s); set m <- local (want (as_map c)); des m.
(** include/cardano/serialization.hpp:124-136 *)
Definition tag_into {S} (des : Z -> cbor -> member S unit) (s : list Z) : member S unit :=
  set c <- local (cbor_parse s); set t <- local (want (as_tag c)); des (fst t) (snd t).

(** The Alonzo and Babbage types: include/cardano/ledger.hpp:1441-1443 (alonzo::TransactionOutput) and 1919-1921 (babbage::Transaction) *)
Definition unread_array {S} (data : list cbor) : member S unit := local Throw.
(** include/cardano/ledger.hpp:1766-1768 (PostAlonzoTransactionOutput), 1850-1852 (babbage::TransactionBody), 1884-1886 (babbage::TransactionWitnessSet) *)
Definition unread_map {S} (data : list (cbor * cbor)) : member S unit := local Throw.
(** include/cardano/ledger.hpp:1730-1732 (babbage::ScriptRef) *)
Definition unread_tag {S} (tag : Z) (c : cbor) : member S unit := local Throw.
