(** Model of shelley::UTxO: /repo/include/cardano/transaction.hpp:67-112, /repo/src/shelley/transaction.cpp:40-46.
    JSON values are the trees of Spec_Genesis.v; conversions to numbers as in Model_Genesis.v. *)
From Coq Require Import String.
From Verif Require Import Base Model_Hex Spec_Genesis Model_Genesis Model_Ledger Model_Tx.
Local Open Scope list_scope.

(** shelley/transaction.cpp:42-44.  operator[] of a const json with a key: throws if the value is not an object; a missing key is undefined (an assertion in debug builds) *)
Definition index_const (j : json) (k : string) : outcome json :=
  match j with JObj l => match lookup l (key k) with Some v => Ok v | None => UB end | _ => Throw end.
(** UTxO::fromJSON, shelley/transaction.cpp:40-46; makeByteArray<32> is [make_array 32] (util.hpp:67-76) *)
Definition utxo_fromJSON (j : json) : outcome utxo :=
  let* t := index_const j "transaction" in let* i := index_const t "id" in let* text := get_str i in
  let* id := hex_decode text in
  let* n := index_const j "index" in let* index := get_u64 n in
  let* v := index_const j "value" in let* a := index_const v "ada" in let* l := index_const a "lovelace" in let* value := get_u64 l in
  let* id := make_array 32 id in
  Ok {| u_id := id; u_index := index; u_value := value |}.
(** transaction.hpp:101-105 operator<=>: the ids as arrays of bytes, then the indices *)
Definition utxo_compare (a b : utxo) : comparison :=
  if lex_lt (u_id a) (u_id b) then Lt else if lex_lt (u_id b) (u_id a) then Gt else u_index a ?= u_index b.
(** transaction.hpp:101-105: [a < b], as std::set asks *)
Definition utxo_lt (a b : utxo) : bool := match utxo_compare a b with Lt => true | _ => false end.
(** transaction.hpp:107-110 operator== *)
Definition utxo_eq (a b : utxo) : bool := zlist_eqb (u_id a) (u_id b) && (u_index a =? u_index b).
