(** Model of the CBOR encoder the library uses (cppbor, an external library: /repo/src/shelley/ledger.cpp,
    address.cpp, stake_pool.cpp and serialization.hpp build cppbor items and call encode()).
    encode(): every head in the shortest form, map entries in insertion order, definite lengths. *)
From Verif Require Import Base Model_Hex Spec_Cbor.

(** cppbor encodeHeader, behind the encode() calls of include/cardano/serialization.hpp:43-46 *)
Definition cbor_head (major n : Z) : list Z :=
  if n <? 24 then [major * 32 + n]
  else if n <? 2 ^ 8 then (major * 32 + 24) :: pack_be 1 n
  else if n <? 2 ^ 16 then (major * 32 + 25) :: pack_be 2 n
  else if n <? 2 ^ 32 then (major * 32 + 26) :: pack_be 4 n
  else (major * 32 + 27) :: pack_be 8 n.
(** cppbor Item::encode, called in include/cardano/serialization.hpp:45, 82, 119 *)
Fixpoint cbor_encode (c : cbor) : list Z :=
  match c with
  | CUint n => cbor_head 0 n
  | CNint n => cbor_head 1 n
  | CBytes b => cbor_head 2 (zlen b) ++ b
  | CText b => cbor_head 3 (zlen b) ++ b
  | CArray l => cbor_head 4 (zlen l) ++ concat (map cbor_encode l)
  | CMap l => cbor_head 5 (zlen l) ++ concat (map (fun p => let '(a, b) := p in cbor_encode a ++ cbor_encode b) l)
  | CTag t c => cbor_head 6 t ++ cbor_encode c
  | CBool b => [if b then 245 else 244]
  | CNull => [246]
  end.
(** cppbor::parse as used by the deserialize() functions (include/cardano/serialization.hpp:50-62, 87-99, 124-136), which ignore bytes
    after the first item.  Simplification: definite-length items only *)
Definition cbor_parse (s : list Z) : outcome cbor :=
  match cbor_read s with Some (c, _) => Ok c | None => Throw end.
