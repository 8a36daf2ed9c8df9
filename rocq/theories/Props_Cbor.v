(** C41: the CBOR the library emits.  [cbor_read] is the RFC 8949 reader of Spec_Cbor. *)
From Verif Require Import Base BaseLemmas Spec_Cbor Model_Cbor Proof_Cbor.
Ltac Zify.zify_post_hook ::= idtac.

(** An RFC 8949 reader decodes the emitted bytes to exactly the item, and leaves what follows. *)
Theorem C41_cbor_reads_back : forall c rest, cbor_ok c -> cbor_read (cbor_encode c ++ rest) = Some (c, rest).
Proof. exact cbor_round_trip. Qed.
(** The bytes are bytes. *)
Theorem C41_cbor_bytes : forall c, cbor_ok c -> bytes_ok (cbor_encode c).
Proof. exact encode_bytes. Qed.
(** No serialisation is a prefix of a different one; in particular encoding is injective. *)
Theorem C41_cbor_prefix_free : forall a b x y, cbor_ok a -> cbor_ok b -> cbor_encode a ++ x = cbor_encode b ++ y -> a = b /\ x = y.
Proof. exact prefix_free. Qed.
(** Minimal: no other byte string the reader accepts for the same item is shorter. *)
Theorem C41_cbor_shortest : forall s c rest, bytes_ok s -> cbor_read s = Some (c, rest) ->
  cbor_ok c /\ exists used, s = used ++ rest /\ zlen (cbor_encode c) <= zlen used.
Proof. exact encode_shortest. Qed.

(** RFC 8949 appendix A vectors, computed. *)
Example C41_ex_vectors :
  cbor_encode (CUint 1000000) = [26; 0; 15; 66; 64] /\
  cbor_encode (CUint 18446744073709551615) = [27; 255; 255; 255; 255; 255; 255; 255; 255] /\
  cbor_encode (CNint 999) = [57; 3; 231] /\
  cbor_encode (CArray [CUint 1; CArray [CUint 2; CUint 3]; CArray [CUint 4; CUint 5]]) = [131; 1; 130; 2; 3; 130; 4; 5] /\
  cbor_encode (CMap [(CText (str "a"), CUint 1); (CText (str "b"), CArray [CUint 2; CUint 3])]) = [162; 97; 97; 1; 97; 98; 130; 2; 3] /\
  cbor_encode (CTag 23 (CBytes [1; 2; 3; 4])) = [215; 68; 1; 2; 3; 4].
Proof. repeat split; reflexivity. Qed.
Example C41_ex_ok : cbor_ok (CMap [(CUint 1, CTag 24 (CBytes [130; 0; 255])); (CNint 2, CArray [CBool true; CNull; CText (str "pool")])]).
Proof. unfold zlen. cbn. unfold bytes_ok, byte_ok. repeat split; try lia; repeat constructor; lia. Qed.
(** An indirect encoding the reader accepts, and how it compares: the minimality is not vacuous. *)
Example C41_ex_longer : cbor_read [25; 0; 7] = Some (CUint 7, []) /\ cbor_encode (CUint 7) = [7].
Proof. split; reflexivity. Qed.

Print Assumptions C41_cbor_reads_back.
Print Assumptions C41_cbor_bytes.
Print Assumptions C41_cbor_prefix_free.
Print Assumptions C41_cbor_shortest.
