(** Properties C01, C02 (hex text) and C11 (integer packing). *)
From Verif Require Import Base Spec_Hex Model_Hex Proof_Hex.

(** C01: encoding yields two lower-case digits per byte, and decodes back. *)
Theorem C01_hex_encode_decode : forall b, bytes_ok b ->
  hex_encode b = spec_hex_text b /\ hex_decode (hex_encode b) = Ok b.
Proof. exact hex_text_round_trip. Qed.
Print Assumptions C01_hex_encode_decode.

(** C01, converse: re-encoding what an accepted text decodes to gives the text in lower case. *)
Theorem C01_hex_decode_encode : forall text b, hex_decode text = Ok b ->
  bytes_ok b /\ hex_encode b = map spec_lower text.
Proof. exact hex_decode_then_encode. Qed.
Print Assumptions C01_hex_decode_encode.

Example C01_nontrivial :
  bytes_ok [0; 15; 16; 171; 255] /\ hex_encode [0; 15; 16; 171; 255] = str "000f10abff" /\
  hex_decode (str "000F10aBff") = Ok [0; 15; 16; 171; 255].
Proof. split; [apply bytes_okb_spec; reflexivity|split; reflexivity]. Qed.

(** C02: the decoder accepts exactly the even-length texts over the hex alphabet
    and throws (no undefined behaviour) on every other text. *)
Theorem C02_hex_decode_acceptance : forall text,
  (Nat.even (length text) = true /\ Forall spec_hex_char text ->
     exists b, hex_decode text = Ok b /\ length text = (2 * length b)%nat) /\
  (~ (Nat.even (length text) = true /\ Forall spec_hex_char text) -> hex_decode text = Throw).
Proof. exact hex_decode_accepts. Qed.
Print Assumptions C02_hex_decode_acceptance.

Example C02_rejects : hex_decode (str "abc") = Throw /\ hex_decode (str "0g") = Throw.
Proof. split; reflexivity. Qed.

(** C11: packing to [w] bytes and unpacking again. *)
Theorem C11_pack_unpack_be : forall w v, 0 <= v < 256 ^ Z.of_nat w -> unpack_be w (pack_be w v) = v.
Proof. exact pack_unpack_be. Qed.
Print Assumptions C11_pack_unpack_be.

Theorem C11_pack_unpack_le : forall w v, 0 <= v < 256 ^ Z.of_nat w -> unpack_le w (pack_le w v) = v.
Proof. exact pack_unpack_le. Qed.
Print Assumptions C11_pack_unpack_le.

Theorem C11_unpack_pack_be : forall w b, bytes_ok b -> length b = w -> pack_be w (unpack_be w b) = b.
Proof. exact unpack_pack_be. Qed.
Print Assumptions C11_unpack_pack_be.

Theorem C11_unpack_pack_le : forall w b, bytes_ok b -> length b = w -> pack_le w (unpack_le w b) = b.
Proof. exact unpack_pack_le. Qed.
Print Assumptions C11_unpack_pack_le.

(** The big-endian bytes are the base-256 digits, most significant first; little endian is the reverse. *)
Theorem C11_pack_be_positional : forall w v,
  length (pack_be w v) = w /\ bytes_ok (pack_be w v) /\ bev 256 (pack_be w v) = v mod 256 ^ Z.of_nat w.
Proof. exact (fun w v => conj (pack_be_length w v) (conj (pack_be_ok w v) (pack_be_value w v))). Qed.
Print Assumptions C11_pack_be_positional.

Theorem C11_pack_le_reverse : forall w v, pack_le w v = rev (pack_be w v).
Proof. exact (fun w v => eq_trans (eq_sym (rev_involutive _)) (f_equal (@rev Z) (eq_sym (pack_be_rev w v)))). Qed.
Print Assumptions C11_pack_le_reverse.

Example C11_nontrivial :
  pack_be 8 72623859790382856 = [1;2;3;4;5;6;7;8] /\ unpack_le 4 [1;2;3;4] = 67305985.
Proof. split; reflexivity. Qed.
