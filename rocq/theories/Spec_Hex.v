(** Independent specification of the hexadecimal text form. *)
From Verif Require Import Base.

(** The lower-case digit for a value 0..15. *)
Definition spec_hex_digit (d : Z) : Z := nth (Z.to_nat d) (str "0123456789abcdef") 0.
(** Text of a byte string: two digits per byte, high nibble first. *)
Definition spec_hex_text (b : list Z) : list Z :=
  List.concat (map (fun x => [spec_hex_digit (x / 16); spec_hex_digit (x mod 16)]) b).
(** The characters a hex text may contain. *)
Definition spec_hex_char (c : Z) : Prop :=
  In c (str "0123456789abcdefABCDEF").
(** ASCII lower case. *)
Definition spec_lower (c : Z) : Z := if (65 <=? c) && (c <=? 90) then c + 32 else c.
