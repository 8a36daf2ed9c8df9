(** Model of the hexadecimal codec and the integer packer.
    /repo/src/encodings.cpp:37-87, /repo/include/cardano/util.hpp:102-163. *)
From Verif Require Import Base.

(** encodings.cpp:43-46: the character [std::hex] stream output prints for a value 0..15,
    lower case because [std::uppercase] is not set *)
Definition hex_digit (d : Z) : Z := if d <? 10 then 48 + d else 87 + d.

(** encodings.cpp:45-46: [ss << std::setw(2) << static_cast<int>(b)] with fill '0':
    the hexadecimal digits of [b] without leading zeros, left padded to width 2. *)
Definition hex_of_byte (b : Z) : list Z :=
  if b <? 16 then [48; hex_digit b] else [hex_digit (b / 16); hex_digit (b mod 16)].

(** encodings.cpp:40-48 bytes2hex, 79-82 BASE16::encode. *)
Definition hex_encode (bytes : list Z) : list Z := flat_map hex_of_byte bytes.

(** encodings.cpp:56: membership in "0123456789abcdefABCDEF" *)
Definition is_hex_char (c : Z) : bool :=
  existsb (Z.eqb c) (str "0123456789abcdefABCDEF").

(** encodings.cpp:64: digit value as read by [std::from_chars(..., 16)]; [None] for a non-digit *)
Definition from_hex_char (c : Z) : option Z :=
  if (48 <=? c) && (c <=? 57) then Some (c - 48)
  else if (97 <=? c) && (c <=? 102) then Some (c - 87)
  else if (65 <=? c) && (c <=? 70) then Some (c - 55)
  else None.

(** encodings.cpp:62-69: the pairwise loop.  [from_chars] on two characters into a
    [uint8_t]: it stops at the first non-digit, fails if there is no leading digit.
    Simplification: after the alphabet check every character is a digit, the
    other branches are kept for faithfulness. *)
Fixpoint hex_pairs (hex : list Z) : outcome (list Z) :=
  match hex with
  | c1 :: c2 :: r =>
      match from_hex_char c1 with
      | None => Throw
      | Some d1 =>
          let b := match from_hex_char c2 with Some d2 => d1 * 16 + d2 | None => d1 end in
          let* rest := hex_pairs r in Ok (b :: rest)
      end
  | [_] => UB (* would read past the end; unreachable after the parity check *)
  | [] => Ok []
  end.

(** encodings.cpp:50-71 hex2bytes, 84-87 BASE16::decode. *)
Definition hex_decode (hex : list Z) : outcome (list Z) :=
  if negb (Nat.even (length hex)) then Throw
  else if negb (forallb is_hex_char hex) then Throw
  else hex_pairs hex.

(** util.hpp:110-124 BytePacker::pack, big endian branch, for an unsigned type of
    [w] bytes: byte [i] is [(value >> 8*(w-1-i)) & 0xFF]. *)
Definition pack_be (w : nat) (v : Z) : list Z :=
  map (fun i => Z.land (Z.shiftr v (8 * Z.of_nat (w - 1 - i))) 255) (seq 0 w).
(** util.hpp:125-131, little endian branch: byte [i] is [(value >> 8*i) & 0xFF]. *)
Definition pack_le (w : nat) (v : Z) : list Z :=
  map (fun i => Z.land (Z.shiftr v (8 * Z.of_nat i)) 255) (seq 0 w).

(** util.hpp:139-161 BytePacker::unpack: [value |= (IntType)bytes[i] << shift], the shift
    result reduced to [w] bytes. *)
Fixpoint unpack_from (w : nat) (be : bool) (i : nat) (bytes : list Z) (value : Z) : Z :=
  match bytes with
  | [] => value
  | b :: r =>
      let sh := if be then 8 * Z.of_nat (w - 1 - i) else 8 * Z.of_nat i in
      unpack_from w be (S i) r
        (Z.lor value (Z.shiftl b sh mod 2 ^ (8 * Z.of_nat w)))
  end.
(** include/cardano/util.hpp:145-152 *)
Definition unpack_be (w : nat) (bytes : list Z) : Z := unpack_from w true 0 bytes 0.
(** include/cardano/util.hpp:153-159 *)
Definition unpack_le (w : nat) (bytes : list Z) : Z := unpack_from w false 0 bytes 0.
