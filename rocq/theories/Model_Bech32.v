(** Model of the Bech32 codec, /repo/src/encodings.cpp:89-348. *)
From Verif Require Import Base Model_Hex.

(** encodings.cpp:94-95 *)
Definition B32_CHARSET : list Z := str "qpzry9x8gf2tvdw0s3jn54khce6mua7l".

(** encodings.cpp:98-106, the 128-entry reverse table, copied literally. *)
Definition B32_CHARSET_REV : list Z := [
    -1; -1; -1; -1; -1; -1; -1; -1; -1; -1; -1; -1; -1; -1; -1; -1; -1; -1; -1;
    -1; -1; -1; -1; -1; -1; -1; -1; -1; -1; -1; -1; -1; -1; -1; -1; -1; -1; -1;
    -1; -1; -1; -1; -1; -1; -1; -1; -1; -1; 15; -1; 10; 17; 21; 20; 26; 30; 7;
    5;  -1; -1; -1; -1; -1; -1; -1; 29; -1; 24; 13; 25; 9;  8;  23; -1; 18; 22;
    31; 27; 19; -1; 1;  0;  3;  16; 11; 28; 12; 14; 6;  4;  2;  -1; -1; -1; -1;
    -1; -1; 29; -1; 24; 13; 25; 9;  8;  23; -1; 18; 22; 31; 27; 19; -1; 1;  0;
    3;  16; 11; 28; 12; 14; 6;  4;  2;  -1; -1; -1; -1; -1 ].

(** encodings.cpp:167-182: the conditional xors selected by the low five bits of [c0]. *)
Definition polymod_gen (c0 : Z) : Z :=
  let sel (m k : Z) := if Z.land c0 m =? 0 then 0 else k in
  Z.lxor (sel 1 0x3b6a57b2) (Z.lxor (sel 2 0x26508e6d) (Z.lxor (sel 4 0x1ea119fa)
    (Z.lxor (sel 8 0x3d4233dd) (sel 16 0x2a1462b3)))).

(** encodings.cpp:161-182: one round of the loop on the 32-bit state [c]. *)
Definition polymod_step (c v : Z) : Z :=
  let c0 := Z.shiftr c 25 mod 256 in
  Z.lxor (Z.lxor (Z.shiftl (Z.land c 0x1ffffff) 5) v) (polymod_gen c0).

(** encodings.cpp:112-185 *)
Definition polymod (values : list Z) : Z := fold_left polymod_step values 1.

(** encodings.cpp:188-201 *)
Definition expand_hrp (hrp : list Z) : list Z :=
  map (fun c => Z.shiftr c 5) hrp ++ [0] ++ map (fun c => Z.land c 31) hrp.

(** encodings.cpp:204-214 *)
Definition verify_checksum (hrp values : list Z) : bool :=
  polymod (expand_hrp hrp ++ values) =? 1.

(** encodings.cpp:216-230; [enc.resize(enc.size()+6)] appends six zeros. *)
Definition create_checksum (hrp values : list Z) : list Z :=
  let modv := Z.lxor (polymod (expand_hrp hrp ++ values ++ repeat 0 6)) 1 in
  map (fun i => Z.land (Z.shiftr modv (5 * (5 - i))) 31) [0; 1; 2; 3; 4; 5].

(** encodings.cpp:249-253: the inner [while (bits >= tobits)] loop.  [fuel] bounds the
    number of rounds; callers pass at least [bits], each round lowers [bits] by [tobits >= 1]. *)
Fixpoint cb_emit (fuel : nat) (acc bits tobits : Z) (ret : list Z) : Z * list Z :=
  match fuel with
  | O => (bits, ret)
  | S f =>
      if bits >=? tobits then
        let bits := bits - tobits in
        cb_emit f acc bits tobits (ret ++ [Z.land (Z.shiftr acc bits) (2 ^ tobits - 1) mod 256])
      else (bits, ret)
  end.

(** encodings.cpp:244-254: the outer loop; state is (acc, bits, ret).  The C++ [int]
    accumulator stays below 2^(2*frombits+tobits-1) <= 2^23 for the two uses (8,5) and
    (5,8), so signed overflow cannot occur and is not modelled. *)
Fixpoint cb_loop (data : list Z) (frombits tobits acc bits : Z) (ret : list Z)
  : outcome (Z * Z * list Z) :=
  match data with
  | [] => Ok (acc, bits, ret)
  | value :: r =>
      if negb (Z.shiftr value frombits =? 0) then Throw
      else
        let acc := Z.land (Z.lor (Z.shiftl acc frombits) value) (2 ^ (frombits + tobits - 1) - 1) in
        let bits := bits + frombits in
        let '(bits, ret) := cb_emit (Z.to_nat bits) acc bits tobits ret in
        cb_loop r frombits tobits acc bits ret
  end.

(** encodings.cpp:232-268 *)
Definition convertbits (data : list Z) (frombits tobits : Z) (pad : bool) : outcome (list Z) :=
  let* (acc, bits, ret) := cb_loop data frombits tobits 0 0 [] in
  let rest := Z.land (Z.shiftl acc (tobits - bits)) (2 ^ tobits - 1) in
  if pad then
    if negb (bits =? 0) then Ok (ret ++ [rest mod 256]) else Ok ret
  else if (bits >=? frombits) || negb (rest =? 0) then Throw
  else Ok ret.

(** encodings.cpp:276-280: the HRP check (upper-case ASCII letters are refused). *)
Definition is_upper (c : Z) : bool := (65 <=? c) && (c <=? 90).

(** encodings.cpp:270-288.  [B32_CHARSET[c]] is an unchecked read. *)
Definition bech32_encode (hrp values : list Z) : outcome (list Z) :=
  if existsb is_upper hrp then Throw
  else
    let* unpacked := convertbits values 8 5 true in
    let combined := unpacked ++ create_checksum hrp unpacked in
    let* chars := mapM (fun c => get_ub B32_CHARSET (Z.to_nat c)) combined in
    Ok (hrp ++ [49] ++ chars).

(** encodings.cpp:296-299: [std::tolower] in the "C" locale. *)
Definition tolower (c : Z) : Z := if is_upper c then c + 32 else c.

(** encodings.cpp:303: [rfind('1')], as a split into the text before and after the last '1'. *)
Fixpoint rsplit1 (s : list Z) : option (list Z * list Z) :=
  match s with
  | [] => None
  | c :: r =>
      match rsplit1 r with
      | Some (a, b) => Some (c :: a, b)
      | None => if c =? 49 then Some ([], r) else None
      end
  end.

(** encodings.cpp:313-319: table lookup by an unchecked [uint8_t] index: a character code of
    128 or more reads outside the 128-entry table. *)
Definition b32_char_value (c : Z) : outcome Z :=
  let* rev := get_ub B32_CHARSET_REV (Z.to_nat c) in
  if rev =? -1 then Throw else Ok rev.

(** encodings.cpp:290-333.  [pos == 0] and [pos + 7 > size] say that the part before the
    separator is empty / fewer than six characters follow it. *)
Definition bech32_decode (s : list Z) : outcome (list Z * list Z) :=
  match rsplit1 (map tolower s) with
  | None => Throw
  | Some (hrp, data) =>
      if (length hrp =? 0)%nat || (length data <? 6)%nat then Throw
      else
        let* values := mapM b32_char_value data in
        if negb (verify_checksum hrp values) then Throw
        else
          let* packed := convertbits (firstn (length values - 6) values) 5 8 false in
          Ok (hrp, packed)
  end.

(** encodings.cpp:335-340 BECH32::encode_hex *)
Definition bech32_encode_hex (hrp hex : list Z) : outcome (list Z) :=
  let* b := hex_decode hex in bech32_encode hrp b.

(** encodings.cpp:342-348 BECH32::decode_hex *)
Definition bech32_decode_hex (s : list Z) : outcome (list Z * list Z) :=
  let* (hrp, b) := bech32_decode s in Ok (hrp, hex_encode b).
