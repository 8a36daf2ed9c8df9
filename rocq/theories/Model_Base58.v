(** Model of the Base58 codec, /repo/src/encodings.cpp:350-448. *)
From Verif Require Import Base Model_Hex.

(** encodings.cpp:355-360 *)
Definition B58_CHARSET : list Z := str "123456789ABCDEFGHJKLMNPQRSTUVWXYZabcdefghijkmnopqrstuvwxyz".

(** encodings.cpp:362-370, copied literally. *)
Definition B58_CHARSET_REV : list Z := [
    -1; -1; -1; -1; -1; -1; -1; -1; -1; -1; -1; -1; -1; -1; -1; -1; -1; -1; -1;
    -1; -1; -1; -1; -1; -1; -1; -1; -1; -1; -1; -1; -1; -1; -1; -1; -1; -1; -1;
    -1; -1; -1; -1; -1; -1; -1; -1; -1; -1; -1; 0;  1;  2;  3;  4;  5;  6;  7;
    8;  -1; -1; -1; -1; -1; -1; -1; 9;  10; 11; 12; 13; 14; 15; 16; -1; 17; 18;
    19; 20; 21; -1; 22; 23; 24; 25; 26; 27; 28; 29; 30; 31; 32; -1; -1; -1; -1;
    -1; -1; 33; 34; 35; 36; 37; 38; 39; 40; 41; 42; 43; -1; 44; 45; 46; 47; 48;
    49; 50; 51; 52; 53; 54; 55; 56; 57; -1; -1; -1; -1; -1 ].

(** encodings.cpp:379-384: multiply the live digits by 256 and add the carry (uint32). *)
Fixpoint b58_mul_add (digits : list Z) (carry : Z) : list Z * Z :=
  match digits with
  | [] => ([], carry)
  | d :: r =>
      let carry := (carry + Z.shiftl d 8) mod 2 ^ 32 in
      let '(r', c') := b58_mul_add r (carry / 58) in
      ((carry mod 58) mod 256 :: r', c')
  end.

(** encodings.cpp:385-386: the digits produced by [for (; carry; carry /= 58)].
    A 32-bit carry has at most 6 base-58 digits; running out of fuel is reported as [None]. *)
Fixpoint b58_emit (fuel : nat) (carry : Z) : option (list Z) :=
  if carry =? 0 then Some []
  else match fuel with
       | O => None
       | S f => match b58_emit f (carry / 58) with
                | Some r => Some ((carry mod 58) mod 256 :: r)
                | None => None
                end
       end.

(** encodings.cpp:376-387: the loop over the input.  [digits] is the live part
    [digits[0..digitslen)] of the buffer; writing past its capacity [cap] is UB. *)
Fixpoint b58_enc_loop (cap : Z) (values digits : list Z) : outcome (list Z) :=
  match values with
  | [] => Ok digits
  | b :: r =>
      let '(digits', carry) := b58_mul_add digits b in
      match b58_emit 6 carry with
      | None => UB
      | Some extra =>
          let digits'' := digits' ++ extra in
          if zlen digits'' >? cap then UB else b58_enc_loop cap r digits''
      end
  end.

(** encodings.cpp:389-390: [for (i = 0; i < size-1 && !values[i]; i++) push '1'].
    [fuel] is [size-1]. *)
Fixpoint b58_ones (fuel : nat) (values : list Z) : list Z :=
  match fuel, values with
  | S f, v :: r => if v =? 0 then 49 :: b58_ones f r else []
  | _, _ => []
  end.

(** encodings.cpp:374: the size of the digit buffer *)
Definition b58_cap (values : list Z) : Z := zlen values * 138 / 100 + 1.

(** encodings.cpp:372-394 BASE58::encode.  For an empty input [values.size() - 1] wraps to
    2^64-1 and [values[0]] is read out of bounds. *)
Definition base58_encode (values : list Z) : outcome (list Z) :=
  let cap := b58_cap values in
  let* digits := b58_enc_loop cap values [0] in
  match values with
  | [] => UB
  | _ =>
      let* chars := mapM (fun d => get_ub B58_CHARSET (Z.to_nat d)) (rev digits) in
      Ok (b58_ones (length values - 1) values ++ chars)
  end.

(** encodings.cpp:409-414: multiply the little-endian result by 58 and add (uint32). *)
Fixpoint b58_dec_mul (result : list Z) (carry : Z) : list Z * Z :=
  match result with
  | [] => ([], carry)
  | d :: r =>
      let carry := (carry + d * 58) mod 2 ^ 32 in
      let '(r', c') := b58_dec_mul r (Z.shiftr carry 8) in
      (Z.land carry 255 :: r', c')
  end.

(** encodings.cpp:415-420: [while (carry > 0)] push a byte; four rounds empty a uint32. *)
Fixpoint b58_dec_emit (fuel : nat) (carry : Z) : list Z :=
  match fuel with
  | O => []
  | S f => if carry >? 0 then Z.land carry 255 :: b58_dec_emit f (Z.shiftr carry 8) else []
  end.

(** encodings.cpp:402-421.  A table entry -1 becomes the carry 2^32-1. *)
Fixpoint b58_dec_loop (s result : list Z) : outcome (list Z) :=
  match s with
  | [] => Ok result
  | c :: r =>
      if c >=? 128 then Throw
      else
        let* rev := get_ub B58_CHARSET_REV (Z.to_nat c) in
        let '(result', carry) := b58_dec_mul result (rev mod 2 ^ 32) in
        b58_dec_loop r (result' ++ b58_dec_emit 4 carry)
  end.

(** encodings.cpp:423-427: one zero byte per leading '1'. *)
Fixpoint b58_leading_ones (s : list Z) : list Z :=
  match s with
  | c :: r => if c =? 49 then 0 :: b58_leading_ones r else []
  | [] => []
  end.

(** encodings.cpp:432-433: the assignment [result[i] = x] *)
Fixpoint set_at (i : nat) (x : Z) (l : list Z) : list Z :=
  match l, i with
  | [], _ => []
  | _ :: r, O => x :: r
  | y :: r, S i => y :: set_at i x r
  end.
(** encodings.cpp:431-433: exchange [result[i]] and [result[j]] (both in range) *)
Definition b58_swap (result : list Z) (i j : nat) : list Z :=
  let k := nth i result 0 in set_at j k (set_at i (nth j result 0) result).

(** encodings.cpp:429-434: [for (i = res_len - 1; i >= z; i--)].  [z >= 1] because
    [res_len >= 1], so the unsigned [i] does not wrap. *)
Fixpoint b58_swap_loop (result : list Z) (z i : nat) : list Z :=
  if (z <=? i)%nat then
    let result := b58_swap result i (length result - i - 1) in
    match i with O => result | S i => b58_swap_loop result z i end
  else result.

(** encodings.cpp:396-436 BASE58::decode *)
Definition base58_decode (s : list Z) : outcome (list Z) :=
  let* result := b58_dec_loop s [0] in
  let result := result ++ b58_leading_ones s in
  let res_len := length result in
  Ok (b58_swap_loop result (res_len / 2 + res_len mod 2) (res_len - 1)).

(** encodings.cpp:438-442 BASE58::encode_hex *)
Definition base58_encode_hex (hex : list Z) : outcome (list Z) :=
  let* b := hex_decode hex in base58_encode b.
(** encodings.cpp:444-448 BASE58::decode_hex *)
Definition base58_decode_hex (s : list Z) : outcome (list Z) :=
  let* b := base58_decode s in Ok (hex_encode b).
