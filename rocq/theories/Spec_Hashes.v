(** BLAKE2b (RFC 7693) and SHA-256/SHA-512 (FIPS 180-4), written from the standards.  The model of the code leaves these functions open
    (Botan provides them); here they are only used to run the model on the test vectors of /repo/test (Vectors.v). *)
From Verif Require Import Base Model_Hex.

(** words of w bits *)
Definition wadd (w x y : Z) : Z := (x + y) mod 2 ^ w.
Definition rotr (w x n : Z) : Z := Z.lor (Z.shiftr x n) (Z.shiftl (x mod 2 ^ n) (w - n)).
Definition nthz (l : list Z) (i : nat) : Z := nth i l 0.
Fixpoint put (l : list Z) (i : nat) (x : Z) : list Z :=
  match l, i with [], _ => [] | _ :: r, O => x :: r | y :: r, S i => y :: put r i x end.
(** the bytes in words of n bytes each *)
Fixpoint chop (n : nat) (k : nat) (b : list Z) : list (list Z) :=
  match k with O => [] | S k => firstn n b :: chop n k (skipn n b) end.

(** ** BLAKE2b, RFC 7693 *)
(** section 2.6 *)
Definition iv512 : list Z :=
  [0x6a09e667f3bcc908; 0xbb67ae8584caa73b; 0x3c6ef372fe94f82b; 0xa54ff53a5f1d36f1; 0x510e527fade682d1; 0x9b05688c2b3e6c1f; 0x1f83d9abfb41bd6b; 0x5be0cd19137e2179].
(** section 2.7 *)
Definition sigma : list (list nat) := [
  [0;1;2;3;4;5;6;7;8;9;10;11;12;13;14;15]; [14;10;4;8;9;15;13;6;1;12;0;2;11;7;5;3]; [11;8;12;0;5;2;15;13;10;14;3;6;7;1;9;4];
  [7;9;3;1;13;12;11;14;2;6;5;10;4;0;15;8]; [9;0;5;7;2;4;10;15;14;1;11;12;6;8;3;13]; [2;12;6;10;0;11;8;3;4;13;7;5;15;14;1;9];
  [12;5;1;15;14;13;4;10;0;7;6;3;9;2;8;11]; [13;11;7;14;12;1;3;9;5;0;15;4;8;6;2;10]; [6;15;14;9;11;3;0;8;12;2;13;7;1;4;10;5];
  [10;2;8;4;7;6;1;5;15;11;9;14;3;12;13;0]; [0;1;2;3;4;5;6;7;8;9;10;11;12;13;14;15]; [14;10;4;8;9;15;13;6;1;12;0;2;11;7;5;3]]%nat.
(** section 3.1 *)
Definition mix (v : list Z) (a b c d : nat) (x y : Z) : list Z :=
  let va := wadd 64 (nthz v a + nthz v b) x in
  let vd := rotr 64 (Z.lxor (nthz v d) va) 32 in
  let vc := wadd 64 (nthz v c) vd in
  let vb := rotr 64 (Z.lxor (nthz v b) vc) 24 in
  let va := wadd 64 (va + vb) y in
  let vd := rotr 64 (Z.lxor vd va) 16 in
  let vc := wadd 64 vc vd in
  let vb := rotr 64 (Z.lxor vb vc) 63 in
  put (put (put (put v a va) b vb) c vc) d vd.
Definition blake_round (m : list Z) (v : list Z) (s : list nat) : list Z :=
  let w i := nthz m (nth i s O) in
  let v := mix v 0 4 8 12 (w 0%nat) (w 1%nat) in
  let v := mix v 1 5 9 13 (w 2%nat) (w 3%nat) in
  let v := mix v 2 6 10 14 (w 4%nat) (w 5%nat) in
  let v := mix v 3 7 11 15 (w 6%nat) (w 7%nat) in
  let v := mix v 0 5 10 15 (w 8%nat) (w 9%nat) in
  let v := mix v 1 6 11 12 (w 10%nat) (w 11%nat) in
  let v := mix v 2 7 8 13 (w 12%nat) (w 13%nat) in
  mix v 3 4 9 14 (w 14%nat) (w 15%nat).
(** section 3.2 *)
Definition blake_compress (h block : list Z) (t : Z) (last : bool) : list Z :=
  let m := map (unpack_le 8) (chop 8 16 block) in
  let v := h ++ iv512 in
  let v := put v 12 (Z.lxor (nthz v 12) (t mod 2 ^ 64)) in
  let v := put v 13 (Z.lxor (nthz v 13) (t / 2 ^ 64)) in
  let v := if last then put v 14 (Z.lxor (nthz v 14) (2 ^ 64 - 1)) else v in
  let v := fold_left (blake_round m) sigma v in
  map (fun i => Z.lxor (Z.lxor (nthz h i) (nthz v i)) (nthz v (i + 8))) (seq 0 8).
(** section 3.3, no key *)
Fixpoint blake_blocks (k : nat) (h b : list Z) (t : Z) : list Z :=
  match k with
  | O => h
  | S O => blake_compress h (b ++ repeat 0 (128 - length b)) (t + zlen b) true
  | S k => blake_blocks k (blake_compress h (firstn 128 b) (t + 128) false) (skipn 128 b) (t + 128)
  end.
Definition blake2b (outlen : nat) (b : list Z) : list Z :=
  let h := put iv512 0 (Z.lxor (nthz iv512 0) (Z.lxor 0x01010000 (Z.of_nat outlen))) in
  firstn outlen (flat_map (pack_le 8) (blake_blocks (Nat.max 1 ((length b + 127) / 128)) h b 0)).
Definition blake2b_224 : list Z -> list Z := blake2b 28.
Definition blake2b_256 : list Z -> list Z := blake2b 32.

(** ** SHA-2, FIPS 180-4 *)
(** section 4.2.3 *)
Definition k512 : list Z := [
  0x428a2f98d728ae22; 0x7137449123ef65cd; 0xb5c0fbcfec4d3b2f; 0xe9b5dba58189dbbc; 0x3956c25bf348b538; 0x59f111f1b605d019; 0x923f82a4af194f9b; 0xab1c5ed5da6d8118;
  0xd807aa98a3030242; 0x12835b0145706fbe; 0x243185be4ee4b28c; 0x550c7dc3d5ffb4e2; 0x72be5d74f27b896f; 0x80deb1fe3b1696b1; 0x9bdc06a725c71235; 0xc19bf174cf692694;
  0xe49b69c19ef14ad2; 0xefbe4786384f25e3; 0x0fc19dc68b8cd5b5; 0x240ca1cc77ac9c65; 0x2de92c6f592b0275; 0x4a7484aa6ea6e483; 0x5cb0a9dcbd41fbd4; 0x76f988da831153b5;
  0x983e5152ee66dfab; 0xa831c66d2db43210; 0xb00327c898fb213f; 0xbf597fc7beef0ee4; 0xc6e00bf33da88fc2; 0xd5a79147930aa725; 0x06ca6351e003826f; 0x142929670a0e6e70;
  0x27b70a8546d22ffc; 0x2e1b21385c26c926; 0x4d2c6dfc5ac42aed; 0x53380d139d95b3df; 0x650a73548baf63de; 0x766a0abb3c77b2a8; 0x81c2c92e47edaee6; 0x92722c851482353b;
  0xa2bfe8a14cf10364; 0xa81a664bbc423001; 0xc24b8b70d0f89791; 0xc76c51a30654be30; 0xd192e819d6ef5218; 0xd69906245565a910; 0xf40e35855771202a; 0x106aa07032bbd1b8;
  0x19a4c116b8d2d0c8; 0x1e376c085141ab53; 0x2748774cdf8eeb99; 0x34b0bcb5e19b48a8; 0x391c0cb3c5c95a63; 0x4ed8aa4ae3418acb; 0x5b9cca4f7763e373; 0x682e6ff3d6b2b8a3;
  0x748f82ee5defb2fc; 0x78a5636f43172f60; 0x84c87814a1f0ab72; 0x8cc702081a6439ec; 0x90befffa23631e28; 0xa4506cebde82bde9; 0xbef9a3f7b2c67915; 0xc67178f2e372532b;
  0xca273eceea26619c; 0xd186b8c721c0c207; 0xeada7dd6cde0eb1e; 0xf57d4f7fee6ed178; 0x06f067aa72176fba; 0x0a637dc5a2c898a6; 0x113f9804bef90dae; 0x1b710b35131c471b;
  0x28db77f523047d84; 0x32caab7b40c72493; 0x3c9ebe0a15c9bebc; 0x431d67c49c100d4c; 0x4cc5d4becb3e42b6; 0x597f299cfc657e2a; 0x5fcb6fab3ad6faec; 0x6c44198c4a475817].
(** section 4.2.2: the constants of SHA-256 are the upper halves of the first 64 *)
Definition k256 : list Z := map (fun k => Z.shiftr k 32) (firstn 64 k512).
(** section 5.3.3 *)
Definition iv256 : list Z := map (fun k => Z.shiftr k 32) iv512.
(** what differs between the two: word length, the twelve shift and rotation amounts (section 4.1), constants *)
Record sha2 := { sw : Z; sS0 : Z * Z * Z; sS1 : Z * Z * Z; ss0 : Z * Z * Z; ss1 : Z * Z * Z; sk : list Z; siv : list Z }.
Definition sha2_256 : sha2 := {| sw := 32; sS0 := (2, 13, 22); sS1 := (6, 11, 25); ss0 := (7, 18, 3); ss1 := (17, 19, 10); sk := k256; siv := iv256 |}.
Definition sha2_512 : sha2 := {| sw := 64; sS0 := (28, 34, 39); sS1 := (14, 18, 41); ss0 := (1, 8, 7); ss1 := (19, 61, 6); sk := k512; siv := iv512 |}.
Definition big (w : Z) (r : Z * Z * Z) (x : Z) : Z := let '(a, b, c) := r in Z.lxor (Z.lxor (rotr w x a) (rotr w x b)) (rotr w x c).
Definition small (w : Z) (r : Z * Z * Z) (x : Z) : Z := let '(a, b, c) := r in Z.lxor (Z.lxor (rotr w x a) (rotr w x b)) (Z.shiftr x c).
(** section 6.2.2, step 1: the message schedule; [win] the last sixteen words *)
Fixpoint schedule (p : sha2) (n : nat) (win : list Z) : list Z :=
  match n with
  | O => []
  | S n =>
      let x := (small (sw p) (ss1 p) (nthz win 14) + nthz win 9 + small (sw p) (ss0 p) (nthz win 1) + nthz win 0) mod 2 ^ sw p in
      match win with [] => [] | w0 :: r => w0 :: schedule p n (r ++ [x]) end
  end.
(** steps 2 to 4 *)
Definition sha_round (p : sha2) (v : list Z) (kw : Z * Z) : list Z :=
  let a := nthz v 0 in let b := nthz v 1 in let c := nthz v 2 in let e := nthz v 4 in
  let ch := Z.lxor (Z.land e (nthz v 5)) (Z.land (2 ^ sw p - 1 - e) (nthz v 6)) in
  let maj := Z.lxor (Z.lxor (Z.land a b) (Z.land a c)) (Z.land b c) in
  let t1 := (nthz v 7 + big (sw p) (sS1 p) e + ch + fst kw + snd kw) mod 2 ^ sw p in
  let t2 := big (sw p) (sS0 p) a + maj in
  [wadd (sw p) t1 t2; a; b; c; wadd (sw p) (nthz v 3) t1; e; nthz v 5; nthz v 6].
Definition sha_block (p : sha2) (h block : list Z) : list Z :=
  let wb := Z.to_nat (sw p / 8) in
  let m := map (unpack_be wb) (chop wb 16 block) in
  let v := fold_left (sha_round p) (combine (sk p) (schedule p (length (sk p)) m)) h in
  map (fun xy => wadd (sw p) (fst xy) (snd xy)) (combine h v).
(** section 5.1 and 6.2 *)
Definition sha2_hash (p : sha2) (b : list Z) : list Z :=
  let wb := Z.to_nat (sw p / 8) in
  let bb := (16 * wb)%nat in
  let zeros := Z.to_nat ((- (zlen b + 1 + 2 * Z.of_nat wb)) mod Z.of_nat bb) in
  let padded := b ++ 0x80 :: repeat 0 (zeros + wb) ++ pack_be wb (8 * zlen b) in
  flat_map (pack_be wb) (fold_left (sha_block p) (chop bb (length padded / bb) padded) (siv p)).
Definition sha256 : list Z -> list Z := sha2_hash sha2_256.
Definition sha512 : list Z -> list Z := sha2_hash sha2_512.

(** ** HMAC (RFC 2104) and PBKDF2 (RFC 8018, section 5.2) with SHA-512 *)
Definition hmac512 (key msg : list Z) : list Z :=
  let k := if (128 <? length key)%nat then sha512 key else key in
  let k := k ++ repeat 0 (128 - length k) in
  sha512 (map (Z.lxor 0x5c) k ++ sha512 (map (Z.lxor 0x36) k ++ msg)).
Definition xor_bytes (a b : list Z) : list Z := map (fun xy => Z.lxor (fst xy) (snd xy)) (combine a b).
(** F: the iterations xored together; [u] the last iterate, [acc] what is collected *)
Fixpoint pbkdf2_iter (n : nat) (pass u acc : list Z) : list Z :=
  match n with O => acc | S n => let u := hmac512 pass u in pbkdf2_iter n pass u (xor_bytes acc u) end.
Definition pbkdf2_block (iterations : Z) (pass salt : list Z) (i : Z) : list Z :=
  let u := hmac512 pass (salt ++ pack_be 4 i) in pbkdf2_iter (Z.to_nat (iterations - 1)) pass u u.
Definition pbkdf2_512 (iterations : Z) (n : nat) (pass salt : list Z) : list Z :=
  firstn n (flat_map (fun i => pbkdf2_block iterations pass salt (Z.of_nat i)) (seq 1 ((n + 63) / 64))).
