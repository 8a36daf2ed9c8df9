(** BIP-173, written independently of the code: polynomial arithmetic over GF(32). *)
From Verif Require Import Base.

(** GF(32) = GF(2)[a]/(a^5 + a^3 + 1); elements are 0..31. *)
Definition gf32_xtime (a : Z) : Z := let t := 2 * a in if t <? 32 then t else Z.lxor t 41.
Fixpoint gf32_mul_bits (n : nat) (a b : Z) : Z :=
  match n with
  | O => 0
  | S n => Z.lxor (if Z.odd b then a else 0) (gf32_mul_bits n (gf32_xtime a) (b / 2))
  end.
Definition gf32_mul (a b : Z) : Z := gf32_mul_bits 5 a b.

(** g(x) = x^6 + 29x^5 + 22x^4 + 20x^3 + 21x^2 + 29x + 18 *)
Definition bip173_generator : list Z := [29; 22; 20; 21; 29; 18].

(** From the remainder of f(x) (six coefficients, highest first) to that of f(x)*x + v. *)
Definition rem_step (r : list Z) (v : Z) : list Z :=
  match r with
  | [c0; c1; c2; c3; c4; c5] =>
      map (fun p => Z.lxor (fst p) (gf32_mul c0 (snd p)))
          (combine [c1; c2; c3; c4; c5; v] bip173_generator)
  | _ => []
  end.
(** Remainder of 1*x^n + w_1 x^(n-1) + ... + w_n modulo g. *)
Definition bip173_remainder (w : list Z) : list Z := fold_left rem_step w [0; 0; 0; 0; 0; 1].

Definition hrp_symbols (hrp : list Z) : list Z :=
  map (fun c => c / 32) hrp ++ [0] ++ map (fun c => c mod 32) hrp.

Definition alphabet : list Z := str "qpzry9x8gf2tvdw0s3jn54khce6mua7l".

(** [data] regroups the bits of [payload] into 5-bit symbols, with zero padding of less than one symbol. *)
Definition regrouped (payload data : list Z) : Prop :=
  digits_ok 32 data /\
  exists p, 0 <= p < 5 /\ 5 * zlen data = 8 * zlen payload + p /\ bev 32 data = bev 256 payload * 2 ^ p.

(** [text] is the (lower-case) Bech32 form of [payload] under the prefix [hrp]. *)
Definition is_bech32 (hrp payload text : list Z) : Prop :=
  exists data cs,
    regrouped payload data /\ digits_ok 32 cs /\ List.length cs = 6%nat /\
    bip173_remainder (hrp_symbols hrp ++ data ++ cs) = [0; 0; 0; 0; 0; 1] /\
    text = hrp ++ str "1" ++ map (fun v => nth (Z.to_nat v) alphabet 0) (data ++ cs).

Definition ascii_lower (c : Z) : Z := if (65 <=? c) && (c <=? 90) then c + 32 else c.
Definition no_upper (s : list Z) : Prop := Forall (fun c => ~ (65 <= c <= 90)) s.

(** Number of positions (of two equally long texts) that differ other than in letter case. *)
Definition differing (u u' : list Z) : nat :=
  List.length (filter (fun p => negb (ascii_lower (fst p) =? ascii_lower (snd p))) (combine u u')).
