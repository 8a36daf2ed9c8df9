(** What the text-envelope files mean, independently of how they are written: a reader for JSON objects whose members are strings (RFC 8259,
    without the \u escapes), decimal numbers, and a file seen through crashes. *)
From Verif Require Import Base Spec_Hex Spec_Cbor Model_Hex Spec_Ed25519.

(** ** JSON objects of strings *)
Definition is_ws (c : Z) : bool := (c =? 32) || (c =? 10) || (c =? 13) || (c =? 9).
Fixpoint skip_ws (s : list Z) : list Z := match s with c :: r => if is_ws c then skip_ws r else s | [] => [] end.
(** The characters of a string, up to the closing quote. *)
Definition unescape (c : Z) : option Z :=
  if c =? 34 then Some 34 else if c =? 92 then Some 92 else if c =? 47 then Some 47 else if c =? 98 then Some 8 else if c =? 102 then Some 12
  else if c =? 110 then Some 10 else if c =? 114 then Some 13 else if c =? 116 then Some 9 else None.
Fixpoint read_chars (s : list Z) : option (list Z * list Z) :=
  match s with
  | [] => None
  | c :: r =>
      if c =? 34 then Some ([], r)
      else if c <? 32 then None
      else if c =? 92 then
        match r with
        | e :: r' => match unescape e, read_chars r' with Some c', Some (x, rest) => Some (c' :: x, rest) | _, _ => None end
        | [] => None
        end
      else match read_chars r with Some (x, rest) => Some (c :: x, rest) | None => None end
  end.
Definition expect (c : Z) (s : list Z) : option (list Z) := match s with x :: r => if x =? c then Some r else None | [] => None end.
Definition read_string (s : list Z) : option (list Z * list Z) := match expect 34 s with Some r => read_chars r | None => None end.
Definition read_member (s : list Z) : option ((list Z * list Z) * list Z) :=
  match read_string (skip_ws s) with
  | None => None
  | Some (k, s) =>
      match expect 58 (skip_ws s) with
      | None => None
      | Some s => match read_string (skip_ws s) with None => None | Some (v, s) => Some ((k, v), s) end
      end
  end.
(** The members from the first one on; [fuel] bounds their number. *)
Fixpoint read_members (fuel : nat) (s : list Z) : option (list (list Z * list Z) * list Z) :=
  match fuel with
  | O => None
  | S f =>
      match read_member s with
      | None => None
      | Some (m, s) =>
          match skip_ws s with
          | c :: r => if c =? 125 then Some ([m], r)
                      else if c =? 44 then match read_members f r with Some (ms, rest) => Some (m :: ms, rest) | None => None end
                      else None
          | [] => None
          end
      end
  end.
Definition is_nil {A} (l : list A) : bool := match l with [] => true | _ => false end.
(** A whole text that is one non-empty object of strings, and nothing else. *)
Definition json_object (s : list Z) : option (list (list Z * list Z)) :=
  match expect 123 (skip_ws s) with
  | None => None
  | Some s => match read_members (length s) s with Some (ms, rest) => if is_nil (skip_ws rest) then Some ms else None | None => None end
  end.

(** ** Envelopes *)
Record envelope := { en_type : list Z; en_desc : list Z; en_payload : list Z }.
Definition member (k : string) (ms : list (list Z * list Z)) : option (list Z) :=
  match find (fun m => zlist_eqb (fst m) (str k)) ms with Some m => Some (snd m) | None => None end.
(** The bytes a hexadecimal text stands for. *)
Fixpoint hex_bytes (t : list Z) : option (list Z) :=
  match t with
  | [] => Some []
  | [_] => None
  | a :: b :: r =>
      let val c := find (fun d => spec_hex_digit d =? c) (map Z.of_nat (seq 0 16)) in
      match val a, val b, hex_bytes r with Some x, Some y, Some l => Some (16 * x + y :: l) | _, _, _ => None end
  end.
Definition read_envelope (text : list Z) : option envelope :=
  match json_object text with
  | None => None
  | Some ms =>
      match member "type" ms, member "description" ms, member "cborHex" ms with
      | Some t, Some d, Some h => match hex_bytes h with Some b => Some {| en_type := t; en_desc := d; en_payload := b |} | None => None end
      | _, _, _ => None
      end
  end.
(** The CBOR item in the envelope (nothing may follow it). *)
Definition payload_item (e : envelope) : option cbor := match cbor_read (en_payload e) with Some (c, []) => Some c | _ => None end.
(** A key file: the type and the key. *)
Definition read_key_file (text : list Z) : option (list Z * list Z) :=
  match read_envelope text with
  | None => None
  | Some e => match payload_item e with Some (CBytes k) => Some (en_type e, k) | _ => None end
  end.
(** Text that a JSON string can hold as it is. *)
Definition plain (s : list Z) : Prop := Forall (fun c => 32 <= c /\ c <> 34 /\ c <> 92) s.

(** ** Decimal numerals *)
(** [t] is the decimal numeral of [n]: digits only, no leading zero, with that value. *)
Definition is_decimal (n : Z) (t : list Z) : Prop :=
  t <> [] /\ Forall (fun c => 48 <= c <= 57) t /\ bev 10 (map (fun c => c - 48) t) = n /\ (forall c r, t = c :: r -> r <> [] -> c <> 48).

(** ** Ed25519 with a 32-byte seed (RFC 8032, 5.1.5 and 5.1.6) *)
Section Rfc8032.
Variables (sha512 : list Z -> list Z) (enc : Z -> list Z).
(** The secret scalar: the first half of the hash, bits 0-2 and 255 cleared, bit 254 set. *)
Definition rfc_scalar (seed : list Z) : Z := let h := lev 256 (firstn 32 (sha512 seed)) in 2 ^ 254 + (h mod 2 ^ 254 - h mod 8).
Definition rfc_public (seed : list Z) : list Z := enc (rfc_scalar seed).
Definition rfc_nonce (seed msg : list Z) : Z := lev 256 (sha512 (skipn 32 (sha512 seed) ++ msg)).
Definition rfc_sign (seed msg : list Z) : list Z :=
  let r := rfc_nonce seed msg in
  let k := lev 256 (sha512 (enc r ++ rfc_public seed ++ msg)) in
  enc r ++ pack_le 32 ((r + k * rfc_scalar seed) mod ell).
End Rfc8032.
