(** CBOR data items and a reader written from RFC 8949 (definite lengths, integers, strings, arrays, maps, tags,
    false / true / null: the kinds the library emits). *)
From Verif Require Import Base.

Inductive cbor :=
| CUint (n : Z)              (* major type 0 *)
| CNint (n : Z)              (* major type 1: the integer -1 - n *)
| CBytes (b : list Z)        (* major type 2 *)
| CText (b : list Z)         (* major type 3, the UTF-8 bytes *)
| CArray (l : list cbor)     (* major type 4 *)
| CMap (l : list (cbor * cbor)) (* major type 5, in order *)
| CTag (t : Z) (c : cbor)    (* major type 6 *)
| CBool (b : bool)           (* simple 20, 21 *)
| CNull.                     (* simple 22 *)

(** Items that exist: arguments below 2^64, bytes below 256. *)
Fixpoint cbor_ok (c : cbor) : Prop :=
  match c with
  | CUint n | CNint n => 0 <= n < 2 ^ 64
  | CBytes b | CText b => bytes_ok b /\ zlen b < 2 ^ 64
  | CArray l => zlen l < 2 ^ 64 /\ fold_right (fun x P => cbor_ok x /\ P) True l
  | CMap l => zlen l < 2 ^ 64 /\ fold_right (fun p P => (let '(a, b) := p in cbor_ok a /\ cbor_ok b) /\ P) True l
  | CTag t c => 0 <= t < 2 ^ 64 /\ cbor_ok c
  | CBool _ | CNull => True
  end.

(** RFC 8949 section 3: the argument that follows an initial byte with additional information [ai]. *)
Definition take_be (k : nat) (s : list Z) : option (Z * list Z) :=
  if (length s <? k)%nat then None else Some (bev 256 (firstn k s), skipn k s).
Definition read_arg (ai : Z) (s : list Z) : option (Z * list Z) :=
  if ai <? 24 then Some (ai, s)
  else if ai =? 24 then take_be 1 s else if ai =? 25 then take_be 2 s
  else if ai =? 26 then take_be 4 s else if ai =? 27 then take_be 8 s
  else None.
Definition take_bytes (n : Z) (s : list Z) : option (list Z * list Z) :=
  if zlen s <? n then None else Some (firstn (Z.to_nat n) s, skipn (Z.to_nat n) s).

(** [n] things in sequence; [k] bounds the number of steps. *)
Fixpoint read_many {A} (rd : list Z -> option (A * list Z)) (k : nat) (n : Z) (s : list Z) : option (list A * list Z) :=
  if n <=? 0 then Some ([], s)
  else match k with
       | O => None
       | S k => match rd s with
                | None => None
                | Some (x, s) => match read_many rd k (n - 1) s with None => None | Some (l, s) => Some (x :: l, s) end
                end
       end.
Definition read_pair {A} (rd : list Z -> option (A * list Z)) (s : list Z) : option ((A * A) * list Z) :=
  match rd s with
  | None => None
  | Some (a, s) => match rd s with None => None | Some (b, s) => Some ((a, b), s) end
  end.

(** One item and the bytes after it. *)
Fixpoint read_item (fuel : nat) (s : list Z) : option (cbor * list Z) :=
  match fuel, s with
  | S f, b :: s =>
      match read_arg (b mod 32) s with
      | None => None
      | Some (n, s) =>
          match b / 32 with
          | 0 => Some (CUint n, s)
          | 1 => Some (CNint n, s)
          | 2 => match take_bytes n s with None => None | Some (x, s) => Some (CBytes x, s) end
          | 3 => match take_bytes n s with None => None | Some (x, s) => Some (CText x, s) end
          | 4 => match read_many (read_item f) f n s with None => None | Some (l, s) => Some (CArray l, s) end
          | 5 => match read_many (read_pair (read_item f)) f n s with None => None | Some (l, s) => Some (CMap l, s) end
          | 6 => match read_item f s with None => None | Some (c, s) => Some (CTag n c, s) end
          | 7 => if b mod 32 =? 20 then Some (CBool false, s) else if b mod 32 =? 21 then Some (CBool true, s)
                 else if b mod 32 =? 22 then Some (CNull, s) else None
          | _ => None
          end
      end
  | _, _ => None
  end.
(** Every item takes at least one byte, so the input's length bounds the depth. *)
Definition cbor_read (s : list Z) : option (cbor * list Z) := read_item (length s) s.
