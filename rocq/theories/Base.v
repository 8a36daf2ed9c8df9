(** Shared vocabulary of the model: bytes, texts, outcomes, positional values. *)
From Coq Require Export List ZArith Lia Bool Ascii String.
From Coq Require Export ZifyBool ZifyNat ZifyN.
Export ListNotations.
Open Scope Z_scope.
Open Scope bool_scope.
Open Scope list_scope.
(* [String] shadows these names; restore the list ones. *)
Notation length := List.length.
Notation concat := List.concat.

(** ** Outcomes of a C++ call.
    [Ok a]  : the call returns [a];
    [Throw] : the call throws a C++ exception (the kind is not modelled);
    [UB]    : the call performs undefined behaviour (out-of-bounds access, null
              dereference, use of an uninitialised value, ...). *)
Inductive outcome (A : Type) : Type :=
| Ok (a : A)
| Throw
| UB.
Arguments Ok {A} a.
Arguments Throw {A}.
Arguments UB {A}.

Definition bind {A B} (x : outcome A) (f : A -> outcome B) : outcome B :=
  match x with Ok a => f a | Throw => Throw | UB => UB end.
Notation "'let*' x ':=' c1 'in' c2" := (bind c1 (fun x => c2))
  (at level 61, x pattern, c1 at next level, right associativity).

Definition omap {A B} (f : A -> B) (x : outcome A) : outcome B :=
  let* a := x in Ok (f a).

Definition is_ok {A} (x : outcome A) : bool :=
  match x with Ok _ => true | _ => false end.

(** Run [f] over a list, left to right, stopping at the first [Throw]/[UB]. *)
Fixpoint mapM {A B} (f : A -> outcome B) (l : list A) : outcome (list B) :=
  match l with
  | [] => Ok []
  | x :: r => let* y := f x in let* ys := mapM f r in Ok (y :: ys)
  end.

(** A checked vector read: out of range is undefined behaviour. *)
Definition get_ub {A} (l : list A) (i : nat) : outcome A :=
  match nth_error l i with Some a => Ok a | None => UB end.

(** ** Bytes and texts.  A [uint8_t] or [char] is a [Z] in [0,256). *)
Definition byte_ok (b : Z) : Prop := 0 <= b < 256.
Definition byte_okb (b : Z) : bool := (0 <=? b) && (b <? 256).
Definition bytes_ok (l : list Z) : Prop := Forall byte_ok l.
Definition bytes_okb (l : list Z) : bool := forallb byte_okb l.

Lemma byte_okb_spec b : byte_okb b = true <-> byte_ok b.
Proof. unfold byte_okb, byte_ok. lia. Qed.

Lemma bytes_okb_spec l : bytes_okb l = true <-> bytes_ok l.
Proof.
  unfold bytes_okb, bytes_ok. rewrite forallb_forall, Forall_forall.
  split; intros H x Hx; apply byte_okb_spec; auto.
Qed.

(** Text literals, e.g. [str "addr"], as lists of character codes. *)
Definition chr (a : ascii) : Z := Z.of_N (N_of_ascii a).
Definition str (s : string) : list Z := List.map chr (list_ascii_of_string s).

(** ** Positional values. *)
(** Value of a big-endian digit list in base [B]. *)
Definition bev (B : Z) (l : list Z) : Z := fold_left (fun a d => a * B + d) l 0.
(** Value of a little-endian digit list in base [B]. *)
Fixpoint lev (B : Z) (l : list Z) : Z :=
  match l with [] => 0 | d :: r => d + B * lev B r end.

Definition zlen {A} (l : list A) : Z := Z.of_nat (length l).

Definition digits_ok (B : Z) (l : list Z) : Prop := Forall (fun d => 0 <= d < B) l.

(** List equality test. *)
Fixpoint zlist_eqb (a b : list Z) : bool :=
  match a, b with
  | [], [] => true
  | x :: xs, y :: ys => (x =? y) && zlist_eqb xs ys
  | _, _ => false
  end.
