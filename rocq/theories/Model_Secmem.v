(** Model of SecureByteArray: /repo/include/cardano/secmem.hpp:40-59, and of the two system calls it makes.
    Memory is a function from addresses to bytes, and the system keeps one locked/unlocked bit per page: mlock(2) and munlock(2) act on every page
    that holds a byte of the range, and locks do not nest.  The array's address is chosen by the compiler or the allocator, so it is an argument.
    Simplified: Botan::secure_scrub_memory is writing zeros that the compiler does not remove; pages have a size [P] > 0 that does not change. *)
From Verif Require Import Base.
Local Open Scope list_scope.

(** include/cardano/secmem.hpp:40-41: an array of [o_size] bytes at [o_addr] *)
Record obj := { o_addr : Z; o_size : Z }.
(** include/cardano/secmem.hpp:45, 56, 57: the process's memory as those calls see it: bytes, locked pages, and the arrays alive *)
Record mem := { m_byte : Z -> Z; m_locked : Z -> bool; m_live : list obj }.
(** include/cardano/secmem.hpp:45, 56, 57: the byte at [x] belongs to [data(), data() + Size) *)
Definition in_obj (x : Z) (o : obj) : bool := (o_addr o <=? x) && (x <? o_addr o + o_size o).
(** include/cardano/secmem.hpp:45, 57.  the pages that hold a byte of the array *)
Definition on_page (P p : Z) (o : obj) : bool := (0 <? o_size o) && (o_addr o / P <=? p) && (p <=? (o_addr o + o_size o - 1) / P).
(** include/cardano/secmem.hpp:41: the same array *)
Definition obj_eqb (a b : obj) : bool := (o_addr a =? o_addr b) && (o_size a =? o_size b).
(** include/cardano/secmem.hpp:41: two arrays share a byte *)
Definition overlap (a b : obj) : bool := (o_addr a <? o_addr b + o_size b) && (o_addr b <? o_addr a + o_size a).
(** include/cardano/secmem.hpp:43-58: constructed and not yet destroyed *)
Definition is_live (m : mem) (o : obj) : bool := existsb (obj_eqb o) (m_live m).

(** include/cardano/secmem.hpp:40-59: what a program does with such arrays *)
Inductive sop :=
| Construct (o : obj) (mlock_ok : bool)  (** the default constructor; [mlock_ok] is whether the system call succeeds *)
| CopyConstruct (o : obj) (src : obj)    (** the copy constructor the compiler declares: the class has a destructor and declares no copy or move operation, so moves copy too *)
| Assign (o : obj) (src : obj)           (** the assignment operator the compiler declares *)
| Store (o : obj) (i v : Z)              (** a[i] = v *)
| Destroy (o : obj)
| Elsewhere (x v : Z).                   (** a store outside every such array *)

(** include/cardano/secmem.hpp:43, 56: overwrite the bytes of an array *)
Definition fill (f : Z -> Z) (o : obj) (g : Z -> Z) : Z -> Z := fun x => if in_obj x o then g (x - o_addr o) else f x.
(** include/cardano/secmem.hpp:43.  Storage for a new object never overlaps a live one: what the language guarantees. *)
Definition fresh (m : mem) (o : obj) : bool := (0 <? o_size o) && negb (existsb (overlap o) (m_live m)).

(** include/cardano/secmem.hpp:40-59: one operation; the memory afterwards, and whether the step threw an exception *)
Definition sstep (P : Z) (m : mem) (s : sop) : outcome (mem * bool) :=
  match s with
  (** secmem.hpp:43-52: zero-initialise, mlock, throw if that fails (the object then never existed) *)
  | Construct o ok => if fresh m o then
      if ok then Ok ({| m_byte := fill (m_byte m) o (fun _ => 0); m_locked := fun p => m_locked m p || on_page P p o; m_live := o :: m_live m |}, false)
      else Ok ({| m_byte := fill (m_byte m) o (fun _ => 0); m_locked := m_locked m; m_live := m_live m |}, true)
      else UB
  | CopyConstruct o src => if fresh m o && is_live m src && (o_size o =? o_size src) then
      Ok ({| m_byte := fill (m_byte m) o (fun i => m_byte m (o_addr src + i)); m_locked := m_locked m; m_live := o :: m_live m |}, false) else UB
  | Assign o src => if is_live m o && is_live m src && (o_size o =? o_size src) then
      Ok ({| m_byte := fill (m_byte m) o (fun i => m_byte m (o_addr src + i)); m_locked := m_locked m; m_live := m_live m |}, false) else UB
  | Store o i v => if is_live m o && (0 <=? i) && (i <? o_size o) then
      Ok ({| m_byte := fun x => if x =? o_addr o + i then v else m_byte m x; m_locked := m_locked m; m_live := m_live m |}, false) else UB
  (** secmem.hpp:54-58: scrub, then munlock *)
  | Destroy o => if is_live m o then
      Ok ({| m_byte := fill (m_byte m) o (fun _ => 0); m_locked := fun p => m_locked m p && negb (on_page P p o);
            m_live := filter (fun a => negb (obj_eqb o a)) (m_live m) |}, false) else UB
  | Elsewhere x v => if existsb (in_obj x) (m_live m) then UB else
      Ok ({| m_byte := fun y => if y =? x then v else m_byte m y; m_locked := m_locked m; m_live := m_live m |}, false)
  end.
(** include/cardano/secmem.hpp:40-59: a sequence of operations; execution goes on after an exception (the caller catches it) *)
Fixpoint srun (P : Z) (m : mem) (l : list sop) : outcome mem :=
  match l with [] => Ok m | s :: l => let* r := sstep P m s in srun P (fst r) l end.
