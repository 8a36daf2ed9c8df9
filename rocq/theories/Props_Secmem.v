(** C69: arrays for secrets. *)
From Verif Require Import Base BaseLemmas Model_Secmem.
Local Open Scope list_scope.
Ltac Zify.zify_post_hook ::= idtac.

(** ** Specification *)
(** the byte at [x] belongs to the array; a page (of [P] bytes) holds a byte of it *)
Definition covers (o : obj) (x : Z) : Prop := o_addr o <= x < o_addr o + o_size o.
Definition holds (P : Z) (p : Z) (o : obj) : Prop := exists x, covers o x /\ x / P = p.
(** A program starts with no such array; memory and the other locks are arbitrary. *)
Definition start (m : mem) : Prop := m_live m = [].
(** [s] and [s'] are the same step but for the value stored in an array *)
Inductive same_but_secret : sop -> sop -> Prop :=
| sbs_same s : same_but_secret s s
| sbs_store o i v w : same_but_secret (Store o i v) (Store o i w).
(** the array a step makes, writes to or destroys *)
Definition target (s : sop) (x : Z) : Prop :=
  match s with Construct o _ | CopyConstruct o _ | Assign o _ | Destroy o => covers o x | Store o i _ => x = o_addr o + i | Elsewhere y _ => x = y end.
Definition copies (s : sop) : Prop := match s with CopyConstruct _ _ => True | _ => False end.
(** no page holds bytes of two arrays *)
Definition own_pages (P : Z) (l : list obj) : Prop := forall a b p, In a l -> In b l -> holds P p a -> holds P p b -> a = b.

(** ** Lemmas *)
Lemma in_obj_covers x o : in_obj x o = true <-> covers o x.
Proof. unfold in_obj, covers. rewrite andb_true_iff, Z.leb_le, Z.ltb_lt. reflexivity. Qed.
Lemma in_obj_not x o : in_obj x o = false <-> ~ covers o x.
Proof. rewrite <- in_obj_covers. destruct (in_obj x o); split; congruence. Qed.
Lemma on_page_holds P p o : 0 < P -> (on_page P p o = true <-> holds P p o).
Proof.
  intros HP. unfold on_page, holds, covers. rewrite !andb_true_iff, Z.ltb_lt, !Z.leb_le. split.
  - intros [[S A] B]. exists (Z.max (o_addr o) (p * P)).
    pose proof (Z.div_mod (o_addr o) P ltac:(lia)) as D1. pose proof (Z.mod_pos_bound (o_addr o) P HP) as M1.
    pose proof (Z.div_mod (o_addr o + o_size o - 1) P ltac:(lia)) as D2. pose proof (Z.mod_pos_bound (o_addr o + o_size o - 1) P HP) as M2.
    assert (p * P <= o_addr o + o_size o - 1) by nia. split; [lia|].
    destruct (Z.max_spec (o_addr o) (p * P)) as [[L ->]|[L ->]]; [apply Z.div_mul; lia|].
    apply Z.le_antisymm; [|].
    + exact A.
    + apply Z.div_le_lower_bound; lia.
  - intros (x & [L U] & <-). split; [split|]; [lia|apply Z.div_le_mono; lia|apply Z.div_le_mono; lia].
Qed.
Lemma on_page_not P p o : 0 < P -> (on_page P p o = false <-> ~ holds P p o).
Proof. intros HP. rewrite <- (on_page_holds P p o HP). destruct (on_page P p o); split; congruence. Qed.
Lemma obj_eqb_eq a b : obj_eqb a b = true <-> a = b.
Proof. unfold obj_eqb. rewrite andb_true_iff, !Z.eqb_eq. destruct a, b; cbn. split; [intros []; congruence|]. intros E. injection E. auto. Qed.
Lemma is_live_in m o : is_live m o = true <-> In o (m_live m).
Proof.
  unfold is_live. rewrite existsb_exists. split.
  - intros (x & I & E). apply obj_eqb_eq in E. subst. exact I.
  - intros I. exists o. split; [exact I|]. apply obj_eqb_eq. reflexivity.
Qed.
Lemma in_destroyed o a l : In a (filter (fun a => negb (obj_eqb o a)) l) <-> In a l /\ a <> o.
Proof.
  rewrite filter_In, negb_true_iff. split; intros [I E]; (split; [exact I|]).
  - intros ->. rewrite (proj2 (obj_eqb_eq o o) eq_refl) in E. discriminate.
  - destruct (obj_eqb o a) eqn:Q; [|reflexivity]. apply obj_eqb_eq in Q. congruence.
Qed.
Lemma fresh_spec m o : fresh m o = true -> 0 < o_size o /\ forall a x, In a (m_live m) -> covers o x -> ~ covers a x.
Proof.
  unfold fresh. rewrite andb_true_iff, Z.ltb_lt, negb_true_iff. intros [S E]. split; [exact S|]. intros a x I C D.
  assert (N : existsb (overlap o) (m_live m) = true).
  { apply existsb_exists. exists a. split; [exact I|]. unfold overlap. unfold covers in *. apply andb_true_iff. split; apply Z.ltb_lt; lia. }
  congruence.
Qed.
(** live arrays never overlap *)
Definition sinv (m : mem) : Prop := (forall a, In a (m_live m) -> 0 < o_size a) /\ forall a b x, In a (m_live m) -> In b (m_live m) -> covers a x -> covers b x -> a = b.

Ltac sstep_inv H :=
  let E := fresh "E" in
  unfold sstep in H; match type of H with (if ?c then _ else _) = _ => destruct c eqn:E; try discriminate H end.

Lemma sinv_step P m s m' t : sinv m -> sstep P m s = Ok (m', t) -> sinv m'.
Proof.
  intros [S D] H.
  assert (NEW : forall o, fresh m o = true -> (forall a, In a (o :: m_live m) -> 0 < o_size a) /\
    forall a b x, In a (o :: m_live m) -> In b (o :: m_live m) -> covers a x -> covers b x -> a = b).
  { intros o F. apply fresh_spec in F. destruct F as [F1 F2]. split.
    - intros a [<-|I]; [exact F1|apply S, I].
    - intros a b x [<-|I] [<-|J] A B; [reflexivity|exfalso; exact (F2 _ _ J A B)|exfalso; exact (F2 _ _ I B A)|exact (D a b x I J A B)]. }
  destruct s as [o ok|o src|o src|o i v|o|x v]; sstep_inv H.
  - destruct ok; injection H as <- <-; [exact (NEW o E)|split; assumption].
  - injection H as <- <-. apply andb_prop in E. destruct E as [E _]. apply andb_prop in E. destruct E as [E _]. exact (NEW o E).
  - injection H as <- <-. split; assumption.
  - injection H as <- <-. split; assumption.
  - injection H as <- <-. split; cbn [m_live].
    + intros a I. apply in_destroyed in I. apply S, I.
    + intros a b x I J. apply in_destroyed in I. apply in_destroyed in J. apply D; [apply I|apply J].
  - injection H as <- <-. split; assumption.
Qed.
Lemma srun_inv P l : forall m m', sinv m -> srun P m l = Ok m' -> sinv m'.
Proof.
  induction l as [|s l IH]; intros m m' I H; cbn in H; [injection H as <-; exact I|].
  apply bind_ok in H. destruct H as ([m1 t] & A & B). exact (IH _ _ (sinv_step _ _ _ _ _ I A) B).
Qed.
Lemma start_inv m : start m -> sinv m.
Proof. intros E. unfold start in E. split; rewrite E; [intros a []|intros a b x []]. Qed.
Lemma srun_app P l1 : forall m l2, srun P m (l1 ++ l2) = let* m' := srun P m l1 in srun P m' l2.
Proof. induction l1 as [|s l IH]; intros m l2; cbn; [reflexivity|]. destruct (sstep P m s); cbn; [apply IH|reflexivity|reflexivity]. Qed.

(** ** Theorems *)
(** C69: a new array is zero, its pages are locked and no exception is thrown; if the system refuses to lock, the constructor throws and there is no array. *)
Theorem C69_constructed : forall P m o ok m' threw, 0 < P -> sstep P m (Construct o ok) = Ok (m', threw) ->
  threw = negb ok /\ (forall x, covers o x -> m_byte m' x = 0) /\
  (ok = true -> m_live m' = o :: m_live m /\ forall p, holds P p o -> m_locked m' p = true) /\
  (ok = false -> m_live m' = m_live m /\ m_locked m' = m_locked m).
Proof.
  intros P m o ok m' threw HP H. sstep_inv H.
  destruct ok; injection H as <- <-; cbn [m_byte m_locked m_live].
  - split; [reflexivity|]. split.
    + intros x C. unfold fill. apply in_obj_covers in C. rewrite C. reflexivity.
    + split; [|discriminate]. intros _. split; [reflexivity|]. intros p Hp. apply (on_page_holds P p o HP) in Hp. rewrite Hp. apply orb_true_r.
  - split; [reflexivity|]. split.
    + intros x C. unfold fill. apply in_obj_covers in C. rewrite C. reflexivity.
    + split; [discriminate|]. intros _. split; reflexivity.
Qed.
Print Assumptions C69_constructed.

(** C69: a step changes no byte outside what it writes to; arrays that are alive never share bytes, so it changes no other array. *)
Theorem C69_others_unchanged : forall P m0 l m s m' threw, start m0 -> srun P m0 l = Ok m -> sstep P m s = Ok (m', threw) ->
  (forall x, ~ target s x -> m_byte m' x = m_byte m x) /\
  (forall a b x, In a (m_live m) -> In b (m_live m) -> covers a x -> covers b x -> a = b).
Proof.
  intros P m0 l m s m' threw S R H. split; [|exact (proj2 (srun_inv _ _ _ _ (start_inv _ S) R))].
  intros x N. destruct s as [o ok|o src|o src|o i v|o|y v]; cbn [target] in N; sstep_inv H.
  - apply in_obj_not in N. destruct ok; injection H as <- <-; cbn [m_byte]; unfold fill; rewrite N; reflexivity.
  - apply in_obj_not in N. injection H as <- <-. cbn [m_byte]. unfold fill. rewrite N. reflexivity.
  - apply in_obj_not in N. injection H as <- <-. cbn [m_byte]. unfold fill. rewrite N. reflexivity.
  - injection H as <- <-. cbn [m_byte]. destruct (Z.eqb_spec x (o_addr o + i)); [contradiction|reflexivity].
  - apply in_obj_not in N. injection H as <- <-. cbn [m_byte]. unfold fill. rewrite N. reflexivity.
  - injection H as <- <-. cbn [m_byte]. destruct (Z.eqb_spec x y); [contradiction|reflexivity].
Qed.
Print Assumptions C69_others_unchanged.

(** C69: an array is erased when it is destroyed, and its bytes stay zero for as long as nothing else is written there. *)
Theorem C69_erased : forall P m0 before o after m, start m0 -> srun P m0 (before ++ Destroy o :: after) = Ok m ->
  forall x, covers o x -> Forall (fun s => ~ target s x) after -> m_byte m x = 0.
Proof.
  intros P m0 before o after m S R x C N. rewrite srun_app in R. apply bind_ok in R. destruct R as (m1 & R1 & R2).
  cbn [srun] in R2. apply bind_ok in R2. destruct R2 as ([m2 t] & D & R2). cbn [fst] in R2.
  assert (Z0 : m_byte m2 x = 0).
  { sstep_inv D. injection D as <- <-. cbn [m_byte]. unfold fill. apply in_obj_covers in C. rewrite C. reflexivity. }
  assert (R12 : srun P m0 (before ++ [Destroy o]) = Ok m2). { rewrite srun_app, R1. cbn [bind srun]. rewrite D. reflexivity. }
  revert R12 Z0 R2. generalize (before ++ [Destroy o]). clear m1 R1 D. revert m2.
  induction after as [|s after IH]; intros m2 l R12 Z0 R2; cbn [srun] in R2; [injection R2 as <-; exact Z0|].
  apply bind_ok in R2. destruct R2 as ([m3 t'] & A & R2). cbn [fst] in R2. inversion N as [|? ? N1 N2]; subst.
  apply (IH N2 m3 (l ++ [s])).
  - rewrite srun_app, R12. cbn [bind srun]. rewrite A. reflexivity.
  - rewrite (proj1 (C69_others_unchanged P m0 l m2 s m3 t' S R12 A) x N1). exact Z0.
  - exact R2.
Qed.
Print Assumptions C69_erased.

(** C69: no secret outlives its array.  Take two runs that differ only in the values stored into arrays: whatever was copied and destroyed on the way,
    memory outside the arrays that are alive is the same in both, and so are the arrays and the locks. *)
Theorem C69_no_secret_remains : forall P m0 l l' m m', start m0 -> Forall2 same_but_secret l l' -> srun P m0 l = Ok m -> srun P m0 l' = Ok m' ->
  m_live m = m_live m' /\ (forall p, m_locked m p = m_locked m' p) /\
  forall x, (forall o, In o (m_live m) -> ~ covers o x) -> m_byte m x = m_byte m' x.
Proof.
  intros P m0 l l' m m' S F. 
  assert (G : forall n n', sinv n -> m_live n = m_live n' -> (forall p, m_locked n p = m_locked n' p) ->
    (forall x, (forall o, In o (m_live n) -> ~ covers o x) -> m_byte n x = m_byte n' x) ->
    srun P n l = Ok m -> srun P n' l' = Ok m' ->
    m_live m = m_live m' /\ (forall p, m_locked m p = m_locked m' p) /\ forall x, (forall o, In o (m_live m) -> ~ covers o x) -> m_byte m x = m_byte m' x).
  { induction F as [|s s' l l' R F IH]; intros n n' I L K B H H'; cbn [srun] in H, H'.
    { injection H as <-. injection H' as <-. split; [exact L|]. split; assumption. }
    apply bind_ok in H. destruct H as ([n1 t] & A & H). apply bind_ok in H'. destruct H' as ([n1' t'] & A' & H'). cbn [fst] in H, H'.
    assert (I1 := sinv_step _ _ _ _ _ I A).
    cut (m_live n1 = m_live n1' /\ (forall p, m_locked n1 p = m_locked n1' p) /\ forall x, (forall o, In o (m_live n1) -> ~ covers o x) -> m_byte n1 x = m_byte n1' x).
    { intros (X1 & X2 & X3). exact (IH n1 n1' I1 X1 X2 X3 H H'). }
    clear IH H H' F. destruct R as [s|o i v w].
    - destruct s as [o ok|o src|o src|o i v|o|y v]; sstep_inv A; sstep_inv A'.
      + destruct ok; injection A as <- <-; injection A' as <- <-; cbn [m_live m_locked m_byte].
        * split; [congruence|]. split; [intros p; rewrite K; reflexivity|]. intros x O. unfold fill.
          rewrite (proj2 (in_obj_not x o) (O o (or_introl eq_refl))). apply B. intros a J. apply O. right. exact J.
        * split; [congruence|]. split; [intros p; apply K|]. intros x O. unfold fill. destruct (in_obj x o); [reflexivity|apply B, O].
      + injection A as <- <-. injection A' as <- <-. cbn [m_live m_locked m_byte].
        split; [congruence|]. split; [intros p; apply K|]. intros x O. unfold fill.
        rewrite (proj2 (in_obj_not x o) (O o (or_introl eq_refl))). apply B. intros a J. apply O. right. exact J.
      + injection A as <- <-. injection A' as <- <-. cbn [m_live m_locked m_byte].
        split; [congruence|]. split; [intros p; apply K|]. intros x O. unfold fill.
        apply andb_prop in E. destruct E as [E _]. apply andb_prop in E. destruct E as [E _]. apply is_live_in in E.
        rewrite (proj2 (in_obj_not x o) (O o E)). apply B, O.
      + injection A as <- <-. injection A' as <- <-. cbn [m_live m_locked m_byte].
        split; [congruence|]. split; [intros p; apply K|]. intros x O. destruct (x =? o_addr o + i); [reflexivity|apply B, O].
      + injection A as <- <-. injection A' as <- <-. cbn [m_live m_locked m_byte].
        split; [congruence|]. split; [intros p; rewrite K; reflexivity|]. intros x O. unfold fill. destruct (in_obj x o) eqn:Q; [reflexivity|].
        apply B. intros a J C. destruct (obj_eqb o a) eqn:W.
        * apply obj_eqb_eq in W. subst a. apply in_obj_covers in C. congruence.
        * apply (O a); [|exact C]. apply in_destroyed. split; [exact J|]. intros ->. rewrite (proj2 (obj_eqb_eq o o) eq_refl) in W. discriminate.
      + injection A as <- <-. injection A' as <- <-. cbn [m_live m_locked m_byte].
        split; [congruence|]. split; [intros p; apply K|]. intros x O. destruct (x =? y); [reflexivity|apply B, O].
    - sstep_inv A. sstep_inv A'. injection A as <- <-. injection A' as <- <-. cbn [m_live m_locked m_byte].
      split; [congruence|]. split; [intros p; apply K|]. intros x O. destruct (Z.eqb_spec x (o_addr o + i)) as [->|]; [|apply B, O].
      exfalso. apply andb_prop in E. destruct E as [E U]. apply andb_prop in E. destruct E as [E V]. apply is_live_in in E.
      apply Z.leb_le in V. apply Z.ltb_lt in U. apply (O o E). unfold covers. lia. }
  intros H H'. apply (G m0 m0 (start_inv _ S) eq_refl (fun _ => eq_refl) (fun _ _ => eq_refl) H H').
Qed.
Print Assumptions C69_no_secret_remains.

(** C69: locks are given back: whatever happened, a page that is locked was locked before the program made any array, or holds a byte of an array that is alive. *)
Theorem C69_locks_returned : forall P m0 l m, 0 < P -> start m0 -> srun P m0 l = Ok m ->
  forall p, m_locked m p = true -> m_locked m0 p = true \/ exists o, In o (m_live m) /\ holds P p o.
Proof.
  intros P m0 l m HP S R p.
  assert (G : forall n, (m_locked n p = true -> m_locked m0 p = true \/ exists o, In o (m_live n) /\ holds P p o) -> srun P n l = Ok m ->
    m_locked m p = true -> m_locked m0 p = true \/ exists o, In o (m_live m) /\ holds P p o).
  { clear R. induction l as [|s l IH]; intros n K H; cbn [srun] in H; [injection H as <-; exact K|].
    apply bind_ok in H. destruct H as ([n1 t] & A & H). cbn [fst] in H. refine (IH n1 _ H). clear H IH.
    destruct s as [o ok|o src|o src|o i v|o|y v]; sstep_inv A.
    - destruct ok; injection A as <- <-; cbn [m_live m_locked]; [|exact K]. rewrite orb_true_iff. intros [X|X].
      + destruct (K X) as [Y|(a & I & Hp)]; [left; exact Y|right; exists a; split; [right; exact I|exact Hp]].
      + right. exists o. split; [left; reflexivity|]. apply on_page_holds in X; assumption.
    - injection A as <- <-. cbn [m_live m_locked]. intros X. destruct (K X) as [Y|(a & I & Hp)]; [left; exact Y|right; exists a; split; [right; exact I|exact Hp]].
    - injection A as <- <-. exact K.
    - injection A as <- <-. exact K.
    - injection A as <- <-. cbn [m_live m_locked]. rewrite andb_true_iff, negb_true_iff. intros [X Y].
      destruct (K X) as [W|(a & I & Hp)]; [left; exact W|]. right. exists a. split; [|exact Hp]. apply in_destroyed. split; [exact I|].
      intros ->. apply on_page_not in Y; auto.
    - injection A as <- <-. exact K. }
  apply (G m0); [intros X; left; exact X|exact R].
Qed.
Print Assumptions C69_locks_returned.

(** C69: an array that was not copied, and shares no page with another while both live, is locked for as long as it lives. *)
Theorem C69_locked : forall P m0 l m, 0 < P -> start m0 -> Forall (fun s => ~ copies s) l ->
  (forall l1 l2 n, l = l1 ++ l2 -> srun P m0 l1 = Ok n -> own_pages P (m_live n)) -> srun P m0 l = Ok m ->
  forall o p, In o (m_live m) -> holds P p o -> m_locked m p = true.
Proof.
  intros P m0 l m HP S N W R.
  assert (G : forall r l1 n, l = l1 ++ r -> srun P m0 l1 = Ok n -> (forall o p, In o (m_live n) -> holds P p o -> m_locked n p = true) ->
    srun P n r = Ok m -> forall o p, In o (m_live m) -> holds P p o -> m_locked m p = true).
  { induction r as [|s r IH]; intros l1 n E R1 K H; cbn [srun] in H; [injection H as <-; exact K|].
    apply bind_ok in H. destruct H as ([n1 t] & A & H). cbn [fst] in H.
    assert (E' : l = (l1 ++ [s]) ++ r) by (rewrite <- app_assoc; exact E).
    assert (R' : srun P m0 (l1 ++ [s]) = Ok n1) by (rewrite srun_app, R1; cbn [bind srun]; rewrite A; reflexivity).
    refine (IH (l1 ++ [s]) n1 E' R' _ H). clear IH H.
    pose proof (W l1 (s :: r) n E R1) as O.
    assert (NS : ~ copies s). { rewrite E in N. apply Forall_app in N. destruct N as [_ N]. inversion N; assumption. }
    destruct s as [o ok|o src|o src|o i v|o|y v]; sstep_inv A.
    - destruct ok; injection A as <- <-; cbn [m_live m_locked]; [|exact K]. intros a p [<-|I] Hp.
      + apply (on_page_holds P p _ HP) in Hp. rewrite Hp. apply orb_true_r.
      + rewrite (K a p I Hp). reflexivity.
    - contradiction (NS I).
    - injection A as <- <-. exact K.
    - injection A as <- <-. exact K.
    - injection A as <- <-. cbn [m_live m_locked]. intros a p I Hp. apply in_destroyed in I. destruct I as [I Q]. rewrite (K a p I Hp).
      destruct (on_page P p o) eqn:X; [|reflexivity]. exfalso. apply (on_page_holds P p o HP) in X. apply is_live_in in E0. exact (Q (O a o p I E0 Hp X)).
    - injection A as <- <-. exact K. }
  apply (G l [] m0); [reflexivity|reflexivity| |exact R]. intros o p I. unfold start in S. rewrite S in I. contradiction.
Qed.
Print Assumptions C69_locked.

(** C69, refuted: copying an array (passing a key by value, returning a member) makes an array nothing locks; and destroying an array unlocks the pages it
    shares with others, which stay alive, with what they hold, on a page that may be swapped out. *)
Theorem C69_locked_refuted :
  (forall P m o src m' threw, sstep P m (CopyConstruct o src) = Ok (m', threw) ->
     In o (m_live m') /\ (forall i, 0 <= i < o_size o -> m_byte m' (o_addr o + i) = m_byte m (o_addr src + i)) /\ m_locked m' = m_locked m) /\
  (forall P m o m' threw a p, 0 < P -> sstep P m (Destroy o) = Ok (m', threw) -> In a (m_live m) -> a <> o -> holds P p a -> holds P p o ->
     In a (m_live m') /\ m_locked m' p = false).
Proof.
  split.
  - intros P m o src m' threw H. sstep_inv H. injection H as <- <-. cbn [m_live m_byte m_locked]. split; [left; reflexivity|]. split; [|reflexivity].
    intros i R. unfold fill. rewrite (proj2 (in_obj_covers (o_addr o + i) o)) by (unfold covers; lia). f_equal. lia.
  - intros P m o m' threw a p HP H I N A O. sstep_inv H. injection H as <- <-. cbn [m_live m_locked].
    split; [apply in_destroyed; split; assumption|]. apply (on_page_holds P p o HP) in O. rewrite O. apply andb_false_r.
Qed.
Print Assumptions C69_locked_refuted.

(** Not vacuous: a program with two keys on one page and a copy; the first is destroyed. *)
Definition zero_mem : mem := {| m_byte := fun _ => 7; m_locked := fun _ => false; m_live := [] |}.
Definition key_a := {| o_addr := 4096; o_size := 32 |}. Definition key_b := {| o_addr := 4128; o_size := 64 |}. Definition key_c := {| o_addr := 9000; o_size := 32 |}.
Example C69_example : exists m, start zero_mem /\
  srun 4096 zero_mem [Construct key_a true; Store key_a 3 99; Construct key_b true; CopyConstruct key_c key_a; Destroy key_a] = Ok m /\
  m_byte m (4096 + 3) = 0 /\ m_byte m (9000 + 3) = 99 /\ m_locked m 1 = false /\ m_live m = [key_c; key_b] /\
  own_pages 4096 [key_b] /\ holds 4096 1 key_b.
Proof.
  eexists. split; [reflexivity|]. split; [reflexivity|]. cbn. split; [reflexivity|]. split; [reflexivity|]. split; [reflexivity|]. split; [reflexivity|].
  split; [intros a b p [<-|[]] [<-|[]] _ _; reflexivity|]. exists 4128. split; [unfold covers; cbn; lia|reflexivity].
Qed.
(** and the hypotheses of C69_locked hold of a program with one key *)
Example C69_own_pages : forall l1 l2 n, [Construct key_a true; Store key_a 3 99] = l1 ++ l2 -> srun 4096 zero_mem l1 = Ok n -> own_pages 4096 (m_live n).
Proof.
  intros l1 l2 n E H. destruct l1 as [|s [|s' [|s'' l1]]].
  - cbn in H. injection H as <-. intros a b p [].
  - injection E as <- _. cbn in H. injection H as <-. cbn. intros a b p [<-|[]] [<-|[]] _ _. reflexivity.
  - injection E as <- <- _. cbn in H. injection H as <-. cbn. intros a b p [<-|[]] [<-|[]] _ _. reflexivity.
  - apply (f_equal (@length _)) in E. cbn in E. discriminate.
Qed.

(** C69, exactly: whether a page is locked is decided by the last step that touched an array on it: the making of one that succeeded locks it, the destruction of one unlocks it
    (whoever else lives there), copies and everything else leave it, and before any such step it is as the program found it. *)
Definition settles (P p : Z) (s : sop) (b : bool) : Prop :=
  match s with Construct o ok => ok = true /\ holds P p o /\ b = true | Destroy o => holds P p o /\ b = false | _ => False end.
Theorem C69_locked_exactly : forall P m0 l m, 0 < P -> srun P m0 l = Ok m -> forall p,
  (exists before s after b, l = before ++ s :: after /\ settles P p s b /\ Forall (fun s => forall b, ~ settles P p s b) after /\ m_locked m p = b) \/
  (Forall (fun s => forall b, ~ settles P p s b) l /\ m_locked m p = m_locked m0 p).
Proof.
  intros P m0 l m HP R p. revert m R. induction l as [|s l IH] using rev_ind; intros m R; [right; cbn in R; injection R as <-; split; [constructor|reflexivity]|].
  rewrite srun_app in R. apply bind_ok in R. destruct R as (n & R1 & R2). cbn [srun] in R2. apply bind_ok in R2. destruct R2 as ([n1 t] & A & R2). cbn [fst] in R2. injection R2 as <-. specialize (IH n R1).
  assert (KEEP : (forall b, ~ settles P p s b) -> m_locked n1 p = m_locked n p ->
    (exists before s0 after b, l ++ [s] = before ++ s0 :: after /\ settles P p s0 b /\ Forall (fun s => forall b, ~ settles P p s b) after /\ m_locked n1 p = b) \/
    (Forall (fun s => forall b, ~ settles P p s b) (l ++ [s]) /\ m_locked n1 p = m_locked m0 p)).
  { intros NS E. rewrite E. destruct IH as [(bf & s0 & af & b & -> & T & F & M)|[F M]].
    - left. exists bf, s0, (af ++ [s]), b. split; [rewrite <- app_assoc; reflexivity|]. split; [exact T|]. split; [|exact M]. apply Forall_app. split; [exact F|]. constructor; [exact NS|constructor].
    - right. split; [|exact M]. apply Forall_app. split; [exact F|]. constructor; [exact NS|constructor]. }
  assert (LAST : forall b, settles P p s b -> m_locked n1 p = b ->
    (exists before s0 after b, l ++ [s] = before ++ s0 :: after /\ settles P p s0 b /\ Forall (fun s => forall b, ~ settles P p s b) after /\ m_locked n1 p = b) \/
    (Forall (fun s => forall b, ~ settles P p s b) (l ++ [s]) /\ m_locked n1 p = m_locked m0 p)).
  { intros b T M. left. exists l, s, [], b. split; [reflexivity|]. split; [exact T|]. split; [constructor|exact M]. }
  destruct s as [o ok|o src|o src|o i v|o|y v]; sstep_inv A.
  - destruct ok; injection A as <- <-; cbn [m_locked] in *.
    + destruct (on_page P p o) eqn:X.
      * apply (on_page_holds P p o HP) in X. apply (LAST true); [split; [reflexivity|split; [exact X|reflexivity]]|apply orb_true_r].
      * apply (on_page_not P p o HP) in X. apply KEEP; [intros b (_ & Y & _); exact (X Y)|apply orb_false_r].
    + apply KEEP; [intros b (Y & _); discriminate|reflexivity].
  - injection A as <- <-. apply KEEP; [intros b []|reflexivity].
  - injection A as <- <-. apply KEEP; [intros b []|reflexivity].
  - injection A as <- <-. apply KEEP; [intros b []|reflexivity].
  - injection A as <- <-. cbn [m_locked] in *. destruct (on_page P p o) eqn:X.
    + apply (on_page_holds P p o HP) in X. apply (LAST false); [split; [exact X|reflexivity]|apply andb_false_r].
    + apply (on_page_not P p o HP) in X. apply KEEP; [intros b (Y & _); exact (X Y)|apply andb_true_r].
  - injection A as <- <-. apply KEEP; [intros b []|reflexivity].
Qed.
Print Assumptions C69_locked_exactly.
