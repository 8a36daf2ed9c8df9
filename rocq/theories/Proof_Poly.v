(** Polynomials over Z modulo a prime: root counting and Lagrange interpolation. *)
From Verif Require Import Base BaseLemmas Spec_Ed25519 Spec_Tss.
From Coq Require Import Znumtheory.
Ltac Zify.zify_post_hook ::= idtac.

(** Sum of f 0 .. f (n-1). *)
Fixpoint sumn (f : nat -> Z) (n : nat) : Z := match n with O => 0 | S n => sumn f n + f n end.
Definition prodl (l : list Z) : Z := fold_right Z.mul 1 l.

Fixpoint padd2 (p r : list Z) : list Z :=
  match p, r with [], _ => r | _, [] => p | a :: p, b :: r => a + b :: padd2 p r end.
Definition pscale (k : Z) (p : list Z) : list Z := map (Z.mul k) p.
Fixpoint prodx (xs : list Z) : list Z :=
  match xs with [] => [1] | x :: r => padd2 (0 :: prodx r) (pscale (- x) (prodx r)) end.
Fixpoint psum (f : nat -> list Z) (n : nat) : list Z := match n with O => [] | S n => padd2 (psum f n) (f n) end.
Fixpoint pquot (p : list Z) (a : Z) : list Z :=
  match p with [] => [] | c :: r => match r with [] => [] | _ => peval r a :: pquot r a end end.

Lemma peval_padd p : forall r x, peval (padd2 p r) x = peval p x + peval r x.
Proof.
  induction p as [|a p IH]; intros r x; destruct r as [|b r]; cbn [padd2 peval]; try rewrite IH; ring.
Qed.
Lemma peval_pscale k p x : peval (pscale k p) x = k * peval p x.
Proof. unfold pscale. induction p as [|a p IH]; cbn [map peval]; [lia|]. rewrite IH. ring. Qed.
Lemma peval_prodx xs y : peval (prodx xs) y = prodl (map (fun x => y - x) xs).
Proof.
  induction xs as [|x r IH]; cbn [prodx map peval]; [rewrite Z.mul_0_r; reflexivity|].
  rewrite peval_padd, peval_pscale. cbn [peval]. rewrite IH. unfold prodl. cbn [fold_right]. fold (prodl (map (fun x => y - x) r)). ring.
Qed.
Lemma padd2_length p : forall r, length (padd2 p r) = Nat.max (length p) (length r).
Proof. induction p as [|a p IH]; intros [|b r]; cbn [padd2 length]; try lia. rewrite IH. lia. Qed.
Lemma prodx_length xs : length (prodx xs) = S (length xs).
Proof. induction xs as [|x r IH]; [reflexivity|]. cbn [prodx]. rewrite padd2_length. cbn [length]. unfold pscale. rewrite map_length, IH. lia. Qed.
Lemma psum_length f n m : (forall i, (i < n)%nat -> (length (f i) <= m)%nat) -> (length (psum f n) <= m)%nat.
Proof. induction n as [|n IH]; intros H; cbn [psum]; [cbn; lia|]. rewrite padd2_length. pose proof (H n ltac:(lia)). pose proof (IH ltac:(intros; apply H; lia)). lia. Qed.
Lemma peval_psum f n x : peval (psum f n) x = sumn (fun i => peval (f i) x) n.
Proof. induction n as [|n IH]; cbn [psum sumn]; [reflexivity|]. rewrite peval_padd, IH. reflexivity. Qed.
Lemma pquot_spec p a x : peval p x = peval p a + (x - a) * peval (pquot p a) x.
Proof.
  induction p as [|c r IH]; cbn [peval pquot]; [ring|].
  destruct r as [|d r]; [cbn [peval]; ring|]. remember (d :: r) as l. cbn [peval]. rewrite IH at 1. ring.
Qed.
Lemma pquot_length p a : length (pquot p a) = (length p - 1)%nat.
Proof. induction p as [|c r IH]; [reflexivity|]. cbn [pquot length]. destruct r as [|d r]; [reflexivity|]. cbn [length] in *. rewrite IH. lia. Qed.

Section Prime.
Variable q : Z.
Hypothesis Pq : prime q.
Definition eqm (a b : Z) : Prop := a mod q = b mod q.
Local Infix "==" := eqm (at level 70).
Lemma q2 : 2 <= q. Proof. exact (prime_ge_2 q Pq). Qed.
Lemma q0 : q <> 0. Proof. pose proof q2; lia. Qed.

Lemma eqm_0_divide a : a == 0 <-> (q | a).
Proof. unfold eqm. rewrite (Z.mod_0_l q q0). apply Z.mod_divide, q0. Qed.
Lemma eqm_sub a b : a == b <-> (q | a - b).
Proof.
  rewrite <- eqm_0_divide. unfold eqm. rewrite (Z.mod_0_l q q0). split; intros H.
  - rewrite Zminus_mod, H, Z.sub_diag. apply Z.mod_0_l, q0.
  - replace a with (b + (a - b)) by ring. rewrite Z.add_mod, H, Z.add_0_r, Z.mod_mod by apply q0. reflexivity.
Qed.
Lemma eqm_refl a : a == a. Proof. reflexivity. Qed.
Lemma eqm_sym a b : a == b -> b == a. Proof. unfold eqm; congruence. Qed.
Lemma eqm_trans a b c : a == b -> b == c -> a == c. Proof. unfold eqm; congruence. Qed.
Lemma eqm_add a b c d : a == b -> c == d -> a + c == b + d.
Proof. unfold eqm. intros H1 H2. rewrite Z.add_mod, H1, H2, <- Z.add_mod by apply q0. reflexivity. Qed.
Lemma eqm_mul a b c d : a == b -> c == d -> a * c == b * d.
Proof. unfold eqm. intros H1 H2. rewrite Z.mul_mod, H1, H2, <- Z.mul_mod by apply q0. reflexivity. Qed.
Lemma eqm_opp a b : a == b -> - a == - b.
Proof. intros H. replace (- a) with (-1 * a) by ring. replace (- b) with (-1 * b) by ring. apply eqm_mul; [reflexivity|exact H]. Qed.
Lemma eqm_mod a : a mod q == a. Proof. unfold eqm. apply Z.mod_mod, q0. Qed.
Lemma eqm_int a b : a * b == 0 -> a == 0 \/ b == 0.
Proof. rewrite !eqm_0_divide. apply prime_mult, Pq. Qed.
Lemma eqm_cancel a b c : ~ a == 0 -> a * b == a * c -> b == c.
Proof.
  intros N H. apply eqm_sub in H. replace (a * b - a * c) with (a * (b - c)) in H by ring.
  apply prime_mult in H; [|exact Pq]. destruct H as [H|H]; [exfalso; apply N; apply eqm_0_divide; exact H|apply eqm_sub; exact H].
Qed.
Lemma prodl_nonzero l : (forall x, In x l -> ~ x == 0) -> ~ prodl l == 0.
Proof.
  induction l as [|a l IH]; intros H; unfold prodl; cbn [fold_right].
  - unfold eqm. pose proof q2. rewrite Z.mod_0_l, Z.mod_small by lia. lia.
  - intros E. apply eqm_int in E as [E|E]; [apply (H a (or_introl eq_refl)), E|]. revert E. apply IH. intros x I. apply H. right; exact I.
Qed.
Lemma peval_zero p x : (forall c, In c p -> c == 0) -> peval p x == 0.
Proof.
  induction p as [|c r IH]; intros H; cbn [peval]; [reflexivity|].
  apply (eqm_trans _ (0 + x * 0)); [|rewrite Z.mul_0_r; reflexivity].
  apply eqm_add; [apply H; left; reflexivity|]. apply eqm_mul; [reflexivity|]. apply IH. intros d I. apply H. right; exact I.
Qed.

Lemma pquot_zero p a : (forall c, In c (pquot p a) -> c == 0) -> peval p a == 0 -> forall c, In c p -> c == 0.
Proof.
  induction p as [|c r IH]; intros HQ HP d I; [destruct I|].
  assert (R0 : peval r a == 0 /\ forall e, In e r -> e == 0).
  { destruct r as [|e r]; [split; [reflexivity|intros ? []]|].
    assert (X : peval (e :: r) a == 0) by (apply HQ; left; reflexivity).
    split; [exact X|]. apply IH; [|exact X]. intros f If. apply HQ. cbn [pquot]. right. exact If. }
  destruct R0 as [X Y]. destruct I as [<-|I]; [|apply Y, I].
  cbn [peval] in HP. apply (eqm_trans _ (c + a * peval r a)); [|exact HP].
  apply (eqm_trans _ (c + a * 0)); [rewrite Z.mul_0_r, Z.add_0_r; reflexivity|]. apply eqm_add; [reflexivity|]. apply eqm_mul; [reflexivity|]. apply eqm_sym, X.
Qed.

(** Pairwise distinct modulo q. *)
Definition distinct (xs : list Z) : Prop := ForallOrdPairs (fun a b => ~ a == b) xs.

Lemma roots xs : forall p, distinct xs -> (length p <= length xs)%nat -> (forall x, In x xs -> peval p x == 0) -> forall c, In c p -> c == 0.
Proof.
  induction xs as [|a xs IH]; intros p D L R.
  - destruct p; [intros ? []|cbn in L; lia].
  - inversion D as [|? ? Da D']; subst. rewrite Forall_forall in Da.
    assert (Ra : peval p a == 0) by (apply R; left; reflexivity).
    apply pquot_zero with a; [|exact Ra]. apply IH; [exact D'|rewrite pquot_length; cbn [length] in L; lia|].
    intros x I. pose proof (R x (or_intror I)) as Rx. rewrite (pquot_spec p a x) in Rx.
    assert (E : (x - a) * peval (pquot p a) x == 0).
    { apply (eqm_trans _ (peval p a + (x - a) * peval (pquot p a) x + - peval p a)); [replace (peval p a + (x - a) * peval (pquot p a) x + - peval p a) with ((x - a) * peval (pquot p a) x) by ring; reflexivity|].
      apply (eqm_trans _ (0 + - 0)); [|reflexivity]. apply eqm_add; [exact Rx|apply eqm_opp, Ra]. }
    apply eqm_int in E as [E|E]; [|exact E]. exfalso. apply (Da x I). apply eqm_0_divide in E. apply eqm_sub.
    replace (a - x) with (- (x - a)) by ring. apply Z.divide_opp_r, E.
Qed.

(** Two polynomials with as many coefficients as points agree everywhere if they agree on the points. *)
Lemma roots_eq xs p r : distinct xs -> (length p <= length xs)%nat -> (length r <= length xs)%nat ->
  (forall x, In x xs -> peval p x == peval r x) -> forall x, peval p x == peval r x.
Proof.
  intros D L1 L2 H x. apply eqm_sub. apply eqm_0_divide.
  replace (peval p x - peval r x) with (peval (padd2 p (pscale (-1) r)) x) by (rewrite peval_padd, peval_pscale; ring).
  apply peval_zero. apply (roots xs); [exact D|rewrite padd2_length; unfold pscale; rewrite map_length; lia|].
  intros y I. rewrite peval_padd, peval_pscale. apply eqm_0_divide. replace (peval p y + -1 * peval r y) with (peval p y - peval r y) by ring.
  apply eqm_sub, H, I.
Qed.
Lemma padd2_in_sub p : forall r, length p = length r -> (forall c, In c (padd2 p (pscale (-1) r)) -> c == 0) -> Forall2 eqm p r.
Proof.
  induction p as [|a p IH]; intros [|b r] L H; try discriminate; constructor.
  - assert (X : a + -1 * b == 0) by (apply H; left; reflexivity). apply eqm_sub. apply eqm_0_divide. replace (a - b) with (a + -1 * b) by ring. exact X.
  - apply IH; [cbn in L; lia|]. intros c I. apply H. right. exact I.
Qed.
Lemma coefs_unique xs p r : distinct xs -> length p = length xs -> length r = length xs ->
  (forall x, In x xs -> peval p x == peval r x) -> Forall2 eqm p r.
Proof.
  intros D L1 L2 H. apply padd2_in_sub; [lia|]. apply (roots xs); [exact D|rewrite padd2_length; unfold pscale; rewrite map_length; lia|].
  intros y I. rewrite peval_padd, peval_pscale. apply eqm_0_divide. replace (peval p y + -1 * peval r y) with (peval p y - peval r y) by ring.
  apply eqm_sub, H, I.
Qed.

(** ** Lagrange *)
Definition others (i : nat) (xs : list Z) : list Z := firstn i xs ++ skipn (S i) xs.

Lemma others_in i xs x : In x (others i xs) <-> exists j, (j < length xs)%nat /\ j <> i /\ nth j xs 0 = x.
Proof.
  revert i; induction xs as [|a xs IH]; intros i.
  - unfold others. rewrite firstn_nil. cbn. split; [intros []|intros (j & H & _); cbn in H; lia].
  - destruct i as [|i].
    + unfold others. cbn [firstn skipn app]. split.
      * intros I. apply (In_nth _ _ 0) in I as (j & Hj & E). exists (S j). cbn [length nth]. repeat split; [lia|lia|exact E].
      * intros (j & Hj & N & E). destruct j as [|j]; [lia|]. cbn [nth length] in *. subst x. apply nth_In. lia.
    + change (others (S i) (a :: xs)) with (a :: others i xs). cbn [In]. rewrite IH. split.
      * intros [<-|(j & Hj & N & E)]; [exists 0%nat; cbn; repeat split; lia|]. exists (S j). cbn [nth length]. repeat split; [lia|lia|exact E].
      * intros (j & Hj & N & E). destruct j as [|j]; [left; cbn in E; congruence|]. right. exists j. cbn [nth length] in *. repeat split; [lia|lia|exact E].
Qed.
Lemma others_length i xs : (i < length xs)%nat -> length (others i xs) = (length xs - 1)%nat.
Proof. intros H. unfold others. rewrite app_length, firstn_length, skipn_length. lia. Qed.

Lemma distinct_nth xs i j : distinct xs -> (i < length xs)%nat -> (j < length xs)%nat -> i <> j -> ~ nth i xs 0 == nth j xs 0.
Proof.
  intros D. revert i j. induction D as [|a xs F D IH]; intros i j Hi Hj N; [cbn in Hi; lia|].
  rewrite Forall_forall in F. destruct i as [|i], j as [|j]; cbn [nth length] in *; try lia.
  - apply F, nth_In. lia.
  - intros E. apply (F (nth i xs 0)); [apply nth_In; lia|apply eqm_sym, E].
  - apply IH; lia.
Qed.
Lemma sumn_ext f g n : (forall i, (i < n)%nat -> f i == g i) -> sumn f n == sumn g n.
Proof. induction n as [|n IH]; intros H; cbn [sumn]; [reflexivity|]. apply eqm_add; [apply IH; intros; apply H; lia|apply H; lia]. Qed.
Lemma sumn_single f k n : (k < n)%nat -> (forall i, (i < n)%nat -> i <> k -> f i == 0) -> sumn f n == f k.
Proof.
  intros Hk H. induction n as [|n IH]; [lia|]. cbn [sumn]. destruct (Nat.eq_dec k n) as [->|N].
  - apply (eqm_trans _ (sumn (fun _ => 0) n + f n)).
    + apply eqm_add; [apply sumn_ext; intros i Hi; apply H; lia|reflexivity].
    + replace (sumn (fun _ => 0) n) with 0; [reflexivity|]. clear. induction n as [|n IH]; cbn [sumn]; lia.
  - apply (eqm_trans _ (f k + 0)); [|rewrite Z.add_0_r; reflexivity]. apply eqm_add; [apply IH; [lia|intros; apply H; lia]|apply H; lia].
Qed.

(** Inverses, for the values D_i *)
Lemma inverse a : ~ a == 0 -> exists b, a * b == 1.
Proof.
  intros N. assert (R : rel_prime a q).
  { apply rel_prime_sym, prime_rel_prime; [exact Pq|]. intros D. apply N, eqm_0_divide, D. }
  apply rel_prime_bezout in R. destruct R as [u v E]. exists u. apply eqm_sub. exists (- v). lia.
Qed.

Lemma prodl_zero_in l x : In x l -> x == 0 -> prodl l == 0.
Proof.
  induction l as [|a l IH]; intros I E; [destruct I|]. unfold prodl; cbn [fold_right]. fold (prodl l). destruct I as [<-|I].
  - apply (eqm_trans _ (0 * prodl l)); [apply eqm_mul; [exact E|reflexivity]|reflexivity].
  - apply (eqm_trans _ (a * 0)); [apply eqm_mul; [reflexivity|apply IH; assumption]|rewrite Z.mul_0_r; reflexivity].
Qed.

Definition dprod (xs : list Z) (i : nat) : Z := prodl (map (fun x => nth i xs 0 - x) (others i xs)).
Lemma dprod_nonzero xs i : distinct xs -> (i < length xs)%nat -> ~ dprod xs i == 0.
Proof.
  intros D Hi. apply prodl_nonzero. intros y I E. apply in_map_iff in I as (x & <- & I).
  apply others_in in I as (j & Hj & N & <-). apply (distinct_nth xs i j D Hi Hj ltac:(lia)).
  apply eqm_sub. apply eqm_0_divide. exact E.
Qed.

(** Interpolation of arbitrary values [y i] at [nth i xs 0], given inverses [w i] of the [dprod xs i]. *)
Definition interp (xs : list Z) (w y : nat -> Z) : list Z := psum (fun i => pscale (w i * y i) (prodx (others i xs))) (length xs).
Lemma interp_length xs w y : (length (interp xs w y) <= length xs)%nat.
Proof.
  unfold interp. apply psum_length. intros i Hi. unfold pscale. rewrite map_length, prodx_length, others_length by exact Hi. lia.
Qed.
Lemma interp_at xs w y k : distinct xs -> (forall i, (i < length xs)%nat -> dprod xs i * w i == 1) -> (k < length xs)%nat ->
  peval (interp xs w y) (nth k xs 0) == y k.
Proof.
  intros D HW Hk. unfold interp. rewrite peval_psum.
  apply (eqm_trans _ (peval (pscale (w k * y k) (prodx (others k xs))) (nth k xs 0))).
  - apply (sumn_single (fun i => peval (pscale (w i * y i) (prodx (others i xs))) (nth k xs 0))); [exact Hk|].
    intros i Hi N. rewrite peval_pscale, peval_prodx. apply (eqm_trans _ (w i * y i * 0)); [|rewrite Z.mul_0_r; reflexivity].
    apply eqm_mul; [reflexivity|]. apply prodl_zero_in with (nth k xs 0 - nth k xs 0); [|rewrite Z.sub_diag; reflexivity].
    apply in_map_iff. exists (nth k xs 0). split; [reflexivity|]. apply others_in. exists k. auto.
  - rewrite peval_pscale, peval_prodx. fold (dprod xs k).
    replace (w k * y k * dprod xs k) with (dprod xs k * w k * y k) by ring.
    apply (eqm_trans _ (1 * y k)); [apply eqm_mul; [apply HW, Hk|reflexivity]|rewrite Z.mul_1_l; reflexivity].
Qed.

Fixpoint sgn (n : nat) : Z := match n with O => 1 | S n => - sgn n end.
Lemma sgn_sq n : sgn n * sgn n = 1. Proof. induction n as [|n IH]; [reflexivity|]. cbn [sgn]. rewrite <- IH. ring. Qed.
Lemma prodl_opp (f : Z -> Z) l : prodl (map (fun x => - f x) l) = sgn (length l) * prodl (map f l).
Proof. unfold prodl. induction l as [|a l IH]; [reflexivity|]. cbn [map fold_right length sgn]. rewrite IH. ring. Qed.

(** The formula of the code: coefficients num/den with den the product of (x_j - x_i). *)
Lemma lagrange_at_0 xs (c y : nat -> Z) p : distinct xs -> (length p <= length xs)%nat ->
  (forall i, (i < length xs)%nat -> c i * prodl (map (fun x => x - nth i xs 0) (others i xs)) == prodl (others i xs)) ->
  (forall i, (i < length xs)%nat -> peval p (nth i xs 0) == y i) ->
  sumn (fun i => c i * y i) (length xs) == peval p 0.
Proof.
  intros D L HC HY.
  assert (EX : forall n, (n <= length xs)%nat -> exists w, forall i, (i < n)%nat -> dprod xs i * w i == 1).
  { induction n as [|n IH]; intros Hn; [exists (fun _ => 0); intros; lia|].
    destruct IH as [w Hw]; [lia|]. destruct (inverse (dprod xs n) (dprod_nonzero xs n D ltac:(lia))) as [b Hb].
    exists (fun i => if Nat.eqb i n then b else w i). intros i Hi. cbv beta. destruct (Nat.eqb_spec i n) as [->|N]; [exact Hb|apply Hw; lia]. }
  destruct (EX (length xs) ltac:(lia)) as [w Hw].
  apply eqm_trans with (peval (interp xs w y) 0).
  - unfold interp. rewrite peval_psum. apply sumn_ext. intros i Hi. rewrite peval_pscale, peval_prodx.
    assert (E1 : prodl (map (fun x => 0 - x) (others i xs)) = sgn (length (others i xs)) * prodl (others i xs)).
    { rewrite <- (map_id (others i xs)) at 3. rewrite <- (prodl_opp (fun x => x)). reflexivity. }
    assert (E2 : dprod xs i = sgn (length (others i xs)) * prodl (map (fun x => x - nth i xs 0) (others i xs))).
    { unfold dprod. rewrite <- prodl_opp. f_equal. apply map_ext. intros; ring. }
    rewrite E1. set (s := sgn (length (others i xs))) in *. set (P := prodl (map (fun x => x - nth i xs 0) (others i xs))) in *.
    specialize (HC i Hi). specialize (Hw i Hi). rewrite E2 in Hw.
    (* c y = c y (s P w) = s w y (c P) = s w y N *)
    apply (eqm_trans _ (c i * y i * (s * P * w i))).
    + apply (eqm_trans _ (c i * y i * 1)); [rewrite Z.mul_1_r; reflexivity|]. apply eqm_mul; [reflexivity|apply eqm_sym, Hw].
    + replace (c i * y i * (s * P * w i)) with (w i * y i * s * (c i * P)) by ring.
      replace (w i * y i * (s * prodl (others i xs))) with (w i * y i * s * prodl (others i xs)) by ring.
      apply eqm_mul; [reflexivity|exact HC].
  - apply (roots_eq xs); [exact D|apply interp_length|exact L|]. intros x I. apply (In_nth _ _ 0) in I as (k & Hk & <-).
    apply (eqm_trans _ (y k)); [apply interp_at; assumption|apply eqm_sym, HY, Hk].
Qed.

(** Some polynomial takes given values. *)
Lemma interp_exists xs y : distinct xs -> exists p, length p = length xs /\ forall k, (k < length xs)%nat -> peval p (nth k xs 0) == y k.
Proof.
  intros D.
  assert (EX : forall n, (n <= length xs)%nat -> exists w, forall i, (i < n)%nat -> dprod xs i * w i == 1).
  { induction n as [|n IH]; intros Hn; [exists (fun _ => 0); intros; lia|].
    destruct IH as [w Hw]; [lia|]. destruct (inverse (dprod xs n) (dprod_nonzero xs n D ltac:(lia))) as [b Hb].
    exists (fun i => if Nat.eqb i n then b else w i). intros i Hi. cbv beta. destruct (Nat.eqb_spec i n) as [->|N]; [exact Hb|apply Hw; lia]. }
  destruct (EX (length xs) ltac:(lia)) as [w Hw].
  exists (padd2 (interp xs w y) (repeat 0 (length xs))). split.
  - rewrite padd2_length, repeat_length. pose proof (interp_length xs w y). lia.
  - intros k Hk. rewrite peval_padd.
    assert (Z0 : forall n x, peval (repeat 0 n) x = 0) by (induction n as [|n IH]; intros x; cbn [repeat peval]; [reflexivity|rewrite IH; ring]).
    rewrite Z0, Z.add_0_r. apply interp_at; assumption.
Qed.
End Prime.
