(** Primality of the order of the Ed25519 group, by Pocklington certificates.  Nothing here models code. *)
From Coq Require Import ZArith List Lia Znumtheory Zpow_facts Bool.
From Verif Require Import Spec_Ed25519.
Import ListNotations.
Open Scope Z_scope.
Ltac Zify.zify_post_hook ::= idtac.

Section Order.
Variables (p b : Z).
Hypothesis P1 : 1 < p.
Hypothesis G : rel_prime b p.
Let one (d : Z) : Prop := (p | b ^ d - 1).

Lemma one_0 : one 0.
Proof. exists 0. cbn. reflexivity. Qed.
Lemma one_add x y : 0 <= x -> 0 <= y -> one x -> one y -> one (x + y).
Proof.
  intros Hx Hy A B. unfold one in *. rewrite Z.pow_add_r by lia.
  replace (b ^ x * b ^ y - 1) with (b ^ x * (b ^ y - 1) + (b ^ x - 1)) by ring.
  apply Z.divide_add_r; [apply Z.divide_mul_r; exact B|exact A].
Qed.
Lemma one_sub x y : 0 <= y <= x -> one x -> one y -> one (x - y).
Proof.
  intros H A B. unfold one in *.
  assert (D : (p | b ^ y * (b ^ (x - y) - 1))).
  { rewrite Z.mul_sub_distr_l, <- Z.pow_add_r by lia. replace (y + (x - y)) with x by lia.
    replace (b ^ x - b ^ y * 1) with ((b ^ x - 1) - (b ^ y - 1)) by ring. apply Z.divide_sub_r; assumption. }
  apply Gauss in D; [exact D|]. apply rel_prime_Zpower_r; [lia|apply rel_prime_sym; exact G].
Qed.
Lemma one_mul x n : 0 <= x -> 0 <= n -> one x -> one (x * n).
Proof.
  intros Hx Hn A. revert n Hn. apply natlike_ind; [rewrite Z.mul_0_r; apply one_0|].
  intros n Hn IH. rewrite Z.mul_succ_r. apply one_add; nia || assumption.
Qed.
Lemma one_gcd y : 0 <= y -> forall x, 0 <= x -> one x -> one y -> one (Z.gcd x y).
Proof.
  intros Hy. pattern y. apply Z_lt_induction; [|exact Hy]. clear y Hy. intros y IH x Hx A B.
  destruct (Z.eq_dec y 0) as [->|N].
  - rewrite Z.gcd_0_r, Z.abs_eq by lia. exact A.
  - destruct (Z_lt_le_dec y 0) as [Neg|Pos].
    { exfalso. unfold one in B. rewrite Z.pow_neg_r in B by exact Neg. destruct B as [q Hq]. destruct (Z_lt_le_dec q 0); nia. }
    rewrite (Z.gcd_comm x y). rewrite <- (Z.gcd_mod x y) by lia. rewrite Z.gcd_comm.
    pose proof (Z.mod_pos_bound x y ltac:(lia)) as MB.
    apply IH; [lia|lia|exact B|].
    rewrite Z.mod_eq by lia. apply one_sub; [split; [|pose proof (Z.mul_div_le x y ltac:(lia)); lia]|exact A|].
    + apply Z.mul_nonneg_nonneg; [lia|apply Z.div_pos; lia].
    + apply one_mul; [lia|apply Z.div_pos; lia|exact B].
Qed.

(** If no exponent strictly between 0 and F gives 1, the F powers are distinct and F < p. *)
Lemma order_bound F : 0 < F -> (forall d, 0 < d < F -> ~ one d) -> F <= p - 1.
Proof.
  intros HF NO.
  set (l := map (fun i => (b ^ Z.of_nat i) mod p) (seq 0 (Z.to_nat F))).
  set (r := map Z.of_nat (seq 1 (Z.to_nat (p - 1)))).
  assert (ND : NoDup l).
  { unfold l. clear r. assert (X : forall k s, (s + k <= Z.to_nat F)%nat -> NoDup (map (fun i => (b ^ Z.of_nat i) mod p) (seq s k))).
    { induction k as [|k IH]; intros s Hs; cbn [seq map]; [constructor|]. constructor; [|apply IH; lia].
      intros I. apply in_map_iff in I as (j & E & Hj). apply in_seq in Hj.
      apply (NO (Z.of_nat j - Z.of_nat s)); [lia|]. unfold one.
      assert (D : (p | b ^ Z.of_nat s * (b ^ (Z.of_nat j - Z.of_nat s) - 1))).
      { rewrite Z.mul_sub_distr_l, <- Z.pow_add_r by lia. replace (Z.of_nat s + (Z.of_nat j - Z.of_nat s)) with (Z.of_nat j) by lia.
        rewrite Z.mul_1_r. apply Z.mod_divide; [lia|]. rewrite Zminus_mod, E, Z.sub_diag. apply Z.mod_0_l. lia. }
      apply Gauss in D; [exact D|]. apply rel_prime_Zpower_r; [lia|apply rel_prime_sym; exact G]. }
    apply X. lia. }
  assert (IN : incl l r).
  { intros x I. unfold l in I. apply in_map_iff in I as (i & E & _). unfold r. apply in_map_iff.
    exists (Z.to_nat x). pose proof (Z.mod_pos_bound (b ^ Z.of_nat i) p ltac:(lia)) as MB.
    assert (x <> 0).
    { intros ->. apply Z.mod_divide in E; [|lia].
      pose proof (rel_prime_Zpower_r (Z.of_nat i) p b ltac:(lia) (rel_prime_sym _ _ G)) as RP.
      destruct RP as [_ _ RP]. specialize (RP p (Z.divide_refl p) E). apply Z.divide_1_r in RP. lia. }
    split; [lia|]. apply in_seq. lia. }
  pose proof (NoDup_incl_length ND IN) as L. unfold l, r in L. rewrite !map_length, !seq_length in L. lia.
Qed.
End Order.

Lemma pocklington N F R a es : 1 < N -> 0 < F -> 0 < R -> N - 1 = F * R -> N < (F + 1) * (F + 1) ->
  Zpow_mod a (N - 1) N = 1 ->
  (forall d, 0 < d < F -> exists e, In e es /\ 0 <= e /\ (Z.gcd d F | e)) ->
  (forall e, In e es -> Z.gcd (Zpow_mod a (R * e) N - 1) N = 1) -> prime N.
Proof.
  intros HN HF HR E1 SQ A HE GC. apply prime_alt. split; [exact HN|].
  assert (KEY : forall n, 1 < n -> (n | N) -> n * n <= N -> False).
  { intros p Hp D SP.
    rewrite Zpow_mod_correct in A by lia. set (b := a ^ R).
    assert (BF : (p | b ^ F - 1)).
    { unfold b. rewrite <- Z.pow_mul_r by lia. replace (R * F) with (N - 1) by lia.
      apply Z.divide_trans with N; [exact D|]. apply Z.mod_divide; [lia|]. rewrite Zminus_mod, A, (Z.mod_small 1) by lia. reflexivity. }
    assert (G : rel_prime b p).
    { destruct BF as [q Hq]. apply bezout_rel_prime. apply Bezout_intro with (b ^ (F - 1)) (- q).
      replace (b ^ (F - 1) * b) with (b ^ F) by (replace F with ((F - 1) + 1) at 1 by lia; rewrite Z.pow_add_r by lia; rewrite Z.pow_1_r; ring). lia. }
    assert (OB : F <= p - 1).
    { apply (order_bound p b Hp G F HF). intros d Hd OD.
      destruct (HE d Hd) as (e & Ie & He & DE). specialize (GC e Ie).
      assert (OG : (p | b ^ (Z.gcd d F) - 1)) by (apply (one_gcd p b Hp G F ltac:(lia) d ltac:(lia)); assumption).
      assert (OE : (p | b ^ e - 1)).
      { destruct DE as [q Eq]. pose proof (Z.gcd_nonneg d F). rewrite Eq, Z.mul_comm.
        assert (0 < Z.gcd d F) by (destruct (Z.eq_dec (Z.gcd d F) 0) as [Z0|]; [apply Z.gcd_eq_0_l in Z0; lia|lia]).
        apply (one_mul p b Hp); [lia|nia|exact OG]. }
      assert (X : (p | Zpow_mod a (R * e) N - 1)).
      { rewrite Zpow_mod_correct by lia. unfold b in OE. rewrite <- Z.pow_mul_r in OE by lia.
        replace (a ^ (R * e) mod N - 1) with ((a ^ (R * e) - 1) - N * (a ^ (R * e) / N)) by (rewrite Z.mod_eq by lia; ring).
        apply Z.divide_sub_r; [exact OE|apply Z.divide_mul_l; exact D]. }
      pose proof (Z.gcd_greatest _ _ _ X D) as Y. rewrite GC in Y. apply Z.divide_1_r in Y. lia. }
    nia. }
  intros n Hn D. destruct (Z_le_gt_dec (n * n) N) as [L|L]; [exact (KEY n ltac:(lia) D L)|].
  destruct D as [q Eq]. apply (KEY q); [nia|exists n; lia|nia].
Qed.

(** One large prime factor of N - 1. *)
Lemma pock1 N q a : prime q -> (1 <? N) && (0 <? (N - 1) / q) && (N - 1 =? q * ((N - 1) / q)) && (N <? (q + 1) * (q + 1)) &&
  (Zpow_mod a (N - 1) N =? 1) && (Z.gcd (Zpow_mod a ((N - 1) / q) N - 1) N =? 1) = true -> prime N.
Proof.
  intros Pq H. rewrite !andb_true_iff, !Z.ltb_lt, !Z.eqb_eq in H. destruct H as [[[[[H1 H2] H3] H4] H5] H6].
  pose proof (prime_ge_2 q Pq).
  apply (pocklington N q ((N - 1) / q) a [1]); try assumption; try lia.
  - intros d Hd. exists 1. split; [left; reflexivity|]. split; [lia|].
    assert (X : Z.gcd d q = 1) by (apply Zgcd_1_rel_prime; apply rel_prime_le_prime; [exact Pq|lia]).
    rewrite X. apply Z.divide_refl.
  - intros e [<-|[]]. rewrite Z.mul_1_r. exact H6.
Qed.
(** Two different prime factors. *)
Lemma pock2 N q r a : prime q -> prime r -> (negb (q =? r)) && (1 <? N) && (0 <? (N - 1) / (q * r)) && (N - 1 =? q * r * ((N - 1) / (q * r))) && (N <? (q * r + 1) * (q * r + 1)) &&
  (Zpow_mod a (N - 1) N =? 1) && (Z.gcd (Zpow_mod a ((N - 1) / (q * r) * q) N - 1) N =? 1) && (Z.gcd (Zpow_mod a ((N - 1) / (q * r) * r) N - 1) N =? 1) = true -> prime N.
Proof.
  intros Pq Pr H. rewrite !andb_true_iff, !Z.ltb_lt, !Z.eqb_eq, negb_true_iff, Z.eqb_neq in H. destruct H as [[[[[[[H0 H1] H2] H3] H4] H5] H6] H7].
  pose proof (prime_ge_2 q Pq). pose proof (prime_ge_2 r Pr).
  apply (pocklington N (q * r) ((N - 1) / (q * r)) a [q; r]); try assumption; try nia.
  - intros d Hd. set (g := Z.gcd d (q * r)).
    assert (Dg : (g | q * r)) by apply Z.gcd_divide_r. assert (Dd : (g | d)) by apply Z.gcd_divide_l.
    assert (G0 : 0 <= g) by apply Z.gcd_nonneg.
    assert (GP : 0 < g) by (destruct (Z.eq_dec g 0) as [Z0|]; [apply Z.gcd_eq_0_l in Z0; lia|lia]).
    assert (Gd : g <= d) by (apply Z.divide_pos_le; [lia|exact Dd]).
    destruct (Zdivide_dec q g) as [Q|Q].
    + (* g = q c, c | r *)
      destruct Q as [c Ec]. destruct Dg as [e Ee]. 
      assert (X : r = e * c) by (apply (Z.mul_reg_l _ _ q); [lia|]; rewrite Ee, Ec; ring).
      destruct (prime_divisors r Pr c ltac:(exists e; exact X)) as [C|[C|[C|C]]]; try nia.
      exists q. split; [left; reflexivity|]. split; [lia|]. exists 1. nia.
    + assert (RP : rel_prime g q).
      { apply rel_prime_sym. apply prime_rel_prime; assumption. }
      apply Gauss in Dg; [|exact RP]. exists r. split; [right; left; reflexivity|]. split; [lia|exact Dg].
  - intros e [<-|[<-|[]]]; assumption.
Qed.

(** Trial division for the small ones. *)
Lemma trial N k : 1 < N -> N < Z.of_nat (S k) * Z.of_nat (S k) -> forallb (fun d => negb (N mod Z.of_nat d =? 0)) (seq 2 (k - 1)) = true -> prime N.
Proof.
  intros HN SQ T. rewrite forallb_forall in T. apply prime_alt. split; [exact HN|].
  assert (K : forall n, 1 < n -> n * n <= N -> ~ (n | N)).
  { intros n Hn S D. apply Z.mod_divide in D; [|lia].
    specialize (T (Z.to_nat n)). rewrite Z2Nat.id, D in T by lia.
    assert (X : negb (0 =? 0) = true) by (apply T; apply in_seq; nia). discriminate X. }
  intros n Hn D. destruct (Z_le_gt_dec (n * n) N) as [L|L]; [exact (K n ltac:(lia) L D)|].
  destruct D as [q Eq]. apply (K q); [nia|nia|exists n; lia].
Qed.

Lemma prime_1224481 : prime 1224481. Proof. apply (trial _ 1200); [lia|vm_compute; reflexivity|vm_compute; reflexivity]. Qed.
Lemma prime_531581 : prime 531581. Proof. apply (trial _ 800); [lia|vm_compute; reflexivity|vm_compute; reflexivity]. Qed.
Lemma prime_p5 : prime 1257559732178653.
Proof. apply (pock2 _ 531581 1224481 2 prime_531581 prime_1224481). vm_compute. reflexivity. Qed.
Lemma prime_p4 : prime 4434155615661930479.
Proof. apply (pock1 _ 1257559732178653 2 prime_p5). vm_compute. reflexivity. Qed.
Lemma prime_p3 : prime 172054593956031949258510691.
Proof. apply (pock1 _ 4434155615661930479 2 prime_p4). vm_compute. reflexivity. Qed.
Lemma prime_p2 : prime 19757330305831588566944191468367130476339.
Proof. apply (pock1 _ 172054593956031949258510691 2 prime_p3). vm_compute. reflexivity. Qed.
Lemma prime_p1 : prime 276602624281642239937218680557139826668747.
Proof. apply (pock1 _ 19757330305831588566944191468367130476339 2 prime_p2). vm_compute. reflexivity. Qed.
Lemma prime_ell : prime ell.
Proof. apply (pock1 _ 276602624281642239937218680557139826668747 2 prime_p1). vm_compute. reflexivity. Qed.
Print Assumptions prime_ell.
