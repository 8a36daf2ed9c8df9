From Verif Require Import Base BaseLemmas Model_Tx Model_Util Proof_Tx Proof_Tx2.
Ltac Zify.zify_post_hook ::= idtac.

Lemma in64 z : - 2 ^ 63 <= z < 2 ^ 63 -> in_i64 z = true. Proof. intros. unfold in_i64. apply andb_true_intro. split; [apply Z.leb_le|apply Z.ltb_lt]; lia. Qed.
Lemma smul_in x y : - 2 ^ 63 <= x * y < 2 ^ 63 -> smul x y = Ok (x * y). Proof. intros. unfold smul. rewrite in64 by assumption. reflexivity. Qed.
Lemma sadd_in x y : - 2 ^ 63 <= x + y < 2 ^ 63 -> sadd x y = Ok (x + y). Proof. intros. unfold sadd. rewrite in64 by assumption. reflexivity. Qed.
Lemma ssub_in x y : - 2 ^ 63 <= x - y < 2 ^ 63 -> ssub x y = Ok (x - y). Proof. intros. unfold ssub. rewrite in64 by assumption. reflexivity. Qed.
Lemma sdiv_in x y : 0 <= x < 2 ^ 63 -> 1 <= y -> sdiv x y = Ok (x / y).
Proof.
  intros X Y. unfold sdiv. destruct (Z.eqb_spec y 0); [lia|]. rewrite Z.quot_div_nonneg by lia. rewrite in64; [reflexivity|].
  pose proof (Z.div_pos x y ltac:(lia) ltac:(lia)). pose proof (Z.div_le_upper_bound x y x ltac:(lia) ltac:(nia)). lia.
Qed.
Lemma srem_in x y : 0 <= x < 2 ^ 63 -> 1 <= y -> srem x y = Ok (x mod y).
Proof.
  intros X Y. unfold srem. destruct (Z.eqb_spec y 0); [lia|]. rewrite Z.quot_div_nonneg, Z.rem_mod_nonneg by lia. rewrite in64; [reflexivity|].
  pose proof (Z.div_pos x y ltac:(lia) ltac:(lia)). pose proof (Z.div_le_upper_bound x y x ltac:(lia) ltac:(nia)). lia.
Qed.

Lemma le_of_mul n x N : 1 <= n -> 0 <= x -> n * x <= N -> x <= N.
Proof. intros A B C. pose proof (Z.mul_le_mono_nonneg_r 1 n x B A). lia. Qed.

Lemma big_core d n a x k0 k1 md : 1 <= n -> d < (a + 1) * n -> a <= x * 2 -> 1 <= x -> 0 <= k0 <= k1 -> 1 <= k1 -> 2 <= md -> x * k1 + k0 <= md < x * k1 + k0 + k1 -> 0 <= d - x * n ->
  (d - x * n) * md <= (x * k1 + k0) * (k1 * d + k0 * n).
Proof.
  intros N1 DB AX X1 KB K1 M2 MB NN. set (e := d - x * n) in *. set (q := x * k1 + k0) in *.
  assert (NE : k1 * d + k0 * n = k1 * e + q * n) by (unfold e, q; ring). assert (EB : e <= (x + 1) * n) by (pose proof (Z.mul_le_mono_nonneg_r a (x * 2) n ltac:(lia) AX); unfold e; lia).
  assert (MD : md <= q + k1) by lia. assert (QK : k1 <= q) by (unfold q; pose proof (Z.mul_le_mono_nonneg_r 1 x k1 ltac:(lia) X1); lia).
  assert (CORE : e * k1 <= q * (q * n) + q * ((k1 - 1) * e)).
  { destruct (Z.eq_dec k1 1) as [K1'|K1'].
    - assert (Q2 : x + 1 <= q * q). { assert (QX : q = x + k0) by (unfold q; rewrite K1'; lia). assert (Q3 : 2 <= q) by lia. assert (x + k0 <= q) by lia. assert (0 <= k0 <= 1) by lia. clearbody q. clear - QX Q3 X1 H0. nia. }
      pose proof (Z.mul_le_mono_nonneg_r (x + 1) (q * q) n ltac:(lia) Q2). rewrite K1'. lia.
    - assert (KQ : k1 <= q * (k1 - 1)) by (pose proof (Z.mul_le_mono_nonneg_l 1 (k1 - 1) q ltac:(lia) ltac:(lia)); lia).
      pose proof (Z.mul_le_mono_nonneg_l k1 (q * (k1 - 1)) e NN KQ). pose proof (Z.mul_nonneg_nonneg q n ltac:(lia) ltac:(lia)). pose proof (Z.mul_nonneg_nonneg q (q * n) ltac:(lia) ltac:(lia)). lia. }
  pose proof (Z.mul_le_mono_nonneg_l md (q + k1) e NN MD). rewrite NE. lia.
Qed.

Section CF.
Variables (D N md : Z).
Hypothesis HD : 0 <= D < 2 ^ 63.
Hypothesis HN : 1 <= N <= 2 ^ 62.
Hypothesis HM : 2 <= md < 2 ^ 62.

Definition good (p q : Z) : Prop :=
  0 <= p /\ 1 <= q <= md /\ (exists u v, u * p + v * q = 1) /\ (D <= N -> p <= q).
Definition close (p q : Z) : Prop :=
  Z.abs (p * N - q * D) * md <= q * N /\ (forall P Q, 1 <= Q <= md -> P * N = Q * D -> p * N = q * D).

(** Invariant of the loop from its second iteration on *)
Record inv (d n h0 h1 k0 k1 : Z) : Prop := {
  inv_D : D = h1 * d + h0 * n;
  inv_N : N = k1 * d + k0 * n;
  inv_det : h1 * k0 - h0 * k1 = 1 \/ h1 * k0 - h0 * k1 = -1;
  inv_n : 0 <= n < d;
  inv_h : 0 <= h0 /\ 0 <= h1;
  inv_k : 0 <= k0 <= k1 /\ 1 <= k1 < md;
  inv_le : D <= N -> h1 <= k1 /\ (h0 <= k0 \/ h0 = 1 /\ k0 = 0 /\ (h1 = 0 \/ n = 0)) }.
Lemma inv_good d n h0 h1 k0 k1 : inv d n h0 h1 k0 k1 -> good h1 k1.
Proof.
  intros [_ _ DE _ H K L]. unfold good. split; [lia|]. split; [lia|]. split; [|intros X; apply L in X; lia]. destruct DE as [DE|DE]; [exists k0, (- h0)|exists (- k0), h0]; lia.
Qed.
(** A fraction equal to D / N has a denominator no smaller than the next convergent's *)
Lemma next_denominator d n h0 h1 k0 k1 P Q : inv d n h0 h1 k0 k1 -> 1 <= n -> 1 <= Q -> P * N = Q * D ->
  let a := d / n in k1 * a + k0 <= Q /\ (Q = k1 * a + k0 -> d = a * n).
Proof.
  intros [ED EN DE NB HB KB _] N1 Q1 E. cbv zeta. pose proof (Z.div_mod d n ltac:(lia)) as DM. pose proof (Z.mod_pos_bound d n ltac:(lia)) as MB. set (a := d / n) in *. set (r := d mod n) in *.
  set (A := Q * h1 - P * k1). set (B := P * k0 - Q * h0).
  assert (AB : A * d = B * n) by (unfold A, B; rewrite ED, EN in E; lia).
  assert (QQ : A * k0 + B * k1 = Q \/ A * k0 + B * k1 = - Q) by (unfold A, B; destruct DE as [DE|DE]; [left|right]; nia).
  assert (A1 : 1 <= a) by (unfold a; apply Z.div_le_lower_bound; lia).
  assert (AN : A <> 0) by (intros Z0; rewrite Z0 in *; assert (B = 0) by nia; destruct QQ; nia).
  assert (G : forall A B, 1 <= A -> A * d = B * n -> A * k0 + B * k1 = Q -> k1 * a + k0 <= Q /\ (Q = k1 * a + k0 -> d = a * n)).
  { clear A B AB QQ AN. intros A B A1' AB QQ. assert (BA : a * A <= B). { assert (a * A * n <= B * n); [rewrite <- AB; nia|nia]. }
    split; [nia|]. intros EQ. assert (BB : B = a). { assert (a <= B) by nia. destruct (Z.eq_dec B a); [assumption|]. assert (B >= a + 1) by lia. nia. }
    subst B. assert (A = 1) by nia. subst A. lia. }
  destruct (Z.lt_ge_cases A 0) as [NEG|POS].
  - apply (G (- A) (- B)); [lia|lia|]. destruct QQ as [QQ|QQ]; [|lia]. exfalso. assert (B < 0). { destruct (Z.lt_ge_cases B 0); [assumption|]. pose proof (Z.mul_nonneg_nonneg B n ltac:(lia) ltac:(lia)). pose proof (Z.mul_neg_pos A d ltac:(lia) ltac:(lia)). lia. }
    pose proof (Z.mul_nonpos_nonneg A k0 ltac:(lia) ltac:(lia)). pose proof (Z.mul_nonpos_nonneg B k1 ltac:(lia) ltac:(lia)). lia.
  - apply (G A B); [lia|exact AB|]. destruct QQ as [QQ|QQ]; [exact QQ|]. exfalso. assert (0 <= B). { destruct (Z.lt_ge_cases B 0); [|assumption]. pose proof (Z.mul_neg_pos B n ltac:(lia) ltac:(lia)). pose proof (Z.mul_nonneg_nonneg A d ltac:(lia) ltac:(lia)). lia. }
    pose proof (Z.mul_nonneg_nonneg A k0 ltac:(lia) ltac:(lia)). pose proof (Z.mul_nonneg_nonneg B k1 ltac:(lia) ltac:(lia)). lia.
Qed.

Fixpoint fibp (n : nat) : Z * Z := match n with O => (0, 1) | S n' => let (x, y) := fibp n' in (y, x + y) end.
Definition fib (n : nat) : Z := fst (fibp n).
Lemma fib_step n : fib (S (S n)) = fib (S n) + fib n. Proof. unfold fib. cbn [fibp]. destruct (fibp n) as [x y]. cbn [fst]. lia. Qed.

Lemma cf_ok left : forall i d n h0 h1 k0 k1, inv d n h0 h1 k0 k1 -> 1 <= i -> fib (Z.to_nat i) <= k1 -> fib (Z.to_nat i - 1) <= k0 -> i + Z.of_nat left = 64 ->
  exists p q, cf_loop left i d n h0 h1 k0 k1 md = Ok (p, q) /\ good p q /\ (md <= 2 ^ 43 -> close p q).
Proof.
  induction left as [|left IH]; intros i d n h0 h1 k0 k1 IV I1 F1 F0 IL; cbn [cf_loop].
  { exists h1, k1. split; [reflexivity|]. split; [exact (inv_good _ _ _ _ _ _ IV)|]. intros M. exfalso. assert (i = 64) by lia. subst i. assert (X : 2 ^ 43 < fib (Z.to_nat 64)) by (vm_compute; reflexivity). destruct IV as [_ _ _ _ _ K _]. lia. }
  destruct (Z.eqb_spec i 0) as [|_]; [lia|]. cbn [negb andb].
  destruct (Z.eqb_spec n 0) as [Z0|NZ].
  { cbn [bind]. rewrite Z.eqb_refl. exists h1, k1. split; [reflexivity|]. split; [exact (inv_good _ _ _ _ _ _ IV)|]. intros _. destruct IV as [ED EN DE NB HB KB LE]. assert (EX : h1 * N = k1 * D) by (subst n; rewrite ED, EN; lia).
    split; [rewrite EX, Z.sub_diag; cbn [Z.abs]; nia|intros; exact EX]. }
  pose proof IV as IV0. destruct IV as [ED EN DE NB HB KB LE].
  assert (DN : d <= N) by nia.
  rewrite (sdiv_in d n) by lia. cbn [bind]. pose proof (Z.div_mod d n ltac:(lia)) as DM. pose proof (Z.mod_pos_bound d n ltac:(lia)) as MB. set (a := d / n) in *. set (r := d mod n) in *.
  assert (A1 : 1 <= a) by (unfold a; apply Z.div_le_lower_bound; lia). destruct (Z.eqb_spec a 0) as [|_]; [lia|].
  assert (TN : n * (k1 * a + k0) <= N) by (rewrite EN, DM; nia).
  assert (TH : n * (h1 * a + h0) <= D) by (rewrite ED, DM; nia).
  pose proof (Z.mul_nonneg_nonneg k1 a ltac:(lia) ltac:(lia)) as KA. pose proof (Z.mul_nonneg_nonneg h1 a ltac:(lia) ltac:(lia)) as HA.
  assert (T2 : k1 * a + k0 <= N) by (apply (le_of_mul n); lia). assert (H2 : h1 * a + h0 <= D) by (apply (le_of_mul n); lia).
  rewrite srem_in by lia. fold r. cbn [bind]. rewrite (smul_in k1 a) by lia. cbn [bind]. rewrite sadd_in by lia. cbn [bind].
  destruct (Z.leb_spec md (k1 * a + k0)) as [GE|LT].
  - rewrite ssub_in by lia. cbn [bind]. rewrite sdiv_in by lia. cbn [bind]. set (x := (md - k0) / k1).
    pose proof (Z.div_mod (md - k0) k1 ltac:(lia)) as XM. pose proof (Z.mod_pos_bound (md - k0) k1 ltac:(lia)) as XB. fold x in XM.
    assert (X0 : 0 <= x) by (apply Z.div_pos; lia). assert (KX : k1 * x <= md - k0) by lia.
    assert (XM2 : x <= md) by (apply (le_of_mul k1); lia).
    rewrite (smul_in x 2) by lia. cbn [bind]. destruct (Z.leb_spec md k1) as [|_]; [lia|]. rewrite orb_false_r. destruct (Z.leb_spec a (x * 2)) as [BIG|SMALL].
    + assert (X1 : 1 <= x) by lia. assert (XA : x <= a). { apply (Z.mul_le_mono_pos_l x a k1); lia. }
      pose proof (Z.mul_le_mono_nonneg_r x a h1 ltac:(lia) XA). pose proof (Z.mul_nonneg_nonneg x h1 ltac:(lia) ltac:(lia)). pose proof (Z.mul_nonneg_nonneg x k1 ltac:(lia) ltac:(lia)).
      assert (XH : x * h1 + h0 <= D) by lia. assert (XK : x * k1 + k0 <= md) by lia.
      rewrite (smul_in x h1) by lia. cbn [bind]. rewrite sadd_in by lia. cbn [bind]. rewrite (smul_in x k1) by lia. cbn [bind]. rewrite sadd_in by lia. cbn [bind].
      exists (x * h1 + h0), (x * k1 + k0). split; [reflexivity|]. split.
      { pose proof (Z.mul_pos_pos x k1 ltac:(lia) ltac:(lia)). unfold good. split; [lia|]. split; [lia|]. split.
        - destruct DE as [DE|DE]; [exists (- k1), h1|exists k1, (- h1)]; [transitivity (h1 * k0 - h0 * k1); [ring|lia]|transitivity (- (h1 * k0 - h0 * k1)); [ring|lia]].
        - intros X. destruct (LE X) as [L1 [L0|(L2 & L3 & [L4|L4])]]; [|subst h1; lia|lia]. pose proof (Z.mul_le_mono_nonneg_l h1 k1 x ltac:(lia) L1). lia. }
      intros _. assert (ERR : Z.abs ((x * h1 + h0) * N - (x * k1 + k0) * D) = d - x * n).
      { assert (NN : 0 <= d - x * n) by (pose proof (Z.mul_le_mono_nonneg_r x a n ltac:(lia) XA); lia). assert (EQ : (x * h1 + h0) * N - (x * k1 + k0) * D = (h1 * k0 - h0 * k1) * (x * n - d)) by (rewrite ED, EN; ring). rewrite EQ. destruct DE as [-> | ->]; lia. }
      split.
      * assert (NN : 0 <= d - x * n) by lia. rewrite ERR, EN. apply (big_core d n a); lia.
      * intros P Q QB E. destruct (next_denominator d n h0 h1 k0 k1 P Q IV0 ltac:(lia) ltac:(lia) E) as [T1 T3]. fold a in T1, T3. assert (QE : Q = k1 * a + k0) by lia. specialize (T3 QE).
        assert (XE : x = a). { unfold x. clear IH X0 XB XM KX XM2. assert (MK : md - k0 = a * k1) by lia. rewrite MK. apply Z.div_mul. lia. }
        assert (Z0 : d - x * n = 0) by (rewrite XE; lia). rewrite Z0 in ERR. lia.
    + exists h1, k1. split; [reflexivity|]. split; [exact (inv_good _ _ _ _ _ _ IV0)|]. intros _. split.
      * assert (EQ : h1 * N - k1 * D = (h1 * k0 - h0 * k1) * n) by (rewrite ED, EN; ring). assert (ERR : Z.abs (h1 * N - k1 * D) = n) by (rewrite EQ; destruct DE as [-> | ->]; lia). rewrite ERR. pose proof (Z.mul_le_mono_nonneg_l md (k1 * a + k0) n ltac:(lia) GE). pose proof (Z.mul_le_mono_nonneg_r 1 k1 N ltac:(lia) ltac:(lia)). lia.
      * intros P Q QB E. destruct (next_denominator d n h0 h1 k0 k1 P Q IV0 ltac:(lia) ltac:(lia) E) as [T1 T3]. fold a in T1, T3.
        assert (XE : x = a). { unfold x. clear IH X0 XB XM KX XM2. assert (MK : md - k0 = a * k1) by lia. rewrite MK. apply Z.div_mul. lia. } lia.
  - rewrite (smul_in a h1) by lia. cbn [bind]. rewrite sadd_in by lia. cbn [bind]. rewrite (smul_in a k1) by lia. cbn [bind]. rewrite sadd_in by lia. cbn [bind].
    pose proof (Z.mul_le_mono_nonneg_r 1 a k1 ltac:(lia) A1) as K1A.
    apply IH; [|lia| |replace (Z.to_nat (i + 1) - 1)%nat with (Z.to_nat i) by lia; exact F1|lia].
    + constructor; [rewrite ED, DM; ring|rewrite EN, DM; ring|destruct DE; [right|left]; lia|lia|split; lia|split; lia|].
      intros X. destruct (LE X) as [L1 [L0|(L2 & L3 & [L4|L4])]]; [|subst h1 h0 k0; split; lia|lia]. pose proof (Z.mul_le_mono_nonneg_l h1 k1 a ltac:(lia) L1). split; lia.
    + replace (Z.to_nat (i + 1)) with (S (S (Z.to_nat i - 1))) by lia. rewrite fib_step. replace (S (Z.to_nat i - 1)) with (Z.to_nat i) by lia. lia.
Qed.
Lemma cf_main : exists p q, cf_loop 64 0 D N 0 1 1 0 md = Ok (p, q) /\ good p q /\ (md <= 2 ^ 43 -> close p q).
Proof.
  assert (GEN : forall l, Z.of_nat l = 63 -> exists p q, cf_loop (S l) 0 D N 0 1 1 0 md = Ok (p, q) /\ good p q /\ (md <= 2 ^ 43 -> close p q)); [|exact (GEN 63%nat eq_refl)].
  intros l L. cbn [cf_loop]. destruct (Z.eqb_spec N 0); [lia|]. rewrite (sdiv_in D N) by lia. cbn [bind Z.eqb negb andb]. rewrite srem_in by lia. cbn [bind].
  pose proof (Z.div_mod D N ltac:(lia)) as DM. pose proof (Z.mod_pos_bound D N ltac:(lia)) as MB. pose proof (Z.div_pos D N ltac:(lia) ltac:(lia)) as A0. set (a := D / N) in *. set (r := D mod N) in *.
  assert (AD : a <= D) by nia. rewrite (smul_in 0 a) by lia. cbn [bind]. rewrite sadd_in by lia. cbn [bind]. destruct (Z.leb_spec md (0 * a + 1)); [lia|].
  rewrite (smul_in a 1) by lia. cbn [bind]. rewrite sadd_in by lia. cbn [bind]. rewrite (smul_in a 0) by lia. cbn [bind]. rewrite sadd_in by lia. cbn [bind].
  apply (cf_ok l (0 + 1) N r 1 (a * 1 + 0) 0 (a * 0 + 1)); [|lia|change (1 <= a * 0 + 1); lia|change (0 <= 0); lia|lia].
  constructor; try lia. intros X. assert (a <= 1) by nia. split; [lia|]. right. destruct (Z.eq_dec a 1) as [A1|]; [|lia]. rewrite A1 in DM. lia.
Qed.
End CF.

(** ** The scaling loop *)
Lemma scale_ok s : forall m fuel j0, 0 <= m -> 0 <= j0 -> j0 + Z.of_nat s <= 62 -> (s <= fuel)%nat ->
  exists j, scale_loop fuel (DFin m (- Z.of_nat s)) (2 ^ j0) = Some (Ok (DFin m (- (Z.of_nat s - j)), 2 ^ (j0 + j))) /\ 0 <= j <= Z.of_nat s /\ m mod 2 ^ (Z.of_nat s - j) = 0.
Proof.
  induction s as [|s IH]; intros m fuel j0 M J JS F.
  { exists 0. split; [|split; [lia|cbn; apply Z.mod_1_r]]. destruct fuel; cbn; rewrite Z.add_0_r; reflexivity. }
  destruct (Z.eqb_spec (m mod 2 ^ Z.of_nat (S s)) 0) as [E|NE].
  { exists 0. rewrite Z.sub_0_r, Z.add_0_r. split; [|split; [lia|exact E]]. destruct fuel as [|fuel]; [lia|]. cbn [scale_loop d_isint]. rewrite Z.opp_involutive, E, orb_true_r. reflexivity. }
  destruct fuel as [|fuel]; [lia|]. cbn [scale_loop d_isint]. rewrite Z.opp_involutive. destruct (Z.leb_spec 0 (- Z.of_nat (S s))); [lia|]. destruct (Z.eqb_spec (m mod 2 ^ Z.of_nat (S s)) 0); [contradiction|]. cbn [orb d_twice].
  assert (P2 : 2 * 2 ^ j0 = 2 ^ (j0 + 1)) by (rewrite Z.pow_add_r by lia; lia). rewrite P2. replace (- Z.of_nat (S s) + 1) with (- Z.of_nat s) by lia.
  assert (T : to_i64 (2 ^ (j0 + 1)) = 2 ^ (j0 + 1)). { pose proof (Z.pow_le_mono_r 2 (j0 + 1) 62 ltac:(lia) ltac:(lia)). pose proof (Z.pow_pos_nonneg 2 (j0 + 1) ltac:(lia) ltac:(lia)). unfold to_i64. rewrite Z.mod_small by lia. destruct (Z.ltb_spec (2 ^ (j0 + 1)) (2 ^ 63)); lia. }
  rewrite T. destruct (IH m fuel (j0 + 1) M ltac:(lia) ltac:(lia) ltac:(lia)) as (j & E & JB & MM). exists (j + 1). rewrite E. replace (Z.of_nat (S s) - (j + 1)) with (Z.of_nat s - j) by lia. replace (j0 + 1 + j) with (j0 + (j + 1)) by lia. split; [reflexivity|]. split; [lia|exact MM].
Qed.

(** |f| = M / 2^s exactly, whatever the representation *)
Lemma rational_ok m e md fuel : - 62 <= e -> Z.abs m * 2 ^ Z.max 0 e < 2 ^ 63 -> 2 <= md < 2 ^ 62 -> (62 <= fuel)%nat ->
  exists D N p q, rational_approx fuel (DFin m e) md = Some (Ok ((if m <? 0 then - p else p), q)) /\
    0 <= D < 2 ^ 63 /\ 1 <= N <= 2 ^ 62 /\ D * 2 ^ Z.max 0 (- e) = Z.abs m * 2 ^ Z.max 0 e * N /\ good D N md p q /\ (md <= 2 ^ 43 -> close D N md p q).
Proof.
  intros EB MB MD FU. unfold rational_approx. destruct (Z.leb_spec md 1); [lia|]. cbn [d_neg d_opp].
  assert (AB : (if m <? 0 then DFin (- m) e else DFin m e) = DFin (Z.abs m) e) by (destruct (Z.ltb_spec m 0); f_equal; lia). rewrite AB.
  assert (SC : exists D N e', scale_loop fuel (DFin (Z.abs m) e) 1 = Some (Ok (DFin (Z.abs m) e', N)) /\ d_int64 (DFin (Z.abs m) e') = Ok D /\ 0 <= D < 2 ^ 63 /\ 1 <= N <= 2 ^ 62 /\ D * 2 ^ Z.max 0 (- e) = Z.abs m * 2 ^ Z.max 0 e * N).
  { destruct (Z.leb_spec 0 e) as [EP|EN].
    - rewrite Z.max_r in MB by lia. exists (Z.abs m * 2 ^ e), 1, e. rewrite Z.max_l, Z.max_r by lia. assert (0 <= Z.abs m * 2 ^ e) by (apply Z.mul_nonneg_nonneg; [lia|apply Z.pow_nonneg; lia]). split; [|split; [|lia]].
      + assert (IS : d_isint (DFin (Z.abs m) e) = true) by (cbn [d_isint]; destruct (Z.leb_spec 0 e); [reflexivity|lia]). destruct fuel; cbn [scale_loop]; rewrite IS; reflexivity.
      + cbn [d_int64]. destruct (Z.leb_spec 0 e); [|lia]. rewrite in64 by lia. reflexivity.
    - rewrite Z.max_l in MB by lia. destruct (scale_ok (Z.to_nat (- e)) (Z.abs m) fuel 0 ltac:(lia) ltac:(lia) ltac:(lia) ltac:(lia)) as (j & E & JB & MM). rewrite Z2Nat.id in * by lia. rewrite Z.opp_involutive in E. replace (- e - j) with (- (e + j)) in * by lia. rewrite Z.opp_involutive in E.
      exists (Z.abs m / 2 ^ (- (e + j))), (2 ^ j), (e + j). rewrite Z.max_r, Z.max_l by lia. pose proof (Z.pow_pos_nonneg 2 (- (e + j)) ltac:(lia) ltac:(lia)) as PP. pose proof (Z.div_mod (Z.abs m) (2 ^ (- (e + j))) ltac:(lia)) as DM. rewrite MM, Z.add_0_r in DM.
      pose proof (Z.div_pos (Z.abs m) (2 ^ (- (e + j))) ltac:(lia) PP) as DP. pose proof (Z.div_le_upper_bound (Z.abs m) (2 ^ (- (e + j))) (Z.abs m) PP ltac:(nia)) as DU.
      split; [exact E|]. split.
      + cbn [d_int64]. destruct (Z.leb_spec 0 (e + j)).
        * assert (e + j = 0) by lia. rewrite H1 in *. cbn [Z.opp] in *. rewrite Z.pow_0_r in *. rewrite Z.div_1_r, Z.mul_1_r. rewrite in64 by lia. reflexivity.
        * rewrite Z.quot_div_nonneg by lia. rewrite in64 by lia. reflexivity.
      + split; [lia|]. split; [pose proof (Z.pow_le_mono_r 2 j 62 ltac:(lia) ltac:(lia)); pose proof (Z.pow_pos_nonneg 2 j ltac:(lia) ltac:(lia)); lia|].
        rewrite Z.pow_0_r, Z.mul_1_r. replace (- e) with (- (e + j) + j) by lia. rewrite Z.pow_add_r by lia. rewrite DM at 2. ring. }
  destruct SC as (D & N & e' & S1 & S2 & DB & NB & EQ). destruct (cf_main D N md DB NB MD) as (p & q & CF & G & C).
  exists D, N, p, q. split; [|tauto]. cbn [d_neg d_opp]. rewrite S1. cbn [rbind]. unfold lift at 1. rewrite S2. cbn [rbind]. rewrite CF. reflexivity.
Qed.
