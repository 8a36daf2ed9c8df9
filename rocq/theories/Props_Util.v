(** Property C47 (rational approximation of doubles). *)
From Coq Require Import ZArith QArith Qabs Qpower Lia Znumtheory.
From Verif Require Import Base Model_Tx Model_Util Spec_Util Proof_Util.
Open Scope Z_scope.
Ltac Zify.zify_post_hook ::= idtac.

Lemma q_of_pair m e : (q_of m e == (m * 2 ^ Z.max 0 e) # Z.to_pos (2 ^ Z.max 0 (- e)))%Q.
Proof.
  unfold q_of. destruct (Z.le_gt_cases 0 e) as [P|N].
  - rewrite Z.max_r, Z.max_l by lia. change (2%Q) with (inject_Z 2). rewrite <- Zpower_Qpower by exact P. unfold Qeq, Qmult, inject_Z. cbn. lia.
  - rewrite Z.max_l, Z.max_r by lia. replace e with (- (- e)) at 1 by lia. rewrite Qpower_opp. change (2%Q) with (inject_Z 2). rewrite <- Zpower_Qpower by lia.
    pose proof (Z.pow_pos_nonneg 2 (- e) ltac:(lia) ltac:(lia)) as PP. destruct (2 ^ (- e)) as [|p|p]; try lia. unfold Qeq, Qmult, Qinv, inject_Z. cbn. lia.
Qed.
Lemma frac_close p q M N md (s : Z) : 1 <= q -> 1 <= N -> 1 <= md -> Z.abs (p * N - q * M) * md <= q * N -> (Qabs (frac p q - (M # Z.to_pos N)) <= frac 1 md)%Q.
Proof.
  intros Q1 N1 M1 H. unfold frac, Qabs, Qminus, Qplus, Qopp, Qle. cbn [Qnum Qden]. rewrite Pos2Z.inj_mul, !Z2Pos.id by lia.
  replace (p * N + - M * q) with (p * N - q * M) by ring. rewrite Z.mul_1_l. exact H.
Qed.

(** C47.  For every double m * 2^e in range and every limit 2 <= md < 2^62 the function returns a fraction p/q in lowest terms with
    1 <= q <= md, of the sign of the input, and within [0,1] if the input is.  [fuel] only has to cover the 62 possible doublings. *)
Theorem C47_rational_bounded : forall m e md fuel, in_range m e -> 2 <= md < 2 ^ 62 -> (62 <= fuel)%nat ->
  exists p q, rational_approx fuel (DFin m e) md = Some (Ok (p, q)) /\ 1 <= q <= md /\ rel_prime p q /\ (0 <= m -> 0 <= p) /\ (m <= 0 -> p <= 0) /\
    ((0 <= q_of m e <= 1)%Q -> (0 <= frac p q <= 1)%Q).
Proof.
  intros m e md fuel [R1 R2] M F. destruct (rational_ok m e md fuel R1 R2 M F) as (D & N & p & q & E & DB & NB & EQ & (G1 & G2 & (u & v & G3) & G4) & _).
  exists (if m <? 0 then - p else p), q. split; [exact E|]. split; [exact G2|].
  assert (PZ : m = 0 -> p = 0).
  { intros Z0. rewrite Z0 in EQ. cbn [Z.abs] in EQ. rewrite !Z.mul_0_l in EQ. pose proof (Z.pow_pos_nonneg 2 (Z.max 0 (- e)) ltac:(lia) ltac:(lia)). assert (D0 : D = 0) by (apply Z.mul_eq_0 in EQ; lia).
    subst D. unfold rational_approx in E. destruct (Z.leb_spec md 1); [lia|]. rewrite Z0 in E. cbn [d_neg Z.ltb] in E. change (0 <? 0) with false in E. cbn beta iota in E.
    assert (SL : scale_loop fuel (DFin 0 e) 1 = Some (Ok (DFin 0 e, 1))) by (assert (IS : d_isint (DFin 0 e) = true) by (cbn [d_isint]; destruct (Z.leb_spec 0 e); [reflexivity|]; cbn [orb]; rewrite Z.mod_0_l by (apply Z.pow_nonzero; lia); reflexivity); destruct fuel; cbn [scale_loop]; rewrite IS; reflexivity).
    rewrite SL in E. cbn [rbind] in E. unfold lift at 1 in E. assert (DI : d_int64 (DFin 0 e) = Ok 0) by (cbn [d_int64]; destruct (Z.leb_spec 0 e); [rewrite Z.mul_0_l; reflexivity|rewrite Z.quot_0_l by (apply Z.pow_nonzero; lia); reflexivity]).
    rewrite DI in E. cbn [rbind] in E. assert (CF : cf_loop 64 0 0 1 0 1 1 0 md = Ok (0, 1)).
    { cbn. destruct (Z.leb_spec md 1); [lia|]. reflexivity. }
    rewrite CF in E. cbn [rbind] in E. unfold lift in E. inversion E. reflexivity. }
  split; [apply bezout_rel_prime; destruct (m <? 0); [apply (Bezout_intro _ _ _ (- u) v); lia|apply (Bezout_intro _ _ _ u v); lia]|].
  split; [intros X; destruct (Z.ltb_spec m 0); lia|]. split; [intros X; destruct (Z.ltb_spec m 0); [lia|]; rewrite PZ; lia|].
  intros [V0 V1]. rewrite q_of_pair in V0, V1. unfold Qle in V0, V1. cbn [Qnum Qden] in V0, V1. pose proof (Z.pow_pos_nonneg 2 (Z.max 0 (- e)) ltac:(lia) ltac:(lia)) as PP. rewrite Z2Pos.id in V1 by exact PP.
  pose proof (Z.pow_pos_nonneg 2 (Z.max 0 e) ltac:(lia) ltac:(lia)) as PE. assert (M0 : 0 <= m) by nia. destruct (Z.ltb_spec m 0); [lia|]. rewrite Z.abs_eq in EQ by exact M0.
  assert (DN : D <= N). { apply (Z.mul_le_mono_pos_r _ _ _ PP). rewrite EQ. pose proof (Z.mul_le_mono_nonneg_r (m * 2 ^ Z.max 0 e) (2 ^ Z.max 0 (- e)) N ltac:(lia) ltac:(lia)). lia. }
  unfold frac, Qle. cbn [Qnum Qden]. rewrite Z2Pos.id by lia. specialize (G4 DN). lia.
Qed.
Print Assumptions C47_rational_bounded.

(** C47, accuracy (limits up to 2^43; larger ones can exhaust the 64 rounds): the result is within 1/md of the input, and it is the
    input exactly whenever the input is a fraction with a denominator within the limit. *)
Theorem C47_rational_accurate : forall m e md fuel, in_range m e -> 2 <= md <= 2 ^ 43 -> (62 <= fuel)%nat ->
  exists p q, rational_approx fuel (DFin m e) md = Some (Ok (p, q)) /\ 1 <= q <= md /\
    (Qabs (frac p q - q_of m e) <= frac 1 md)%Q /\
    (forall P Q, 1 <= Q <= md -> (frac P Q == q_of m e)%Q -> (frac p q == q_of m e)%Q).
Proof.
  intros m e md fuel [R1 R2] M F. destruct (rational_ok m e md fuel R1 R2 ltac:(lia) F) as (D & N & p & q & E & DB & NB & EQ & (G1 & G2 & _ & _) & C). specialize (C ltac:(lia)). destruct C as [C1 C2].
  exists (if m <? 0 then - p else p), q. split; [exact E|]. split; [exact G2|]. pose proof (Z.pow_pos_nonneg 2 (Z.max 0 (- e)) ltac:(lia) ltac:(lia)) as PP.
  assert (V : (q_of m e == (if m <? 0 then - D else D) # Z.to_pos N)%Q). { rewrite q_of_pair. unfold Qeq. cbn [Qnum Qden]. rewrite !Z2Pos.id by lia. destruct (Z.ltb_spec m 0); [rewrite Z.abs_neq in EQ by lia|rewrite Z.abs_eq in EQ by lia]; lia. }
  split.
  - rewrite V. apply frac_close; [exact 0|lia|lia|lia|]. destruct (m <? 0); [|exact C1]. replace (- p * N - q * - D) with (- (p * N - q * D)) by ring. rewrite Z.abs_opp. exact C1.
  - intros P Q QB PQ. rewrite V in *. unfold Qeq, frac in *. cbn [Qnum Qden] in *. rewrite !Z2Pos.id in * by lia. destruct (m <? 0); [|rewrite (C2 P Q QB ltac:(lia)); ring].
    specialize (C2 (- P) Q QB ltac:(lia)). lia.
Qed.
Print Assumptions C47_rational_accurate.

Example C47_case : in_range 7205759403792794 (-56) /\ rational_approx 62 (DFin 7205759403792794 (-56)) 4096 = Some (Ok (1, 10)).
Proof. split; [split; vm_compute; [discriminate|reflexivity]|reflexivity]. Qed.
Example C47_case_bound : rational_approx 62 (DFin 884279719003555 (-48)) 4096 = Some (Ok (355, 113)).
Proof. reflexivity. Qed.

(** C47 as stated (for every double) is refuted: a NaN loops for ever ... *)
Theorem C47_nan_never_returns_refuted : forall fuel md, 2 <= md -> rational_approx fuel DNaN md = None.
Proof.
  intros fuel md M. unfold rational_approx. destruct (Z.leb_spec md 1); [lia|]. cbn [d_neg].
  assert (L : forall fuel n, scale_loop fuel DNaN n = None) by (induction fuel0 as [|k IH]; intros n; [reflexivity|cbn [scale_loop d_isint d_twice]; apply IH]). rewrite L. reflexivity.
Qed.
Print Assumptions C47_nan_never_returns_refuted.
(** ... a number that needs more than 63 binary digits after the point divides by zero, whatever its size ... *)
Lemma scale_wrap s : forall m fuel n, Z.odd m = true -> (s <= fuel)%nat -> scale_loop fuel (DFin m (- Z.of_nat s)) n = Some (Ok (DFin m 0, Nat.iter s (fun n => to_i64 (2 * n)) n)).
Proof.
  induction s as [|s IH]; intros m fuel n O F; [destruct fuel; reflexivity|]. destruct fuel as [|fuel]; [lia|]. cbn [scale_loop].
  assert (NI : d_isint (DFin m (- Z.of_nat (S s))) = false).
  { cbn [d_isint]. destruct (Z.leb_spec 0 (- Z.of_nat (S s))); [lia|]. cbn [orb]. apply Z.eqb_neq. intros E. rewrite Z.opp_involutive in E. apply Z.mod_divide in E; [|apply Z.pow_nonzero; lia]. destruct E as [c E].
    rewrite Nat2Z.inj_succ, Z.pow_succ_r in E by lia. rewrite E, Z.odd_mul, Z.odd_mul in O. cbn in O. rewrite andb_false_r in O. discriminate. }
  rewrite NI. cbn [d_twice]. replace (- Z.of_nat (S s) + 1) with (- Z.of_nat s) by lia. rewrite (IH m fuel _ O) by lia. f_equal. f_equal. f_equal.
  clear. revert n. induction s as [|s IH]; intros n; [reflexivity|]. change (to_i64 (2 * Nat.iter s (fun n => to_i64 (2 * n)) (to_i64 (2 * n))) = to_i64 (2 * Nat.iter (S s) (fun n => to_i64 (2 * n)) n)). f_equal. f_equal. apply IH.
Qed.
Theorem C47_tiny_undefined_refuted : forall m s md fuel, 0 < m < 2 ^ 53 -> Z.odd m = true -> (64 <= s <= fuel)%nat -> 2 <= md -> rational_approx fuel (DFin m (- Z.of_nat s)) md = Some UB.
Proof.
  intros m s md fuel MB O S M. unfold rational_approx. destruct (Z.leb_spec md 1); [lia|]. cbn [d_neg]. destruct (Z.ltb_spec m 0); [lia|]. rewrite scale_wrap by (assumption || lia). cbn [rbind].
  assert (N0 : Nat.iter s (fun n => to_i64 (2 * n)) 1 = 0).
  { replace s with (s - 64 + 64)%nat by lia. generalize (s - 64)%nat as k. induction k as [|k IH]; [vm_compute; reflexivity|]. change (to_i64 (2 * Nat.iter (k + 64) (fun n => to_i64 (2 * n)) 1) = 0). rewrite IH. reflexivity. }
  rewrite N0. assert (DI : d_int64 (DFin m 0) = Ok m). { cbn [d_int64]. change (0 <=? 0) with true. cbn beta iota. rewrite Z.pow_0_r, Z.mul_1_r, in64 by lia. reflexivity. }
  unfold lift at 1. rewrite DI. cbn [rbind]. reflexivity.
Qed.
Print Assumptions C47_tiny_undefined_refuted.
Example C47_tiny_case : rational_approx 64 (DFin 1 (- 64)) 4096 = Some UB.
Proof. reflexivity. Qed.
(** ... 63 digits give a negative denominator, and infinities and integers beyond 64 bits are converted with undefined results. *)
Theorem C47_negative_denominator_refuted : rational_approx 63 (DFin 1 (- 63)) 4096 = Some (Ok (1, - 2 ^ 63)).
Proof. vm_compute. reflexivity. Qed.
Theorem C47_infinity_undefined_refuted : forall fuel md s, 2 <= md -> rational_approx fuel (DInf s) md = Some UB.
Proof. intros fuel md s M. unfold rational_approx. destruct (Z.leb_spec md 1); [lia|]. destruct s, fuel; reflexivity. Qed.
Print Assumptions C47_infinity_undefined_refuted.
