(** Property C65: lovelaces and ADA. *)
From Coq Require Import ZArith Reals SpecFloat Lia Lra.
From Flocq Require Import Core BinarySingleNaN Relative.
From Verif Require Import Base BaseLemmas Model_Tx Model_Money.
Ltac Zify.zify_post_hook ::= idtac.

(** ** Specification *)
(** a binary64 datum *)
Definition is_double (x : double) : Prop := valid_binary 53 1024 x = true.
Definition x_le (x y : double) : Prop := SFleb x y = true.

(** ** SpecFloat's operations are Flocq's *)
Local Notation prec := 53%Z. Local Notation emax := 1024%Z.
Local Lemma Hp : FLX.Prec_gt_0 prec. Proof. reflexivity. Qed.
Local Lemma He : Prec_lt_emax prec emax. Proof. reflexivity. Qed.
Local Existing Instance Hp. Local Existing Instance He.
Local Notation bf := (binary_float prec emax).
Lemma nearest_even_equiv s m l : round_nearest_even m l = choice_mode mode_NE s m l.
Proof. case l; [reflexivity|intro c]. case c; [|reflexivity..]. simpl. unfold Round.cond_incr. case Z.even; reflexivity. Qed.
Lemma round_aux_equiv sx mx ex lx : SpecFloat.binary_round_aux prec emax sx mx ex lx = binary_round_aux prec emax mode_NE sx mx ex lx.
Proof. unfold SpecFloat.binary_round_aux, binary_round_aux. set (m := shr_fexp _ _ _ _ _). case m; intros mrs e; simpl. rewrite (nearest_even_equiv sx). reflexivity. Qed.
Lemma round_equiv s m e : SpecFloat.binary_round prec emax s m e = binary_round prec emax mode_NE s m e.
Proof. unfold SpecFloat.binary_round, binary_round, shl_align_fexp. set (z := shl_align _ _ _). case z as [mz ez]. apply round_aux_equiv. Qed.
Lemma of_int_equiv n : of_int n = B2SF (binary_normalize prec emax Hp He mode_NE n 0 false : bf).
Proof. unfold of_int. case n as [|p|p]; [reflexivity|simpl; rewrite B2SF_SF2B; apply round_equiv..]. Qed.
Lemma mul_equiv (x y : bf) : SFmul prec emax (B2SF x) (B2SF y) = B2SF (Bmult mode_NE x y).
Proof. case x as [sx|sx| |sx mx ex Bx]; case y as [sy|sy| |sy my ey By]; try reflexivity. simpl. rewrite B2SF_SF2B. apply round_aux_equiv. Qed.
Lemma div_equiv (x y : bf) : SFdiv prec emax (B2SF x) (B2SF y) = B2SF (Bdiv mode_NE x y).
Proof.
  case x as [sx|sx| |sx mx ex Bx]; case y as [sy|sy| |sy my ey By]; try reflexivity. simpl. rewrite B2SF_SF2B. set (z := SFdiv_core_binary _ _ _ _ _ _). case z as [[mz ez] lz]. apply round_aux_equiv.
Qed.
Local Notation fexp := (SpecFloat.fexp prec emax).
Local Notation rnd := (round radix2 fexp ZnearestE).
Local Instance Vexp : Valid_exp fexp := fexp_correct prec emax Hp.
Local Open Scope R_scope.
Lemma fmt m e : (Z.abs m <= 2 ^ 53)%Z -> (-1074 <= e < 900)%Z -> generic_format radix2 fexp (F2R (Float radix2 m e)).
Proof.
  intros M E. destruct (Z.eq_dec (Z.abs m) (2 ^ 53)) as [Q|Q].
  - assert (X : exists s, (m = s * 2 ^ 53)%Z /\ (Z.abs s = 1)%Z) by (exists (Z.sgn m); lia). destruct X as (s & -> & S).
    replace (F2R (Float radix2 (s * 2 ^ 53) e)) with (F2R (Float radix2 s (e + 53))).
    + apply (generic_format_FLT radix2 (-1074) 53). exists (Float radix2 s (e + 53)); [reflexivity|cbn [Fnum]; rewrite S; reflexivity|cbn [Fexp]; lia].
    + unfold F2R. cbn [Fnum Fexp]. rewrite bpow_plus, mult_IZR. change (bpow radix2 53) with (IZR (2 ^ 53)). ring.
  - apply (generic_format_FLT radix2 (-1074) 53). exists (Float radix2 m e); [reflexivity|cbn [Fnum]; change (Zpower radix2 53) with (2 ^ 53)%Z; lia|cbn [Fexp]; lia].
Qed.
Lemma fmt_int n : (Z.abs n <= 2 ^ 53)%Z -> generic_format radix2 fexp (IZR n).
Proof. intros M. replace (IZR n) with (F2R (Float radix2 n 0)) by (unfold F2R; cbn; ring). apply fmt; [exact M|lia]. Qed.
Lemma fmt_pow e : (-1000 <= e < 900)%Z -> generic_format radix2 fexp (bpow radix2 e).
Proof. intros E. replace (bpow radix2 e) with (F2R (Float radix2 1 e)) by (unfold F2R; cbn; ring). apply fmt; lia. Qed.
Lemma rnd_abs_le x y : generic_format radix2 fexp y -> Rabs x <= y -> Rabs (rnd x) <= y.
Proof. intros G L. apply abs_round_le_generic; auto with typeclass_instances. Qed.
Lemma rnd_bound x e : (-1000 <= e < 900)%Z -> Rabs x <= bpow radix2 e -> Rlt_bool (Rabs (rnd x)) (bpow radix2 emax) = true.
Proof. intros E L. apply Rlt_bool_true. apply Rle_lt_trans with (bpow radix2 e); [apply rnd_abs_le; [apply fmt_pow, E|exact L]|apply bpow_lt; lia]. Qed.
(** integers *)
Definition X (n : Z) : bf := binary_normalize prec emax Hp He mode_NE n 0 false.
Lemma X_R n : (Z.abs n <= 2 ^ 63)%Z -> B2R (X n) = rnd (IZR n) /\ is_finite (X n) = true.
Proof.
  intros B. pose proof (binary_normalize_correct prec emax Hp He mode_NE n 0 false) as C. cbv zeta in C. replace (F2R (Float radix2 n 0)) with (IZR n) in C by (unfold F2R; cbn; ring).
  cbn [round_mode] in C. rewrite (rnd_bound (IZR n) 63) in C; [destruct C as (A & F & _); split; assumption|lia|]. rewrite <- abs_IZR. change (bpow radix2 63) with (IZR (2 ^ 63)). apply IZR_le, B.
Qed.
Lemma X_int n : (Z.abs n <= 2 ^ 53)%Z -> B2R (X n) = IZR n.
Proof. intros B. rewrite (proj1 (X_R n ltac:(lia))). apply round_generic; [auto with typeclass_instances|apply fmt_int, B]. Qed.
Lemma X_finite n : (Z.abs n <= 2 ^ 63)%Z -> is_finite (X n) = true. Proof. intros B. apply X_R, B. Qed.
Definition M6 : bf := X 1000000.
Lemma M6_R : B2R M6 = 1000000. Proof. apply X_int. lia. Qed.
Lemma M6_fin : is_finite M6 = true. Proof. apply X_finite. lia. Qed.
Lemma mul_R x : is_finite x = true -> Rabs (1000000 * B2R x) <= bpow radix2 800 -> B2R (Bmult mode_NE M6 x) = rnd (1000000 * B2R x) /\ is_finite (Bmult mode_NE M6 x) = true.
Proof.
  intros F L. pose proof (Bmult_correct prec emax Hp He mode_NE M6 x) as C. rewrite M6_R in C. cbn [round_mode] in C. rewrite (rnd_bound _ 800) in C by (lia || exact L). destruct C as (A & B & _). rewrite M6_fin, F in B. auto.
Qed.
Lemma div_R x : is_finite x = true -> Rabs (B2R x) <= bpow radix2 64 -> B2R (Bdiv mode_NE x M6) = rnd (B2R x / 1000000) /\ is_finite (Bdiv mode_NE x M6) = true.
Proof.
  intros F L. pose proof (Bdiv_correct prec emax Hp He mode_NE x M6) as C. rewrite M6_R in C. specialize (C ltac:(lra)). cbn [round_mode] in C. rewrite (rnd_bound _ 64) in C; [destruct C as (A & B & _); rewrite F in B; auto|lia|].
  unfold Rdiv. rewrite Rabs_mult, (Rabs_pos_eq (/ 1000000)) by lra. pose proof (Rabs_pos (B2R x)). lra.
Qed.
(** truncation *)
Lemma trunc_F (s : bool) (m : positive) (e : Z) : (if s then - (if 0 <=? e then Z.pos m * 2 ^ e else Z.pos m / 2 ^ (- e)) else (if 0 <=? e then Z.pos m * 2 ^ e else Z.pos m / 2 ^ (- e)))%Z = Ztrunc (F2R (Float radix2 (cond_Zopp s (Z.pos m)) e)).
Proof.
  assert (P : (if 0 <=? e then Z.pos m * 2 ^ e else Z.pos m / 2 ^ (- e))%Z = Ztrunc (F2R (Float radix2 (Z.pos m) e))).
  { unfold F2R. cbn [Fnum Fexp]. destruct (Z.leb_spec 0 e) as [E|E].
    - rewrite <- (IZR_Zpower radix2 e E), <- mult_IZR. symmetry. apply Ztrunc_IZR.
    - rewrite Ztrunc_floor.
      + replace (bpow radix2 e) with (/ IZR (2 ^ (- e))) by (change 2%Z with (radix_val radix2); rewrite (IZR_Zpower radix2) by lia; rewrite <- bpow_opp; f_equal; lia). symmetry. apply Zfloor_div. apply Z.pow_nonzero; lia.
      + apply Rmult_le_pos; [apply IZR_le; lia|apply bpow_ge_0]. }
  destruct s; cbn [cond_Zopp]; [|exact P]. rewrite F2R_Zopp, Ztrunc_opp, <- P. reflexivity.
Qed.
Lemma int64_R (x : bf) : is_finite x = true -> int64_of (B2SF x) = if in_i64 (Ztrunc (B2R x)) then Ok (Ztrunc (B2R x)) else UB.
Proof.
  destruct x as [s|s| |s m e Bx]; try discriminate; intros _.
  - cbn [B2SF int64_of B2R]. rewrite Ztrunc_IZR. reflexivity.
  - cbn [B2SF int64_of B2R]. cbv zeta. rewrite trunc_F. reflexivity.
Qed.
Lemma ada2love_R (x : bf) : is_finite x = true -> Rabs (1000000 * B2R x) <= bpow radix2 800 ->
  ada2love (B2SF x) = let v := Ztrunc (rnd (1000000 * B2R x)) in if in_i64 v then Ok v else UB.
Proof.
  intros F L. destruct (mul_R x F L) as [A B]. unfold ada2love, million. rewrite of_int_equiv. fold (X 1000000). fold M6. rewrite mul_equiv, (int64_R _ B), A. reflexivity.
Qed.
Definition L (n : Z) : bf := Bdiv mode_NE (X n) M6.
Lemma love_L n : love2ada n = B2SF (L n).
Proof. unfold love2ada, million. rewrite !of_int_equiv. apply div_equiv. Qed.
Lemma in_i64_iff v : in_i64 v = true <-> (- 2 ^ 63 <= v < 2 ^ 63)%Z.
Proof. unfold in_i64. rewrite Bool.andb_true_iff, Z.leb_le, Z.ltb_lt. tauto. Qed.
Lemma rel x : bpow radix2 (-1000) <= Rabs x -> Rabs (rnd x - x) <= bpow radix2 (-53) * Rabs x.
Proof.
  intros H. pose proof (relative_error_N_FLT radix2 (-1074) 53 Hp (fun x => negb (Z.even x)) x) as R. replace (bpow radix2 (-53)) with (/ 2 * bpow radix2 (-53 + 1)) by (rewrite bpow_plus; cbn [bpow]; change (Z.pow_pos radix2 1) with 2%Z; change (bpow radix2 1) with 2; lra).
  apply R. apply Rle_trans with (2 := H). apply bpow_le. lia.
Qed.
Lemma L_R n : (Z.abs n <= 2 ^ 63)%Z -> B2R (L n) = rnd (B2R (X n) / 1000000) /\ is_finite (L n) = true.
Proof.
  intros B. apply div_R; [apply X_finite, B|]. rewrite (proj1 (X_R n B)). apply Rle_trans with (bpow radix2 63); [|apply bpow_le; lia]. apply rnd_abs_le; [apply fmt_pow; lia|]. rewrite <- abs_IZR. change (bpow radix2 63) with (IZR (2 ^ 63)). apply IZR_le, B.
Qed.
Lemma pow_m53 : bpow radix2 (-53) = / IZR (2 ^ 53). Proof. reflexivity. Qed.
Lemma tiny x c : c <= Rabs x -> bpow radix2 (-100) <= c -> bpow radix2 (-1000) <= Rabs x.
Proof. intros H1 H2. apply Rle_trans with (2 := H1), Rle_trans with (2 := H2). apply bpow_le. lia. Qed.
Lemma small_pow : bpow radix2 (-100) <= / 10000000.
Proof. change (bpow radix2 (-100)) with (/ IZR (2 ^ 100)). apply Rinv_le; [lra|]. apply IZR_le. lia. Qed.
(** multiplying a rounded quotient back *)
Lemma back x : x = 0 \/ 1 / 10 <= Rabs x -> Rabs (1000000 * rnd (x / 1000000) - x) <= / IZR (2 ^ 53) * Rabs x.
Proof.
  intros [->|H].
  - replace (0 / 1000000) with 0 by lra. rewrite round_0 by auto with typeclass_instances. rewrite Rmult_0_r, Rminus_0_r, Rabs_R0. lra.
  - assert (Q : Rabs (x / 1000000) = Rabs x / 1000000) by (unfold Rdiv; rewrite Rabs_mult, (Rabs_pos_eq (/ 1000000)) by lra; reflexivity).
    pose proof (rel (x / 1000000)) as R. rewrite pow_m53, Q in R. specialize (R ltac:(rewrite <- Q; apply (tiny _ (/ 10000000)); [rewrite Q; lra|apply small_pow])).
    replace (1000000 * rnd (x / 1000000) - x) with (1000000 * (rnd (x / 1000000) - x / 1000000)) by lra. rewrite Rabs_mult, (Rabs_pos_eq 1000000) by lra.
    set (a := Rabs (rnd (x / 1000000) - x / 1000000)) in *. set (c := / IZR (2 ^ 53)) in *. replace (c * (Rabs x / 1000000)) with ((c * Rabs x) / 1000000) in R by lra. lra.
Qed.
Lemma int_or_big n : IZR n = 0 \/ 1 <= Rabs (IZR n).
Proof. destruct (Z.eq_dec n 0) as [->|N]; [left; reflexivity|right]. rewrite <- abs_IZR. apply IZR_le. lia. Qed.
Lemma close n : (Z.abs n < 2 ^ 52)%Z -> Rabs (rnd (1000000 * B2R (L n)) - IZR n) <= / 2.
Proof.
  intros B. rewrite (proj1 (L_R n ltac:(lia))), (X_int n) by lia. pose proof (back (IZR n)) as K. specialize (K ltac:(destruct (int_or_big n); [left; assumption|right; lra])).
  assert (A : Rabs (IZR n) <= IZR (2 ^ 52)) by (rewrite <- abs_IZR; apply IZR_le; lia).
  assert (H : Rabs (1000000 * rnd (IZR n / 1000000) - IZR n) <= / 2).
  { apply Rle_trans with (1 := K). apply Rle_trans with (/ IZR (2 ^ 53) * IZR (2 ^ 52)); [apply Rmult_le_compat_l; [apply Rlt_le, Rinv_0_lt_compat, IZR_lt; lia|exact A]|]. change (2 ^ 53)%Z with (2 * 2 ^ 52)%Z. rewrite mult_IZR. assert (0 < IZR (2 ^ 52)) by (apply IZR_lt; lia). right. field. lra. }
  assert (G : forall k, (Z.abs k = 1)%Z -> generic_format radix2 fexp (IZR n + IZR k / 2)).
  { intros k E. replace (IZR n + IZR k / 2) with (F2R (Float radix2 (2 * n + k) (-1))) by (unfold F2R; cbn [Fnum Fexp]; rewrite plus_IZR, mult_IZR; change (bpow radix2 (-1)) with (/ 2); lra). apply fmt; lia. }
  apply Rabs_le_inv in H. apply Rabs_le. split.
  - assert (Y : IZR n + IZR (-1) / 2 <= rnd (1000000 * rnd (IZR n / 1000000))) by (apply round_ge_generic; [auto with typeclass_instances..|apply G; reflexivity|lra]). lra.
  - assert (Y : rnd (1000000 * rnd (IZR n / 1000000)) <= IZR n + IZR 1 / 2) by (apply round_le_generic; [auto with typeclass_instances..|apply G; reflexivity|lra]). lra.
Qed.
Lemma trunc_close z n : Rabs (z - IZR n) <= / 2 -> Ztrunc z = n \/ (Ztrunc z = n - Z.sgn n)%Z.
Proof.
  intros H. apply Rabs_le_inv in H. destruct (Z.lt_trichotomy n 0) as [N|[->|N]].
  - assert (IZR n <= -1) by (apply IZR_le; lia). rewrite Ztrunc_ceil by lra. assert (Zceil z <= n + 1)%Z by (apply Zceil_glb; rewrite plus_IZR; lra).
    assert (n <= Zceil z)%Z by (apply le_IZR; apply Rnot_lt_le; intros C; apply lt_IZR in C; assert (Zceil z <= n - 1)%Z by lia; pose proof (Zceil_ub z); assert (IZR (Zceil z) <= IZR (n - 1)) by (apply IZR_le; assumption); rewrite minus_IZR in *; lra). lia.
  - left. destruct (Rle_or_lt 0 z).
    + rewrite Ztrunc_floor by assumption. apply Zfloor_imp. rewrite plus_IZR. lra.
    + rewrite Ztrunc_ceil by lra. apply Zceil_imp. rewrite minus_IZR. lra.
  - assert (1 <= IZR n) by (apply IZR_le; lia). rewrite Ztrunc_floor by lra. assert (n - 1 <= Zfloor z)%Z by (apply Zfloor_lub; rewrite minus_IZR; lra).
    assert (Zfloor z <= n)%Z by (apply Zlt_succ_le, lt_IZR; rewrite succ_IZR; apply Rle_lt_trans with (1 := Zfloor_lb z); lra). lia.
Qed.
Lemma big_ok x : Rabs x <= bpow radix2 70 -> Rabs (1000000 * x) <= bpow radix2 800.
Proof.
  intros H. rewrite Rabs_mult, (Rabs_pos_eq 1000000) by lra. apply Rle_trans with (bpow radix2 20 * bpow radix2 70); [|rewrite <- bpow_plus; apply bpow_le; lia].
  apply Rmult_le_compat; [lra|apply Rabs_pos|change (bpow radix2 20) with 1048576; lra|exact H].
Qed.
Lemma L_bound n : (Z.abs n <= 2 ^ 63)%Z -> Rabs (B2R (L n)) <= bpow radix2 70.
Proof.
  intros B. rewrite (proj1 (L_R n B)). apply Rle_trans with (bpow radix2 63); [|apply bpow_le; lia]. apply rnd_abs_le; [apply fmt_pow; lia|].
  assert (A : Rabs (B2R (X n)) <= bpow radix2 63) by (rewrite (proj1 (X_R n B)); apply rnd_abs_le; [apply fmt_pow; lia|]; rewrite <- abs_IZR; change (bpow radix2 63) with (IZR (2 ^ 63)); apply IZR_le, B).
  unfold Rdiv. rewrite Rabs_mult, (Rabs_pos_eq (/ 1000000)) by lra. pose proof (Rabs_pos (B2R (X n))). lra.
Qed.
(** ** Round trips *)
Theorem C65_roundtrip_within_one : forall n, (Z.abs n < 2 ^ 52)%Z ->
  exists m, ada2love (love2ada n) = Ok m /\ (m = n \/ m = n - Z.sgn n)%Z.
Proof.
  intros n B. rewrite love_L, ada2love_R by (apply L_R; lia) || (apply big_ok, L_bound; lia). pose proof (trunc_close _ _ (close n B)) as T. cbv zeta.
  exists (Ztrunc (rnd (1000000 * B2R (L n)))). split; [|exact T]. replace (in_i64 _) with true; [reflexivity|]. symmetry. apply in_i64_iff. lia.
Qed.
Lemma trunc_dist z : Rabs (IZR (Ztrunc z) - z) < 1.
Proof.
  destruct (Rle_or_lt 0 z).
  - rewrite Ztrunc_floor by assumption. pose proof (Zfloor_lb z). pose proof (Zfloor_ub z). apply Rabs_def1; lra.
  - rewrite Ztrunc_ceil by lra. pose proof (Zceil_ub z). pose proof (Zceil_lb z). apply Rabs_def1; lra.
Qed.
Lemma rel' x : x = 0 \/ 1 / 10 <= Rabs x -> Rabs (rnd x - x) <= / IZR (2 ^ 53) * Rabs x.
Proof.
  intros [->|H]; [rewrite round_0 by auto with typeclass_instances; rewrite Rminus_0_r, Rabs_R0; lra|]. pose proof (rel x) as R. rewrite pow_m53 in R. apply R. apply (tiny _ (1 / 10)); [exact H|]. pose proof small_pow. lra.
Qed.
Theorem C65_roundtrip_error : forall n, (Z.abs n <= 2 ^ 62)%Z ->
  exists m, ada2love (love2ada n) = Ok m /\ (Z.abs (m - n) <= 1 + Z.abs n / 2 ^ 51)%Z.
Proof.
  intros n B. rewrite love_L, ada2love_R by (apply L_R; lia) || (apply big_ok, L_bound; lia). cbv zeta. rewrite (proj1 (L_R n ltac:(lia))), (proj1 (X_R n ltac:(lia))).
  set (x := rnd (IZR n)). set (y := 1000000 * rnd (x / 1000000)). set (z := rnd y). set (c := / IZR (2 ^ 53)).
  assert (C0 : 0 < c) by (apply Rinv_0_lt_compat, IZR_lt; lia). assert (C1 : c <= / 1000) by (apply Rinv_le; [lra|apply IZR_le; lia]). assert (C2 : 4 * c = / IZR (2 ^ 51)) by (unfold c; change (2 ^ 53)%Z with (4 * 2 ^ 51)%Z; rewrite mult_IZR; assert (0 < IZR (2 ^ 51)) by (apply IZR_lt; lia); field; lra).
  assert (mulc : forall u v, u <= v -> c * u <= c * v) by (intros u v H; apply Rmult_le_compat_l; [lra|exact H]).
  assert (smallc : forall u, 0 <= u -> c * u <= / 1000 * u) by (intros u H; apply Rmult_le_compat_r; assumption).
  set (a := Rabs (IZR n)). assert (A0 : 0 <= a) by apply Rabs_pos.
  assert (E1 : Rabs (x - IZR n) <= c * a) by (apply rel'; destruct (int_or_big n); [left; assumption|right; lra]).
  assert (X1 : Rabs x <= a + / 1000 * a) by (pose proof (smallc a A0); replace x with (IZR n + (x - IZR n)) by lra; pose proof (Rabs_triang (IZR n) (x - IZR n)); fold a in H0; lra).
  assert (X2 : x = 0 \/ 1 / 10 <= Rabs x).
  { destruct (int_or_big n) as [Z|Z]; [left; unfold x; rewrite Z; apply round_0; auto with typeclass_instances|right]. fold a in Z. pose proof (smallc a A0). pose proof (Rabs_triang_inv (IZR n) (IZR n - x)) as T. replace (IZR n - (IZR n - x)) with x in T by lra. rewrite <- Rabs_Ropp in E1. replace (- (x - IZR n)) with (IZR n - x) in E1 by lra. fold a in T. lra. }
  assert (E2 : Rabs (y - x) <= c * Rabs x) by (apply back, X2).
  pose proof (smallc _ (Rabs_pos x)) as SX.
  assert (Y1 : Rabs y <= Rabs x + / 1000 * Rabs x) by (replace y with (x + (y - x)) by lra; pose proof (Rabs_triang x (y - x)); lra).
  assert (Y2 : y = 0 \/ 1 / 10 <= Rabs y).
  { destruct X2 as [Z|Z]; [left; unfold y; rewrite Z; replace (0 / 1000000) with 0 by lra; rewrite round_0 by auto with typeclass_instances; lra|].
    destruct (int_or_big n) as [Z'|Z']; [left; unfold y, x; rewrite Z', round_0 by auto with typeclass_instances; replace (0 / 1000000) with 0 by lra; rewrite round_0 by auto with typeclass_instances; lra|right].
    fold a in Z'. pose proof (smallc a A0). pose proof (Rabs_triang_inv (IZR n) (IZR n - x)) as T. replace (IZR n - (IZR n - x)) with x in T by lra. rewrite <- Rabs_Ropp in E1. replace (- (x - IZR n)) with (IZR n - x) in E1 by lra. fold a in T.
    pose proof (Rabs_triang_inv x (x - y)) as T2. replace (x - (x - y)) with y in T2 by lra. rewrite <- Rabs_Ropp in E2. replace (- (y - x)) with (x - y) in E2 by lra. lra. }
  assert (E3 : Rabs (z - y) <= c * Rabs y) by (apply rel', Y2).
  assert (E : Rabs (z - IZR n) <= 4 * c * a).
  { replace (z - IZR n) with ((z - y) + ((y - x) + (x - IZR n))) by lra. pose proof (Rabs_triang (z - y) ((y - x) + (x - IZR n))). pose proof (Rabs_triang (y - x) (x - IZR n)).
    pose proof (mulc _ _ X1). pose proof (mulc _ _ Y1). pose proof (mulc (a + / 1000 * a) (11 / 10 * a) ltac:(lra)). pose proof (mulc (Rabs x + / 1000 * Rabs x) (12 / 10 * a) ltac:(lra)). lra. }
  assert (F : Rabs (IZR (Ztrunc z) - IZR n) < 1 + 4 * c * a) by (pose proof (trunc_dist z); replace (IZR (Ztrunc z) - IZR n) with ((IZR (Ztrunc z) - z) + (z - IZR n)) by lra; pose proof (Rabs_triang (IZR (Ztrunc z) - z) (z - IZR n)); lra).
  assert (G : (Z.abs (Ztrunc z - n) <= 1 + Z.abs n / 2 ^ 51)%Z).
  { rewrite C2, <- minus_IZR, <- abs_IZR in F. unfold a in F. rewrite <- abs_IZR in F. assert (P : 0 < IZR (2 ^ 51)) by (apply IZR_lt; lia).
    assert (F2 : IZR ((Z.abs (Ztrunc z - n) - 1) * 2 ^ 51) < IZR (Z.abs n)).
    { rewrite mult_IZR, minus_IZR. apply Rmult_lt_reg_r with (/ IZR (2 ^ 51)); [apply Rinv_0_lt_compat, P|]. rewrite Rmult_assoc, Rinv_r by lra. lra. }
    apply lt_IZR in F2. assert (Z.abs (Ztrunc z - n) - 1 <= Z.abs n / 2 ^ 51)%Z by (apply Z.div_le_lower_bound; lia). lia. }
  exists (Ztrunc z). split; [|exact G]. replace (in_i64 _) with true; [reflexivity|]. symmetry. apply in_i64_iff. assert (Z.abs n / 2 ^ 51 <= 2 ^ 11)%Z by (apply Z.div_le_upper_bound; lia). lia.
Qed.
(** ** Whole ADA: exact *)
Lemma fmt_ada k : (15625 * Z.abs k <= 2 ^ 53)%Z -> generic_format radix2 fexp (IZR (1000000 * k)).
Proof.
  intros B. replace (IZR (1000000 * k)) with (F2R (Float radix2 (15625 * k) 6)) by (unfold F2R; cbn [Fnum Fexp]; change (bpow radix2 6) with 64; rewrite !mult_IZR; lra). apply fmt; lia.
Qed.
Lemma fin_eq (x y : bf) : is_finite_strict x = true -> is_finite_strict y = true -> B2R x = B2R y -> B2SF x = B2SF y.
Proof. intros F G E. f_equal. apply B2R_inj; assumption. Qed.
Theorem C65_whole_ada : forall k, (15625 * Z.abs k <= 2 ^ 53)%Z ->
  love2ada (1000000 * k) = of_int k /\ ada2love (of_int k) = Ok (1000000 * k)%Z /\ ada2love (love2ada (1000000 * k)) = Ok (1000000 * k)%Z.
Proof.
  intros k B.
  assert (E : ada2love (of_int k) = Ok (1000000 * k)%Z).
  { rewrite of_int_equiv. fold (X k). rewrite ada2love_R; [|apply X_finite; lia|apply big_ok; rewrite X_int by lia; rewrite <- abs_IZR; apply Rle_trans with (IZR (2 ^ 70)); [apply IZR_le; lia|right; reflexivity]].
    rewrite X_int by lia. cbv zeta. rewrite <- mult_IZR, round_generic by (auto with typeclass_instances || apply fmt_ada, B). rewrite Ztrunc_IZR. replace (in_i64 _) with true; [reflexivity|]. symmetry. apply in_i64_iff. lia. }
  assert (D : love2ada (1000000 * k) = of_int k).
  { destruct (Z.eq_dec k 0) as [->|N]; [vm_compute; reflexivity|]. rewrite love_L, of_int_equiv. fold (X k).
    assert (RX : B2R (X (1000000 * k)) = IZR (1000000 * k)) by (rewrite (proj1 (X_R (1000000 * k) ltac:(lia))); apply round_generic; [auto with typeclass_instances|apply fmt_ada, B]).
    assert (RL : B2R (L (1000000 * k)) = IZR k).
    { rewrite (proj1 (L_R (1000000 * k) ltac:(lia))), RX. replace (IZR (1000000 * k) / 1000000) with (IZR k) by (rewrite mult_IZR; field). apply round_generic; [auto with typeclass_instances|apply fmt_int; lia]. }
    assert (NZ : IZR k <> 0) by (apply not_0_IZR, N).
    assert (S : forall x : bf, is_finite x = true -> B2R x <> 0 -> is_finite_strict x = true) by (intros [s|s| |s m e Bx] F R; try discriminate; try reflexivity; destruct (R eq_refl)).
    apply fin_eq; [apply S; [apply L_R; lia|rewrite RL; exact NZ]|apply S; [apply X_finite; lia|rewrite X_int by lia; exact NZ]|]. rewrite RL, X_int by lia. reflexivity. }
  split; [exact D|]. split; [exact E|]. rewrite D. exact E.
Qed.
(** ** Order and injectivity *)
Lemma rnd_le x y : x <= y -> rnd x <= rnd y. Proof. intros H. apply round_le; auto with typeclass_instances. Qed.
Lemma le_R (x y : bf) : is_finite x = true -> is_finite y = true -> (x_le (B2SF x) (B2SF y) <-> B2R x <= B2R y).
Proof. intros F G. unfold x_le. change (SFleb (B2SF x) (B2SF y)) with (Bleb x y). rewrite Bleb_correct by assumption. split; [intros H; destruct (Rle_bool_spec (B2R x) (B2R y)); [assumption|discriminate]|intros H; apply Rle_bool_true, H]. Qed.
Theorem C65_love2ada_monotone : forall n n', (- 2 ^ 63 <= n <= n')%Z -> (n' < 2 ^ 63)%Z -> x_le (love2ada n) (love2ada n').
Proof.
  intros n n' A B. rewrite !love_L. apply le_R; [apply L_R; lia..|]. rewrite (proj1 (L_R n ltac:(lia))), (proj1 (L_R n' ltac:(lia))), (proj1 (X_R n ltac:(lia))), (proj1 (X_R n' ltac:(lia))).
  apply rnd_le. unfold Rdiv. apply Rmult_le_compat_r; [lra|]. apply rnd_le, IZR_le. lia.
Qed.
Theorem C65_love2ada_injective : forall n n', (Z.abs n < 2 ^ 52)%Z -> (Z.abs n' < 2 ^ 52)%Z -> love2ada n = love2ada n' -> n = n'.
Proof.
  intros n n' A B E. rewrite !love_L in E. apply B2SF_inj in E.
  assert (K : forall k, (Z.abs k < 2 ^ 52)%Z -> Rabs (1000000 * B2R (L k) - IZR k) < / 2).
  { intros k H. rewrite (proj1 (L_R k ltac:(lia))), (X_int k) by lia. apply Rle_lt_trans with (1 := back (IZR k) ltac:(destruct (int_or_big k); [left; assumption|right; lra])).
    assert (P : 0 < IZR (2 ^ 53)) by (apply IZR_lt; lia). apply Rmult_lt_reg_l with (IZR (2 ^ 53)); [exact P|]. rewrite <- Rmult_assoc, Rinv_r, Rmult_1_l, <- abs_IZR by lra. change (2 ^ 53)%Z with (2 ^ 52 * 2)%Z. rewrite mult_IZR. assert (IZR (Z.abs k) < IZR (2 ^ 52)) by (apply IZR_lt, H). lra. }
  pose proof (K n A) as K1. pose proof (K n' B) as K2. rewrite E in K1. apply Rabs_def2 in K1. apply Rabs_def2 in K2.
  assert (n - n' < 1)%Z by (apply lt_IZR; rewrite minus_IZR; lra). assert (n' - n < 1)%Z by (apply lt_IZR; rewrite minus_IZR; lra). lia.
Qed.
Lemma double_bf x : is_double x -> exists b : bf, x = B2SF b.
Proof. intros H. exists (SF2B x H). symmetry. apply B2SF_SF2B. Qed.
(** what ada2love does to a finite double, whatever its size *)
Lemma ada2love_inv (b : bf) m : ada2love (B2SF b) = Ok m -> is_finite b = true /\ m = Ztrunc (rnd (1000000 * B2R b)) /\ in_i64 m = true.
Proof.
  intros H. unfold ada2love, million in H. rewrite of_int_equiv in H. fold (X 1000000) in H. fold M6 in H. rewrite mul_equiv in H.
  destruct (is_finite (Bmult mode_NE M6 b)) eqn:F; [|destruct (Bmult mode_NE M6 b); discriminate].
  rewrite (int64_R _ F) in H. pose proof (Bmult_correct prec emax Hp He mode_NE M6 b) as C. rewrite M6_R in C. cbn [round_mode] in C.
  destruct (Rlt_bool _ _); [|rewrite <- is_finite_SF_B2SF, C in F; discriminate]. destruct C as (A & G & _). rewrite F, M6_fin in G. symmetry in G. cbn [andb] in G. rewrite A in H.
  destruct (in_i64 _) eqn:I; [|discriminate]. injection H as <-. auto.
Qed.
Theorem C65_ada2love_monotone : forall x y a b, is_double x -> is_double y -> x_le x y -> ada2love x = Ok a -> ada2love y = Ok b -> (a <= b)%Z.
Proof.
  intros x y a b Dx Dy LE Ha Hb. apply double_bf in Dx as (x' & ->). apply double_bf in Dy as (y' & ->). apply ada2love_inv in Ha as (Fx & -> & _). apply ada2love_inv in Hb as (Fy & -> & _).
  apply (le_R _ _ Fx Fy) in LE. apply Ztrunc_le, rnd_le. lra.
Qed.
(** ** Where the conversion is defined *)
Theorem C65_ada2love_defined : forall x, is_double x -> x_le (of_int (-9223372036854)) x -> x_le x (of_int 9223372036854) -> exists m, ada2love x = Ok m.
Proof.
  intros x Dx LO HI. apply double_bf in Dx as (b & ->). rewrite of_int_equiv in LO, HI. fold (X (-9223372036854)) in LO. fold (X 9223372036854) in HI.
  assert (F : is_finite b = true) by (destruct b as [s|s| |s m e Bx]; try reflexivity; [destruct s; [vm_compute in LO|vm_compute in HI]; discriminate|vm_compute in LO; discriminate]).
  apply le_R in LO; [|apply X_finite; lia|exact F]. apply le_R in HI; [|exact F|apply X_finite; lia]. rewrite X_int in LO, HI by lia.
  rewrite ada2love_R; [|exact F|apply big_ok, Rabs_le; change (bpow radix2 70) with 1180591620717411303424; lra]. cbv zeta. replace (in_i64 _) with true; [eexists; reflexivity|]. symmetry. apply in_i64_iff.
  assert (G : forall k, (Z.abs k = 1)%Z -> generic_format radix2 fexp (IZR (k * (2 ^ 63 - 1024)))).
  { intros k K. replace (IZR (k * (2 ^ 63 - 1024))) with (F2R (Float radix2 (k * (2 ^ 53 - 1)) 10)) by (unfold F2R; cbn [Fnum Fexp]; change (bpow radix2 10) with (IZR 1024); rewrite <- mult_IZR; f_equal; lia). apply fmt; lia. }
  assert (Y1 : IZR (-1 * (2 ^ 63 - 1024)) <= rnd (1000000 * B2R b)) by (apply round_ge_generic; [auto with typeclass_instances..|apply G; reflexivity|]; change (-1 * (2 ^ 63 - 1024))%Z with (-9223372036854774784)%Z; lra).
  assert (Y2 : rnd (1000000 * B2R b) <= IZR (1 * (2 ^ 63 - 1024))) by (apply round_le_generic; [auto with typeclass_instances..|apply G; reflexivity|]; change (1 * (2 ^ 63 - 1024))%Z with 9223372036854774784%Z; lra).
  apply Ztrunc_le in Y1, Y2. rewrite Ztrunc_IZR in Y1, Y2. lia.
Qed.
Theorem C65_ada2love_undefined_refuted : forall x, is_double x ->
  x_le (of_int 9223372036855) x \/ x_le x (of_int (-9223372036855)) \/ x = S754_nan -> ada2love x = UB.
Proof.
  intros x Dx H. destruct (ada2love x) as [m| |] eqn:E; [|exfalso; unfold ada2love, int64_of in E; destruct (SFmul 53 1024 million x) as [| | |s p e]; try discriminate; cbv zeta in E; destruct (in_i64 _); discriminate|reflexivity].
  exfalso. apply double_bf in Dx as (b & ->). apply ada2love_inv in E as (F & -> & I). apply in_i64_iff in I.
  destruct H as [H|[H|H]]; [| |destruct b; discriminate]; rewrite of_int_equiv in H; [fold (X 9223372036855) in H|fold (X (-9223372036855)) in H].
  - apply le_R in H; [|apply X_finite; lia|exact F]. rewrite X_int in H by lia. assert (Y : bpow radix2 63 <= rnd (1000000 * B2R b)) by (apply round_ge_generic; [auto with typeclass_instances..|apply fmt_pow; lia|]; change (bpow radix2 63) with 9223372036854775808; lra).
    change (bpow radix2 63) with (IZR (2 ^ 63)) in Y. apply Ztrunc_le in Y. rewrite Ztrunc_IZR in Y. lia.
  - apply le_R in H; [|exact F|apply X_finite; lia]. rewrite X_int in H by lia.
    assert (G : generic_format radix2 fexp (IZR (- (2 ^ 63 + 2048)))) by (replace (IZR (- (2 ^ 63 + 2048))) with (F2R (Float radix2 (- (2 ^ 52 + 1)) 11)) by (unfold F2R; cbn [Fnum Fexp]; change (bpow radix2 11) with (IZR 2048); rewrite <- mult_IZR; f_equal; lia); apply fmt; lia).
    assert (Y : rnd (1000000 * B2R b) <= IZR (- (2 ^ 63 + 2048))) by (apply round_le_generic; [auto with typeclass_instances..|exact G|]; change (- (2 ^ 63 + 2048))%Z with (-9223372036854777856)%Z; lra).
    apply Ztrunc_le in Y. rewrite Ztrunc_IZR in Y. lia.
Qed.
(** ** The round trip is not exact *)
Theorem C65_roundtrip_inexact_refuted : ada2love (love2ada 249) = Ok 248%Z /\
  (* 2.01 *) love2ada 2010000 = S754_finite false 4526117625507348 (-51) /\ ada2love (love2ada 2010000) = Ok 2009999%Z /\
  (* above 2^53 lovelaces, which the supply exceeds, two amounts may give the same number of ADA *)
  love2ada (2 ^ 53) = love2ada (2 ^ 53 + 1).
Proof. split; [|split; [|split]]; vm_compute; reflexivity. Qed.
Example C65_ex : is_double (love2ada 2010000) /\ x_le (of_int (-9223372036854)) (love2ada 2010000) /\ (15625 * 45000000000 <= 2 ^ 53)%Z /\ ada2love (S754_finite false 4503599627370496 (-53)) = Ok 500000%Z.
Proof. split; [vm_compute; reflexivity|]. split; [vm_compute; reflexivity|]. split; [lia|vm_compute; reflexivity]. Qed.
Print Assumptions C65_roundtrip_within_one.
Print Assumptions C65_roundtrip_error.
Print Assumptions C65_whole_ada.
Print Assumptions C65_love2ada_monotone.
Print Assumptions C65_love2ada_injective.
Print Assumptions C65_ada2love_monotone.
Print Assumptions C65_ada2love_defined.
Print Assumptions C65_ada2love_undefined_refuted.
Print Assumptions C65_roundtrip_inexact_refuted.
