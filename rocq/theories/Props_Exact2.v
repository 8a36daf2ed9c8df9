(** C47: what rationalApprox does with every double outside the range of C47_rational_bounded. *)
From Coq Require Import ZArith QArith Lia.
From Verif Require Import Base BaseLemmas Model_Tx Model_Util Spec_Util Proof_Util Props_Util.
Open Scope Z_scope.
Ltac Zify.zify_post_hook ::= idtac.

(** the signs in the continued fraction of a negative ratio *)
Definition signs_ok (s d n h0 h1 k0 k1 md : Z) : Prop :=
  (s = 1 \/ s = - 1) /\ (0 <= d /\ n <= 0 \/ d <= 0 /\ 0 <= n) /\ 0 <= s * h1 /\ s * h0 <= 0 /\ s * k1 <= 0 /\ 0 <= s * k0 /\ k0 < md /\ k1 < md /\ k1 <> 0.
Lemma quot_opp_sign d n : (0 <= d /\ n <= 0 \/ d <= 0 /\ 0 <= n) -> Z.quot d n <= 0.
Proof.
  intros S. destruct (Z.eq_dec n 0) as [->|N]; [destruct d; cbn; lia|]. destruct S as [[A B]|[A B]].
  - replace n with (- (- n)) by ring. rewrite Z.quot_opp_r by lia. pose proof (Z.quot_pos d (- n) A ltac:(lia)). lia.
  - replace d with (- (- d)) by ring. rewrite Z.quot_opp_l by lia. pose proof (Z.quot_pos (- d) n ltac:(lia) ltac:(lia)). lia.
Qed.
Lemma rem_sign d n : n <> 0 -> (0 <= d -> 0 <= Z.rem d n) /\ (d <= 0 -> Z.rem d n <= 0).
Proof. intros N. split; intros D; [apply Z.rem_nonneg; assumption|apply Z.rem_nonpos; assumption]. Qed.
Lemma chk z v : (if in_i64 z then Ok z else UB) = Ok v -> v = z.
Proof. destruct (in_i64 z); [|discriminate]. intros H. injection H as <-. reflexivity. Qed.
Lemma cf_negative left : forall s i d n h0 h1 k0 k1 md p q, 1 <= i -> signs_ok s d n h0 h1 k0 k1 md -> cf_loop left i d n h0 h1 k0 k1 md = Ok (p, q) -> p * q <= 0.
Proof.
  assert (PR : forall s h k : Z, s = 1 \/ s = - 1 -> 0 <= s * h -> s * k <= 0 -> h * k <= 0) by (intros s h k [->| ->] A B; nia).
  induction left as [|left IH]; intros s i d n h0 h1 k0 k1 md p q I1 (S & DN & H1 & H0 & K1 & K0 & KM & KM1 & KN) E; cbn [cf_loop] in E.
  { injection E as <- <-. exact (PR s _ _ S H1 K1). }
  apply bind_ok in E as (a & A & E). assert (A0 : a <= 0 /\ (n <> 0 -> a = Z.quot d n)).
  { destruct (Z.eqb_spec n 0) as [N|N]; [injection A as <-; split; [lia|congruence]|]. unfold sdiv in A. destruct (Z.eqb_spec n 0); [contradiction|]. apply chk in A. split; [rewrite A; apply quot_opp_sign, DN|auto]. }
  destruct (Z.eqb_spec i 0); [lia|]. cbn [negb andb] in E. destruct (Z.eqb_spec a 0) as [AZ|AZ]; [injection E as <- <-; exact (PR s _ _ S H1 K1)|].
  apply bind_ok in E as (r & R & E). unfold srem in R. destruct (Z.eqb_spec n 0) as [N|N]; [discriminate|]. destruct (in_i64 (Z.quot d n)); [|discriminate]. injection R as <-.
  apply bind_ok in E as (ka & KA & E). apply chk in KA. apply bind_ok in E as (t & T & E). apply chk in T.
  destruct (Z.leb_spec md t) as [L|L].
  - apply bind_ok in E as (u & U & E). apply chk in U. apply bind_ok in E as (x & X & E). unfold sdiv in X. destruct (Z.eqb_spec k1 0); [contradiction|]. apply chk in X.
    apply bind_ok in E as (x2 & X2 & E). destruct ((a <=? x2) || (md <=? k1)); [|injection E as <- <-; exact (PR s _ _ S H1 K1)].
    apply bind_ok in E as (hx & HX & E). apply chk in HX. apply bind_ok in E as (h2 & H2 & E). apply chk in H2. apply bind_ok in E as (kx & KX & E). apply chk in KX. apply bind_ok in E as (k2 & K2 & E). apply chk in K2.
    injection E as <- <-. subst. destruct S as [->| ->].
    + assert (Z.quot (md - k0) k1 <= 0) by (apply quot_opp_sign; left; lia). nia.
    + exfalso. nia.
  - apply bind_ok in E as (hx & HX & E). apply chk in HX. apply bind_ok in E as (h2 & H2 & E). apply chk in H2. apply bind_ok in E as (kx & KX & E). apply chk in KX. apply bind_ok in E as (k2 & K2 & E). apply chk in K2. subst.
    apply (IH (- s) _ _ _ _ _ _ _ _ _ _) in E; [exact E|lia|].
    destruct (rem_sign d n N) as [R1 R2]. split; [destruct S; [right|left]; lia|]. split; [destruct DN as [[D1 D2]|[D1 D2]]; [specialize (R1 D1)|specialize (R2 D1)]; lia|].
      assert (AN : a < 0) by lia. destruct S as [->| ->]; repeat split; try lia; nia.
Qed.
Lemma first_step left m md : 0 < m < 2 ^ 63 -> 2 <= md -> cf_loop (S left) 0 m (- 2 ^ 63) 0 1 1 0 md = cf_loop left 1 (- 2 ^ 63) m 1 0 0 1 md.
Proof.
  intros P M. cbn [cf_loop].
    assert (Q : Z.quot m (- 2 ^ 63) = 0) by (rewrite Z.quot_opp_r, Z.quot_small by lia; reflexivity). assert (R : Z.rem m (- 2 ^ 63) = m) by (rewrite Z.rem_opp_r, Z.rem_small by lia; reflexivity).
    change (- 2 ^ 63 =? 0) with false. cbv beta iota. unfold sdiv at 1, srem at 1. change (- 2 ^ 63 =? 0) with false. cbv beta iota. rewrite Q, R. change (in_i64 0) with true. cbn [bind]. change (negb (0 =? 0) && (0 =? 0)) with false. cbv beta iota.
    change (smul 0 0) with (Ok 0). cbn [bind]. change (sadd 0 1) with (Ok 1). cbn [bind]. destruct (Z.leb_spec md 1); [lia|]. change (smul 0 1) with (Ok 0). cbn [bind]. change (sadd 0 0) with (Ok 0). cbn [bind].
    change (smul 0 0) with (Ok 0). cbn [bind]. change (sadd 0 1) with (Ok 1). cbn [bind]. 
  reflexivity.
Qed.
Lemma iter63 : Nat.iter 63 (fun n => to_i64 (2 * n)) 1 = - 2 ^ 63. Proof. vm_compute. reflexivity. Qed.
(** 63 binary digits after the point: whatever is returned is not a positive fraction for a positive number, nor a negative one for a negative number. *)
Theorem C47_63_digits_refuted : forall m md fuel p q, Z.odd m = true -> 2 <= md -> (63 <= fuel)%nat -> rational_approx fuel (DFin m (- 63)) md = Some (Ok (p, q)) ->
  (0 < m -> p * q <= 0) /\ (m < 0 -> 0 <= p * q).
Proof.
  intros m md fuel p q O M F E. 
  assert (P : forall m p q, 0 < m -> Z.odd m = true -> (let! r := scale_loop fuel (DFin m (- 63)) 1 in let (f, n) := r in let! d := lift (d_int64 f) in lift (cf_loop 64 0 d n 0 1 1 0 md)) = Some (Ok (p, q)) -> p * q <= 0).
  { clear - M F. intros m p q P O E. change (- 63) with (- Z.of_nat 63) in E. rewrite scale_wrap in E by (assumption || lia). cbn [rbind] in E. rewrite iter63 in E. unfold lift at 1 in E.
    destruct (d_int64 (DFin m 0)) as [d| |] eqn:D; cbn [rbind] in E; [|discriminate|discriminate]. assert (d = m /\ m < 2 ^ 63) as [-> B].
    { cbn [d_int64] in D. change (0 <=? 0) with true in D. cbv beta iota zeta in D. rewrite Z.pow_0_r, Z.mul_1_r in D. destruct (in_i64 m) eqn:I; [|discriminate]. assert (m = d) by congruence. unfold in_i64 in I. lia. }
    unfold lift in E. assert (E' : cf_loop 64 0 m (- 2 ^ 63) 0 1 1 0 md = Ok (p, q)) by congruence. clear E D. change 64%nat with (S 63) in E'. rewrite first_step in E' by lia.
    apply (cf_negative 63 (- 1) 1 (- 2 ^ 63) m 1 0 0 1 md p q) in E'; [exact E'|lia|]. repeat split; try lia. }
  unfold rational_approx in E. destruct (Z.leb_spec md 1); [lia|]. cbn [d_neg] in E. destruct (Z.ltb_spec m 0) as [N|N]; cbn [d_opp] in E.
  - split; [lia|]. intros _. assert (X : exists h, p = - h /\ h * q <= 0); [|destruct X as (h & -> & X); nia].
    assert (O' : Z.odd (- m) = true) by (rewrite Z.odd_opp; exact O). specialize (P (- m)). destruct (scale_loop fuel (DFin (- m) (- 63)) 1) as [[[f n]| |]|]; cbn [rbind] in *; try discriminate.
    destruct (lift (d_int64 f)) as [[d| |]|]; cbn [rbind] in *; try discriminate. destruct (lift (cf_loop 64 0 d n 0 1 1 0 md)) as [[[h k]| |]|] eqn:C; cbn [rbind] in *; try discriminate. unfold lift in E. injection E as <- <-. exists h. split; [reflexivity|]. apply (P h k); [lia|exact O'|reflexivity].
  - split; [|lia]. intros _. assert (0 < m) by (assert (m <> 0) by (intros ->; discriminate); lia). specialize (P m). destruct (scale_loop fuel (DFin m (- 63)) 1) as [[[f n]| |]|]; cbn [rbind] in *; try discriminate.
    destruct (lift (d_int64 f)) as [[d| |]|]; cbn [rbind] in *; try discriminate. destruct (lift (cf_loop 64 0 d n 0 1 1 0 md)) as [[[h k]| |]|] eqn:C; cbn [rbind] in *; try discriminate. unfold lift in E. injection E as <- <-. apply (P h k); [lia|exact O|reflexivity].
Qed.
(** Integers of 2^63 and more are converted with undefined results, as are numbers with 64 digits or more, of either sign. *)
Theorem C47_out_of_range_refuted : forall m e md fuel, Z.odd m = true -> Z.abs m < 2 ^ 53 -> ~ in_range m e -> e <> - 63 -> 2 <= md -> (Z.to_nat (- e) <= fuel)%nat ->
  rational_approx fuel (DFin m e) md = Some UB.
Proof.
  intros m e md fuel O B NR N63 M F. assert (NZ : m <> 0) by (intros ->; discriminate). destruct (Z.le_gt_cases 0 e) as [P|N].
  - assert (G : 2 ^ 63 <= Z.abs m * 2 ^ e). { apply Z.nlt_ge. intros L. apply NR. split; [lia|]. rewrite Z.max_r by lia. exact L. }
    assert (K : forall m, 0 < m -> 2 ^ 63 <= m * 2 ^ e -> (let! r := scale_loop fuel (DFin m e) 1 in let (f, n) := r in let! d := lift (d_int64 f) in lift (Ok d)) = Some UB).
    { clear - P. intros m MP G. assert (SL : scale_loop fuel (DFin m e) 1 = Some (Ok (DFin m e, 1))) by (assert (IS : d_isint (DFin m e) = true) by (cbn [d_isint]; destruct (Z.leb_spec 0 e); [reflexivity|lia]); destruct fuel; cbn [scale_loop]; rewrite IS; reflexivity).
      rewrite SL. cbn [rbind]. assert (D : d_int64 (DFin m e) = UB) by (cbn [d_int64]; destruct (Z.leb_spec 0 e); [|lia]; cbv zeta; destruct (in_i64 (m * 2 ^ e)) eqn:I; [unfold in_i64 in I; lia|reflexivity]). rewrite D. reflexivity. }
    unfold rational_approx. destruct (Z.leb_spec md 1); [lia|]. cbn [d_neg]. destruct (Z.ltb_spec m 0) as [N|N]; cbn [d_opp].
    + specialize (K (- m) ltac:(lia) ltac:(rewrite Z.abs_neq in G by lia; exact G)). destruct (scale_loop fuel (DFin (- m) e) 1) as [[[f n]| |]|]; cbn [rbind] in *; try discriminate; [|reflexivity]. destruct (lift (d_int64 f)) as [[d| |]|]; cbn [rbind] in *; try discriminate; reflexivity.
    + specialize (K m ltac:(lia) ltac:(rewrite Z.abs_eq in G by lia; exact G)). destruct (scale_loop fuel (DFin m e) 1) as [[[f n]| |]|]; cbn [rbind] in *; try discriminate; [|reflexivity]. destruct (lift (d_int64 f)) as [[d| |]|]; cbn [rbind] in *; try discriminate; reflexivity.
  - assert (L64 : e <= - 64). { assert (e < - 62); [|lia]. apply Z.nle_gt. intros L. apply NR. split; [exact L|]. rewrite Z.max_l by lia. lia. }
    destruct (Z.lt_ge_cases 0 m) as [MP|MN].
    + replace e with (- Z.of_nat (Z.to_nat (- e))) by lia. apply C47_tiny_undefined_refuted; [lia|exact O|lia|exact M].
    + pose proof (C47_tiny_undefined_refuted (- m) (Z.to_nat (- e)) md fuel ltac:(lia) ltac:(rewrite Z.odd_opp; exact O) ltac:(lia) M) as T. replace (- Z.of_nat (Z.to_nat (- e))) with e in T by lia.
      unfold rational_approx in *. destruct (Z.leb_spec md 1); [lia|]. cbn [d_neg] in *. destruct (Z.ltb_spec (- m) 0); [lia|]. destruct (Z.ltb_spec m 0); [|lia]. cbn [d_opp].
      destruct (scale_loop fuel (DFin (- m) e) 1) as [[[f n]| |]|]; cbn [rbind] in *; try discriminate; try reflexivity. destruct (lift (d_int64 f)) as [[d| |]|]; cbn [rbind] in *; try discriminate; try reflexivity.
      destruct (lift (cf_loop 64 0 d n 0 1 1 0 md)) as [[[h k]| |]|]; cbn [rbind] in *; try discriminate; reflexivity.
Qed.
(** A limit of 1 or less: the integer part over 1. *)
Theorem C47_small_limit : forall m e md fuel, md <= 1 -> let v := if 0 <=? e then m * 2 ^ e else Z.quot m (2 ^ (- e)) in
  rational_approx fuel (DFin m e) md = Some (if (- 2 ^ 63 <=? v) && (v <? 2 ^ 63) then Ok (v, 1) else UB).
Proof. intros m e md fuel M v. unfold rational_approx. destruct (Z.leb_spec md 1); [|lia]. cbn [d_int64]. fold v. unfold in_i64. destruct (_ && _); reflexivity. Qed.
Example C47_63_digits_case : exists m p q, Z.odd m = true /\ 0 < m < 2 ^ 53 /\ rational_approx 63 (DFin m (- 63)) 4096 = Some (Ok (p, q)) /\ 0 < q /\ p < 0.
Proof. exists 9007199254740881. eexists _, _. split; [reflexivity|]. split; [lia|]. split; [vm_compute; reflexivity|]. split; reflexivity. Qed.
Example C47_out_of_range_case : ~ in_range 1 63 /\ ~ in_range (- 1) (- 1074) /\ rational_approx 1074 (DFin (- 1) (- 1074)) 4096 = Some UB.
Proof. split; [intros [_ H]; vm_compute in H; discriminate|]. split; [intros [H _]; vm_compute in H; apply H; reflexivity|]. vm_compute. reflexivity. Qed.
Print Assumptions C47_63_digits_refuted. Print Assumptions C47_out_of_range_refuted. Print Assumptions C47_small_limit.

