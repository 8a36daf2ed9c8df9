(** C51: what every margin does, and what any history of calls on a pool registration leaves. *)
From Coq Require Import ZArith QArith Qabs List Lia Bool.
From Verif Require Import Base BaseLemmas Model_Tx Model_Util Model_Address Model_Ledger Model_Pool Spec_Util Proof_Util Props_Util Props_Exact2 Props_Pool.
Import ListNotations.
Open Scope Z_scope.
Ltac Zify.zify_post_hook ::= idtac.

(** A binary64 value in lowest terms: zero, or an odd integer of at most 53 bits times a power of two not below the smallest subnormal. *)
Definition lowest_terms (f : dbl) : Prop :=
  match f with DFin m e => m = 0 /\ e = 0 \/ Z.odd m = true /\ Z.abs m < 2 ^ 53 /\ - 1074 <= e | _ => True end.
(** A margin the checks let through: a number in [0,1]. *)
Definition unit_interval (f : dbl) : Prop := exists m e, f = DFin m e /\ (0 <= q_of m e <= 1)%Q.
(** What is recorded for such a margin: with at most 62 binary digits after the point a fraction in [0,1] with a denominator between 1 and 4096 that
    differs by at most 1/4096; with 63 digits zero, or a numerator or denominator of 2^63 or more. *)
Definition recorded (f : dbl) (r : rational) : Prop := exists m e, f = DFin m e /\ (0 <= q_of m e <= 1)%Q /\ - 63 <= e /\
  (- 62 <= e -> 0 <= rnum r <= rden r /\ 1 <= rden r <= 4096 /\ (Qabs (frac (rnum r) (rden r) - q_of m e) <= frac 1 4096)%Q) /\
  (e = - 63 -> rnum r = 0 \/ 2 ^ 63 <= rnum r < 2 ^ 64 \/ 2 ^ 63 <= rden r < 2 ^ 64).

Lemma wraps z : in_i64 z = true -> z < 0 -> 2 ^ 63 <= to_u64 z < 2 ^ 64.
Proof. unfold in_i64, to_u64. intros I N. replace (z mod 2 ^ 64) with (z + 2 ^ 64); [lia|]. rewrite <- (Z_mod_plus_full z 1 (2 ^ 64)). rewrite Z.mod_small; lia. Qed.
(** the loop's results are 64-bit numbers *)
Lemma cf_loop_i64 left : forall i d n h0 h1 k0 k1 md p q, in_i64 h1 = true -> in_i64 k1 = true -> cf_loop left i d n h0 h1 k0 k1 md = Ok (p, q) -> in_i64 p = true /\ in_i64 q = true.
Proof.
  assert (CI : forall z v, (if in_i64 z then Ok z else UB) = Ok v -> in_i64 v = true) by (intros z v; destruct (in_i64 z) eqn:I; [intros E; assert (z = v) by congruence; subst; exact I|discriminate]).
  induction left as [|left IH]; intros i d n h0 h1 k0 k1 md p q H1 K1 E; cbn [cf_loop] in E; [injection E as <- <-; auto|].
  apply bind_ok in E as (a & A & E). destruct (negb (i =? 0) && (a =? 0)); [injection E as <- <-; auto|].
  apply bind_ok in E as (r & R & E). apply bind_ok in E as (ka & KA & E). apply bind_ok in E as (t & T & E).
  destruct (md <=? t).
  - apply bind_ok in E as (u & U & E). apply bind_ok in E as (x & X & E). apply bind_ok in E as (x2 & X2 & E). destruct ((a <=? x2) || (md <=? k1)); [|injection E as <- <-; auto].
    apply bind_ok in E as (hx & HX & E). apply bind_ok in E as (h2 & H2 & E). apply bind_ok in E as (kx & KX & E). apply bind_ok in E as (k2 & K2 & E). injection E as <- <-. split; [apply (CI _ _ H2)|apply (CI _ _ K2)].
  - apply bind_ok in E as (hx & HX & E). apply bind_ok in E as (h2 & H2 & E). apply bind_ok in E as (kx & KX & E). apply bind_ok in E as (k2 & K2 & E). apply IH in E; [exact E|apply (CI _ _ H2)|apply (CI _ _ K2)].
Qed.
Lemma approx_i64 fuel m e md p q : 2 <= md -> 0 <= m -> rational_approx fuel (DFin m e) md = Some (Ok (p, q)) -> in_i64 p = true /\ in_i64 q = true.
Proof.
  intros M P E. unfold rational_approx in E. destruct (Z.leb_spec md 1); [lia|]. cbn [d_neg] in E. destruct (Z.ltb_spec m 0); [lia|].
  destruct (scale_loop fuel (DFin m e) 1) as [[[f n]| |]|]; cbn [rbind] in E; try discriminate. destruct (lift (d_int64 f)) as [[d| |]|]; cbn [rbind] in E; try discriminate.
  unfold lift at 1 in E. destruct (cf_loop 64 0 d n 0 1 1 0 md) as [[h k]| |] eqn:C; cbn [rbind] in E; try discriminate. unfold lift in E. assert (h = p /\ k = q) as [<- <-] by (split; congruence). exact (cf_loop_i64 64 0 d n 0 1 1 0 md h k eq_refl eq_refl C).
Qed.
(** ... and the denominators are not zero *)
Lemma cf_den left : forall s i d n h0 h1 k0 k1 md p q, 1 <= i -> k0 <> 0 -> signs_ok s d n h0 h1 k0 k1 md -> cf_loop left i d n h0 h1 k0 k1 md = Ok (p, q) -> q <> 0.
Proof.
  induction left as [|left IH]; intros s i d n h0 h1 k0 k1 md p q I1 KZ (S & DN & H1 & H0 & K1 & K0 & KM & KM1 & KN) E; cbn [cf_loop] in E.
  { injection E as <- <-. exact KN. }
  apply bind_ok in E as (a & A & E). assert (A0 : a <= 0).
  { destruct (Z.eqb_spec n 0) as [N|N]; [injection A as <-; lia|]. unfold sdiv in A. destruct (Z.eqb_spec n 0); [contradiction|]. apply chk in A. rewrite A; apply quot_opp_sign, DN. }
  destruct (Z.eqb_spec i 0); [lia|]. cbn [negb andb] in E. destruct (Z.eqb_spec a 0) as [AZ|AZ]; [injection E as <- <-; exact KN|].
  apply bind_ok in E as (r & R & E). unfold srem in R. destruct (Z.eqb_spec n 0) as [N|N]; [discriminate|]. destruct (in_i64 (Z.quot d n)); [|discriminate]. injection R as <-.
  apply bind_ok in E as (ka & KA & E). apply chk in KA. apply bind_ok in E as (t & T & E). apply chk in T.
  destruct (Z.leb_spec md t) as [L|L].
  - apply bind_ok in E as (u & U & E). apply chk in U. apply bind_ok in E as (x & X & E). unfold sdiv in X. destruct (Z.eqb_spec k1 0); [contradiction|]. apply chk in X.
    apply bind_ok in E as (x2 & X2 & E). destruct ((a <=? x2) || (md <=? k1)); [|injection E as <- <-; exact KN].
    apply bind_ok in E as (hx & HX & E). apply chk in HX. apply bind_ok in E as (h2 & H2 & E). apply chk in H2. apply bind_ok in E as (kx & KX & E). apply chk in KX. apply bind_ok in E as (k2 & K2 & E). apply chk in K2.
    injection E as <- <-. subst. destruct S as [->| ->].
    + assert (Z.quot (md - k0) k1 <= 0) by (apply quot_opp_sign; left; lia). nia.
    + exfalso. nia.
  - apply bind_ok in E as (hx & HX & E). apply chk in HX. apply bind_ok in E as (h2 & H2 & E). apply chk in H2. apply bind_ok in E as (kx & KX & E). apply chk in KX. apply bind_ok in E as (k2 & K2 & E). apply chk in K2. subst.
    apply (IH (- s) _ _ _ _ _ _ _ _ _ _) in E; [exact E|lia|exact KN|].
    destruct (rem_sign d n N) as [R1 R2]. split; [destruct S; [right|left]; lia|]. split; [destruct DN as [[D1 D2]|[D1 D2]]; [specialize (R1 D1)|specialize (R2 D1)]; lia|].
      assert (AN : a < 0) by lia. destruct S as [->| ->]; repeat split; try lia; nia.
Qed.
Lemma cf_no_throw left : forall i d n h0 h1 k0 k1 md, cf_loop left i d n h0 h1 k0 k1 md <> Throw.
Proof.
  assert (CI : forall z, (if in_i64 z then Ok z else UB) <> Throw) by (intros z; destruct (in_i64 z); discriminate).
  assert (BD : forall A B (o : outcome A) (f : A -> outcome B), o <> Throw -> (forall a, f a <> Throw) -> bind o f <> Throw) by (intros A B [a| |] f X Y; cbn [bind]; [apply Y|contradiction|discriminate]).
  induction left as [|left IH]; intros; cbn [cf_loop]; [discriminate|].
  apply BD; [destruct (n =? 0); [discriminate|unfold sdiv; destruct (n =? 0); [discriminate|apply CI]]|intros a]. destruct (negb (i =? 0) && (a =? 0)); [discriminate|].
  apply BD; [unfold srem; destruct (n =? 0); [discriminate|destruct (in_i64 _); discriminate]|intros r]. apply BD; [apply CI|intros ka]. apply BD; [apply CI|intros t]. destruct (md <=? t).
  - apply BD; [apply CI|intros u]. apply BD; [unfold sdiv; destruct (k1 =? 0); [discriminate|apply CI]|intros x]. apply BD; [|intros x2; destruct ((a <=? x2) || (md <=? k1)); [|discriminate]; repeat (apply BD; [apply CI|intros ?]); discriminate].
    repeat first [apply CI|apply BD; [|intros ?]|discriminate].
  - repeat (apply BD; [apply CI|intros ?]). apply IH.
Qed.
(** 63 digits: either undefined, or a fraction with a nonzero denominator *)
Lemma approx_63 fuel m md : 0 < m -> m < 2 ^ 53 -> Z.odd m = true -> 2 <= md -> (63 <= fuel)%nat ->
  rational_approx fuel (DFin m (- 63)) md = Some UB \/ exists p q, rational_approx fuel (DFin m (- 63)) md = Some (Ok (p, q)) /\ q <> 0.
Proof.
  intros P B O M F.
  assert (RA : rational_approx fuel (DFin m (- 63)) md = match cf_loop 63 1 (- 2 ^ 63) m 1 0 0 1 md with Ok (h, k) => Some (Ok (h, k)) | Throw => Some Throw | UB => Some UB end); [|rewrite RA; clear RA].
  { unfold rational_approx. destruct (Z.leb_spec md 1); [lia|]. cbn [d_neg]. destruct (Z.ltb_spec m 0); [lia|].
  change (- 63) with (- Z.of_nat 63). rewrite scale_wrap by (assumption || lia). cbn [rbind]. rewrite iter63.
  assert (D : d_int64 (DFin m 0) = Ok m). { cbn [d_int64]. change (0 <=? 0) with true. cbv beta iota zeta. rewrite Z.pow_0_r, Z.mul_1_r. destruct (in_i64 m) eqn:I; [reflexivity|unfold in_i64 in I; lia]. }
  rewrite D. unfold lift at 1. cbn [rbind]. change 64%nat with (S 63). rewrite first_step by lia. destruct (cf_loop 63 1 (- 2 ^ 63) m 1 0 0 1 md) as [[p q]| |]; reflexivity. }
  change 63%nat with (S 62). destruct (cf_loop (S 62) 1 (- 2 ^ 63) m 1 0 0 1 md) as [[p q]| |] eqn:C; [|exfalso; exact (cf_no_throw _ _ _ _ _ _ _ _ _ C)|left; reflexivity].
  right. exists p, q. split; [reflexivity|]. cbn [cf_loop] in C. apply bind_ok in C as (a & A & C). destruct (Z.eqb_spec m 0); [lia|]. unfold sdiv in A. destruct (Z.eqb_spec m 0); [lia|]. apply chk in A.
  assert (AN : a <= 0) by (rewrite A; apply quot_opp_sign; right; lia). change (negb (1 =? 0)) with true in C. cbn [andb] in C. destruct (Z.eqb_spec a 0) as [AZ|AZ]; [injection C as <- <-; lia|].
  apply bind_ok in C as (r & R & C). unfold srem in R. destruct (Z.eqb_spec m 0); [lia|]. destruct (in_i64 (Z.quot (- 2 ^ 63) m)); [|discriminate]. injection R as <-.
  apply bind_ok in C as (ka & KA & C). apply chk in KA. apply bind_ok in C as (t & T & C). apply chk in T. destruct (Z.leb_spec md t); [lia|].
  apply bind_ok in C as (hx & HX & C). apply chk in HX. apply bind_ok in C as (h2 & H2 & C). apply chk in H2. apply bind_ok in C as (kx & KX & C). apply chk in KX. apply bind_ok in C as (k2 & K2 & C). apply chk in K2. subst.
  destruct (rem_sign (- 2 ^ 63) m ltac:(lia)) as [_ R2]. specialize (R2 ltac:(lia)). apply (cf_den 62 1) in C; [exact C|lia|lia|]. repeat split; try lia.
Qed.
Definition with_margin (p : pool_params) (r : rational) : pool_params :=
  {| pp_operator := pp_operator p; pp_vrf := pp_vrf p; pp_pledge := pp_pledge p; pp_cost := pp_cost p; pp_margin := r; pp_account := pp_account p; pp_owners := pp_owners p; pp_relays := pp_relays p; pp_metadata := pp_metadata p |}.
Lemma unit_check f : d_neg f || d_gt1 f = false <-> unit_interval f \/ f = DNaN.
Proof.
  destruct f as [m e|[]|]; cbn [d_neg d_gt1 orb negb].
  - rewrite (unit_bool m e). split; [intros U; left; exists m, e; auto|intros [(m' & e' & E & U)|E]; [injection E as -> ->; exact U|discriminate]].
  - split; [discriminate|intros [(m' & e' & E & _)|E]; discriminate].
  - split; [discriminate|intros [(m' & e' & E & _)|E]; discriminate].
  - split; auto.
Qed.
Lemma q_nonneg m e : (0 <= q_of m e)%Q -> 0 <= m.
Proof. rewrite q_of_pair. unfold Qle. cbn [Qnum Qden]. rewrite !Z.mul_1_r, Z.mul_0_l. pose proof (Z.pow_pos_nonneg 2 (Z.max 0 e) ltac:(lia) ltac:(lia)). nia. Qed.
Lemma margin_cases fuel f : lowest_terms f -> (1074 <= fuel)%nat -> unit_interval f ->
  (exists r, checked_margin fuel f = Some (Ok r) /\ recorded f r) \/ (checked_margin fuel f = Some UB /\ exists m e, f = DFin m e /\ e <= - 63).
Proof.
  intros LT F U. assert (C : d_neg f || d_gt1 f = false) by (apply unit_check; auto). destruct U as (m & e & -> & U). pose proof (q_nonneg m e (proj1 U)) as M0.
  destruct (Z.le_gt_cases (- 62) e) as [E62|E62].
  { left. destruct (checked_margin_ok fuel (DFin m e) (or_introl E62) ltac:(lia)) as [E|(m' & e' & a & b & EQ & E & _ & A & B & AC)].
    - unfold checked_margin in E. rewrite C in E. exfalso. destruct (rational_approx fuel (DFin m e) 4096) as [[nd| |]|] eqn:RA; cbn [rbind] in E; try discriminate.
      assert (R : in_range m e). { destruct (checked_margin_ok fuel (DFin m e) (or_introl E62) ltac:(lia)) as [E'|(m' & e' & a & b & EQ & E' & _)]; unfold checked_margin in E'; rewrite C, RA in E'; cbn [rbind] in E'; [|discriminate].
        split; [exact E62|]. rewrite q_of_pair in U. destruct U as [C0 C1]. unfold Qle in C0, C1. cbn [Qnum Qden] in C0, C1. rewrite Z2Pos.id in C1 by (apply Z.pow_pos_nonneg; lia).
        pose proof (Z.pow_pos_nonneg 2 (Z.max 0 e) ltac:(lia) ltac:(lia)). pose proof (Z.pow_le_mono_r 2 (Z.max 0 (- e)) 62 ltac:(lia) ltac:(lia)). rewrite Z.abs_eq by assumption. lia. }
      destruct (C47_rational_bounded m e 4096 fuel R ltac:(lia) ltac:(lia)) as (a & b & E' & _). rewrite RA in E'. discriminate.
    - injection EQ as <- <-. exists {| rnum := a; rden := b |}. split; [exact E|]. exists m, e. cbn [rnum rden]. split; [reflexivity|]. split; [exact U|]. split; [lia|]. split; [auto|lia]. }
  assert (LT' : Z.odd m = true /\ Z.abs m < 2 ^ 53 /\ - 1074 <= e) by (destruct LT as [[_ E0]|LT]; [lia|exact LT]). destruct LT' as (O & B & L).
  destruct (Z.eq_dec e (- 63)) as [->|N63].
  - unfold checked_margin. rewrite C. assert (MP : 0 < m) by (assert (m <> 0) by (intros ->; discriminate); lia).
    destruct (approx_63 fuel m 4096 MP ltac:(lia) O ltac:(lia) ltac:(lia)) as [RA|(a & b & RA & NB)]; rewrite RA; cbn [rbind].
    + right. split; [reflexivity|]. exists m, (- 63). split; [reflexivity|lia].
    + left. eexists. split; [reflexivity|]. exists m, (- 63). split; [reflexivity|]. split; [exact U|]. split; [lia|]. split; [lia|]. intros _. cbn [rnum rden fst snd].
      destruct (C47_63_digits_refuted m 4096 fuel a b O ltac:(lia) ltac:(lia) RA) as [S _]. specialize (S MP).
      destruct (approx_i64 fuel m (- 63) 4096 a b ltac:(lia) M0 RA) as [IA IB]. destruct (Z.lt_trichotomy a 0) as [AN|[->|AP]]; [right; left; exact (wraps a IA AN)|left; reflexivity|].
      destruct (Z.lt_trichotomy b 0) as [BN|[B0|BP]]; [right; right; exact (wraps b IB BN)|contradiction|nia].
  - right. split; [|exists m, e; split; [reflexivity|lia]]. unfold checked_margin. rewrite C. rewrite (C47_out_of_range_refuted m e 4096 fuel O B); [reflexivity| |exact N63|lia|lia]. intros [R _]. lia.
Qed.
(** Every double as a margin: NaN never returns; outside [0,1] it is refused; inside, up to 63 binary digits after the point it is recorded as above and nothing
    else changes; with 64 digits or more (and for some with 63) the call is undefined behaviour. *)
Theorem C51_margin_exact : forall H224 H256 fuel p f, lowest_terms f -> (1074 <= fuel)%nat -> let r := reg_step H224 H256 fuel p (SetMargin f) in
  (r = None <-> f = DNaN) /\ (r = Some Throw <-> f <> DNaN /\ ~ unit_interval f) /\
  (forall q, r = Some (Ok q) -> recorded f (pp_margin q) /\ q = with_margin p (pp_margin q)) /\
  (forall m e, f = DFin m e -> unit_interval f -> (- 62 <= e -> exists q, r = Some (Ok q)) /\ (e <= - 64 -> r = Some UB)) /\
  (r = Some UB -> exists m e, f = DFin m e /\ unit_interval f /\ e <= - 63).
Proof.
  intros H1 H2 fuel p f LT F r. assert (R : r = match checked_margin fuel f with Some (Ok x) => Some (Ok (with_margin p x)) | Some Throw => Some Throw | Some UB => Some UB | None => None end) by (unfold r; cbn [reg_step]; destruct (checked_margin fuel f) as [[| |]|]; reflexivity).
  clearbody r. assert (NN : f = DNaN -> checked_margin fuel f = None). { intros ->. unfold checked_margin. cbn [d_neg d_gt1 orb]. rewrite C47_nan_never_returns_refuted by lia. reflexivity. }
  assert (CS : f = DNaN \/ (f <> DNaN /\ ~ unit_interval f) \/ (unit_interval f /\ f <> DNaN)).
  { destruct (d_neg f || d_gt1 f) eqn:C; [right; left; split|]. intros ->; discriminate C. intros U. assert (d_neg f || d_gt1 f = false) by (apply unit_check; auto). congruence.
    apply unit_check in C as [U|N]; [right; right; split; [exact U|destruct U as (m & e & -> & _); discriminate]|auto]. }
  destruct CS as [N|[[N U]|[U N]]].
  - rewrite (NN N) in R. rewrite R. split; [split; auto|]. split; [split; [discriminate|intros [X _]; contradiction]|]. split; [discriminate|]. split; [intros m e ->; discriminate|discriminate].
  - assert (T : checked_margin fuel f = Some Throw). { unfold checked_margin. destruct (d_neg f || d_gt1 f) eqn:C; [reflexivity|]. apply unit_check in C. tauto. }
    rewrite T in R. rewrite R. split; [split; [discriminate|contradiction]|]. split; [split; auto|]. split; [discriminate|]. split; [intros; contradiction|discriminate].
  - destruct (margin_cases fuel f LT F U) as [(x & E & RC)|(E & m & e & EQ & LE)]; rewrite E in R; rewrite R.
    + split; [split; [discriminate|contradiction]|]. split; [split; [discriminate|intros [_ X]; contradiction]|]. split; [intros q Q; assert (Q' : q = with_margin p x) by congruence; rewrite Q'; split; [exact RC|reflexivity]|].
      split; [|discriminate]. intros m e EQ _. split; [intros; eexists; reflexivity|]. intros L. destruct RC as (m' & e' & EQ' & _ & X & _). assert (e = e') by congruence. lia.
    + split; [split; [discriminate|contradiction]|]. split; [split; [discriminate|intros [_ X]; contradiction]|]. split; [discriminate|]. split; [|intros _; exists m, e; auto].
      intros m' e' EQ' _. split; [intros L; assert (e = e') by congruence; lia|reflexivity].
Qed.
Print Assumptions C51_margin_exact.
(** The margin last set among those the checks let through *)
Fixpoint last_margin (ops : list reg_op) : option dbl :=
  match ops with
  | [] => None
  | o :: r => match last_margin r with Some f => Some f | None => match o with SetMargin (DFin m e) => if (Qle_bool 0 (q_of m e)) && (Qle_bool (q_of m e) 1) then Some (DFin m e) else None | _ => None end end
  end.
Lemma last_margin_unit m e : (Qle_bool 0 (q_of m e)) && (Qle_bool (q_of m e) 1) = true <-> unit_interval (DFin m e).
Proof. rewrite andb_true_iff, !Qle_bool_iff. split; [intros U; exists m, e; auto|intros (m' & e' & E & U); injection E as -> ->; exact U]. Qed.
(** Whatever calls are made on a registration, exceptions being caught: if all of them return, the cost is the last one set (checked nowhere), and the margin is what
    is recorded for the last margin in [0,1].  So the registration satisfies the ledger's rules if the last cost does and the last margin has at most 62 binary digits. *)
Theorem C51_history_exact : forall H224 H256 fuel p ops q, (1074 <= fuel)%nat -> (forall f, In (SetMargin f) ops -> lowest_terms f) -> reg_run H224 H256 fuel p ops = Some (Ok q) ->
  pp_cost q = last_set (fun o => match o with SetCost n => Some n | _ => None end) (pp_cost p) ops /\
  (match last_margin ops with None => pp_margin q = pp_margin p | Some f => recorded f (pp_margin q) end) /\
  ((valid_registration p \/ (exists f, last_margin ops = Some f)) -> (forall m e, last_margin ops = Some (DFin m e) -> - 62 <= e) -> (valid_registration q <-> 170000000 <= pp_cost q)).
Proof.
  intros H1 H2 fuel p ops q F LT E. assert (C : pp_cost q = last_set (fun o => match o with SetCost n => Some n | _ => None end) (pp_cost p) ops) by (pose proof (C51_fields _ _ _ _ _ _ E) as X; tauto).
  assert (M : match last_margin ops with None => pp_margin q = pp_margin p | Some f => recorded f (pp_margin q) end).
  { clear C. revert p E. induction ops as [|o ops IH]; intros p E; cbn [reg_run] in E; [unfold lift in E; cbn; congruence|].
    assert (LT' : forall f, In (SetMargin f) ops -> lowest_terms f) by (intros f IN; apply LT; right; exact IN). specialize (IH LT').
    assert (K : forall p', (pp_margin p' = pp_margin p \/ exists f, o = SetMargin f /\ unit_interval f /\ recorded f (pp_margin p')) -> ((forall f, o = SetMargin f -> ~ unit_interval f) \/ exists f, o = SetMargin f /\ unit_interval f /\ recorded f (pp_margin p')) -> reg_run H1 H2 fuel p' ops = Some (Ok q) -> match last_margin (o :: ops) with None => pp_margin q = pp_margin p | Some f => recorded f (pp_margin q) end).
    { intros p' A B RE. specialize (IH p' RE). cbn [last_margin]. destruct (last_margin ops) as [f|]; [exact IH|].
      destruct B as [B|(f & -> & U & RC)].
      - assert (A' : pp_margin p' = pp_margin p). { destruct A as [A|(f & EQ & U & _)]; [exact A|exfalso; exact (B f EQ U)]. } rewrite <- A', <- IH.
        destruct o as [| | | | |[m e| |]| | | | | | |]; try reflexivity. destruct (_ && _) eqn:X; [|reflexivity]. apply last_margin_unit in X. exfalso. exact (B _ eq_refl X).
      - destruct U as (m & e & -> & U). assert (X : (Qle_bool 0 (q_of m e)) && (Qle_bool (q_of m e) 1) = true) by (apply last_margin_unit; exists m, e; auto). rewrite X, IH. exact RC. }
    destruct (reg_step H1 H2 fuel p o) as [[p'| |]|] eqn:S; try discriminate.
    - destruct o; try (apply (K p'); [left|left; discriminate|exact E]; cbn [reg_step] in S; unfold make_array in S; repeat (destruct (_ <? _)%nat; try discriminate); cbn in S; injection S as <-; reflexivity).
      assert (LF : lowest_terms f) by (apply LT; left; reflexivity). destruct (C51_margin_exact H1 H2 fuel p f LF F) as (_ & _ & R & _). destruct (R p' S) as [RC _].
      assert (U : unit_interval f) by (destruct RC as (m & e & -> & U & _); exists m, e; auto). apply (K p'); [right; eauto|right; eauto|exact E].
    - apply (K p); [left; reflexivity| |exact E]. left. intros f -> U. assert (LF : lowest_terms f) by (apply LT; left; reflexivity). destruct (C51_margin_exact H1 H2 fuel p f LF F) as (_ & T & _). apply T in S as [_ S]. exact (S U). }
  split; [exact C|]. split; [exact M|]. intros V D. unfold valid_registration. split; [tauto|]. intros CQ. destruct (last_margin ops) as [f|].
  - destruct M as (m & e & -> & _ & _ & M & _). destruct (M (D m e eq_refl)) as (A & B & _). auto.
  - destruct V as [V|(f & X)]; [|discriminate]. rewrite M. unfold valid_registration in V. tauto.
Qed.
Print Assumptions C51_history_exact.
(** The constructor, for every double and cost. *)
Theorem C51_constructor_exact : forall H224 H256 fuel vkey vrf pledge cost f account, lowest_terms f -> (1074 <= fuel)%nat ->
  let r := registration_new H224 H256 fuel vkey vrf pledge cost f account in
  (r = Some Throw <-> (f <> DNaN /\ ~ unit_interval f) \/ cost < 170000000) /\ (r = None <-> f = DNaN /\ 170000000 <= cost) /\
  (forall q, r = Some (Ok q) -> recorded f (pp_margin q) /\ pp_operator q = firstn 28 (H224 vkey) /\ pp_vrf q = firstn 32 (H256 vrf) /\ pp_pledge q = pledge /\ pp_cost q = cost /\ 170000000 <= cost /\
     pp_account q = ra_header account :: ra_hash account /\ pp_owners q = [] /\ pp_relays q = [] /\ pp_metadata q = None) /\
  (forall m e, f = DFin m e -> unit_interval f -> 170000000 <= cost -> (- 62 <= e -> exists q, r = Some (Ok q)) /\ (e <= - 64 -> r = Some UB)).
Proof.
  intros H1 H2 fuel vkey vrf pledge cost f account LT F r.
  set (p := {| pp_operator := firstn 28 (H1 vkey); pp_vrf := firstn 32 (H2 vrf); pp_pledge := pledge; pp_cost := cost; pp_margin := {| rnum := 0; rden := 1 |}; pp_account := ra_header account :: ra_hash account; pp_owners := []; pp_relays := []; pp_metadata := None |}).
  destruct (C51_margin_exact H1 H2 fuel p f LT F) as (A1 & A2 & A3 & A4 & A5).
  assert (R : r = if cost <? 170000000 then match reg_step H1 H2 fuel p (SetMargin f) with _ => Some Throw end else reg_step H1 H2 fuel p (SetMargin f)).
  { unfold r, registration_new. cbn [reg_step]. unfold checked_margin, MIN_POOL_COST_LOVELACE. destruct (d_neg f || d_gt1 f); [destruct (cost <? 170000000); reflexivity|]. destruct (cost <? 170000000); [reflexivity|].
    destruct (rational_approx fuel f 4096) as [[nd| |]|]; reflexivity. }
  clearbody r. destruct (Z.ltb_spec cost 170000000) as [L|L]; subst r.
  - split; [split; [auto|reflexivity]|]. split; [split; [discriminate|lia]|]. split; [discriminate|]. intros. lia.
  - split; [rewrite A2; split; [auto|intros [?|?]; [assumption|lia]]|]. split; [rewrite A1; tauto|]. split; [|intros m e E U _; exact (A4 m e E U)].
    intros q Q. destruct (A3 q Q) as [RC W]. split; [exact RC|]. rewrite W. cbn. repeat (split; [try reflexivity; exact L|]). reflexivity.
Qed.
Print Assumptions C51_constructor_exact.
(** 0.01, then NaN not yet, 2.0 (refused), 0.5: the last one stays; the cost set last counts although it is below the minimum *)
Example C51_history_case : exists p q, valid_registration p /\
  reg_run (fun b => b) (fun b => b) 1074 p [SetMargin (DFin 5764607523034235 (- 59)); SetMargin (DFin 1 (- 1)); SetMargin (DFin 1 1); SetCost 5] = Some (Ok q) /\ pp_margin q = {| rnum := 1; rden := 2 |} /\ pp_cost q = 5 /\
  last_margin [SetMargin (DFin 5764607523034235 (- 59)); SetMargin (DFin 1 (- 1)); SetMargin (DFin 1 1); SetCost 5] = Some (DFin 1 (- 1)) /\ ~ valid_registration q.
Proof.
  exists {| pp_operator := []; pp_vrf := []; pp_pledge := 0; pp_cost := 340000000; pp_margin := {| rnum := 0; rden := 1 |}; pp_account := []; pp_owners := []; pp_relays := []; pp_metadata := None |}.
  eexists. split; [unfold valid_registration; cbn; lia|]. split; [vm_compute; reflexivity|]. split; [reflexivity|]. split; [reflexivity|]. split; [vm_compute; reflexivity|]. unfold valid_registration. cbn. lia.
Qed.
(** 63 digits: 0.0007 has a numerator of 2^64 - 1, 0.0001 is recorded as zero *)
Example C51_63_case : recorded (DFin 6456360425798343 (- 63)) {| rnum := 2 ^ 64 - 1; rden := 1429 |} /\ exists r, checked_margin 1074 (DFin 1000000000000001 (- 63)) = Some (Ok r) /\ rnum r = 0.
Proof.
  split; [|eexists; split; [vm_compute; reflexivity|reflexivity]]. exists 6456360425798343, (- 63). split; [reflexivity|]. split; [split; [vm_compute; discriminate|vm_compute; discriminate]|]. split; [lia|]. split; [lia|]. intros _. cbn. right. left. lia.
Qed.
