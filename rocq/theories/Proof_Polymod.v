(** The Bech32 checksum as a linear code over GF(2): create/verify agree, and error detection. *)
From Verif Require Import BaseLemmas Model_Bech32.
From Coq Require Import FMapPositive.
Ltac Zify.zify_post_hook ::= idtac.

(** ** n-bit vectors *)
Definition inb (n a : Z) : Prop := 0 <= a < 2 ^ n.

Lemma lxor_inb n a b : 0 <= n -> inb n a -> inb n b -> inb n (Z.lxor a b).
Proof.
  intros Hn [Ha Ha'] [Hb Hb'].
  assert (0 <= Z.lxor a b) as H0 by (apply Z.lxor_nonneg; lia).
  split; [exact H0|].
  destruct (Z.eq_dec (Z.lxor a b) 0) as [->|Hne]; [apply Z.pow_pos_nonneg; lia|].
  apply Z.log2_lt_pow2; [lia|].
  eapply Z.le_lt_trans; [apply Z.log2_lxor; lia|].
  apply Z.max_lub_lt.
  - destruct (Z.eq_dec a 0) as [->|]; [|apply Z.log2_lt_pow2; lia].
    cbn. destruct (Z.eq_dec n 0) as [->|]; [|lia]. change (2^0) with 1 in *.
    assert (b = 0) by lia. subst. cbn in Hne. lia.
  - destruct (Z.eq_dec b 0) as [->|]; [|apply Z.log2_lt_pow2; lia].
    cbn. destruct (Z.eq_dec n 0) as [->|]; [|lia]. change (2^0) with 1 in *.
    assert (a = 0) by lia. subst. cbn in Hne. lia.
Qed.

Lemma inb_mono n m a : n <= m -> inb n a -> inb m a.
Proof. intros H [H1 H2]. split; [lia|]. eapply Z.lt_le_trans; [exact H2|]. apply Z.pow_le_mono_r; lia. Qed.

Definition linear (n : Z) (f : Z -> Z) : Prop :=
  forall a b, inb n a -> inb n b -> f (Z.lxor a b) = Z.lxor (f a) (f b).

Lemma linear_0 n f : 0 <= n -> linear n f -> f 0 = 0.
Proof.
  intros Hn H. specialize (H 0 0). rewrite Z.lxor_nilpotent in H. rewrite H.
  - apply Z.lxor_nilpotent.
  - split; [lia|apply Z.pow_pos_nonneg; lia].
  - split; [lia|apply Z.pow_pos_nonneg; lia].
Qed.

Lemma split_top n c : 0 <= n -> inb (n + 1) c ->
  c = Z.lxor (c mod 2 ^ n) (if Z.testbit c n then 2 ^ n else 0).
Proof.
  intros Hn [Hc Hc']. apply Z.bits_inj'. intros i Hi. rewrite Z.lxor_spec.
  destruct (Z.lt_trichotomy i n) as [H|[H|H]].
  - rewrite Z.mod_pow2_bits_low by lia.
    destruct (Z.testbit c n); [rewrite Z.pow2_bits_false by lia|rewrite Z.bits_0];
      rewrite xorb_false_r; reflexivity.
  - subst i. rewrite Z.mod_pow2_bits_high by lia.
    destruct (Z.testbit c n); [rewrite Z.pow2_bits_true by lia|rewrite Z.bits_0]; reflexivity.
  - rewrite Z.mod_pow2_bits_high by lia.
    replace (Z.testbit c i) with false.
    + destruct (Z.testbit c n); [rewrite Z.pow2_bits_false by lia|rewrite Z.bits_0]; reflexivity.
    + symmetry. destruct (Z.eq_dec c 0) as [->|]; [apply Z.bits_0|].
      apply Z.bits_above_log2; [lia|]. assert (Z.log2 c < n + 1) by (apply Z.log2_lt_pow2; lia). lia.
Qed.

(** Linear maps that agree on the basis vectors agree everywhere. *)
Lemma linear_ext n f g : linear (Z.of_nat n) f -> linear (Z.of_nat n) g ->
  forallb (fun i => f (2 ^ Z.of_nat i) =? g (2 ^ Z.of_nat i)) (seq 0 n) = true ->
  forall c, inb (Z.of_nat n) c -> f c = g c.
Proof.
  induction n as [|n IH]; intros Hf Hg Hb c Hc.
  - unfold inb in Hc. change (2 ^ Z.of_nat 0) with 1 in Hc. assert (c = 0) as -> by lia.
    rewrite !(linear_0 0) by (auto; lia). reflexivity.
  - rewrite seq_S, forallb_app in Hb. apply andb_true_iff in Hb as [Hb1 Hb2].
    cbn [forallb plus] in Hb2. rewrite andb_true_r in Hb2. apply Z.eqb_eq in Hb2.
    assert (Hc' : inb (Z.of_nat n + 1) c) by (replace (Z.of_nat n + 1) with (Z.of_nat (S n)) by lia; auto).
    rewrite (split_top (Z.of_nat n) c) by (auto; lia).
    assert (Hm : inb (Z.of_nat n) (c mod 2 ^ Z.of_nat n)) by (apply Z.mod_pos_bound; apply Z.pow_pos_nonneg; lia).
    assert (Hm' : inb (Z.of_nat (S n)) (c mod 2 ^ Z.of_nat n)) by (eapply inb_mono; [|exact Hm]; lia).
    assert (Hp : inb (Z.of_nat (S n)) (if Z.testbit c (Z.of_nat n) then 2 ^ Z.of_nat n else 0)).
    { destruct (Z.testbit c _); split; try lia; try apply Z.pow_pos_nonneg; try lia.
      apply Z.pow_lt_mono_r; lia. }
    rewrite Hf, Hg by auto. f_equal.
    + apply IH; auto; intros a b Ha Hb; [apply Hf|apply Hg];
        eapply inb_mono; try eassumption; lia.
    + destruct (Z.testbit c _); [exact Hb2|].
      rewrite !(linear_0 (Z.of_nat (S n))) by (auto; lia). reflexivity.
Qed.

Lemma linear_comp n f g : linear n f -> (forall a, inb n a -> inb n (f a)) ->
  linear n g -> linear n (fun x => g (f x)).
Proof. intros Hf Hi Hg a b Ha Hb. rewrite Hf, Hg by auto. reflexivity. Qed.

(** ** The zero-input step *)
Definition step0 (c : Z) : Z := polymod_step c 0.

Lemma land_lxor_r a b m : Z.land (Z.lxor a b) m = Z.lxor (Z.land a m) (Z.land b m).
Proof.
  apply Z.bits_inj'. intros i Hi. rewrite !Z.land_spec, !Z.lxor_spec, !Z.land_spec.
  destruct (Z.testbit a i), (Z.testbit b i), (Z.testbit m i); reflexivity.
Qed.

Lemma forallb2_range (P : Z -> Z -> bool) n m :
  forallb (fun a => forallb (P a) (map Z.of_nat (seq 0 m))) (map Z.of_nat (seq 0 n)) = true ->
  forall a b, 0 <= a < Z.of_nat n -> 0 <= b < Z.of_nat m -> P a b = true.
Proof.
  intros H a b Ha Hb.
  apply (forallb_range (P a) m); auto.
  apply (forallb_range (fun a => forallb (P a) (map Z.of_nat (seq 0 m))) n); auto.
Qed.

Lemma gen_linear : linear 5 polymod_gen.
Proof.
  intros a b Ha Hb. apply Z.eqb_eq. unfold inb in *. change (2 ^ 5) with (Z.of_nat 32) in *.
  revert a b Ha Hb. apply (forallb2_range (fun a b => Z.eqb _ _) 32 32).
  vm_compute. reflexivity.
Qed.

Lemma gen_inb a : inb 5 a -> inb 30 (polymod_gen a).
Proof.
  intros H. unfold inb in *. change (2 ^ 5) with (Z.of_nat 32) in *.
  assert ((0 <=? polymod_gen a) && (polymod_gen a <? 2 ^ 30) = true) as E.
  { revert a H. apply (forallb_range (fun a => (0 <=? polymod_gen a) && _) 32). vm_compute; reflexivity. }
  lia.
Qed.

Lemma shr25 c : inb 30 c -> inb 5 (Z.shiftr c 25) /\ Z.shiftr c 25 mod 256 = Z.shiftr c 25.
Proof.
  intros [H1 H2]. rewrite shiftr_div by lia. unfold inb.
  change (2 ^ 30) with (2 ^ 5 * 2 ^ 25) in H2.
  assert (0 <= c / 2 ^ 25 < 2 ^ 5).
  { split; [apply Z.div_pos; lia|apply Z.div_lt_upper_bound; lia]. }
  split; [auto|]. apply Z.mod_small. change (2 ^ 5) with 32 in *. lia.
Qed.

Lemma step0_alt c : inb 30 c ->
  step0 c = Z.lxor (Z.shiftl (Z.land c 33554431) 5) (polymod_gen (Z.shiftr c 25)).
Proof.
  intros H. unfold step0, polymod_step. rewrite (proj2 (shr25 c H)), Z.lxor_0_r. reflexivity.
Qed.

Lemma step_split c v : polymod_step c v = Z.lxor (step0 c) v.
Proof.
  unfold step0, polymod_step. rewrite Z.lxor_0_r.
  rewrite !Z.lxor_assoc. f_equal. apply Z.lxor_comm.
Qed.

Lemma low_inb c : inb 30 (Z.shiftl (Z.land c 33554431) 5).
Proof.
  change 33554431 with (Z.ones 25). rewrite Z.land_ones, shiftl_mul by lia. unfold inb.
  change (2 ^ 30) with (2 ^ 25 * 2 ^ 5). pose proof (Z.mod_pos_bound c (2 ^ 25)). lia.
Qed.

Lemma step0_inb c : inb 30 c -> inb 30 (step0 c).
Proof.
  intros H. rewrite step0_alt by auto. apply lxor_inb; [lia|apply low_inb|].
  apply gen_inb. apply shr25; auto.
Qed.

Lemma step0_linear : linear 30 step0.
Proof.
  intros a b Ha Hb. assert (inb 30 (Z.lxor a b)) by (apply lxor_inb; auto; lia).
  rewrite !step0_alt by auto.
  rewrite land_lxor_r, Z.shiftl_lxor, Z.shiftr_lxor.
  rewrite gen_linear by (apply shr25; auto).
  rewrite !Z.lxor_assoc. f_equal. rewrite <- !Z.lxor_assoc. f_equal. apply Z.lxor_comm.
Qed.

Lemma step_inb c v : inb 30 c -> inb 5 v -> inb 30 (polymod_step c v).
Proof.
  intros. rewrite step_split. apply lxor_inb; [lia|apply step0_inb; auto|].
  eapply inb_mono; [|eassumption]; lia.
Qed.

(** x is invertible modulo g. *)
Lemma step0_kernel c : inb 30 c -> step0 c = 0 -> c = 0.
Proof.
  intros H E. pose proof (shr25 c H) as [H5 _]. rewrite step0_alt in E by auto.
  apply Z.lxor_eq in E.
  assert (Hg : polymod_gen (Z.shiftr c 25) mod 32 = 0).
  { rewrite <- E. rewrite shiftl_mul by lia. change (2 ^ 5) with 32. apply Z.mod_mul; lia. }
  assert (H0 : Z.shiftr c 25 = 0).
  { assert (K : forall a, 0 <= a < Z.of_nat 32 -> (negb (polymod_gen a mod 32 =? 0) || (a =? 0)) = true).
    { apply (forallb_range (fun a => negb _ || _) 32). vm_compute; reflexivity. }
    specialize (K _ H5). lia. }
  rewrite H0 in E. change (polymod_gen 0) with 0 in E.
  change 33554431 with (Z.ones 25) in E. rewrite Z.land_ones, shiftl_mul in E by lia.
  rewrite shiftr_div in H0 by lia.
  rewrite (Z.div_mod c (2 ^ 25)) by lia. change (2^5) with 32 in E. lia.
Qed.

(** ** Words *)
Definition sym (v : Z) : Prop := inb 5 v.
Definition word (w : list Z) : Prop := Forall sym w.
Definition run (c : Z) (w : list Z) : Z := fold_left polymod_step w c.

Lemma word_digits w : digits_ok 32 w <-> word w.
Proof. reflexivity. Qed.

Lemma run_inb w : word w -> forall c, inb 30 c -> inb 30 (run c w).
Proof.
  induction 1 as [|v w Hv Hw IH]; intros c Hc; [exact Hc|].
  cbn [run fold_left]. apply IH. apply step_inb; auto.
Qed.

Lemma run_app c a b : run c (a ++ b) = run (run c a) b.
Proof. unfold run. apply fold_left_app. Qed.

Definition xorw (a b : list Z) : list Z := map (fun p => Z.lxor (fst p) (snd p)) (combine a b).

Lemma xorw_word a b : word a -> word b -> word (xorw a b).
Proof.
  intros Ha. revert b. induction Ha as [|x a Hx Ha IH]; intros b Hb; [constructor|].
  destruct Hb as [|y b Hy Hb]; [constructor|].
  cbn. constructor; [apply lxor_inb; auto; lia|apply IH; auto].
Qed.

Lemma lxor4 a b c d : Z.lxor (Z.lxor a b) (Z.lxor c d) = Z.lxor (Z.lxor a c) (Z.lxor b d).
Proof. rewrite !Z.lxor_assoc. f_equal. rewrite <- !Z.lxor_assoc. f_equal. apply Z.lxor_comm. Qed.

Lemma run_linear a : word a -> forall b c d, word b -> length a = length b -> inb 30 c -> inb 30 d ->
  Z.lxor (run c a) (run d b) = run (Z.lxor c d) (xorw a b).
Proof.
  induction 1 as [|x a Hx Ha IH]; intros b c d Hb Hl Hc Hd.
  - destruct b; [reflexivity|discriminate].
  - destruct Hb as [|y b Hy Hb]; [discriminate|]. cbn [run fold_left xorw combine map fst snd].
    fold (run (polymod_step c x) a). fold (run (polymod_step d y) b).
    rewrite IH by (auto using step_inb).
    unfold run at 1. f_equal. rewrite !step_split, lxor4, step0_linear by auto. reflexivity.
Qed.

Lemma run_nonzero_zeros n : forall c, inb 30 c -> c <> 0 -> run c (repeat 0 n) <> 0.
Proof.
  induction n as [|n IH]; intros c Hc Hn; [exact Hn|].
  cbn [repeat run fold_left]. change (fold_left polymod_step (repeat 0 n) (polymod_step c 0))
    with (run (step0 c) (repeat 0 n)).
  apply IH; [apply step0_inb; auto|]. intros E. apply Hn. apply step0_kernel; auto.
Qed.

Lemma xorw_refl a : xorw a a = repeat 0 (length a).
Proof.
  induction a as [|x a IH]; [reflexivity|].
  cbn. rewrite Z.lxor_nilpotent. f_equal. exact IH.
Qed.

(** Short words from the zero state: just the packed symbols. *)
Lemma step_small c v : inb 25 c -> sym v -> polymod_step c v = c * 32 + v.
Proof.
  intros [H1 H2] Hv. unfold polymod_step.
  assert (Z.shiftr c 25 = 0) as -> by (rewrite shiftr_div by lia; apply Z.div_small; lia).
  change (polymod_gen (0 mod 256)) with 0. rewrite Z.lxor_0_r.
  change 33554431 with (Z.ones 25). rewrite Z.land_ones, Z.mod_small by lia.
  rewrite shiftl_mul by lia. change (2 ^ 5) with 32.
  assert (Z.land (c * 32) v = 0) as E.
  { apply Z.bits_inj'. intros k Hk. rewrite Z.land_spec, Z.bits_0. change 32 with (2 ^ 5).
    destruct (Z.lt_ge_cases k 5).
    - rewrite Z.mul_pow2_bits_low by lia. reflexivity.
    - rewrite andb_comm. destruct (Z.eq_dec v 0) as [->|]; [rewrite Z.bits_0; reflexivity|].
      rewrite (Z.bits_above_log2 v k); [reflexivity|destruct Hv; lia|].
      assert (Z.log2 v < 5) by (apply Z.log2_lt_pow2; destruct Hv; lia). lia. }
  symmetry. apply Z.add_nocarry_lxor. exact E.
Qed.

Lemma run_small w : word w -> (length w <= 6)%nat -> run 0 w = bev 32 w.
Proof.
  induction w as [|v w IH] using rev_ind; intros Hw Hl; [reflexivity|].
  apply Forall_app in Hw as [Hw Hv]. inversion Hv; subst. rewrite app_length in Hl. cbn in Hl.
  rewrite run_app, IH by (auto; lia). cbn [run fold_left]. rewrite step_small, bev_snoc; auto.
  assert (0 <= bev 32 w < 32 ^ zlen w) as [Hb1 Hb2] by (apply bev_bound; [lia|auto]).
  split; [lia|]. eapply Z.lt_le_trans; [exact Hb2|]. change (2 ^ 25) with (32 ^ 5).
  apply Z.pow_le_mono_r; unfold zlen; lia.
Qed.

(** ** Creating and verifying *)
Definition groups6 (m : Z) : list Z :=
  map (fun i => Z.land (Z.shiftr m (5 * (5 - i))) 31) [0; 1; 2; 3; 4; 5].

Lemma groups6_spec m : inb 30 m -> word (groups6 m) /\ length (groups6 m) = 6%nat /\ bev 32 (groups6 m) = m.
Proof.
  intros [H1 H2]. unfold groups6. cbn [map].
  change 31 with (Z.ones 5).
  repeat match goal with |- context [5 * (5 - ?i)] =>
    let v := eval compute in (5 * (5 - i)) in change (5 * (5 - i)) with v end.
  rewrite !Z.land_ones, !shiftr_div by lia.
  change (2 ^ 5) with 32. change (2^25) with 33554432. change (2^20) with 1048576.
  change (2^15) with 32768. change (2^10) with 1024. change (2^0) with 1.
  change (2^30) with 1073741824 in H2.
  split; [|split; [reflexivity|]].
  - repeat constructor; try (apply Z.mod_pos_bound; lia).
    all: change (2 ^ 5) with 32; apply Z.mod_pos_bound; lia.
  - unfold bev. cbn [fold_left]. dlia.
Qed.

Lemma expand_hrp_word hrp : bytes_ok hrp -> word (expand_hrp hrp).
Proof.
  intros H. unfold expand_hrp. apply Forall_app. split; [|apply Forall_app; split].
  - apply Forall_map. eapply Forall_impl; [|exact H]. intros c Hc. unfold byte_ok in Hc.
    unfold sym, inb. rewrite shiftr_div by lia. change (2 ^ 5) with 32. dlia.
  - constructor; [|constructor]. split; [lia|reflexivity].
  - apply Forall_map. eapply Forall_impl; [|exact H]. intros c Hc.
    change 31 with (Z.ones 5). rewrite Z.land_ones by lia. apply Z.mod_pos_bound; lia.
Qed.

Lemma polymod_run w : polymod w = run 1 w. Proof. reflexivity. Qed.

Lemma one_inb : inb 30 1. Proof. split; [lia|reflexivity]. Qed.

Lemma zeros_word n : word (repeat 0 n).
Proof. apply Forall_forall. intros x Hx. apply repeat_spec in Hx. subst. split; [lia|reflexivity]. Qed.

Lemma checksum_spec hrp values : bytes_ok hrp -> word values ->
  word (create_checksum hrp values) /\ length (create_checksum hrp values) = 6%nat /\
  verify_checksum hrp (values ++ create_checksum hrp values) = true.
Proof.
  intros Hh Hv. pose proof (expand_hrp_word hrp Hh) as He.
  assert (Hw : word (expand_hrp hrp ++ values)) by (apply Forall_app; auto).
  set (c := run 1 (expand_hrp hrp ++ values)).
  assert (Hc : inb 30 c) by (apply run_inb; auto using one_inb).
  set (z := run c (repeat 0 6)).
  assert (Hz : inb 30 z) by (apply run_inb; auto using zeros_word).
  assert (Hcs : create_checksum hrp values = groups6 (Z.lxor z 1)).
  { unfold create_checksum. rewrite polymod_run, app_assoc, run_app. fold c. fold z.
    unfold groups6. reflexivity. }
  destruct (groups6_spec (Z.lxor z 1)) as (G1 & G2 & G3).
  { apply lxor_inb; auto using one_inb; lia. }
  rewrite Hcs. split; [exact G1|]. split; [exact G2|].
  unfold verify_checksum. rewrite polymod_run, app_assoc, run_app. fold c.
  revert G1 G2 G3. generalize (groups6 (Z.lxor z 1)). intros w G1 G2 G3.
  assert (H0 : inb 30 0) by (split; [lia|reflexivity]).
  assert (E : Z.lxor z (run 0 w) = run c w).
  { unfold z. rewrite (run_linear (repeat 0 6) (zeros_word 6) w c 0 G1 (eq_sym G2) Hc H0).
    rewrite Z.lxor_0_r. f_equal. clear - G2.
    do 6 (destruct w as [|? w]; [discriminate|]). destruct w; [reflexivity|discriminate]. }
  rewrite <- E, run_small, G3 by (auto; lia).
  rewrite <- Z.lxor_assoc, Z.lxor_nilpotent. reflexivity.
Qed.

(** ** Error detection *)
(** Two words with the same prefix and suffix are not both valid if the difference
    of the middle parts has a non-zero syndrome. *)
Lemma detect_syndrome c a u u' b : inb 30 c -> word a -> word u -> word u' -> word b ->
  length u = length u' -> run 0 (xorw u u') <> 0 ->
  run c (a ++ u ++ b) <> run c (a ++ u' ++ b).
Proof.
  intros Hc Ha Hu Hu' Hb Hl Hs E.
  rewrite !run_app in E. set (d := run c a) in *.
  assert (Hd : inb 30 d) by (apply run_inb; auto).
  assert (Hx : inb 30 (run 0 (xorw u u'))).
  { apply run_inb; [apply xorw_word; auto|]. split; [lia|reflexivity]. }
  assert (Hr : inb 30 (run d u)) by (apply run_inb; auto).
  assert (Hr' : inb 30 (run d u')) by (apply run_inb; auto).
  apply (f_equal (fun x => Z.lxor x (run (run d u') b))) in E.
  rewrite Z.lxor_nilpotent, run_linear, xorw_refl, run_linear, Z.lxor_nilpotent in E by auto.
  revert E. apply run_nonzero_zeros; auto.
Qed.

(** Burst errors of up to six symbols. *)
Lemma bev32_zero w : word w -> bev 32 w = 0 -> w = repeat 0 (length w).
Proof.
  intros Hw E. apply (bev_inj 32); try lia; auto.
  - apply zeros_word.
  - rewrite repeat_length; reflexivity.
  - rewrite E. clear. induction (length w) as [|n IH]; [reflexivity|].
    cbn [repeat]. rewrite bev_cons. lia.
Qed.

Lemma xorw_zero u : forall u', length u = length u' -> xorw u u' = repeat 0 (length (xorw u u')) -> u = u'.
Proof.
  induction u as [|x u IH]; intros [|y u'] Hl E; try discriminate; [reflexivity|].
  cbn in E. injection E as E1 E2. apply Z.lxor_eq in E1. subst y. f_equal. apply IH; auto.
Qed.

Lemma xorw_length u : forall u', length u = length u' -> length (xorw u u') = length u.
Proof. intros u' H. unfold xorw. rewrite map_length, combine_length. lia. Qed.

Lemma burst_syndrome u u' : word u -> word u' -> length u = length u' -> (length u <= 6)%nat ->
  u <> u' -> run 0 (xorw u u') <> 0.
Proof.
  intros Hu Hu' Hl H6 Hne E. apply Hne. rewrite run_small in E.
  - apply xorw_zero; auto. apply bev32_zero; auto. apply xorw_word; auto.
  - apply xorw_word; auto.
  - rewrite xorw_length; auto.
Qed.
