(** CRC-32 facts: linear, and every step is injective on 32-bit states. *)
From Verif Require Import Base BaseLemmas Model_Byron.
Ltac Zify.zify_post_hook ::= idtac.

Definition w32 (s : Z) : Prop := 0 <= s < 2 ^ 32.
Lemma lxor_bound a b n : 0 <= n -> 0 <= a < 2 ^ n -> 0 <= b < 2 ^ n -> 0 <= Z.lxor a b < 2 ^ n.
Proof.
  intros N A B. assert (NN : 0 <= Z.lxor a b) by (apply Z.lxor_nonneg; lia). split; [exact NN|]. destruct (Z.eq_dec (Z.lxor a b) 0) as [->|NZ]; [apply Z.pow_pos_nonneg; lia|].
  apply Z.log2_lt_pow2; [lia|]. pose proof (Z.log2_lxor a b ltac:(lia) ltac:(lia)) as L.
  assert (LA : Z.log2 a < n \/ a = 0). { destruct (Z.eq_dec a 0); [auto|left]. apply Z.log2_lt_pow2; lia. }
  assert (LB : Z.log2 b < n \/ b = 0). { destruct (Z.eq_dec b 0); [auto|left]. apply Z.log2_lt_pow2; lia. }
  destruct LA as [LA| ->], LB as [LB| ->]; try lia.
  - rewrite Z.lxor_0_r. exact LA.
  - rewrite Z.lxor_0_l. exact LB.
  - exfalso. apply NZ. reflexivity.
Qed.
Lemma shiftr1_bound s : w32 s -> 0 <= Z.shiftr s 1 < 2 ^ 31. Proof. unfold w32. intros H. rewrite Z.shiftr_div_pow2 by lia. change (2 ^ 1) with 2. split; [apply Z.div_pos; lia|apply Z.div_lt_upper_bound; lia]. Qed.
Lemma crc_step_w s : w32 s -> w32 (crc_step s).
Proof. intros H. pose proof (shiftr1_bound s H). unfold crc_step. destruct (Z.odd s); [apply lxor_bound; lia|unfold w32; lia]. Qed.
Lemma crc_step_lxor a b : crc_step (Z.lxor a b) = Z.lxor (crc_step a) (crc_step b).
Proof.
  unfold crc_step. rewrite <- !Z.bit0_odd, Z.lxor_spec, Z.shiftr_lxor. set (x := Z.shiftr a 1). set (y := Z.shiftr b 1). set (p := 3988292384).
  destruct (Z.testbit a 0), (Z.testbit b 0); cbn [xorb]; rewrite ?Z.lxor_assoc.
  - f_equal. rewrite (Z.lxor_comm y p), <- Z.lxor_assoc, Z.lxor_nilpotent, Z.lxor_0_l. reflexivity.
  - f_equal. apply Z.lxor_comm.
  - reflexivity.
  - reflexivity.
Qed.
Lemma crc_step_double y : crc_step (2 * y) = y.
Proof. unfold crc_step. rewrite Z.odd_mul. cbn [Z.odd andb]. rewrite Z.shiftr_div_pow2 by lia. change (2 ^ 1) with 2. rewrite Z.mul_comm. apply Z.div_mul. lia. Qed.
(** the top bit tells which branch was taken *)
Lemma crc_step_inj a b : w32 a -> w32 b -> crc_step a = crc_step b -> a = b.
Proof.
  intros A B E. pose proof (shiftr1_bound a A) as SA. pose proof (shiftr1_bound b B) as SB.
  assert (T : forall x, 0 <= x < 2 ^ 31 -> Z.testbit x 31 = false) by (intros x X; destruct (Z.eq_dec x 0) as [->|]; [reflexivity|]; apply Z.bits_above_log2; [lia|]; apply Z.log2_lt_pow2; lia).
  assert (O : Z.odd a = Z.odd b /\ Z.shiftr a 1 = Z.shiftr b 1).
  { unfold crc_step in E. pose proof (f_equal (fun z => Z.testbit z 31) E) as E31. destruct (Z.odd a), (Z.odd b); cbn beta iota in E31; rewrite ?Z.lxor_spec in E31; rewrite (T _ SA), (T _ SB) in E31; try discriminate E31; split; try reflexivity; [|exact E].
    apply (f_equal (fun z => Z.lxor z 3988292384)) in E. rewrite !Z.lxor_assoc, Z.lxor_nilpotent, !Z.lxor_0_r in E. exact E. }
  destruct O as [O S]. rewrite !Z.shiftr_div_pow2 in S by lia. change (2 ^ 1) with 2 in S. rewrite (Z.div_mod a 2), (Z.div_mod b 2) by lia. rewrite S, !Zmod_odd, O. reflexivity.
Qed.
Lemma iter_w n s : w32 s -> w32 (Nat.iter n crc_step s). Proof. intros H. induction n as [|n IH]; [exact H|]. cbn [Nat.iter]. apply crc_step_w, IH. Qed.
Lemma iter_inj n a b : w32 a -> w32 b -> Nat.iter n crc_step a = Nat.iter n crc_step b -> a = b.
Proof. intros A B. induction n as [|n IH]; intros E; [exact E|]. apply IH. apply crc_step_inj; [apply iter_w, A|apply iter_w, B|exact E]. Qed.
Lemma iter_lxor n a b : Nat.iter n crc_step (Z.lxor a b) = Z.lxor (Nat.iter n crc_step a) (Nat.iter n crc_step b).
Proof. induction n as [|n IH]; [reflexivity|]. cbn [Nat.iter nat_rect]. change (crc_step (Nat.iter n crc_step (Z.lxor a b)) = Z.lxor (crc_step (Nat.iter n crc_step a)) (crc_step (Nat.iter n crc_step b))). rewrite IH. apply crc_step_lxor. Qed.
Lemma iter_double n y : Nat.iter n crc_step (2 ^ Z.of_nat n * y) = y.
Proof.
  revert y. induction n as [|n IH]; intros y; [change (1 * y = y); lia|]. change (crc_step (Nat.iter n crc_step (2 ^ Z.of_nat (S n) * y)) = y).
  replace (2 ^ Z.of_nat (S n) * y) with (2 ^ Z.of_nat n * (2 * y)) by (rewrite Nat2Z.inj_succ, Z.pow_succ_r by lia; ring). rewrite IH. apply crc_step_double.
Qed.
Lemma iter_add m n s : Nat.iter (m + n) crc_step s = Nat.iter m crc_step (Nat.iter n crc_step s).
Proof. induction m as [|m IH]; [reflexivity|]. cbn [Nat.add]. change (crc_step (Nat.iter (m + n) crc_step s) = crc_step (Nat.iter m crc_step (Nat.iter n crc_step s))). rewrite IH. reflexivity. Qed.
Lemma byte_w32 b : byte_ok b -> w32 b. Proof. unfold byte_ok, w32. lia. Qed.
Lemma crc_byte_w s b : w32 s -> byte_ok b -> w32 (crc_byte s b). Proof. intros S B. apply iter_w. apply lxor_bound; [lia|exact S|exact (byte_w32 b B)]. Qed.
Lemma crc_byte_inj s t b : w32 s -> w32 t -> byte_ok b -> crc_byte s b = crc_byte t b -> s = t.
Proof.
  intros S T B E. apply iter_inj in E; [|apply lxor_bound; [lia|exact S|exact (byte_w32 b B)]|apply lxor_bound; [lia|exact T|exact (byte_w32 b B)]].
  apply (f_equal (fun z => Z.lxor z b)) in E. rewrite !Z.lxor_assoc, Z.lxor_nilpotent, !Z.lxor_0_r in E. exact E.
Qed.
Lemma crc_fold_w l : forall s, bytes_ok l -> w32 s -> w32 (fold_left crc_byte l s).
Proof. induction l as [|b l IH]; intros s B S; [exact S|]. inversion B; subst. cbn [fold_left]. apply IH; [assumption|]. apply crc_byte_w; assumption. Qed.
Lemma crc_fold_inj l : forall s t, bytes_ok l -> w32 s -> w32 t -> fold_left crc_byte l s = fold_left crc_byte l t -> s = t.
Proof. induction l as [|b l IH]; intros s t B S T E; [exact E|]. inversion B as [|? ? B1 B2]; subst. cbn [fold_left] in E. apply (crc_byte_inj s t b S T B1). apply (IH _ _ B2); [apply crc_byte_w; assumption|apply crc_byte_w; assumption|exact E]. Qed.
(** reading k <= 4 bytes is 8k steps on the state xored with the little-endian word *)
Lemma crc_word l : forall s, bytes_ok l -> fold_left crc_byte l s = Nat.iter (8 * length l) crc_step (Z.lxor s (lev 256 l)).
Proof.
  induction l as [|b l IH] using rev_ind; intros s B; [cbn; rewrite Z.lxor_0_r; reflexivity|]. apply Forall_app in B as [B1 B2]. rewrite fold_left_app. cbn [fold_left]. rewrite (IH s B1). unfold crc_byte.
  rewrite app_length. cbn [length]. replace (8 * (length l + 1))%nat with (8 + 8 * length l)%nat by lia. rewrite iter_add. f_equal.
  assert (LV : lev 256 (l ++ [b]) = Z.lxor (lev 256 l) (2 ^ Z.of_nat (8 * length l) * b)).
  { rewrite lev_app. cbn [lev]. rewrite Z.mul_0_r, Z.add_0_r. replace (256 ^ zlen l) with (2 ^ Z.of_nat (8 * length l)) by (unfold zlen; rewrite Nat2Z.inj_mul, Z.pow_mul_r by lia; reflexivity).
    pose proof (lev_bound 256 l ltac:(lia) B1) as LB. assert (P : 256 ^ zlen l = 2 ^ Z.of_nat (8 * length l)) by (unfold zlen; rewrite Nat2Z.inj_mul, Z.pow_mul_r by lia; reflexivity). rewrite P in LB.
    symmetry. rewrite Z.add_nocarry_lxor; [reflexivity|]. rewrite (Z.mul_comm _ b), <- Z.shiftl_mul_pow2 by lia. apply Z.bits_inj'. intros i I. rewrite Z.land_spec, Z.bits_0. destruct (Z.lt_ge_cases i (Z.of_nat (8 * length l))) as [L|G].
    - rewrite Z.shiftl_spec_low by exact L. apply andb_false_r.
    - assert (Z.testbit (lev 256 l) i = false); [|rewrite H; reflexivity]. destruct (Z.eq_dec (lev 256 l) 0) as [->|]; [apply Z.bits_0|]. apply Z.bits_above_log2; [lia|]. apply Z.lt_le_trans with (Z.of_nat (8 * length l)); [|exact G]. apply Z.log2_lt_pow2; lia. }
  rewrite LV, <- Z.lxor_assoc. rewrite (iter_lxor _ (Z.lxor s (lev 256 l)) (2 ^ Z.of_nat (8 * length l) * b)), iter_double. reflexivity.
Qed.
(** ** Error detection *)
Lemma crc32_burst pre w w' post : bytes_ok pre -> bytes_ok w -> bytes_ok w' -> bytes_ok post -> length w = length w' -> (length w <= 4)%nat -> w <> w' ->
  crc32 (pre ++ w ++ post) <> crc32 (pre ++ w' ++ post).
Proof.
  intros BP BW BW' BQ L L4 NE E. unfold crc32 in E. apply (f_equal (fun z => Z.lxor z 4294967295)) in E. rewrite !Z.lxor_assoc, !Z.lxor_nilpotent, !Z.lxor_0_r in E. rewrite !fold_left_app in E.
  assert (I : w32 4294967295) by (unfold w32; lia). pose proof (crc_fold_w pre _ BP I) as SW. apply crc_fold_inj in E; [|exact BQ|apply crc_fold_w; assumption|apply crc_fold_w; assumption].
  set (s0 := fold_left crc_byte pre 4294967295) in *. clearbody s0. rewrite (crc_word w), (crc_word w') in E by assumption. rewrite <- L in E.
  assert (LW : forall x, bytes_ok x -> length x = length w -> w32 (lev 256 x)).
  { intros x BX LX. pose proof (lev_bound 256 x ltac:(lia) BX) as B. unfold w32. assert (256 ^ zlen x <= 256 ^ 4) by (apply Z.pow_le_mono_r; unfold zlen; lia). change (256 ^ 4) with (2 ^ 32) in *. lia. }
  apply iter_inj in E; [|apply lxor_bound; [lia|exact SW|apply LW; [exact BW|reflexivity]]|apply lxor_bound; [lia|exact SW|apply LW; [exact BW'|symmetry; exact L]]].
  apply (f_equal (fun z => Z.lxor s0 z)) in E. rewrite <- !Z.lxor_assoc, !Z.lxor_nilpotent, !Z.lxor_0_l in E. apply NE. apply (lev_inj 256); auto; lia.
Qed.
Lemma crc32_w b : bytes_ok b -> w32 (crc32 b). Proof. intros B. apply lxor_bound; [lia|apply crc_fold_w; [exact B|unfold w32; lia]|lia]. Qed.
