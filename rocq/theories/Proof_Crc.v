(** The bytewise CRC-32 is the remainder of the polynomial division. *)
From Verif Require Import Base BaseLemmas Spec_Byron Model_Byron Proof_Byron.
Ltac Zify.zify_post_hook ::= idtac.

Definition zeros n := repeat false n.
Definition cstep r := div_step r false.
Definition dstep (r : list bool) (b : bool) : list bool := match r with [] => [] | top :: r => cstep (xorb top b :: r) end.
Lemma xor_len a b : length a = length b -> length (xor_bits a b) = length a.
Proof. intros L. unfold xor_bits. rewrite map_length, combine_length. lia. Qed.
Lemma xor_app a a' b b' : length a = length b -> xor_bits (a ++ a') (b ++ b') = xor_bits a b ++ xor_bits a' b'.
Proof. revert b. induction a as [|x a IH]; intros [|y b] L; try discriminate; [reflexivity|]. unfold xor_bits in *. cbn [app combine map]. f_equal. apply IH. cbn in L. lia. Qed.
Lemma xor_assoc a b c : length a = length b -> length b = length c -> xor_bits (xor_bits a b) c = xor_bits a (xor_bits b c).
Proof. revert b c. induction a as [|x a IH]; intros [|y b] [|z c] L M; try discriminate; [reflexivity|]. unfold xor_bits in *. cbn [combine map fst snd]. f_equal; [apply xorb_assoc|apply IH; cbn in *; lia]. Qed.
Lemma xor_comm a b : xor_bits a b = xor_bits b a.
Proof. revert b. induction a as [|x a IH]; intros [|y b]; try reflexivity. unfold xor_bits in *. cbn [combine map fst snd]. f_equal; [apply xorb_comm|apply IH]. Qed.
Lemma xor_zeros a n : length a = n -> xor_bits a (zeros n) = a.
Proof. revert n. induction a as [|x a IH]; intros [|n] L; try discriminate; [reflexivity|]. unfold xor_bits, zeros in *. cbn [repeat combine map fst snd]. rewrite xorb_false_r. f_equal. apply IH. cbn in L. lia. Qed.
Lemma xor_ones a : map negb a = xor_bits (repeat true (length a)) a.
Proof. induction a as [|x a IH]; [reflexivity|]. unfold xor_bits in *. cbn [length repeat combine map fst snd]. f_equal. exact IH. Qed.
Lemma xor_cons x a y b : xor_bits (x :: a) (y :: b) = xorb x y :: xor_bits a b. Proof. reflexivity. Qed.
Lemma poly_len : length crc_poly = 32%nat. Proof. reflexivity. Qed.
Lemma div_step_len r b : length r = 32%nat -> length (div_step r b) = 32%nat.
Proof. destruct r as [|t r]; intros L; [discriminate|]. cbn in L. cbn [div_step]. assert (L' : length (r ++ [b]) = 32%nat) by (rewrite app_length; cbn; lia). destruct t; [rewrite xor_len; [exact L'|rewrite poly_len; exact L']|exact L']. Qed.
Lemma dstep_len r b : length r = 32%nat -> length (dstep r b) = 32%nat.
Proof. destruct r as [|t r]; intros L; [discriminate|]. apply div_step_len. exact L. Qed.
(** the division's register is the other algorithm's, xored with the next 32 bits *)
Lemma div_window D b w n : length D = 32%nat -> length w = 31%nat -> div_step (xor_bits D (b :: w)) n = xor_bits (dstep D b) (w ++ [n]).
Proof.
  destruct D as [|t D]; intros LD LW; [discriminate|]. cbn in LD. rewrite xor_cons. cbn [div_step dstep cstep].
  assert (E : xor_bits D w ++ [n] = xor_bits (D ++ [false]) (w ++ [n])) by (rewrite xor_app by lia; unfold xor_bits at 3; cbn [combine map fst snd]; destruct n; reflexivity).
  unfold cstep. cbn [div_step]. destruct (xorb t b); [|exact E]. rewrite E.
  assert (A : length (D ++ [false]) = 32%nat) by (rewrite app_length; cbn; lia). assert (B : length (w ++ [n]) = 32%nat) by (rewrite app_length; cbn; lia).
  rewrite xor_assoc by (rewrite ?poly_len; lia). rewrite (xor_comm (w ++ [n])). rewrite <- xor_assoc by (rewrite ?poly_len; lia). reflexivity.
Qed.
Lemma skipn_tl {A} n : forall l : list A, skipn (S n) l = tl (skipn n l).
Proof. induction n as [|n IH]; intros [|x l]; try reflexivity. change (skipn (S n) l = tl (skipn n l)). apply IH. Qed.
Lemma division u : forall D v, length D = 32%nat -> length v = 32%nat ->
  fold_left div_step (skipn 32 (u ++ v)) (xor_bits D (firstn 32 (u ++ v))) = xor_bits (fold_left dstep u D) v.
Proof.
  induction u as [|b u IH]; intros D v LD LV.
  - cbn [app fold_left]. rewrite skipn_all2, firstn_all2 by lia. reflexivity.
  - cbn [app fold_left]. set (s := u ++ v). assert (LS : (32 <= length s)%nat) by (unfold s; rewrite app_length; lia).
    change (firstn 32 (b :: s)) with (b :: firstn 31 s). change (skipn 32 (b :: s)) with (skipn 31 s). destruct (skipn 31 s) as [|n rest] eqn:SK. { apply (f_equal (@length bool)) in SK. rewrite skipn_length in SK. cbn in SK. lia. }
    assert (SK32 : skipn 32 s = rest). { rewrite skipn_tl, SK. reflexivity. }
    assert (FI : firstn 32 s = firstn 31 s ++ [n]).
    { rewrite <- (firstn_skipn 31 s) at 1. rewrite SK. rewrite firstn_app, firstn_length. replace (32 - Nat.min 31 (length s))%nat with 1%nat by lia. rewrite firstn_firstn. reflexivity. }
    change (fold_left div_step (n :: rest) (xor_bits D (b :: firstn 31 s))) with (fold_left div_step rest (div_step (xor_bits D (b :: firstn 31 s)) n)). rewrite div_window; [|exact LD|rewrite firstn_length; lia]. rewrite <- FI, <- SK32. apply IH; [apply dstep_len, LD|exact LV].
Qed.
(** the first 32 bits only fill the register *)
Lemma fill_register w : forall z, fold_left div_step w (zeros (length w) ++ z) = z ++ w.
Proof.
  induction w as [|b w IH]; intros z; [cbn; rewrite app_nil_r; reflexivity|]. cbn [length zeros repeat app fold_left div_step].
  pose proof (IH (z ++ [b])) as H. unfold zeros in H. rewrite <- !app_assoc in *. exact H.
Qed.
Lemma remainder_long m : (32 <= length m)%nat -> remainder m = fold_left div_step (skipn 32 m) (firstn 32 m).
Proof.
  intros L. unfold remainder. rewrite <- (firstn_skipn 32 m) at 1. rewrite fold_left_app. f_equal.
  pose proof (fill_register (firstn 32 m) []) as F. rewrite app_nil_r, firstn_length, Nat.min_l in F by lia. exact F.
Qed.
Theorem crc_bits_direct bytes : crc_bits bytes = map negb (fold_left dstep (concat (map byte_bits bytes)) (repeat true 32)).
Proof.
  unfold crc_bits. f_equal. set (u := concat (map byte_bits bytes)). set (s := u ++ repeat false 32). assert (LS : (32 <= length s)%nat) by (unfold s; rewrite app_length, repeat_length; lia).
  assert (LF : length (map negb (firstn 32 s)) = 32%nat) by (rewrite map_length, firstn_length; lia).
  unfold complement_first. rewrite remainder_long by (rewrite app_length; lia). rewrite skipn_app_exact, firstn_app_exact by (symmetry; exact LF).
  rewrite xor_ones, firstn_length, Nat.min_l by lia. unfold s. rewrite division by (rewrite repeat_length; reflexivity).
  apply xor_zeros. clear. assert (G : forall l D, length D = 32%nat -> length (fold_left dstep l D) = 32%nat) by (induction l as [|b l IH]; intros D L; [exact L|]; apply IH, dstep_len, L). apply G, repeat_length.
Qed.

(** ** Registers as numbers *)
Definition reg (s : Z) : list bool := map (fun i => Z.testbit s (Z.of_nat i)) (seq 0 32).
Lemma reg_len s : length (reg s) = 32%nat. Proof. reflexivity. Qed.
Lemma testbit_high s i : w32 s -> 32 <= i -> Z.testbit s i = false.
Proof. unfold w32. intros W I. destruct (Z.eq_dec s 0) as [->|N]; [apply Z.bits_0|]. apply Z.bits_above_log2; [lia|]. apply Z.lt_le_trans with 32; [apply Z.log2_lt_pow2; lia|exact I]. Qed.
Lemma reg_step s : w32 s -> reg (crc_step s) = cstep (reg s).
Proof.
  intros W. pose proof (testbit_high s 32 W ltac:(lia)) as H. unfold reg, crc_step, cstep. rewrite <- Z.bit0_odd. cbn [seq map div_step]. change (Z.of_nat 0) with 0.
  destruct (Z.testbit s 0).
  - unfold xor_bits. cbn [app]. unfold crc_poly. cbn [seq rev app map existsb Nat.eqb orb combine fst snd].
    repeat rewrite Z.lxor_spec. rewrite !Z.shiftr_spec by lia. repeat f_equal. { cbn [Z.of_nat Pos.of_succ_nat Pos.succ Z.add Pos.add]. rewrite H. reflexivity. }
  - cbn [app]. rewrite !Z.shiftr_spec by lia. repeat f_equal. cbn [Z.of_nat Pos.of_succ_nat Pos.succ Z.add Pos.add]. exact H.
Qed.

Lemma reg_lxor a b : reg (Z.lxor a b) = xor_bits (reg a) (reg b).
Proof. unfold reg, xor_bits. cbn [seq map combine fst snd]. rewrite !Z.lxor_spec. reflexivity. Qed.
Lemma reg_byte b : byte_ok b -> reg b = byte_bits b ++ zeros 24.
Proof.
  intros B. assert (H : forall i, 8 <= i -> Z.testbit b i = false). { intros i I. unfold byte_ok in B. destruct (Z.eq_dec b 0) as [->|N]; [apply Z.bits_0|]. apply Z.bits_above_log2; [lia|]. apply Z.lt_le_trans with 8; [apply Z.log2_lt_pow2; lia|exact I]. }
  unfold reg, byte_bits. change (seq 0 32) with (seq 0 8 ++ seq 8 24). rewrite map_app. f_equal. unfold zeros. cbn [seq map repeat]. rewrite !H by lia. reflexivity.
Qed.
Lemma iter_succ_r {A} (f : A -> A) n x : Nat.iter (S n) f x = Nat.iter n f (f x).
Proof. induction n as [|n IH]; [reflexivity|]. change (f (Nat.iter (S n) f x) = f (Nat.iter n f (f x))). rewrite IH. reflexivity. Qed.
(** a few bits one at a time, or xored in together *)
Lemma cstep_shift x t : length x = 32%nat -> length t = 31%nat -> cstep (xor_bits x (false :: t)) = xor_bits (cstep x) (t ++ [false]).
Proof. intros LX LT. unfold cstep at 1. rewrite div_window by assumption. f_equal. destruct x; [reflexivity|]. unfold dstep. rewrite xorb_false_r. reflexivity. Qed.
Lemma dstep_batch bits : forall r, length r = 32%nat -> (length bits <= 32)%nat -> fold_left dstep bits r = Nat.iter (length bits) cstep (xor_bits r (bits ++ zeros (32 - length bits))).
Proof.
  induction bits as [|b bits IH]; intros r L LB; [cbn [fold_left length Nat.iter nat_rect app]; symmetry; apply xor_zeros; exact L|]. cbn [length] in *. cbn [fold_left].
  rewrite IH by (try apply dstep_len; lia). rewrite iter_succ_r. f_equal.
  assert (E : dstep r b = cstep (xor_bits r (b :: zeros 31))). { destruct r as [|t r]; [discriminate|]. cbn [dstep]. rewrite xor_cons. rewrite xor_zeros by (cbn in L; lia). reflexivity. }
  rewrite E. assert (LT : length (bits ++ zeros (31 - length bits)) = 31%nat) by (rewrite app_length; unfold zeros; rewrite repeat_length; lia).
  replace (bits ++ zeros (32 - length bits)) with ((bits ++ zeros (31 - length bits)) ++ [false]).
  2:{ rewrite <- app_assoc. f_equal. unfold zeros. replace (32 - length bits)%nat with ((31 - length bits) + 1)%nat by lia. rewrite repeat_app. reflexivity. }
  rewrite <- cstep_shift; [|rewrite xor_len; [exact L|cbn [length]; unfold zeros; rewrite repeat_length; exact L]|exact LT]. f_equal.
  replace (32 - S (length bits))%nat with (31 - length bits)%nat by lia. rewrite xor_assoc by (cbn [length]; unfold zeros in *; rewrite ?repeat_length; lia). f_equal. cbn [app]. rewrite xor_cons, xorb_false_r. f_equal.
  rewrite xor_comm. apply xor_zeros. exact LT.
Qed.
Lemma reg_iter n s : w32 s -> reg (Nat.iter n crc_step s) = Nat.iter n cstep (reg s).
Proof. intros W. induction n as [|n IH]; [reflexivity|]. change (reg (crc_step (Nat.iter n crc_step s)) = cstep (Nat.iter n cstep (reg s))). rewrite reg_step by (apply iter_w, W). rewrite IH. reflexivity. Qed.
Lemma reg_crc_byte s b : w32 s -> byte_ok b -> reg (crc_byte s b) = fold_left dstep (byte_bits b) (reg s).
Proof.
  intros W B. unfold crc_byte. rewrite reg_iter by (apply lxor_bound; [lia|exact W|exact (byte_w32 b B)]). rewrite reg_lxor, (reg_byte b B). symmetry. apply (dstep_batch (byte_bits b)); [reflexivity|cbn; lia].
Qed.
Lemma reg_fold l : forall s, w32 s -> bytes_ok l -> reg (fold_left crc_byte l s) = fold_left dstep (concat (map byte_bits l)) (reg s).
Proof.
  induction l as [|b l IH]; intros s W B; [reflexivity|]. apply bytes_ok_cons in B as [B1 B2]. cbn [fold_left map concat]. rewrite fold_left_app, <- reg_crc_byte by assumption. apply IH; [apply crc_byte_w; assumption|assumption].
Qed.
Lemma number_reg n : forall k s, 0 <= s < 2 ^ Z.of_nat n -> number_of_bits (map (fun i => Z.testbit (Z.shiftl s (Z.of_nat k)) (Z.of_nat i)) (seq k n)) = s.
Proof.
  induction n as [|n IH]; intros k s B; [cbn; change (2 ^ Z.of_nat 0) with 1 in B; lia|]. cbn [seq map number_of_bits].
  rewrite Z.shiftl_spec by lia. rewrite Z.sub_diag, Z.bit0_odd.
  rewrite (map_ext_in _ (fun i => Z.testbit (Z.shiftl (Z.div2 s) (Z.of_nat (S k))) (Z.of_nat i))).
  - rewrite IH; [pose proof (Z.div2_odd s); lia|]. pose proof (Z.div2_odd s) as DO. rewrite Nat2Z.inj_succ, Z.pow_succ_r in B by lia. destruct (Z.odd s); cbn [Z.b2z] in DO; lia.
  - intros i I. apply in_seq in I. rewrite !Z.shiftl_spec by lia. rewrite Z.div2_spec, Z.shiftr_spec by lia. f_equal. lia.
Qed.
Lemma number_of_reg s : w32 s -> number_of_bits (reg s) = s.
Proof. intros W. pose proof (number_reg 32 0 s W) as N. exact N. Qed.
Theorem crc32_correct l : bytes_ok l -> crc32 l = crc32_spec l.
Proof.
  intros B. unfold crc32_spec. rewrite crc_bits_direct. assert (I : w32 4294967295) by (unfold w32; lia).
  change (repeat true 32) with (reg 4294967295). rewrite <- reg_fold by assumption. pose proof (crc_fold_w l 4294967295 B I) as W.
  replace (map negb (reg (fold_left crc_byte l 4294967295))) with (reg (crc32 l)).
  - symmetry. apply number_of_reg, crc32_w, B.
  - unfold crc32. rewrite reg_lxor, xor_ones, reg_len. apply xor_comm.
Qed.
