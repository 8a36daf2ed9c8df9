From Verif Require Import Base BaseLemmas Model_Hex Proof_Hex Spec_Ed25519 Model_Bip32 Spec_Bip32.
Ltac Zify.zify_post_hook ::= idtac.

Lemma ell_pos : 0 < ell. Proof. reflexivity. Qed.
Lemma ell_bounds : 2 ^ 252 < ell < 2 ^ 253. Proof. split; reflexivity. Qed.

(** ** Indices *)
Lemma land_top i : 0 <= i < 2 ^ 32 -> Z.land i 0x80000000 = if i <? 2 ^ 31 then 0 else 2 ^ 31.
Proof.
  intros Hi. change 0x80000000 with (2 ^ 31).
  assert (E : Z.land i (2 ^ 31) = (i / 2 ^ 31 mod 2) * 2 ^ 31).
  { apply Z.bits_inj'. intros n Hn. rewrite Z.land_spec, Z.pow2_bits_eqb by lia.
    rewrite <- Z.shiftl_mul_pow2 by lia. rewrite Z.shiftl_spec by lia.
    change 2 with (2 ^ 1) at 2. rewrite <- (Z.land_ones _ 1) by lia. rewrite Z.land_spec.
    rewrite <- Z.shiftr_div_pow2 by lia.
    destruct (Z.eqb_spec 31 n) as [<-|Hne].
    - rewrite Z.sub_diag. rewrite Z.shiftr_spec by lia. reflexivity.
    - rewrite andb_false_r. destruct (Z.lt_ge_cases (n - 31) 0) as [Hlt|Hge].
      + rewrite (Z.testbit_neg_r (Z.shiftr i 31)) by lia. reflexivity.
      + rewrite (Z.ones_spec_high 1) by lia. rewrite andb_false_r. reflexivity. }
  rewrite E. destruct (Z.ltb_spec i (2 ^ 31)).
  - rewrite Z.div_small by lia. reflexivity.
  - replace (i / 2 ^ 31) with 1; [reflexivity|]. apply (Z.div_unique i (2 ^ 31) 1 (i - 2 ^ 31)); lia.
Qed.
Lemma hardened_iff i : 0 <= i < 2 ^ 32 -> index_is_hardened i = (2 ^ 31 <=? i).
Proof.
  intros Hi. unfold index_is_hardened. rewrite land_top by exact Hi.
  destruct (Z.ltb_spec i (2 ^ 31)); destruct (Z.leb_spec (2 ^ 31) i); try lia; reflexivity.
Qed.
Lemma soft_not_hardened i : soft i -> index_is_hardened i = false.
Proof. intros S. unfold soft in S. rewrite hardened_iff by lia. destruct (Z.leb_spec (2 ^ 31) i); lia. Qed.

Lemma HardenIndex_val i : 0 <= i < 2 ^ 32 -> HardenIndex i = if i <? 2 ^ 31 then i + 2 ^ 31 else i.
Proof.
  intros Hi. unfold HardenIndex. change 0x80000000 with (2 ^ 31).
  destruct (Z.ltb_spec i (2 ^ 31)); [|reflexivity]. apply Z.mod_small. lia.
Qed.

Lemma harden_props i : 0 <= i < 2 ^ 32 ->
  HardenIndex i = Z.lor i (2 ^ 31) /\ 2 ^ 31 <= HardenIndex i < 2 ^ 32 /\
  HardenIndex (HardenIndex i) = HardenIndex i /\
  (forall j, soft j -> HardenIndex i <> j) /\
  (forall j, soft i -> soft j -> HardenIndex i = HardenIndex j -> i = j).
Proof.
  intros Hi. pose proof (HardenIndex_val i Hi) as HV.
  assert (HR : 2 ^ 31 <= HardenIndex i < 2 ^ 32) by (rewrite HV; destruct (Z.ltb_spec i (2 ^ 31)); lia).
  pose proof (HardenIndex_val (HardenIndex i) ltac:(lia)) as HV2.
  destruct (Z.ltb_spec (HardenIndex i) (2 ^ 31)) as [|_]; [lia|].
  unfold soft.
  assert (L : (if i <? 2 ^ 31 then i + 2 ^ 31 else i) = Z.lor i (2 ^ 31)).
  { destruct (Z.ltb_spec i (2 ^ 31)).
    - pose proof (lor_shift_add 1 i 31 ltac:(lia) ltac:(lia)) as X. rewrite Z.mul_1_l in X. rewrite Z.lor_comm, X. lia.
    - pose proof (lor_shift_add 1 (i - 2 ^ 31) 31 ltac:(lia) ltac:(lia)) as X. rewrite Z.mul_1_l in X.
      assert (Y : i = Z.lor (2 ^ 31) (i - 2 ^ 31)) by (rewrite X; lia).
      rewrite Y. set (j := i - 2 ^ 31). rewrite (Z.lor_comm (Z.lor (2 ^ 31) j)), Z.lor_assoc, Z.lor_diag. reflexivity. }
  split; [rewrite HV; exact L|]. split; [exact HR|]. split; [exact HV2|].
  split; [intros j Hj; lia|].
  intros j Hi' Hj E. rewrite (HardenIndex_val j) in E by lia. rewrite HV in E.
  destruct (Z.ltb_spec i (2 ^ 31)); destruct (Z.ltb_spec j (2 ^ 31)); lia.
Qed.

Lemma serialize_value i mode : 0 <= i < 2 ^ 32 ->
  (match mode with V1 => bev 256 | V2 => lev 256 end) (serialize_index32 i mode) = i /\
  length (serialize_index32 i mode) = 4%nat /\ bytes_ok (serialize_index32 i mode).
Proof.
  intros Hi.
  assert (E : serialize_index32 i V2 = pack_le 4 i).
  { unfold serialize_index32, pack_le. cbn [seq map]. rewrite !land_255. reflexivity. }
  assert (E1 : serialize_index32 i V1 = rev (serialize_index32 i V2)) by reflexivity.
  assert (V : lev 256 (pack_le 4 i) = i).
  { rewrite pack_le_value. apply Z.mod_small. exact Hi. }
  destruct mode; rewrite ?E1, E.
  - rewrite <- lev_rev. split; [exact V|]. rewrite rev_length. split; [reflexivity|]. apply bytes_ok_rev, pack_le_ok.
  - split; [exact V|]. split; [reflexivity|apply pack_le_ok].
Qed.
Lemma serialize_inj i j mode : 0 <= i < 2 ^ 32 -> 0 <= j < 2 ^ 32 -> serialize_index32 i mode = serialize_index32 j mode -> i = j.
Proof.
  intros Hi Hj E. destruct (serialize_value i mode Hi) as [A _]. destruct (serialize_value j mode Hj) as [B _].
  rewrite E in A. exact (eq_trans (eq_sym A) B).
Qed.

(** ** Byte loops *)
Lemma byte8 x p : 0 <= x < 256 -> 0 <= p < 8 -> (Z.shiftl x 3 + Z.land p 7) mod 256 = 8 * (x mod 32) + p.
Proof.
  intros Hx Hp. rewrite shiftl_mul by lia. change 7 with (Z.ones 3). rewrite Z.land_ones by lia.
  change (2 ^ 3) with 8. rewrite (Z.mod_small p 8) by lia. dlia.
Qed.
Lemma shr5 x : 0 <= x < 256 -> Z.shiftr x 5 = x / 32 /\ 0 <= Z.shiftr x 5 < 8.
Proof. intros Hx. rewrite shiftr_div by lia. change (2 ^ 5) with 32. dlia. Qed.

Fixpoint carry8 (z : list Z) (p : Z) : Z := match z with [] => p | x :: r => carry8 r (Z.shiftr x 5) end.
Lemma times8_v2_value z p : bytes_ok z -> 0 <= p < 8 ->
  lev 256 (times8_v2 z p) + 256 ^ zlen z * carry8 z p = 8 * lev 256 z + p.
Proof.
  revert p; induction z as [|x r IH]; intros p Hz Hp; cbn [times8_v2 carry8 lev].
  - change (zlen (@nil Z)) with 0. cbn [Z.pow]. lia.
  - apply bytes_ok_cons in Hz as [Hx Hr]. unfold byte_ok in Hx.
    destruct (shr5 x Hx) as [E B]. specialize (IH (Z.shiftr x 5) Hr B).
    rewrite byte8 by auto. rewrite zlen_cons, Z.pow_add_r, Z.pow_1_r by (try apply zlen_nonneg; lia).
    rewrite E in *. pose proof (Z.div_mod x 32 ltac:(lia)). nia.
Qed.
Lemma times8_v2_ok z p : bytes_ok (times8_v2 z p) /\ length (times8_v2 z p) = length z.
Proof.
  revert p; induction z as [|x r IH]; intros p; cbn [times8_v2]; [split; [constructor|reflexivity]|].
  destruct (IH (Z.shiftr x 5)). split; [apply bytes_ok_cons; split; [unfold byte_ok; dlia|assumption]|cbn [length]; lia].
Qed.
Lemma times8_v1_ok z p : bytes_ok (times8_v1 z p) /\ length (times8_v1 z p) = length z.
Proof.
  revert p; induction z as [|x r IH]; intros p; cbn [times8_v1]; [split; [constructor|reflexivity]|].
  destruct (IH (Z.shiftr x 5)). split; [apply bytes_ok_cons; split; [unfold byte_ok; dlia|assumption]|cbn [length]; lia].
Qed.
Lemma carry8_last z p : z <> [] -> carry8 z p = Z.shiftr (last z 0) 5.
Proof.
  revert p; induction z as [|x r IH]; intros p Hne; [congruence|]. cbn [carry8].
  destruct r as [|y r]; [reflexivity|]. rewrite IH by discriminate. reflexivity.
Qed.
Lemma last_nth {A} (l : list A) d : last l d = nth (length l - 1) l d.
Proof.
  induction l as [|x r IH]; [reflexivity|]. destruct r as [|y r]; [reflexivity|].
  change (last (x :: y :: r) d) with (last (y :: r) d). rewrite IH. cbn [length].
  replace (S (S (length r)) - 1)%nat with (S (S (length r) - 1)) by lia. reflexivity.
Qed.
Lemma nth_firstn {A} (l : list A) n i d : (i < n)%nat -> nth i (firstn n l) d = nth i l d.
Proof.
  revert n i; induction l as [|x r IH]; intros [|n] [|i] H; cbn [firstn nth]; try lia; try reflexivity.
  apply IH. lia.
Qed.
Lemma lev_zeros n : lev 256 (repeat 0 n) = 0.
Proof. induction n; cbn [repeat lev]; lia. Qed.

Lemma zl8_len mode z : length z = 64%nat -> bytes_ok z -> length (zl8 mode z) = 64%nat /\ bytes_ok (zl8 mode z).
Proof.
  intros L B.
  assert (Z0 : forall n, bytes_ok (repeat 0 n)) by (intros; apply Forall_forall; intros x Hx; apply repeat_spec in Hx as ->; unfold byte_ok; lia).
  destruct mode; unfold zl8.
  - destruct (times8_v1_ok (firstn 32 z) 0). rewrite app_length, repeat_length, H0, firstn_length. split; [lia|].
    apply bytes_ok_app; auto.
  - destruct (times8_v2_ok (firstn 28 z) 0). rewrite !app_length, repeat_length, H0, firstn_length. split; [cbn [length]; lia|].
    apply bytes_ok_app; split; [assumption|]. apply bytes_ok_app; split; [|auto].
    apply bytes_ok_cons; split; [|constructor].
    assert (N : 0 <= nth 27 z 0 < 256).
    { unfold bytes_ok in B. rewrite Forall_forall in B. apply B. apply nth_In. lia. }
    destruct (shr5 _ N). unfold byte_ok. lia.
Qed.

Lemma zl8_v2_value z : length z = 64%nat -> bytes_ok z -> lev 256 (firstn 32 (zl8 V2 z)) = 8 * lev 256 (firstn 28 z).
Proof.
  intros L B.
  assert (L28 : length (firstn 28 z) = 28%nat) by (rewrite firstn_length; lia).
  pose proof (times8_v2_value (firstn 28 z) 0 (bytes_ok_firstn 28 z B) ltac:(lia)) as V.
  rewrite carry8_last in V by (intros E; rewrite E in L28; discriminate L28).
  rewrite last_nth, L28 in V. change (28 - 1)%nat with 27%nat in V. rewrite nth_firstn in V by lia.
  destruct (times8_v2_ok (firstn 28 z) 0) as [_ Lt]. rewrite L28 in Lt.
  unfold zl8. change (repeat 0 35) with (repeat 0 3 ++ repeat 0 32).
  replace (times8_v2 (firstn 28 z) 0 ++ [Z.shiftr (nth 27 z 0) 5] ++ repeat 0 3 ++ repeat 0 32)
    with ((times8_v2 (firstn 28 z) 0 ++ [Z.shiftr (nth 27 z 0) 5] ++ repeat 0 3) ++ repeat 0 32) by (rewrite <- !app_assoc; reflexivity).
  rewrite firstn_app_exact by (rewrite !app_length, Lt; reflexivity).
  rewrite lev_app. unfold zlen in *. rewrite Lt, L28 in *. cbn [lev repeat app]. lia.
Qed.

Lemma add_carry_ok a b r : bytes_ok (add_carry a b r) /\ ((length a <= length b)%nat -> length (add_carry a b r) = length a).
Proof.
  revert b r; induction a as [|x a IH]; intros [|y b] r; cbn [add_carry length]; try (split; [constructor|intros; lia]).
  destruct (IH b (Z.shiftr (x + y + r) 8)) as [A B]. split; [apply bytes_ok_cons; split; [unfold byte_ok; dlia|exact A]|].
  intros Hl. cbn [length]. rewrite B by lia. reflexivity.
Qed.
Lemma add_carry_value a : forall b r, (length a <= length b)%nat ->
  lev 256 (add_carry a b r) = (lev 256 a + lev 256 (firstn (length a) b) + r) mod 256 ^ zlen a.
Proof.
  induction a as [|x a IH]; intros [|y b] r Hl; cbn [add_carry length firstn lev] in *; try lia.
  - change (zlen (@nil Z)) with 0. change (256 ^ 0) with 1. rewrite Z.mod_1_r. reflexivity.
  - change (zlen (@nil Z)) with 0. change (256 ^ 0) with 1. rewrite Z.mod_1_r. reflexivity.
  - rewrite IH by lia. rewrite shiftr_div by lia. change (2 ^ 8) with 256.
    rewrite zlen_cons, Z.pow_add_r, Z.pow_1_r by (try apply zlen_nonneg; lia).
    rewrite (Z.mul_comm (256 ^ zlen a)). rewrite Z.rem_mul_r by first [lia | apply Z.pow_pos_nonneg; [lia|apply zlen_nonneg]].
    assert (E1 : (x + 256 * lev 256 a + (y + 256 * lev 256 (firstn (length a) b)) + r) mod 256 = (x + y + r) mod 256).
    { replace (x + 256 * lev 256 a + (y + 256 * lev 256 (firstn (length a) b)) + r)
        with (x + y + r + (lev 256 a + lev 256 (firstn (length a) b)) * 256) by lia. apply Z.mod_add. lia. }
    assert (E2 : (x + 256 * lev 256 a + (y + 256 * lev 256 (firstn (length a) b)) + r) / 256 = lev 256 a + lev 256 (firstn (length a) b) + (x + y + r) / 256).
    { replace (x + 256 * lev 256 a + (y + 256 * lev 256 (firstn (length a) b)) + r)
        with (x + y + r + (lev 256 a + lev 256 (firstn (length a) b)) * 256) by lia. rewrite Z.div_add by lia. lia. }
    rewrite E1, E2. reflexivity.
Qed.
Lemma add_carry01_eq a : forall b r, bytes_ok a -> bytes_ok b -> 0 <= r <= 1 -> add_carry01 a b r = add_carry a b r.
Proof.
  induction a as [|x a IH]; intros [|y b] r Ha Hb Hr; cbn [add_carry01 add_carry]; try reflexivity.
  apply bytes_ok_cons in Ha as [Hx Ha]. apply bytes_ok_cons in Hb as [Hy Hb]. unfold byte_ok in *.
  rewrite land_255, Z.mod_mod by lia. f_equal.
  rewrite shiftr_div by lia. change (2 ^ 8) with 256.
  assert (E : (if 256 <=? x + y + r then 1 else 0) = (x + y + r) / 256) by (destruct (Z.leb_spec 256 (x + y + r)); dlia).
  rewrite E. apply IH; auto. dlia.
Qed.
Lemma add_bytes_ok a b : bytes_ok (add_bytes a b) /\ ((length a <= length b)%nat -> length (add_bytes a b) = length a).
Proof.
  revert b; induction a as [|x a IH]; intros [|y b]; cbn [add_bytes length]; try (split; [constructor|intros; lia]).
  destruct (IH b) as [A B]. split; [apply bytes_ok_cons; split; [rewrite land_255; unfold byte_ok; dlia|exact A]|].
  intros Hl. cbn [length]. rewrite B by lia. reflexivity.
Qed.

(** ** Clamping *)
Lemma land_248 x : 0 <= x < 256 -> Z.land x 248 = 8 * (x / 8).
Proof.
  assert (F : forallb (fun x => Z.land x 248 =? 8 * (x / 8)) (map Z.of_nat (seq 0 256)) = true) by (vm_compute; reflexivity).
  intros Hx. apply Z.eqb_eq. apply (forallb_range _ 256 F x). lia.
Qed.
Lemma byron_top x : 0 <= x < 256 -> 64 <= Z.lor (Z.land x 127) 64 < 128.
Proof.
  assert (F : forallb (fun x => (64 <=? Z.lor (Z.land x 127) 64) && (Z.lor (Z.land x 127) 64 <? 128)) (map Z.of_nat (seq 0 256)) = true) by (vm_compute; reflexivity).
  intros Hx. pose proof (forallb_range _ 256 F x ltac:(lia)). cbv beta in H. lia.
Qed.
Lemma icarus_top x : 0 <= x < 256 -> 64 <= Z.lor (Z.land x 31) 64 < 96.
Proof.
  assert (F : forallb (fun x => (64 <=? Z.lor (Z.land x 31) 64) && (Z.lor (Z.land x 31) 64 <? 96)) (map Z.of_nat (seq 0 256)) = true) by (vm_compute; reflexivity).
  intros Hx. pose proof (forallb_range _ 256 F x ltac:(lia)). cbv beta in H. lia.
Qed.
Lemma byron_bit5 x : 0 <= x < 256 -> Z.land (Z.lor (Z.land x 127) 64) 32 = 0 -> 64 <= Z.lor (Z.land x 127) 64 < 96.
Proof.
  assert (F : forallb (fun x => implb (Z.land (Z.lor (Z.land x 127) 64) 32 =? 0) ((64 <=? Z.lor (Z.land x 127) 64) && (Z.lor (Z.land x 127) 64 <? 96))) (map Z.of_nat (seq 0 256)) = true) by (vm_compute; reflexivity).
  intros Hx E. pose proof (forallb_range _ 256 F x ltac:(lia)). cbv beta in H. rewrite E in H. cbn [Z.eqb implb] in H. lia.
Qed.

(** A 32-byte prefix: first byte, 30 middle bytes, last byte. *)
Lemma shape32 (d : list Z) : (32 <= length d)%nat -> exists a m b r, d = a :: m ++ b :: r /\ length m = 30%nat.
Proof.
  intros H. destruct d as [|a d]; [cbn in H; lia|]. cbn [length] in H.
  exists a, (firstn 30 d). destruct (skipn 30 d) as [|b r] eqn:E.
  - pose proof (skipn_length 30 d) as X. rewrite E in X. cbn in X. lia.
  - exists b, r. rewrite <- E, firstn_skipn, firstn_length. split; [reflexivity|lia].
Qed.
Lemma upd31 a (m : list Z) b r f : length m = 30%nat -> upd 31 f (a :: m ++ b :: r) = a :: m ++ f b :: r.
Proof.
  intros L. change (upd 31 f (a :: m ++ b :: r)) with (a :: upd 30 f (m ++ b :: r)). f_equal.
  rewrite <- L. clear L. induction m as [|x m IH]; [reflexivity|]. cbn [length app upd]. f_equal. exact IH.
Qed.
Lemma lev32 a (m : list Z) b r : length m = 30%nat -> lev 256 (firstn 32 (a :: m ++ b :: r)) = a + 256 * lev 256 m + 2 ^ 248 * b.
Proof.
  intros L. replace (a :: m ++ b :: r) with ((a :: m ++ [b]) ++ r) by (cbn [app]; rewrite <- app_assoc; reflexivity).
  rewrite firstn_app_exact by (cbn [length]; rewrite app_length, L; reflexivity).
  cbn [lev app]. rewrite lev_app. unfold zlen. rewrite L. cbn [lev]. change (256 ^ Z.of_nat 30) with (2 ^ 240).
  replace (2 ^ 248) with (256 * 2 ^ 240) by reflexivity. ring.
Qed.

Lemma tweak_byron_spec d : (32 <= length d)%nat -> bytes_ok d ->
  clamped (lev 256 (firstn 32 (tweak_bits_byron d))) /\ bytes_ok (tweak_bits_byron d) /\ length (tweak_bits_byron d) = length d /\
  (Z.land (nth 31 (tweak_bits_byron d) 0) 32 = 0 -> clamped3 (lev 256 (firstn 32 (tweak_bits_byron d)))).
Proof.
  intros L B. destruct (shape32 d L) as (a & m & b & r & -> & Lm).
  unfold tweak_bits_byron. change (upd 0 ?f (a :: m ++ b :: r)) with (f a :: m ++ b :: r). rewrite !upd31 by exact Lm.
  apply bytes_ok_cons in B as [Ha B]. apply bytes_ok_app in B as [Bm B]. apply bytes_ok_cons in B as [Hb Br]. unfold byte_ok in *.
  rewrite lev32 by exact Lm. rewrite land_248 by exact Ha. pose proof (byron_top b Hb) as T.
  pose proof (lev_bound 256 m ltac:(lia) Bm) as LB. unfold zlen in LB. rewrite Lm in LB. change (256 ^ Z.of_nat 30) with (2 ^ 240) in LB.
  assert (X : 0 <= a / 8 <= 31) by dlia.
  assert (M8 : (8 * (a / 8) + 256 * lev 256 m + 2 ^ 248 * Z.lor (Z.land b 127) 64) mod 8 = 0).
  { replace (8 * (a / 8) + 256 * lev 256 m + 2 ^ 248 * Z.lor (Z.land b 127) 64)
      with ((a / 8 + 32 * lev 256 m + 2 ^ 245 * Z.lor (Z.land b 127) 64) * 8) by (replace (2 ^ 248) with (2 ^ 245 * 8) by reflexivity; lia).
    apply Z.mod_mul. lia. }
  assert (P : 2 ^ 248 = 256 * 2 ^ 240) by reflexivity.
  split; [split; [exact M8|]; change (2 ^ 254) with (64 * 2 ^ 248); change (2 ^ 255) with (128 * 2 ^ 248); nia|].
  split.
  { apply bytes_ok_cons; split; [unfold byte_ok; lia|]. apply bytes_ok_app; split; [exact Bm|]. apply bytes_ok_cons; split; [unfold byte_ok; lia|exact Br]. }
  split; [cbn [length]; rewrite !app_length; reflexivity|].
  intros E. change (nth 31 (8 * (a / 8) :: m ++ Z.lor (Z.land b 127) 64 :: r) 0) with (nth 30 (m ++ Z.lor (Z.land b 127) 64 :: r) 0) in E.
  rewrite app_nth2 in E by lia. rewrite Lm in E. cbn [nth Nat.sub] in E.
  pose proof (byron_bit5 b Hb E) as T3.
  split; [exact M8|]. change (2 ^ 254 + 2 ^ 253) with (96 * 2 ^ 248). change (2 ^ 254) with (64 * 2 ^ 248). nia.
Qed.
Lemma tweak_icarus_spec d : (32 <= length d)%nat -> bytes_ok d ->
  clamped3 (lev 256 (firstn 32 (tweak_bits_icarus d))) /\ bytes_ok (tweak_bits_icarus d) /\ length (tweak_bits_icarus d) = length d.
Proof.
  intros L B. destruct (shape32 d L) as (a & m & b & r & -> & Lm).
  unfold tweak_bits_icarus. change (upd 0 ?f (a :: m ++ b :: r)) with (f a :: m ++ b :: r). rewrite !upd31 by exact Lm.
  apply bytes_ok_cons in B as [Ha B]. apply bytes_ok_app in B as [Bm B]. apply bytes_ok_cons in B as [Hb Br]. unfold byte_ok in *.
  rewrite lev32 by exact Lm. rewrite land_248 by exact Ha. pose proof (icarus_top b Hb) as T.
  pose proof (lev_bound 256 m ltac:(lia) Bm) as LB. unfold zlen in LB. rewrite Lm in LB. change (256 ^ Z.of_nat 30) with (2 ^ 240) in LB.
  assert (X : 0 <= a / 8 <= 31) by dlia.
  assert (M8 : (8 * (a / 8) + 256 * lev 256 m + 2 ^ 248 * Z.lor (Z.land b 31) 64) mod 8 = 0).
  { replace (8 * (a / 8) + 256 * lev 256 m + 2 ^ 248 * Z.lor (Z.land b 31) 64)
      with ((a / 8 + 32 * lev 256 m + 2 ^ 245 * Z.lor (Z.land b 31) 64) * 8) by (replace (2 ^ 248) with (2 ^ 245 * 8) by reflexivity; lia).
    apply Z.mod_mul. lia. }
  assert (P : 2 ^ 248 = 256 * 2 ^ 240) by reflexivity.
  split; [split; [exact M8|]; change (2 ^ 254 + 2 ^ 253) with (96 * 2 ^ 248); change (2 ^ 254) with (64 * 2 ^ 248); nia|].
  split.
  { apply bytes_ok_cons; split; [unfold byte_ok; lia|]. apply bytes_ok_app; split; [exact Bm|]. apply bytes_ok_cons; split; [unfold byte_ok; lia|exact Br]. }
  cbn [length]; rewrite !app_length; reflexivity.
Qed.

(** The clamped value *)
Lemma lor_64 x : 0 <= x < 256 -> Z.lor (Z.land x 127) 64 = x mod 64 + 64 /\ Z.lor (Z.land x 31) 64 = x mod 32 + 64 /\ Z.land (Z.lor (Z.land x 127) 64) 32 = 32 * (x / 32 mod 2).
Proof.
  assert (F : forallb (fun x => (Z.lor (Z.land x 127) 64 =? x mod 64 + 64) && (Z.lor (Z.land x 31) 64 =? x mod 32 + 64) && (Z.land (Z.lor (Z.land x 127) 64) 32 =? 32 * (x / 32 mod 2))) (map Z.of_nat (seq 0 256)) = true) by (vm_compute; reflexivity).
  intros Hx. pose proof (forallb_range _ 256 F x ltac:(lia)). cbv beta in H. apply andb_true_iff in H as [H H3]. apply andb_true_iff in H as [H1 H2].
  split; [apply Z.eqb_eq, H1|]. split; apply Z.eqb_eq; assumption.
Qed.
Lemma clamp_sum a M b q : 0 <= a < 256 -> 0 <= M < 2 ^ 240 -> 0 <= b < 256 -> 0 < q ->
  (8 * ((a + 256 * M + 2 ^ 248 * b) / 8)) mod (2 ^ 248 * q) = 8 * (a / 8) + 256 * M + 2 ^ 248 * (b mod q).
Proof.
  intros Ha HM Hb Hq. replace (a + 256 * M + 2 ^ 248 * b) with (a + (32 * M + 2 ^ 245 * b) * 8) by (replace (2 ^ 248) with (2 ^ 245 * 8) by reflexivity; lia).
  rewrite Z.div_add by lia. replace (8 * (a / 8 + (32 * M + 2 ^ 245 * b))) with ((8 * (a / 8) + 256 * M) + 2 ^ 248 * b) by (replace (2 ^ 248) with (8 * 2 ^ 245) by reflexivity; lia).
  assert (X : 0 <= 8 * (a / 8) + 256 * M < 2 ^ 248).
  { assert (0 <= a / 8 <= 31) by dlia. replace (2 ^ 248) with (256 * 2 ^ 240) by reflexivity. lia. }
  rewrite Z.rem_mul_r by lia. rewrite (Z.mul_comm (2 ^ 248) b), Z.mod_add, Z.div_add by lia. rewrite (Z.mod_small _ _ X), (Z.div_small _ _ X). reflexivity.
Qed.
Lemma tweak_byron_value d : (32 <= length d)%nat -> bytes_ok d ->
  lev 256 (firstn 32 (tweak_bits_byron d)) = clamp (lev 256 (firstn 32 d)) /\ skipn 32 (tweak_bits_byron d) = skipn 32 d /\
  Z.land (nth 31 (tweak_bits_byron d) 0) 32 = 32 * (lev 256 (firstn 32 d) / 2 ^ 253 mod 2).
Proof.
  intros L B. destruct (shape32 d L) as (a & m & b & r & -> & Lm).
  unfold tweak_bits_byron. change (upd 0 ?f (a :: m ++ b :: r)) with (f a :: m ++ b :: r). rewrite !upd31 by exact Lm.
  apply bytes_ok_cons in B as [Ha B]. apply bytes_ok_app in B as [Bm B]. apply bytes_ok_cons in B as [Hb Br]. unfold byte_ok in *.
  rewrite !lev32 by exact Lm. rewrite land_248 by exact Ha. destruct (lor_64 b Hb) as (E1 & _ & E2).
  pose proof (lev_bound 256 m ltac:(lia) Bm) as LB. unfold zlen in LB. rewrite Lm in LB. change (256 ^ Z.of_nat 30) with (2 ^ 240) in LB.
  split; [|split].
  - unfold clamp. replace (2 ^ 254) with (2 ^ 248 * 64) by reflexivity. rewrite clamp_sum by lia. rewrite E1. ring.
  - change (skipn 32 (?x :: ?l)) with (skipn 31 l). change (skipn 32 (a :: m ++ b :: r)) with (skipn 31 (m ++ b :: r)).
    rewrite !skipn_app, !Lm. rewrite !skipn_all2 by lia. reflexivity.
  - change (nth 31 (?x :: ?l) 0) with (nth 30 l 0). rewrite app_nth2 by lia. rewrite Lm. cbn [nth Nat.sub]. rewrite E2. f_equal. f_equal.
    replace (2 ^ 253) with (2 ^ 248 * 32) by reflexivity. rewrite <- Z.div_div by lia. f_equal. replace (a + 256 * lev 256 m + 2 ^ 248 * b) with (a + 256 * lev 256 m + b * 2 ^ 248) by ring.
    rewrite Z.div_add by lia. rewrite Z.div_small; [reflexivity|]. replace (2 ^ 248) with (256 * 2 ^ 240) by reflexivity. lia.
Qed.
Lemma tweak_icarus_value d : (32 <= length d)%nat -> bytes_ok d ->
  lev 256 (firstn 32 (tweak_bits_icarus d)) = clamp3 (lev 256 (firstn 32 d)) /\ skipn 32 (tweak_bits_icarus d) = skipn 32 d.
Proof.
  intros L B. destruct (shape32 d L) as (a & m & b & r & -> & Lm).
  unfold tweak_bits_icarus. change (upd 0 ?f (a :: m ++ b :: r)) with (f a :: m ++ b :: r). rewrite !upd31 by exact Lm.
  apply bytes_ok_cons in B as [Ha B]. apply bytes_ok_app in B as [Bm B]. apply bytes_ok_cons in B as [Hb Br]. unfold byte_ok in *.
  rewrite !lev32 by exact Lm. rewrite land_248 by exact Ha. destruct (lor_64 b Hb) as (_ & E1 & _).
  pose proof (lev_bound 256 m ltac:(lia) Bm) as LB. unfold zlen in LB. rewrite Lm in LB. change (256 ^ Z.of_nat 30) with (2 ^ 240) in LB.
  split.
  - unfold clamp3. replace (2 ^ 254) with (2 ^ 248 * 64) by reflexivity. replace (2 ^ 253) with (2 ^ 248 * 32) by reflexivity. rewrite clamp_sum by lia. rewrite E1. ring.
  - change (skipn 32 (?x :: ?l)) with (skipn 31 l). change (skipn 32 (a :: m ++ b :: r)) with (skipn 31 (m ++ b :: r)).
    rewrite !skipn_app, !Lm. rewrite !skipn_all2 by lia. reflexivity.
Qed.
