(** C66: the Scalar and Point classes on their bytes. *)
From Verif Require Import Base BaseLemmas Model_Hex Proof_Hex Spec_Ed25519 Prime Model_Bip32 Spec_Bip32 Proof_Bip32 Proof_Bip32b Model_Tss Spec_Tss Proof_Poly Proof_Tss Model_Curve.
From Verif Require Import Props_Bip32.
From Coq Require Import Znumtheory.
Ltac Zify.zify_post_hook ::= idtac.

(** ** Vocabulary *)
(** The value of a scalar's bytes, little endian; a canonical scalar: 32 bytes whose value is below the group order. *)
Definition val (b : list Z) : Z := lev 256 b.
Definition canonical (b : list Z) : Prop := length b = 32%nat /\ bytes_ok b /\ val b < ell.

(** ** Lemmas *)
Lemma val_range b : length b = 32%nat -> bytes_ok b -> 0 <= val b < 2 ^ 256.
Proof.
  intros L B. unfold val. pose proof (lev_bound 256 b ltac:(lia) B) as H. unfold zlen in H. rewrite L in H.
  change (256 ^ Z.of_nat 32) with (2 ^ 256) in H. exact H.
Qed.
Lemma ell_256 : ell < 2 ^ 253. Proof. reflexivity. Qed.
Lemma pack32 v : 0 <= v < 2 ^ 256 -> val (pack_le 32 v) = v.
Proof. intros H. unfold val. pose proof (pack_le_value 32 v) as X. rewrite X. apply Z.mod_small. exact H. Qed.
Lemma pack_mod v : val (pack_le 32 (v mod ell)) = v mod ell.
Proof. pose proof (mod_range v) as B. pose proof ell_256 as E. apply pack32. split; [lia|]. apply Z.lt_trans with ell; [lia|]. apply Z.lt_trans with (2 ^ 253); [exact E|reflexivity]. Qed.
Lemma pack_canonical v : canonical (pack_le 32 (v mod ell)).
Proof. split; [apply pack_le_length|]. split; [apply pack_le_ok|]. rewrite pack_mod. apply mod_range. Qed.
Lemma canonical_range b : canonical b -> 0 <= val b < ell.
Proof. intros (L & B & H). pose proof (val_range b L B). lia. Qed.
Lemma val_inj a b : canonical a -> canonical b -> val a = val b -> a = b.
Proof. intros (L & B & _) (L' & B' & _) E. apply (lev_inj 256); try lia; try assumption; unfold zlen; congruence. Qed.
Lemma lev_zeros n : lev 256 (repeat 0 n) = 0. Proof. induction n as [|n IH]; [reflexivity|]. cbn [repeat lev]. rewrite IH. reflexivity. Qed.
Lemma lev_pad b n : lev 256 (b ++ repeat 0 n) = lev 256 b.
Proof. rewrite lev_app, lev_zeros. lia. Qed.
Lemma add_val a b : val a + val b < 2 ^ 256 -> 0 <= val a -> 0 <= val b -> val (Scalar_add a b) = (val a + val b) mod ell.
Proof.
  intros H A B. unfold Scalar_add, sodium_scalar_add, sodium_reduce. rewrite pack_mod, lev_pad. unfold sodium_add32.
  rewrite (Z.mod_small (lev 256 a + lev 256 b)) by (unfold val in *; lia).
  fold (val (pack_le 32 (lev 256 a + lev 256 b))). rewrite pack32 by (unfold val in *; lia). reflexivity.
Qed.
Lemma ell_lev : lev 256 (repeat 0 32 ++ pack_le 32 ell) = 2 ^ 256 * ell. Proof. vm_compute. reflexivity. Qed.
Lemma negate_val b : canonical b -> val (sodium_scalar_negate b) = (- val b) mod ell.
Proof.
  intros C. pose proof (canonical_range b C) as R. unfold sodium_scalar_negate, sodium_reduce. rewrite pack_mod, ell_lev.
  pose proof (pack_le_value 64 ((2 ^ 256 * ell - lev 256 b) mod 2 ^ 512)) as X. rewrite X. change (256 ^ Z.of_nat 64) with (2 ^ 512).
  rewrite Z.mod_mod by lia. rewrite (Z.mod_small _ (2 ^ 512)).
  - unfold val. replace (2 ^ 256 * ell - lev 256 b) with (- lev 256 b + 2 ^ 256 * ell) by ring. apply Z.mod_add, ell0.
  - unfold val in R. pose proof ell_256 as E. assert (2 ^ 253 < 2 ^ 256) by reflexivity. assert (2 ^ 256 * 2 ^ 256 = 2 ^ 512) by reflexivity.
    assert (2 ^ 256 * ell < 2 ^ 256 * 2 ^ 256) by nia. nia.
Qed.
Lemma sum_small a b : 0 <= a < ell -> 0 <= b < ell -> a + b < 2 ^ 256.
Proof. intros A B. pose proof ell_256 as E. assert (2 ^ 253 + 2 ^ 253 < 2 ^ 256) by reflexivity. lia. Qed.

Transparent sc_inv.
Lemma inv_range x : 0 <= sc_inv x < ell. Proof. unfold sc_inv. apply mod_range. Qed.
Opaque sc_inv.
(** ** Theorems *)
(** C66: every operation on canonical scalars gives a canonical scalar, whose value is the operation's result modulo the group order. *)
Theorem C66_arithmetic : forall a b, canonical a -> canonical b ->
  (canonical (Scalar_add a b) /\ val (Scalar_add a b) = (val a + val b) mod ell) /\
  (canonical (Scalar_sub a b) /\ val (Scalar_sub a b) = (val a - val b) mod ell) /\
  (canonical (Scalar_mul a b) /\ val (Scalar_mul a b) = (val a * val b) mod ell).
Proof.
  intros a b A B. pose proof (canonical_range a A) as RA. pose proof (canonical_range b B) as RB.
  split; [|split]; (split; [apply pack_canonical|]).
  - apply add_val; try lia. apply sum_small; assumption.
  - unfold Scalar_sub, sodium_scalar_sub. change sodium_scalar_add with Scalar_add.
    pose proof (negate_val b B) as N. pose proof (mod_range (- val b)) as RN.
    rewrite add_val; rewrite ?N; try lia; [|apply sum_small; assumption].
    rewrite Z.add_mod_idemp_r by apply ell0. reflexivity.
  - unfold Scalar_mul, sodium_scalar_mul. apply pack_mod.
Qed.
Print Assumptions C66_arithmetic.

(** C66: equality and isZero speak about the values. *)
Theorem C66_equality : forall a b, canonical a -> canonical b ->
  (Scalar_eq a b = true <-> val a = val b) /\ (Scalar_isZero a = true <-> val a = 0) /\ canonical Scalar_zero /\ val Scalar_zero = 0.
Proof.
  assert (Z0 : canonical Scalar_zero /\ val Scalar_zero = 0).
  { assert (V : val Scalar_zero = 0) by reflexivity. split; [|exact V].
    split; [reflexivity|]. split; [|rewrite V; apply ell_pos]. unfold bytes_ok, digits_ok. apply Forall_forall. intros x I. apply repeat_spec in I. subst x. unfold byte_ok. lia. }
  intros a b A B. split; [|split; [|exact Z0]].
  - unfold Scalar_eq. rewrite zlist_eqb_spec. split; [intros ->; reflexivity|]. apply val_inj; assumption.
  - unfold Scalar_isZero, sodium_is_zero. split.
    + intros F. unfold val. clear -F. induction a as [|x a IH]; [reflexivity|]. cbn [forallb] in F. apply andb_prop in F. destruct F as [E F].
      apply Z.eqb_eq in E. subst x. cbn [lev]. rewrite (IH F). reflexivity.
    + intros V. rewrite (val_inj a Scalar_zero A (proj1 Z0)) by (rewrite V; symmetry; apply (proj2 Z0)). reflexivity.
Qed.
Print Assumptions C66_equality.

Lemma isZero_iff a : canonical a -> Scalar_isZero a = true <-> val a = 0.
Proof. intros A. apply (C66_equality a a A A). Qed.

(** C66: the canonical scalars are a field: the laws hold for the byte arrays themselves. *)
Theorem C66_field_laws : forall a b c, canonical a -> canonical b -> canonical c ->
  Scalar_add a b = Scalar_add b a /\ Scalar_add (Scalar_add a b) c = Scalar_add a (Scalar_add b c) /\ Scalar_add a Scalar_zero = a /\
  Scalar_mul a b = Scalar_mul b a /\ Scalar_mul (Scalar_mul a b) c = Scalar_mul a (Scalar_mul b c) /\ Scalar_mul a (Scalar_fromUint 1) = a /\
  Scalar_mul a (Scalar_add b c) = Scalar_add (Scalar_mul a b) (Scalar_mul a c) /\
  Scalar_add (Scalar_sub a b) b = a /\ Scalar_sub a a = Scalar_zero.
Proof.
  intros a b c A B C.
  pose proof (C66_equality a a A A) as (_ & _ & CZ & VZ).
  assert (C1 : canonical (Scalar_fromUint 1)).
  { split; [reflexivity|]. split; [|reflexivity]. apply (pack_le_ok 32 1). }
  assert (V1 : val (Scalar_fromUint 1) = 1) by reflexivity.
  pose proof (canonical_range a A) as RA. pose proof (canonical_range b B) as RB. pose proof (canonical_range c C) as RC.
  assert (AD : forall x y, canonical x -> canonical y -> canonical (Scalar_add x y) /\ val (Scalar_add x y) = (val x + val y) mod ell) by (intros x y X Y; exact (proj1 (C66_arithmetic x y X Y))).
  assert (SU : forall x y, canonical x -> canonical y -> canonical (Scalar_sub x y) /\ val (Scalar_sub x y) = (val x - val y) mod ell) by (intros x y X Y; exact (proj1 (proj2 (C66_arithmetic x y X Y)))).
  assert (MU : forall x y, canonical x -> canonical y -> canonical (Scalar_mul x y) /\ val (Scalar_mul x y) = (val x * val y) mod ell) by (intros x y X Y; exact (proj2 (proj2 (C66_arithmetic x y X Y)))).
  pose proof ell0 as E0.
  destruct (AD a b A B) as [Cab Vab]. destruct (AD b c B C) as [Cbc Vbc]. destruct (MU a b A B) as [Mab Wab]. destruct (MU b c B C) as [Mbc Wbc]. destruct (MU a c A C) as [Mac Wac].
  destruct (SU a b A B) as [Sab Tab].
  split. { apply val_inj; [exact Cab|apply AD; assumption|]. rewrite Vab, (proj2 (AD b a B A)). f_equal. ring. }
  split. { apply val_inj; [apply AD; assumption|apply AD; assumption|]. rewrite (proj2 (AD _ _ Cab C)), (proj2 (AD _ _ A Cbc)), Vab, Vbc.
    rewrite Z.add_mod_idemp_l, Z.add_mod_idemp_r by exact E0. f_equal. ring. }
  split. { apply val_inj; [apply AD; assumption|exact A|]. rewrite (proj2 (AD _ _ A CZ)), VZ, Z.add_0_r. apply Z.mod_small. exact RA. }
  split. { apply val_inj; [exact Mab|apply MU; assumption|]. rewrite Wab, (proj2 (MU b a B A)). f_equal. ring. }
  split. { apply val_inj; [apply MU; assumption|apply MU; assumption|]. rewrite (proj2 (MU _ _ Mab C)), (proj2 (MU _ _ A Mbc)), Wab, Wbc.
    rewrite Z.mul_mod_idemp_l, Z.mul_mod_idemp_r by exact E0. f_equal. ring. }
  split. { apply val_inj; [apply MU; assumption|exact A|]. rewrite (proj2 (MU _ _ A C1)), V1, Z.mul_1_r. apply Z.mod_small. exact RA. }
  split. { apply val_inj; [apply MU; assumption|apply AD; assumption|]. rewrite (proj2 (MU _ _ A Cbc)), (proj2 (AD _ _ Mab Mac)), Vbc, Wab, Wac.
    rewrite Z.mul_mod_idemp_r, <- Z.add_mod by exact E0. f_equal. ring. }
  split. { apply val_inj; [apply AD; assumption|exact A|]. rewrite (proj2 (AD _ _ Sab B)), Tab, Z.add_mod_idemp_l by exact E0.
    replace (val a - val b + val b) with (val a) by ring. apply Z.mod_small. exact RA. }
  apply val_inj; [apply SU; assumption|exact CZ|]. rewrite (proj2 (SU _ _ A A)), VZ, Z.sub_diag. reflexivity.
Qed.
Print Assumptions C66_field_laws.

(** C66: division throws exactly for the zero scalar, and otherwise undoes multiplication. *)
Theorem C66_division : forall a b, canonical a -> canonical b ->
  (val b = 0 -> Scalar_div a b = Throw) /\
  (val b <> 0 -> exists q, Scalar_div a b = Ok q /\ canonical q /\ Scalar_mul q b = a /\
     forall q', canonical q' -> Scalar_mul q' b = a -> q' = q).
Proof.
  intros a b A B. pose proof (canonical_range a A) as RA. pose proof (canonical_range b B) as RB. unfold Scalar_div. pose proof (isZero_iff b B) as ZB.
  split.
  { intros V. rewrite (proj2 ZB V). reflexivity. }
  intros N. destruct (Scalar_isZero b) eqn:E; [exfalso; apply N, ZB; reflexivity|]. unfold sodium_scalar_invert.
  unfold Scalar_isZero in E. rewrite E. cbn [negb].
  set (i := sc_inv (lev 256 b)). assert (RI : 0 <= i < ell) by (apply inv_range).
  assert (I1 : (i * val b) mod ell = 1).
  { assert (NB : ~ eqm ell (lev 256 b) 0).
    { intros Q. apply N. apply eqm_small; [exact RB|pose proof ell_pos; lia|exact Q]. }
    pose proof (sc_inv_ok (lev 256 b) NB) as X. unfold eqm in X. fold i in X. rewrite (Z.mod_small 1) in X by (pose proof ell_pos; vm_compute; intuition congruence). exact X. }
  clearbody i.
  assert (CI : canonical (pack_le 32 i)) by (rewrite <- (Z.mod_small i ell RI); apply pack_canonical).
  assert (VI : val (pack_le 32 i) = i) by (rewrite <- (Z.mod_small i ell RI) at 1; rewrite pack_mod; apply Z.mod_small, RI).
  assert (MU : forall x y, canonical x -> canonical y -> canonical (Scalar_mul x y) /\ val (Scalar_mul x y) = (val x * val y) mod ell) by (intros x y X Y; exact (proj2 (proj2 (C66_arithmetic x y X Y)))).
  destruct (MU a _ A CI) as [CQ VQ]. rewrite VI in VQ.
  eexists. split; [reflexivity|]. split; [exact CQ|]. pose proof ell0 as E0.
  assert (back : forall x, 0 <= x < ell -> (((x * i) mod ell) * val b) mod ell = x).
  { intros x RX. rewrite Z.mul_mod_idemp_l by exact E0. replace (x * i * val b) with (x * (i * val b)) by ring.
    rewrite <- Z.mul_mod_idemp_r by exact E0. rewrite I1, Z.mul_1_r. apply Z.mod_small, RX. }
  split.
  { apply val_inj; [apply MU; assumption|exact A|]. rewrite (proj2 (MU _ _ CQ B)), VQ. apply back, RA. }
  intros q' C' M. apply val_inj; [exact C'|exact CQ|]. rewrite VQ, <- M, (proj2 (MU _ _ C' B)).
  rewrite Z.mul_mod_idemp_l by exact E0. replace (val q' * val b * i) with (val q' * (i * val b)) by ring.
  rewrite <- Z.mul_mod_idemp_r by exact E0. rewrite I1, Z.mul_1_r. symmetry. apply Z.mod_small, canonical_range, C'.
Qed.
Print Assumptions C66_division.

(** C66: reducing 32 or 64 bytes gives the canonical scalar of their value modulo the order; canonical scalars are not changed. *)
Theorem C66_reduce : forall b,
  (canonical (Scalar_reduce32 b) /\ val (Scalar_reduce32 b) = lev 256 b mod ell) /\
  (canonical (Scalar_reduce64 b) /\ val (Scalar_reduce64 b) = lev 256 b mod ell) /\
  (canonical b -> Scalar_reduce32 b = b).
Proof.
  intros b.
  assert (R : canonical (Scalar_reduce32 b) /\ val (Scalar_reduce32 b) = lev 256 b mod ell).
  { split; [apply pack_canonical|]. unfold Scalar_reduce32, sodium_reduce. rewrite pack_mod, lev_pad. reflexivity. }
  split; [exact R|]. split.
  { split; [apply pack_canonical|]. unfold Scalar_reduce64, sodium_reduce. apply pack_mod. }
  intros C. apply val_inj; [apply R|exact C|]. rewrite (proj2 R). apply Z.mod_small. apply (canonical_range b C).
Qed.
Print Assumptions C66_reduce.

Lemma fromUint_pack v : 0 <= v < 2 ^ 64 -> Scalar_fromUint v = pack_le 32 v.
Proof.
  intros H. unfold Scalar_fromUint. apply (lev_inj 256); try lia.
  - apply bytes_ok_app. split.
    + apply Forall_map, Forall_forall. intros i _. unfold byte_ok. apply Z.mod_pos_bound. lia.
    + apply Forall_forall. intros x I. apply repeat_spec in I. subst x. unfold byte_ok. lia.
  - apply pack_le_ok.
  - rewrite app_length, map_length, seq_length, repeat_length, pack_le_length. reflexivity.
  - rewrite lev_pad.
    replace (map (fun i : nat => Z.shiftr v (8 * Z.of_nat i) mod 256) (seq 0 8)) with (pack_le 8 v).
    2: { unfold pack_le. apply map_ext. intros i. rewrite land_255. reflexivity. }
    pose proof (pack_le_value 8 v) as X. pose proof (pack_le_value 32 v) as Y. rewrite X, Y.
    change (256 ^ Z.of_nat 8) with (2 ^ 64). change (256 ^ Z.of_nat 32) with (2 ^ 256).
    rewrite !Z.mod_small; [reflexivity| |exact H]. split; [lia|]. apply Z.lt_trans with (2 ^ 64); [lia|reflexivity].
Qed.
Lemma fromUint_ok v : 0 <= v < 2 ^ 64 -> canonical (Scalar_fromUint v) /\ val (Scalar_fromUint v) = v.
Proof.
  intros H. rewrite fromUint_pack by exact H. assert (L : 2 ^ 64 < ell) by reflexivity.
  rewrite <- (Z.mod_small v ell) at 1 2 by lia. split; [apply pack_canonical|]. rewrite pack_mod. apply Z.mod_small. lia.
Qed.
(** C66: the scalar of a 64-bit number is that number; of a power, the power modulo the order. *)
Theorem C66_fromUint : forall v p, 0 <= v < 2 ^ 64 -> 0 <= p < 2 ^ 64 ->
  (canonical (Scalar_fromUint v) /\ val (Scalar_fromUint v) = v) /\
  (canonical (Scalar_fromUintPow v p) /\ val (Scalar_fromUintPow v p) = v ^ p mod ell).
Proof.
  intros v p V P. pose proof (fromUint_ok v V) as F. split; [exact F|]. unfold Scalar_fromUintPow.
  destruct (Z.eqb_spec p 0) as [->|N].
  { rewrite Z.pow_0_r. pose proof (fromUint_ok 1 ltac:(lia)) as [C1 V1]. split; [exact C1|]. rewrite V1. reflexivity. }
  cbv zeta. set (x := Scalar_fromUint v) in *.
  assert (G : forall n, 0 <= n -> canonical (Z.iter n (fun result => Scalar_mul result x) x) /\ val (Z.iter n (fun result => Scalar_mul result x) x) = v ^ (n + 1) mod ell).
  { intros n Hn. pattern n. apply natlike_ind; [| |exact Hn].
    - cbn [Z.iter]. split; [apply F|]. rewrite Z.add_0_l, Z.pow_1_r, (proj2 F). symmetry. apply Z.mod_small. assert (2 ^ 64 < ell) by reflexivity. lia.
    - intros m Hm (C & W).
      replace (Z.iter (Z.succ m) (fun result => Scalar_mul result x) x) with (Scalar_mul (Z.iter m (fun result => Scalar_mul result x) x) x).
      2: { destruct m as [|q|q]; [reflexivity| |lia]. cbn [Z.iter]. rewrite <- Pos2Z.inj_succ. cbn [Z.iter]. rewrite Pos.iter_succ. reflexivity. }
      split; [exact (proj1 (proj2 (proj2 (C66_arithmetic _ _ C (proj1 F)))))|]. rewrite (proj2 (proj2 (proj2 (C66_arithmetic _ _ C (proj1 F))))), W, (proj2 F).
      rewrite Z.mul_mod_idemp_l by apply ell0. f_equal. replace (Z.succ m + 1) with (Z.succ (m + 1)) by lia. rewrite Z.pow_succ_r by lia. ring. }
  pose proof (G (p - 1) ltac:(lia)) as X. replace (p - 1 + 1) with p in X by lia. exact X.
Qed.
Print Assumptions C66_fromUint.

Lemma cleared_value d : length d = 32%nat -> bytes_ok d ->
  let c := upd 31 (fun x => Z.land x 31) d in length c = 32%nat /\ bytes_ok c /\ val c = val d mod 2 ^ 253.
Proof.
  intros L B. cbv zeta.
  assert (X : exists a x, d = a ++ [x] /\ length a = 31%nat).
  { exists (firstn 31 d), (nth 31 d 0). split; [|rewrite firstn_length, L; reflexivity].
    rewrite <- (firstn_skipn 31 d) at 1. f_equal. do 32 (destruct d as [|? d]; [discriminate|]). destruct d; [reflexivity|discriminate]. }
  destruct X as (a & x & -> & LA). apply bytes_ok_app in B. destruct B as [BA BX]. apply bytes_ok_cons in BX. destruct BX as [BX _].
  assert (U : forall a, length a = 31%nat -> upd 31 (fun x => Z.land x 31) (a ++ [x]) = a ++ [Z.land x 31]).
  { clear. intros a LA. do 31 (destruct a as [|? a]; [discriminate|]). destruct a; [reflexivity|discriminate]. }
  rewrite (U a LA). assert (M : Z.land x 31 = x mod 32) by (change 31 with (Z.ones 5); apply Z.land_ones; lia). rewrite M.
  pose proof (Z.mod_pos_bound x 32 ltac:(lia)) as MB.
  split; [rewrite app_length, LA; reflexivity|]. split.
  { apply bytes_ok_app. split; [exact BA|]. apply bytes_ok_cons. split; [unfold byte_ok in *; lia|constructor]. }
  unfold val. rewrite !lev_app. cbn [lev]. unfold zlen. rewrite LA. change (256 ^ Z.of_nat 31) with (2 ^ 248).
  pose proof (lev_bound 256 a ltac:(lia) BA) as LB. unfold zlen in LB. rewrite LA in LB. change (256 ^ Z.of_nat 31) with (2 ^ 248) in LB.
  rewrite !Z.mul_0_r, !Z.add_0_r. pose proof (Z.div_mod x 32 ltac:(lia)) as DM.
  apply (Z.mod_unique _ (2 ^ 253) (x / 32)).
  - left. change (2 ^ 253) with (2 ^ 248 * 32). nia.
  - change (2 ^ 253) with (2 ^ 248 * 32). nia.
Qed.
Lemma nodup_map {A B} (f : A -> B) l : (forall i j, In i l -> In j l -> f i = f j -> i = j) -> NoDup l -> NoDup (map f l).
Proof.
  intros F N. induction N as [|x l H N IH]; [constructor|]. cbn [map]. constructor.
  - intros I. apply in_map_iff in I. destruct I as (y & E & I). apply H. rewrite <- (F y x (or_intror I) (or_introl eq_refl) E). exact I.
  - apply IH. intros i j I J. apply F; right; assumption.
Qed.
Lemma zero_bytes c : sodium_is_zero c = true <-> Forall (fun x => x = 0) c.
Proof.
  unfold sodium_is_zero. rewrite forallb_forall, Forall_forall. split; intros H x I; specialize (H x I).
  - apply Z.eqb_eq in H. congruence.
  - subst x. reflexivity.
Qed.
Lemma accepted d : length d = 32%nat -> bytes_ok d ->
  let c := upd 31 (fun x => Z.land x 31) d in sodium_is_canonical c && negb (sodium_is_zero c) = true <-> 0 < val d mod 2 ^ 253 < ell.
Proof.
  intros L B. cbv zeta. destruct (cleared_value d L B) as (LC & BC & VC). set (c := upd 31 _ d) in *.
  rewrite <- VC. rewrite andb_true_iff. unfold sodium_is_canonical. fold (val c). rewrite Z.ltb_lt.
  pose proof (val_range c LC BC) as R. split.
  - intros [H N]. split; [|exact H]. assert (val c <> 0); [|lia]. intros V. apply negb_true_iff in N.
    enough (T : sodium_is_zero c = true) by congruence. apply isZero_iff; [|exact V]. split; [exact LC|]. split; [exact BC|exact H].
  - intros [P H]. split; [exact H|]. apply negb_true_iff. destruct (sodium_is_zero c) eqn:E; [|reflexivity]. exfalso.
    assert (V : val c = 0) by (apply isZero_iff; [split; [exact LC|split; [exact BC|exact H]]|exact E]). lia.
Qed.
(** C66: a random scalar is canonical and not zero; it is made from the first usable draw of 32 bytes (usable: the low 253 bits lie strictly between 0
    and the order), and it is uniform: each of the values 1 ... ell - 1 comes from exactly eight of the 2^256 draws. *)
Theorem C66_random : forall draws, (forall d, In d draws -> length d = 32%nat /\ bytes_ok d) ->
  let usable d := 0 < val d mod 2 ^ 253 < ell in
  (Scalar_random draws = None <-> forall d, In d draws -> ~ usable d) /\
  (forall s, Scalar_random draws = Some s -> canonical s /\ val s <> 0 /\
     exists before d after, draws = before ++ d :: after /\ (forall x, In x before -> ~ usable x) /\ usable d /\ val s = val d mod 2 ^ 253) /\
  (forall v, 0 < v < ell -> exists l, NoDup l /\ length l = 8%nat /\
     forall d, In d l <-> length d = 32%nat /\ bytes_ok d /\ exists s, Scalar_random [d] = Some s /\ val s = v).
Proof.
  intros draws W. cbv zeta. split; [|split].
  - induction draws as [|d r IH]; [split; [intros _ x []|reflexivity]|].
    destruct (W d (or_introl eq_refl)) as [L B]. specialize (IH (fun x I => W x (or_intror I))). pose proof (accepted d L B) as A. cbv zeta in A.
    unfold Scalar_random in *. cbn [sodium_scalar_random]. destruct (sodium_is_canonical _ && negb _).
    + split; [discriminate|]. intros H. exfalso. apply (H d (or_introl eq_refl)), A. reflexivity.
    + rewrite IH. split; intros H x I.
      * destruct I as [<-|I]; [|exact (H x I)]. intros U. apply A in U. discriminate.
      * apply H. right. exact I.
  - induction draws as [|d r IH]; [discriminate|]. intros s E.
    destruct (W d (or_introl eq_refl)) as [L B]. specialize (IH (fun x I => W x (or_intror I))). pose proof (accepted d L B) as A. cbv zeta in A.
    destruct (cleared_value d L B) as (LC & BC & VC). unfold Scalar_random in *. cbn [sodium_scalar_random] in E. destruct (sodium_is_canonical _ && negb _).
    + assert (E' : upd 31 (fun x => Z.land x 31) d = s) by congruence. subst s. assert (U : 0 < val d mod 2 ^ 253 < ell) by (apply A; reflexivity).
      split. { split; [exact LC|]. split; [exact BC|]. rewrite VC. lia. }
      split. { rewrite VC. lia. }
      exists [], d, r. split; [reflexivity|]. split; [intros x []|]. split; [exact U|exact VC].
    + destruct (IH s E) as (C & N & b & x & a & -> & H & U & V). split; [exact C|]. split; [exact N|].
      exists (d :: b), x, a. split; [reflexivity|]. split; [|split; assumption]. intros y [<-|I]; [|exact (H y I)]. intros Q. apply A in Q. discriminate.
  - intros v V. exists (map (fun k => pack_le 32 (v + Z.of_nat k * 2 ^ 253)) (seq 0 8)).
    assert (E253 : ell < 2 ^ 253) by apply ell_256. assert (P256 : 2 ^ 256 = 8 * 2 ^ 253) by reflexivity.
    assert (RK : forall k, (k < 8)%nat -> 0 <= v + Z.of_nat k * 2 ^ 253 < 2 ^ 256) by (intros k Hk; assert (Z.of_nat k <= 7) by lia; nia).
    split. { apply nodup_map; [|apply seq_NoDup]. intros i j I J E. apply in_seq in I, J.
      assert (Q : val (pack_le 32 (v + Z.of_nat i * 2 ^ 253)) = val (pack_le 32 (v + Z.of_nat j * 2 ^ 253))) by (rewrite E; reflexivity).
      rewrite !pack32 in Q by (apply RK; lia). nia. }
    split; [rewrite map_length, seq_length; reflexivity|]. intros d. rewrite in_map_iff. split.
    + intros (k & <- & I). apply in_seq in I. pose proof (pack_le_length 32 (v + Z.of_nat k * 2 ^ 253)) as L. pose proof (pack_le_ok 32 (v + Z.of_nat k * 2 ^ 253)) as B.
      pose proof (pack32 _ (RK k ltac:(lia))) as P. set (d := pack_le 32 _) in *. split; [exact L|]. split; [exact B|].
      destruct (cleared_value d L B) as (LC & BC & VC).
      assert (M : val d mod 2 ^ 253 = v) by (rewrite P, Z.mod_add by lia; apply Z.mod_small; lia).
      unfold Scalar_random. cbn [sodium_scalar_random]. pose proof (accepted d L B) as A. cbv zeta in A. rewrite (proj2 A) by (rewrite M; exact V).
      eexists. split; [reflexivity|]. congruence.
    + intros (L & B & s & E & VS). destruct (cleared_value d L B) as (LC & BC & VC). unfold Scalar_random in E. cbn [sodium_scalar_random] in E.
      destruct (sodium_is_canonical _ && negb _); [|discriminate]. assert (E' : upd 31 (fun x => Z.land x 31) d = s) by congruence. subst s. rewrite VC in VS.
      pose proof (val_range d L B) as R. pose proof (Z.div_mod (val d) (2 ^ 253) ltac:(lia)) as DM.
      assert (K : 0 <= val d / 2 ^ 253 < 8) by (split; [apply Z.div_pos; lia|apply Z.div_lt_upper_bound; lia]).
      exists (Z.to_nat (val d / 2 ^ 253)). split; [|apply in_seq; lia]. rewrite Z2Nat.id by lia.
      replace (v + val d / 2 ^ 253 * 2 ^ 253) with (val d) by lia.
      apply (lev_inj 256); try lia; [apply pack_le_ok|exact B|rewrite pack_le_length; congruence|]. apply (pack32 (val d) R).
Qed.
Print Assumptions C66_random.

(** C66: multiplying the base point turns scalar addition into point addition, tells different canonical scalars apart,
    and gives the identity for the zero scalar without an error. *)
Theorem C66_points : forall enc padd, ed_group enc padd -> forall a b, canonical a -> canonical b ->
  Point_mulBasepoint enc a = enc (val a) /\
  Point_add padd (Point_mulBasepoint enc a) (Point_mulBasepoint enc b) = Ok (Point_mulBasepoint enc (Scalar_add a b)) /\
  EncodedPointAdd padd (Point_mulBasepoint enc a) (Point_mulBasepoint enc b) = Ok (Point_mulBasepoint enc (Scalar_add a b)) /\
  (Point_mulBasepoint enc a = Point_mulBasepoint enc b <-> a = b) /\
  Point_mulBasepoint enc Scalar_zero = enc 0.
Proof.
  intros enc padd G a b A B.
  assert (V : forall x, canonical x -> Point_mulBasepoint enc x = enc (val x)).
  { intros x X. unfold Point_mulBasepoint. fold (val x). rewrite Z.mod_small; [reflexivity|]. pose proof (canonical_range x X). pose proof ell_256 as E.
    assert (2 ^ 253 < 2 ^ 255) by reflexivity. lia. }
  split; [exact (V a A)|].
  destruct (proj1 (C66_arithmetic a b A B)) as [CS VS].
  assert (P : Point_add padd (Point_mulBasepoint enc a) (Point_mulBasepoint enc b) = Ok (Point_mulBasepoint enc (Scalar_add a b))).
  { rewrite (V a A), (V b B), (V _ CS), VS. unfold Point_add. rewrite (padd_enc enc padd G), (enc_mod enc padd G). reflexivity. }
  split; [exact P|]. split.
  { unfold EncodedPointAdd. rewrite !firstn_all2; [exact P| |]; rewrite V by assumption; rewrite (enc_len enc padd G); lia. }
  split.
  { split; [|intros ->; reflexivity]. rewrite (V a A), (V b B). intros E. apply (enc_inj enc padd G) in E. apply val_inj; [exact A|exact B|].
    rewrite !Z.mod_small in E by (apply canonical_range; assumption). exact E. }
  reflexivity.
Qed.
Print Assumptions C66_points.

(** C66: on any 32 bytes, canonical or not, multiplying the base point uses the value without its top bit, so up to 2^255 it only
    depends on the value modulo the order; and adding points throws exactly when libsodium does not accept both as points. *)
Theorem C66_points_any : forall enc padd, ed_group enc padd ->
  (forall s, length s = 32%nat -> bytes_ok s -> val s < 2 ^ 255 -> Point_mulBasepoint enc s = enc (val s mod ell)) /\
  (forall s t, length s = 31%nat -> bytes_ok s -> 0 <= t < 128 -> Point_mulBasepoint enc (s ++ [128 + t]) = Point_mulBasepoint enc (s ++ [t])) /\
  (forall a b, Point_add padd a b = Throw <-> padd a b = None) /\
  (forall a b p, Point_add padd a b = Ok p <-> padd a b = Some p) /\
  (forall a b x y, length a = 32%nat -> length b = 32%nat -> EncodedPointAdd padd (a ++ x) (b ++ y) = Point_add padd a b).
Proof.
  intros enc padd G. split.
  { intros s L B H. unfold Point_mulBasepoint. fold (val s). pose proof (val_range s L B). rewrite Z.mod_small by lia. symmetry. apply (enc_mod enc padd G). }
  split.
  { intros s t L B T. unfold Point_mulBasepoint. rewrite !lev_app. unfold zlen. rewrite L. cbn [lev].
    replace (lev 256 s + 256 ^ Z.of_nat 31 * (128 + t + 256 * 0)) with (lev 256 s + 256 ^ Z.of_nat 31 * (t + 256 * 0) + 1 * 2 ^ 255)
      by (change (2 ^ 255) with (256 ^ Z.of_nat 31 * 128); ring).
    rewrite Z.mod_add by discriminate. reflexivity. }
  split; [intros a b; unfold Point_add; destruct (padd a b); split; congruence|].
  split; [intros a b p; unfold Point_add; destruct (padd a b); split; congruence|].
  intros a b x y A B. unfold EncodedPointAdd. rewrite (firstn_app_exact a x 32) by congruence. rewrite (firstn_app_exact b y 32) by congruence. reflexivity.
Qed.
Print Assumptions C66_points_any.

(** C66: the explicit constructor takes any 32 bytes, and for bytes that are not canonical the laws fail: the order itself is not zero although it
    equals zero modulo the order, dividing by it does not throw, and the carry of an addition is lost. *)
Theorem C66_canonical_needed : exists a b, length a = 32%nat /\ bytes_ok a /\ length b = 32%nat /\ bytes_ok b /\
  val (Scalar_of a) mod ell = 0 /\ Scalar_isZero (Scalar_of a) = false /\ Scalar_div (Scalar_fromUint 7) (Scalar_of a) = Ok Scalar_zero /\
  Scalar_eq (Scalar_of a) Scalar_zero = false /\
  val (Scalar_add (Scalar_of b) (Scalar_fromUint 1)) <> (val (Scalar_of b) + 1) mod ell.
Proof.
  exists (pack_le 32 ell), (repeat 255 32). split; [apply pack_le_length|]. split; [apply pack_le_ok|]. split; [reflexivity|].
  split. { apply Forall_forall. intros x I. apply repeat_spec in I. subst x. unfold byte_ok. lia. }
  split; [vm_compute; reflexivity|]. split; [vm_compute; reflexivity|]. split; [vm_compute; reflexivity|]. split; [vm_compute; reflexivity|].
  vm_compute. discriminate.
Qed.
Print Assumptions C66_canonical_needed.

(** C66: the threshold protocol's scalars (Model_Tss.v, by value) are these. *)
Theorem C66_tss_scalars : forall a b, canonical a -> canonical b ->
  val (Scalar_add a b) = sc_add (val a) (val b) /\ val (Scalar_sub a b) = sc_sub (val a) (val b) /\ val (Scalar_mul a b) = sc_mul (val a) (val b) /\
  omap val (Scalar_div a b) = sc_div (val a) (val b) /\ a = pack_le 32 (val a) /\
  (forall v, 0 <= v < 2 ^ 64 -> val (Scalar_fromUint v) = sc_fromUint v) /\
  (forall v p, 0 <= v < 2 ^ 64 -> Z.of_nat p < 2 ^ 64 -> val (Scalar_fromUintPow v (Z.of_nat p)) = sc_fromUintPow v p).
Proof.
  intros a b A B. destruct (C66_arithmetic a b A B) as ((_ & V1) & (_ & V2) & (_ & V3)). split; [exact V1|]. split; [exact V2|]. split; [exact V3|].
  split.
  { unfold Scalar_div, sc_div. pose proof (isZero_iff b B) as Z0. destruct (Z.eqb_spec (val b) 0) as [E|N].
    - rewrite (proj2 Z0 E). reflexivity.
    - destruct (Scalar_isZero b) eqn:Q; [exfalso; apply N, Z0; reflexivity|]. unfold sodium_scalar_invert. unfold Scalar_isZero in Q. rewrite Q. cbn [negb].
      change (Ok (val (Scalar_mul a (pack_le 32 (sc_inv (lev 256 b))))) = Ok (sc_mul (val a) (sc_inv (val b)))). apply f_equal. unfold Scalar_mul, sodium_scalar_mul. rewrite pack_mod. unfold sc_mul. fold (val a).
      pose proof (inv_range (lev 256 b)) as R. fold (val (pack_le 32 (sc_inv (lev 256 b)))). rewrite pack32; [reflexivity|].
      pose proof ell_256. assert (2 ^ 253 < 2 ^ 256) by reflexivity. lia. }
  split.
  { apply (lev_inj 256); try lia; [apply A|apply pack_le_ok|rewrite pack_le_length; apply A|]. symmetry. apply (pack32 (val a)). apply val_range; apply A. }
  split. { intros v V. rewrite (proj2 (fromUint_ok v V)). reflexivity. }
  intros v p V P. rewrite (proj2 (proj2 (C66_fromUint v (Z.of_nat p) V ltac:(lia)))).
  pose proof (sc_fromUintPow_ok v p) as X. unfold eqm in X. rewrite <- X. symmetry.
  assert (L64 : 2 ^ 64 < ell) by reflexivity. symmetry. apply Z.mod_small.
  destruct p as [|k]; [change (0 <= 1 < ell); lia|]. change (0 <= pow_loop k v v < ell). apply (proj2 (pow_loop_ok k v v)). lia.
Qed.
Print Assumptions C66_tss_scalars.

(** Not vacuous. *)
Example C66_example : let a := Scalar_reduce32 (repeat 255 32) in let b := Scalar_fromUintPow 12345 20 in
  canonical a /\ canonical b /\ val b = 12345 ^ 20 mod ell /\ (exists q, Scalar_div a b = Ok q /\ Scalar_mul q b = a) /\
  Scalar_random [repeat 255 32; repeat 0 32; 5 :: repeat 0 30 ++ [224]] = Some (Scalar_fromUint 5).
Proof.
  cbv zeta. split; [apply C66_reduce|]. split; [apply (C66_fromUint 12345 20); lia|]. split; [apply (C66_fromUint 12345 20); lia|].
  split. { eexists. split; [vm_compute; reflexivity|vm_compute; reflexivity]. }
  vm_compute. reflexivity.
Qed.
