(** Generic lemmas on bytes, lists and positional values. *)
From Verif Require Export Base.
Ltac Zify.zify_post_hook ::= Z.div_mod_to_equations.

Lemma zlist_eqb_spec a b : zlist_eqb a b = true <-> a = b.
Proof.
  revert b; induction a as [|x xs IH]; intros [|y ys]; cbn [zlist_eqb];
    try (split; congruence).
  rewrite andb_true_iff, IH, Z.eqb_eq. split; [intros [-> ->]|intros [= -> ->]]; auto.
Qed.

Lemma zlist_eqb_refl a : zlist_eqb a a = true.
Proof. apply zlist_eqb_spec; reflexivity. Qed.

Lemma zlist_eqb_false a b : zlist_eqb a b = false <-> a <> b.
Proof.
  destruct (zlist_eqb a b) eqn:E.
  - apply zlist_eqb_spec in E; subst. split; [discriminate|congruence].
  - split; auto. intros _ ->. rewrite zlist_eqb_refl in E; discriminate.
Qed.

Lemma bind_ok {A B} (x : outcome A) (f : A -> outcome B) b :
  bind x f = Ok b <-> exists a, x = Ok a /\ f a = Ok b.
Proof.
  destruct x; cbn; split; try discriminate; try (intros (a0 & H & _); discriminate).
  - eauto.
  - intros (a0 & [= ->] & H); exact H.
Qed.

Lemma mapM_ok_map {A B} (f : A -> outcome B) (g : A -> B) l :
  (forall x, In x l -> f x = Ok (g x)) -> mapM f l = Ok (map g l).
Proof.
  induction l as [|x l IH]; cbn [mapM map]; intros H; [reflexivity|].
  rewrite (H x) by (left; auto). cbn [bind]. rewrite IH; [reflexivity|].
  intros; apply H; right; auto.
Qed.

Lemma mapM_ok_length {A B} (f : A -> outcome B) l r :
  mapM f l = Ok r -> length r = length l.
Proof.
  revert r; induction l as [|x l IH]; cbn [mapM]; intros r H.
  - injection H as <-; reflexivity.
  - apply bind_ok in H as (y & _ & H). apply bind_ok in H as (ys & H1 & [= <-]).
    cbn [List.length]. rewrite (IH _ H1). reflexivity.
Qed.

Lemma bytes_ok_app a b : bytes_ok (a ++ b) <-> bytes_ok a /\ bytes_ok b.
Proof. unfold bytes_ok. apply Forall_app. Qed.

Lemma bytes_ok_cons a b : bytes_ok (a :: b) <-> byte_ok a /\ bytes_ok b.
Proof. unfold bytes_ok. split; [intros H; inversion H; auto|intros []; constructor; auto]. Qed.

Lemma digits_ok_app B a b : digits_ok B (a ++ b) <-> digits_ok B a /\ digits_ok B b.
Proof. unfold digits_ok. apply Forall_app. Qed.

Lemma digits_ok_cons B a b : digits_ok B (a :: b) <-> 0 <= a < B /\ digits_ok B b.
Proof. unfold digits_ok. split; [intros H; inversion H; auto|intros []; constructor; auto]. Qed.

Lemma digits_ok_firstn B n l : digits_ok B l -> digits_ok B (firstn n l).
Proof.
  revert n; induction l; destruct n; cbn; intros H; try constructor;
    apply digits_ok_cons in H; [tauto|apply IHl; tauto].
Qed.

Lemma digits_ok_skipn B n l : digits_ok B l -> digits_ok B (skipn n l).
Proof.
  revert n; induction l; destruct n; cbn; intros H; auto.
  apply digits_ok_cons in H. apply IHl; tauto.
Qed.

Lemma digits_ok_rev B l : digits_ok B l -> digits_ok B (rev l).
Proof. unfold digits_ok. apply Forall_rev. Qed.

Lemma bytes_ok_firstn n l : bytes_ok l -> bytes_ok (firstn n l).
Proof. exact (digits_ok_firstn 256 n l). Qed.
Lemma bytes_ok_skipn n l : bytes_ok l -> bytes_ok (skipn n l).
Proof. exact (digits_ok_skipn 256 n l). Qed.
Lemma bytes_ok_rev l : bytes_ok l -> bytes_ok (rev l).
Proof. exact (digits_ok_rev 256 l). Qed.

(** ** Positional values *)
Lemma fold_bev B l a : fold_left (fun x d => x * B + d) l a = a * B ^ zlen l + bev B l.
Proof.
  unfold bev, zlen. revert a; induction l as [|d l IH]; intros a; cbn [fold_left List.length].
  - cbn; lia.
  - rewrite IH, (IH (0 * B + d)). rewrite Nat2Z.inj_succ, Z.pow_succ_r by lia. ring.
Qed.

Lemma bev_nil B : bev B [] = 0. Proof. reflexivity. Qed.
Lemma bev_cons B d l : bev B (d :: l) = d * B ^ zlen l + bev B l.
Proof. unfold bev; cbn [fold_left]. rewrite fold_bev. f_equal; ring. Qed.
Lemma bev_app B a b : bev B (a ++ b) = bev B a * B ^ zlen b + bev B b.
Proof. unfold bev at 1. rewrite fold_left_app, fold_bev. reflexivity. Qed.
Lemma bev_snoc B a d : bev B (a ++ [d]) = bev B a * B + d.
Proof. unfold bev. rewrite fold_left_app. reflexivity. Qed.

Lemma zlen_nil {A} : zlen (@nil A) = 0. Proof. reflexivity. Qed.
Lemma zlen_cons {A} (a : A) l : zlen (a :: l) = zlen l + 1.
Proof. unfold zlen; cbn [List.length]; lia. Qed.
Lemma zlen_app {A} (a b : list A) : zlen (a ++ b) = zlen a + zlen b.
Proof. unfold zlen; rewrite app_length; lia. Qed.
Lemma zlen_nonneg {A} (l : list A) : 0 <= zlen l.
Proof. unfold zlen; lia. Qed.

Lemma bev_bound B l : 0 < B -> digits_ok B l -> 0 <= bev B l < B ^ zlen l.
Proof.
  intros HB. induction l as [|d l IH]; intros H.
  - cbn. lia.
  - apply digits_ok_cons in H as [Hd Hl]. specialize (IH Hl).
    rewrite bev_cons, zlen_cons, Z.pow_add_r, Z.pow_1_r by (pose proof (zlen_nonneg l); lia).
    nia.
Qed.

Lemma lev_rev B l : lev B l = bev B (rev l).
Proof.
  induction l as [|d l IH]; cbn [lev rev]; [reflexivity|].
  rewrite bev_snoc, IH. ring.
Qed.

Lemma lev_app B a b : lev B (a ++ b) = lev B a + B ^ zlen a * lev B b.
Proof.
  induction a as [|d a IH]; cbn [lev app].
  - change (zlen (@nil Z)) with 0. lia.
  - rewrite IH, zlen_cons, Z.pow_add_r, Z.pow_1_r by (pose proof (zlen_nonneg a); lia). ring.
Qed.

Lemma lev_bound B l : 0 < B -> digits_ok B l -> 0 <= lev B l < B ^ zlen l.
Proof.
  intros HB H. rewrite lev_rev.
  replace (zlen l) with (zlen (rev l)) by (unfold zlen; rewrite rev_length; lia).
  apply bev_bound; auto. apply digits_ok_rev; auto.
Qed.

Lemma lev_inj B a b : 0 < B -> digits_ok B a -> digits_ok B b ->
  length a = length b -> lev B a = lev B b -> a = b.
Proof.
  intros HB. revert b; induction a as [|x a IH]; intros [|y b] Ha Hb Hl Hv;
    try discriminate; [reflexivity|].
  apply digits_ok_cons in Ha as [Hx Ha]. apply digits_ok_cons in Hb as [Hy Hb].
  cbn [lev] in Hv. injection Hl as Hl.
  assert (x = y).
  { apply (f_equal (fun z => z mod B)) in Hv.
    rewrite (Z.mul_comm B (lev B a)), (Z.mul_comm B (lev B b)) in Hv.
    rewrite !Z_mod_plus_full, !Z.mod_small in Hv by lia. exact Hv. }
  subst y. f_equal. apply IH; auto. nia.
Qed.

Lemma bev_inj B a b : 0 < B -> digits_ok B a -> digits_ok B b ->
  length a = length b -> bev B a = bev B b -> a = b.
Proof.
  intros HB Ha Hb Hl Hv.
  rewrite <- (rev_involutive a), <- (rev_involutive b). f_equal.
  apply (lev_inj B); auto using digits_ok_rev.
  - rewrite !rev_length; auto.
  - rewrite !lev_rev, !rev_involutive; auto.
Qed.

(** ** Bit helpers *)
Lemma shiftr_div a n : 0 <= n -> Z.shiftr a n = a / 2 ^ n.
Proof. intros. apply Z.shiftr_div_pow2; auto. Qed.
Lemma shiftl_mul a n : 0 <= n -> Z.shiftl a n = a * 2 ^ n.
Proof. intros. apply Z.shiftl_mul_pow2; auto. Qed.
Lemma land_ones_mod a n : 0 <= n -> Z.land a (Z.ones n) = a mod 2 ^ n.
Proof. intros. apply Z.land_ones; auto. Qed.
Lemma land_255 a : Z.land a 255 = a mod 256.
Proof. change 255 with (Z.ones 8). rewrite Z.land_ones by lia. reflexivity. Qed.

(** Disjoint or is addition. *)
Lemma lor_shift_add a b n : 0 <= n -> 0 <= b < 2 ^ n -> Z.lor (a * 2 ^ n) b = a * 2 ^ n + b.
Proof.
  intros Hn Hb. symmetry. rewrite <- Z.lxor_lor; [apply Z.add_nocarry_lxor|];
  apply Z.bits_inj'; intros k Hk; rewrite Z.land_spec, Z.bits_0;
    (destruct (Z.lt_ge_cases k n) as [H|H];
     [rewrite <- Z.shiftl_mul_pow2, Z.shiftl_spec_low by lia; reflexivity|];
     rewrite andb_comm; destruct (Z.eq_dec b 0) as [->|Hb0]; [rewrite Z.bits_0; reflexivity|];
     rewrite (Z.bits_above_log2 b k); [reflexivity|lia|];
     apply Z.log2_lt_pow2; [lia|]; apply Z.lt_le_trans with (2^n); [lia|];
     apply Z.pow_le_mono_r; lia).
Qed.

Lemma forallb_range (P : Z -> bool) n : forallb P (map Z.of_nat (seq 0 n)) = true ->
  forall z, 0 <= z < Z.of_nat n -> P z = true.
Proof.
  intros H z Hz. rewrite forallb_forall in H. apply H.
  apply in_map_iff. exists (Z.to_nat z). split; [lia|]. apply in_seq. lia.
Qed.

Lemma firstn_app_exact {A} (a b : list A) n : n = length a -> firstn n (a ++ b) = a.
Proof. intros ->. rewrite firstn_app, firstn_all, Nat.sub_diag. cbn. apply app_nil_r. Qed.
Lemma skipn_app_exact {A} (a b : list A) n : n = length a -> skipn n (a ++ b) = b.
Proof. intros ->. rewrite skipn_app, skipn_all, Nat.sub_diag. reflexivity. Qed.

Ltac Zify.zify_post_hook ::= idtac.
(** [lia] with division and modulus by constants. *)
Ltac dlia := Z.div_mod_to_equations; lia.
