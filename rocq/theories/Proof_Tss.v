From Verif Require Import Base BaseLemmas Model_Hex Proof_Hex Spec_Ed25519 Prime Model_Bip32 Spec_Bip32 Proof_Bip32 Proof_Bip32b Model_Tss Spec_Tss Proof_Poly.
From Coq Require Import Znumtheory.
Ltac Zify.zify_post_hook ::= idtac.

Local Notation "a == b" := (eqm ell a b) (at level 70).
Lemma ell0 : ell <> 0. Proof. pose proof ell_pos; lia. Qed.
Local Hint Resolve prime_ell ell0 : core.

Lemma eqm_ref a : a == a. Proof. reflexivity. Qed.
Lemma eqm_small a b : 0 <= a < ell -> 0 <= b < ell -> a == b -> a = b.
Proof. unfold eqm. intros A B E. rewrite !Z.mod_small in E by assumption. exact E. Qed.
Lemma eqm_mod_l a : a mod ell == a. Proof. unfold eqm. apply Z.mod_mod, ell0. Qed.
Lemma mod_range a : 0 <= a mod ell < ell. Proof. apply Z.mod_pos_bound, ell_pos. Qed.

(** ** Inverses *)
Lemma inv_loop_ok x : forall n r0 r1 t0 t1, 0 <= r1 < r0 -> r0 * r1 < 2 ^ Z.of_nat n -> Z.gcd r0 r1 = 1 ->
  t0 * x == r0 -> t1 * x == r1 -> forall fuel, (n < fuel)%nat -> inv_loop fuel r0 r1 t0 t1 * x == 1.
Proof.
  induction n as [|n IH]; intros r0 r1 t0 t1 B M G E0 E1 fuel Hf; (destruct fuel as [|fuel]; [lia|]); cbn [inv_loop].
  - assert (r1 = 0) by (change (2 ^ Z.of_nat 0) with 1 in M; nia). subst r1. cbn [Z.eqb].
    rewrite Z.gcd_0_r, Z.abs_eq in G by lia. subst r0. exact E0.
  - destruct (Z.eqb_spec r1 0) as [->|N].
    { rewrite Z.gcd_0_r, Z.abs_eq in G by lia. subst r0. exact E0. }
    pose proof (Z.mod_pos_bound r0 r1 ltac:(lia)) as MB. pose proof (Z.div_mod r0 r1 N) as DM.
    assert (D1 : 1 <= r0 / r1) by (apply Z.div_le_lower_bound; lia).
    apply IH; [lia| |rewrite Z.gcd_comm, Z.gcd_mod by exact N; rewrite Z.gcd_comm; exact G|exact E1| |lia].
    + rewrite Nat2Z.inj_succ, Z.pow_succ_r in M by lia. nia.
    + rewrite Z.mod_eq by exact N.
      replace ((t0 - r0 / r1 * t1) * x) with (t0 * x + - (r0 / r1) * (t1 * x)) by ring.
      replace (r0 - r1 * (r0 / r1)) with (r0 + - (r0 / r1) * r1) by ring.
      apply eqm_add; auto. apply eqm_mul; auto. apply eqm_ref.
Qed.
Lemma sc_inv_ok x : ~ x == 0 -> sc_inv x * x == 1.
Proof.
  intros N. unfold sc_inv. pose proof (mod_range x) as B. pose proof ell_bounds as EB.
  apply (eqm_trans ell _ (inv_loop 1024 ell (x mod ell) 0 1 * x)); [apply eqm_mul; auto; [apply eqm_mod_l|apply eqm_ref]|].
  apply (inv_loop_ok x 600).
  - lia.
  - change (2 ^ Z.of_nat 600) with (2 ^ 253 * 2 ^ 347). assert (2 ^ 253 < 2 ^ 347) by reflexivity. nia.
  - apply Zgcd_1_rel_prime. apply prime_rel_prime; auto. intros D. apply Z.mod_divide in D; auto.
    rewrite Z.mod_mod in D by auto. apply N. unfold eqm. rewrite D. reflexivity.
  - cbn [Z.mul]. unfold eqm. rewrite Z.mod_same by auto. reflexivity.
  - rewrite Z.mul_1_l. apply eqm_sym. apply eqm_mod_l.
  - lia.
Qed.
Opaque sc_inv.
Lemma sc_div_ok a b : 0 <= b < ell -> b <> 0 -> exists c, sc_div a b = Ok c /\ c * b == a /\ 0 <= c < ell.
Proof.
  intros B N. unfold sc_div. destruct (Z.eqb_spec b 0); [contradiction|]. eexists. split; [reflexivity|]. split; [|apply mod_range].
  unfold sc_mul. apply (eqm_trans ell _ (a * sc_inv b * b)); [apply eqm_mul; auto; [apply eqm_mod_l|apply eqm_ref]|].
  replace (a * sc_inv b * b) with (a * (sc_inv b * b)) by ring.
  apply (eqm_trans ell _ (a * 1)); [|rewrite Z.mul_1_r; apply eqm_ref]. apply eqm_mul; auto; [apply eqm_ref|]. apply sc_inv_ok.
  intros E. apply N. apply eqm_small; auto. pose proof ell_pos. lia.
Qed.

(** ** Powers and share values *)
Lemma pow_loop_ok k : forall r v, pow_loop k r v == r * v ^ Z.of_nat k /\ (0 <= r < ell -> 0 <= pow_loop k r v < ell).
Proof.
  induction k as [|k IH]; intros r v; cbn [pow_loop].
  - change (Z.of_nat 0) with 0. rewrite Z.pow_0_r, Z.mul_1_r. split; [apply eqm_ref|auto].
  - destruct (IH (sc_mul r v) v) as [A B]. split; [|intros _; apply B, mod_range].
    apply (eqm_trans ell _ _ _ A). rewrite Nat2Z.inj_succ, Z.pow_succ_r by lia.
    apply (eqm_trans ell _ (r * v * v ^ Z.of_nat k)); [apply eqm_mul; auto; [apply eqm_mod_l|apply eqm_ref]|].
    replace (r * v * v ^ Z.of_nat k) with (r * (v * v ^ Z.of_nat k)) by ring. apply eqm_ref.
Qed.
Lemma sc_fromUintPow_ok v p : sc_fromUintPow v p == v ^ Z.of_nat p.
Proof.
  destruct p as [|p]; cbn [sc_fromUintPow]; [apply eqm_ref|].
  apply (eqm_trans ell _ _ _ (proj1 (pow_loop_ok p (sc_fromUint v) (sc_fromUint v)))). unfold sc_fromUint.
  rewrite Nat2Z.inj_succ, Z.pow_succ_r by lia. apply eqm_ref.
Qed.

Lemma get_ub_skipn {A} (l : list A) i x r : skipn i l = x :: r -> get_ub l i = Ok x.
Proof.
  intros E. unfold get_ub. assert (X : nth_error l i = nth_error (skipn i l) 0).
  { clear. revert i; induction l as [|a l IH]; intros [|i]; [reflexivity|reflexivity|reflexivity|]. cbn [nth_error skipn]. apply IH. }
  rewrite X, E. reflexivity.
Qed.
Lemma skipn_tail {A} (l : list A) i x r : skipn i l = x :: r -> skipn (S i) l = r.
Proof.
  revert l; induction i as [|i IH]; intros l E; [cbn in E; subst l; reflexivity|].
  destruct l as [|a l]; [discriminate E|]. cbn [skipn] in *. apply IH. exact E.
Qed.

Lemma share_loop_ok coefs xi k : forall j ai, (1 <= j)%nat -> (j - 1 + k <= length coefs)%nat -> 0 <= ai < ell ->
  exists r, share_loop coefs xi ai j k = Ok r /\ 0 <= r < ell /\
    r == ai + xi ^ Z.of_nat j * peval (firstn k (skipn (j - 1) coefs)) xi.
Proof.
  induction k as [|k IH]; intros j ai Hj HL B; cbn [share_loop].
  - exists ai. repeat split; try lia. cbn [firstn peval]. rewrite Z.mul_0_r, Z.add_0_r. apply eqm_ref.
  - destruct (skipn (j - 1) coefs) as [|c r] eqn:E.
    { pose proof (skipn_length (j - 1) coefs) as X. rewrite E in X. cbn in X. lia. }
    rewrite (get_ub_skipn _ _ _ _ E). cbn [bind].
    destruct (IH (S j) (sc_add ai (sc_mul c (sc_fromUintPow xi j))) ltac:(lia) ltac:(lia) (mod_range _)) as (v & Ev & Bv & Cv).
    exists v. split; [exact Ev|]. split; [exact Bv|].
    apply (eqm_trans ell _ _ _ Cv). replace (S j - 1)%nat with (S (j - 1)) by lia. rewrite (skipn_tail _ _ _ _ E).
    cbn [firstn peval]. rewrite Nat2Z.inj_succ, Z.pow_succ_r by lia.
    replace (ai + xi ^ Z.of_nat j * (c + xi * peval (firstn k r) xi)) with (ai + c * xi ^ Z.of_nat j + xi * xi ^ Z.of_nat j * peval (firstn k r) xi) by ring.
    apply eqm_add; auto; [|apply eqm_ref]. unfold sc_add, sc_mul.
    apply (eqm_trans ell _ (ai + (c * sc_fromUintPow xi j) mod ell)); [apply eqm_mod_l|].
    apply eqm_add; auto; [apply eqm_ref|]. apply (eqm_trans ell _ (c * sc_fromUintPow xi j)); [apply eqm_mod_l|].
    apply eqm_mul; auto; [apply eqm_ref|apply sc_fromUintPow_ok].
Qed.

Lemma share_value coefs xi s t : 0 <= s < ell -> length coefs = Z.to_nat (t - 1) ->
  share_loop coefs xi s 1 (Z.to_nat (t - 1)) = Ok (peval (s :: coefs) xi mod ell).
Proof.
  intros B L. destruct (share_loop_ok coefs xi (Z.to_nat (t - 1)) 1 s ltac:(lia) ltac:(lia) B) as (r & E & Br & C).
  rewrite E. f_equal. apply eqm_small; [exact Br|apply mod_range|]. apply (eqm_trans ell _ _ _ C).
  cbn [Nat.sub skipn]. rewrite firstn_all2 by lia. cbn [peval]. change (Z.of_nat 1) with 1. rewrite Z.pow_1_r. apply eqm_sym, eqm_mod_l.
Qed.

(** ** Lagrange coefficients *)
Definition sel (i j : nat) (ids : list Z) : list Z := if Nat.ltb i j then ids else others (i - j) ids.
Lemma sel_cons i j x r : sel i j (x :: r) = if Nat.eqb j i then sel i (S j) r else x :: sel i (S j) r.
Proof.
  unfold sel. destruct (Nat.eqb_spec j i) as [->|N].
  - rewrite Nat.sub_diag. destruct (Nat.ltb_spec i i); [lia|]. destruct (Nat.ltb_spec i (S i)); [|lia]. reflexivity.
  - destruct (Nat.ltb_spec i j) as [L|L].
    + destruct (Nat.ltb_spec i (S j)); [reflexivity|lia].
    + destruct (Nat.ltb_spec i (S j)) as [L2|L2]; [lia|]. replace (i - j)%nat with (S (i - S j)) by lia. reflexivity.
Qed.
Lemma lag_loop_ok i xi ids : forall j num den, 0 <= num < ell -> 0 <= den < ell ->
  0 <= fst (lag_loop i j xi ids num den) < ell /\ 0 <= snd (lag_loop i j xi ids num den) < ell /\
  fst (lag_loop i j xi ids num den) == num * prodl (sel i j ids) /\
  snd (lag_loop i j xi ids num den) == den * prodl (map (fun x => x - xi) (sel i j ids)).
Proof.
  induction ids as [|x r IH]; intros j num den Bn Bd; cbn [lag_loop].
  - assert (E : sel i j [] = []) by (unfold sel, others; destruct (Nat.ltb i j); [reflexivity|rewrite firstn_nil; reflexivity]).
    rewrite E. cbn [fst snd]. unfold prodl; cbn [map fold_right]. rewrite !Z.mul_1_r. repeat split; try lia; apply eqm_ref.
  - rewrite sel_cons. destruct (Nat.eqb j i); [apply IH; assumption|].
    destruct (IH (S j) (sc_mul num x) (sc_sub (sc_mul den x) (sc_mul den xi)) (mod_range _) (mod_range _)) as (A & B & C & D).
    split; [exact A|]. split; [exact B|]. split.
    + apply (eqm_trans ell _ _ _ C). unfold prodl; cbn [fold_right]. fold (prodl (sel i (S j) r)).
      replace (num * (x * prodl (sel i (S j) r))) with (num * x * prodl (sel i (S j) r)) by ring.
      apply eqm_mul; auto; [apply eqm_mod_l|apply eqm_ref].
    + apply (eqm_trans ell _ _ _ D). unfold prodl; cbn [map fold_right]. fold (prodl (map (fun x => x - xi) (sel i (S j) r))).
      replace (den * ((x - xi) * prodl (map (fun x => x - xi) (sel i (S j) r)))) with ((den * x + - (den * xi)) * prodl (map (fun x => x - xi) (sel i (S j) r))) by ring.
      apply eqm_mul; auto; [|apply eqm_ref]. unfold sc_sub, sc_mul.
      apply (eqm_trans ell _ ((den * x) mod ell + - ((den * xi) mod ell))); [apply eqm_mod_l|].
      apply eqm_add; auto; [apply eqm_mod_l|]. apply eqm_opp; auto. apply eqm_mod_l.
Qed.

Lemma nth_skipn_head {A} (l : list A) i x r d : skipn i l = x :: r -> nth i l d = x.
Proof. revert l; induction i as [|i IH]; intros l E; [cbn in E; subst l; reflexivity|]. destruct l as [|a l]; [discriminate E|]. cbn [skipn nth] in *. apply IH, E. Qed.

Definition is_coef (ids : list Z) (i : nat) (c : Z) : Prop :=
  c * prodl (map (fun x => x - nth i ids 0) (others i ids)) == prodl (others i ids) /\ 0 <= c < ell.

Lemma sel_0 i ids : sel i 0 ids = others i ids.
Proof. unfold sel. destruct (Nat.ltb_spec i 0); [lia|]. rewrite Nat.sub_0_r. reflexivity. Qed.

Lemma den_nonzero ids i : distinct ell ids -> (i < length ids)%nat ->
  ~ prodl (map (fun x => x - nth i ids 0) (others i ids)) == 0.
Proof.
  intros D Hi. apply prodl_nonzero; auto. intros y I E. apply in_map_iff in I as (x & <- & I).
  apply others_in in I as (j & Hj & N & <-). apply (distinct_nth ell ids j i D Hj Hi N).
  apply eqm_sub; auto. apply eqm_0_divide; auto.
Qed.

Lemma lag_all_ok ids : distinct ell ids -> forall rest i, skipn i ids = rest ->
  exists cs, lag_all ids i rest = Ok cs /\ length cs = length rest /\ forall k, (k < length rest)%nat -> is_coef ids (i + k) (nth k cs 0).
Proof.
  intros D. induction rest as [|x r IH]; intros i E; cbn [lag_all].
  - exists []. repeat split; try reflexivity; cbn in *; lia.
  - assert (Hi : (i < length ids)%nat) by (pose proof (skipn_length i ids) as X; rewrite E in X; cbn [length] in X; lia).
    pose proof (lag_loop_ok i (sc_fromUint x) ids 0 (sc_fromUint 1) (sc_fromUint 1) ltac:(unfold sc_fromUint; pose proof ell_bounds; lia) ltac:(unfold sc_fromUint; pose proof ell_bounds; lia)) as (A & B & C & F).
    destruct (lag_loop i 0 (sc_fromUint x) ids (sc_fromUint 1) (sc_fromUint 1)) as [num den]. cbn [fst snd] in *.
    rewrite sel_0 in *. unfold sc_fromUint in *. rewrite Z.mul_1_l in *.
    pose proof (nth_skipn_head ids i x r 0 E) as NX. rewrite <- NX in F.
    assert (DN : den <> 0).
    { intros Z0. apply (den_nonzero ids i D Hi). apply (eqm_trans ell _ den); [apply eqm_sym, F|rewrite Z0; apply eqm_ref]. }
    destruct (sc_div_ok num den B DN) as (c & Ec & Cc & Bc). rewrite Ec. cbn [bind].
    destruct (IH (S i) (skipn_tail _ _ _ _ E)) as (cs & Ecs & Lcs & Hcs). rewrite Ecs. cbn [bind].
    exists (c :: cs). split; [reflexivity|]. split; [cbn [length]; lia|]. intros k Hk. destruct k as [|k].
    + cbn [nth]. rewrite Nat.add_0_r. split; [|exact Bc].
      apply (eqm_trans ell _ (c * den)); [apply eqm_mul; auto; [apply eqm_ref|apply eqm_sym, F]|]. apply (eqm_trans ell _ num _ Cc C).
    + cbn [nth]. replace (i + S k)%nat with (S i + k)%nat by lia. apply Hcs. cbn [length] in Hk. lia.
Qed.
Lemma lagrange_ok ids : distinct ell ids ->
  exists cs, lagrange ids = Ok cs /\ length cs = length ids /\ forall k, (k < length ids)%nat -> is_coef ids k (nth k cs 0).
Proof. intros D. apply (lag_all_ok ids D ids 0). reflexivity. Qed.

Lemma lag_all_noUB ids rest : forall i, lag_all ids i rest <> UB.
Proof.
  induction rest as [|x r IH]; intros i; cbn [lag_all]; [discriminate|].
  destruct (lag_loop i 0 (sc_fromUint x) ids (sc_fromUint 1) (sc_fromUint 1)) as [num den].
  unfold sc_div. destruct (den =? 0); cbn [bind]; [discriminate|]. specialize (IH (S i)). destruct (lag_all ids (S i) r); cbn [bind]; congruence.
Qed.
(** Two equal ids make it throw. *)
Lemma lag_all_dup ids a b : (a < length ids)%nat -> (b < length ids)%nat -> a <> b -> nth a ids 0 = nth b ids 0 ->
  forall rest i, (i <= a)%nat -> skipn i ids = rest -> lag_all ids i rest = Throw.
Proof.
  intros Ha Hb N E. induction rest as [|x r IH]; intros i Hi Er; cbn [lag_all].
  - pose proof (skipn_length i ids) as X. rewrite Er in X. cbn [length] in X. lia.
  - pose proof (lag_loop_ok i (sc_fromUint x) ids 0 (sc_fromUint 1) (sc_fromUint 1) ltac:(unfold sc_fromUint; pose proof ell_bounds; lia) ltac:(unfold sc_fromUint; pose proof ell_bounds; lia)) as (A & B & C & F).
    destruct (lag_loop i 0 (sc_fromUint x) ids (sc_fromUint 1) (sc_fromUint 1)) as [num den]. cbn [fst snd] in *.
    rewrite sel_0 in *. unfold sc_fromUint in *. rewrite Z.mul_1_l in *. unfold sc_div.
    destruct (Z.eqb_spec den 0) as [Z0|Z0]; [reflexivity|]. cbn [bind].
    destruct (Nat.eq_dec i a) as [->|Ni].
    + exfalso. apply Z0. apply eqm_small; auto; [pose proof ell_pos; lia|]. apply (eqm_trans ell _ _ _ F).
      pose proof (nth_skipn_head ids a x r 0 Er) as NX. apply (prodl_zero_in ell prime_ell) with 0; [|apply eqm_ref].
      apply in_map_iff. exists (nth b ids 0). split; [lia|]. apply others_in. exists b. auto.
    + rewrite (IH (S i) ltac:(lia) (skipn_tail _ _ _ _ Er)). reflexivity.
Qed.

(** ** Weighted sums *)
Lemma sumn_shift f n : sumn f (S n) = f 0%nat + sumn (fun i => f (S i)) n.
Proof. induction n as [|n IH]; [cbn; lia|]. cbn [sumn] in *. rewrite IH. lia. Qed.
Lemma weighted_sum_ok ks : forall cs s, length cs = length ks -> 0 <= s < ell ->
  0 <= weighted_sum cs ks s < ell /\
  weighted_sum cs ks s == s + sumn (fun i => nth i cs 0 * nth i (map (fun k => key_scalar (ks_key k)) ks) 0) (length ks).
Proof.
  induction ks as [|k ks IH]; intros [|c cs] s L B; try discriminate L; cbn [weighted_sum].
  - split; [exact B|]. cbn. rewrite Z.add_0_r. apply eqm_ref.
  - destruct (IH cs (sc_add s (sc_mul c (key_scalar (ks_key k)))) ltac:(cbn in L; lia) (mod_range _)) as [A E]. split; [exact A|].
    apply (eqm_trans ell _ _ _ E). cbn [length]. rewrite sumn_shift. cbn [map nth].
    rewrite Z.add_assoc. apply eqm_add; auto; [|apply eqm_ref]. unfold sc_add, sc_mul.
    apply (eqm_trans ell _ (s + (c * key_scalar (ks_key k)) mod ell)); [apply eqm_mod_l|]. apply eqm_add; auto; [apply eqm_ref|apply eqm_mod_l].
Qed.

(** ** Distinctness of small ids *)
Lemma nodup_distinct xs : NoDup xs -> (forall x, In x xs -> 0 <= x < ell) -> distinct ell xs.
Proof.
  induction xs as [|a xs IH]; intros N B; constructor.
  - apply Forall_forall. intros x I E. inversion N; subst. apply H1.
    rewrite (eqm_small a x); auto; [apply B; left; reflexivity|apply B; right; exact I].
  - apply IH; [inversion N; assumption|]. intros x I. apply B. right; exact I.
Qed.

Lemma NoDup_app {A} (l r : list A) : NoDup l -> NoDup r -> (forall x, In x l -> In x r -> False) -> NoDup (l ++ r).
Proof.
  induction 1 as [|a l N ND IH]; intros R D; [exact R|]. cbn [app]. constructor.
  - intros I. apply in_app_iff in I as [I|I]; [contradiction|]. exact (D a (or_introl eq_refl) I).
  - apply IH; [exact R|]. intros x I J. exact (D x (or_intror I) J).
Qed.

Section Keys.
Variable sha512 : list Z -> list Z.
Variable enc : Z -> list Z.
Variable padd : list Z -> list Z -> option (list Z).
Hypothesis EG : ed_group enc padd.

Lemma key_scalar_kL k : key_scalar k = kL k mod ell. Proof. reflexivity. Qed.
Lemma extend_kL s : 0 <= s < ell -> kL (extend_scalar sha512 s) = s.
Proof.
  intros B. unfold kL, extend_scalar, xprv_of_bytes. cbn [kbytes]. rewrite firstn_firstn. change (Nat.min 32 64) with 32%nat.
  rewrite firstn_app_exact by (symmetry; apply pack_le_length).
  pose proof (pack_le_value 32 s) as X. rewrite X. apply Z.mod_small. pose proof ell_bounds. change (256 ^ Z.of_nat 32) with (2 ^ 256). lia.
Qed.
Lemma extend_scalar_ok s : 0 <= s < ell -> key_scalar (extend_scalar sha512 s) = s.
Proof. intros B. rewrite key_scalar_kL, extend_kL by exact B. apply Z.mod_small, B. Qed.

(** ** The shares of a Shamir split *)
Definition the_share (s : Z) (coefs : list Z) (x : nat) : keyshare :=
  {| ks_id := Z.of_nat x; ks_key := extend_scalar sha512 (peval (s :: coefs) (Z.of_nat x) mod ell) |}.

Lemma key_scalar_range k : 0 <= key_scalar k < ell. Proof. apply mod_range. Qed.

Lemma shamir_split_eq root n t coefs : 1 <= n < 2 ^ 32 - 1 -> length coefs = Z.to_nat (t - 1) ->
  key_scalar root <> 0 -> ~ In 0 coefs ->
  shamir_split sha512 enc root n t coefs =
    Ok ({| pbytes := enc (kL root); pcc := kcc root |}, map (the_share (key_scalar root) coefs) (seq 1 (Z.to_nat n))).
Proof.
  intros Hn L S C. unfold shamir_split. cbv zeta. destruct (Z.eqb_spec (key_scalar root) 0); [contradiction|].
  assert (X : existsb (fun c => c =? 0) coefs = false).
  { destruct (existsb (fun c => c =? 0) coefs) eqn:E; [|reflexivity]. apply existsb_exists in E as (c & I & E). apply Z.eqb_eq in E. subst c. contradiction. }
  rewrite X. replace ((n + 1) mod 2 ^ 32 - 1) with n by (rewrite Z.mod_small by lia; lia).
  rewrite (mapM_ok_map _ (the_share (key_scalar root) coefs)).
  - cbn [bind]. assert (P : publicKey enc root = Ok {| pbytes := enc (kL root); pcc := kcc root |}).
    { apply (publicKey_ok enc padd EG). split; [|reflexivity]. unfold usable. rewrite <- key_scalar_kL. exact S. }
    rewrite P. reflexivity.
  - intros x _. rewrite share_value by (auto using key_scalar_range). reflexivity.
Qed.
Lemma shamir_split_ok root n t coefs pk keys : 1 <= n < 2 ^ 32 - 1 -> length coefs = Z.to_nat (t - 1) ->
  shamir_split sha512 enc root n t coefs = Ok (pk, keys) ->
  key_scalar root <> 0 /\ ~ In 0 coefs /\ pk = {| pbytes := enc (kL root); pcc := kcc root |} /\ keys = map (the_share (key_scalar root) coefs) (seq 1 (Z.to_nat n)).
Proof.
  intros Hn L H.
  assert (S : key_scalar root <> 0) by (intros E; unfold shamir_split in H; cbv zeta in H; rewrite E in H; discriminate H).
  assert (C : ~ In 0 coefs).
  { intros I. unfold shamir_split in H. cbv zeta in H. destruct (Z.eqb_spec (key_scalar root) 0); [contradiction|].
    assert (X : existsb (fun c => c =? 0) coefs = true) by (apply existsb_exists; exists 0; split; [exact I|reflexivity]). rewrite X in H. discriminate H. }
  rewrite (shamir_split_eq root n t coefs Hn L S C) in H. split; [exact S|]. split; [exact C|]. split; congruence.
Qed.

(** ** Filtering *)
Definition ids (ks : list keyshare) : list Z := map ks_id ks.
Lemma filter_spec ks : forall acc, NoDup (ids acc) -> (forall k, In k acc -> ks_id k <> 0) ->
  (forall a b, In a (acc ++ ks) -> In b (acc ++ ks) -> ks_id a = ks_id b -> kbytes (ks_key a) = kbytes (ks_key b)) ->
  NoDup (ids (filter_shares acc ks)) /\
  (forall k, In k (filter_shares acc ks) -> In k (acc ++ ks) /\ ks_id k <> 0) /\
  (forall k, In k (acc ++ ks) -> ks_id k <> 0 -> In (ks_id k) (ids (filter_shares acc ks))).
Proof.
  induction ks as [|k ks IH]; intros acc ND NZ HF; cbn [filter_shares].
  - rewrite app_nil_r in *. split; [exact ND|]. split; [intros k I; split; [exact I|apply NZ, I]|]. intros k I _. apply in_map, I.
  - destruct (Z.eqb_spec (ks_id k) 0) as [E0|E0].
    { destruct (IH acc ND NZ) as (A & B & C).
      - intros a b Ia Ib. apply HF; apply in_app_iff; [apply in_app_iff in Ia as [|]|apply in_app_iff in Ib as [|]]; cbn; auto.
      - split; [exact A|]. split; [intros x I; destruct (B x I) as [X Y]; split; [|exact Y]; apply in_app_iff in X as [|]; apply in_app_iff; cbn; auto|].
        intros x I N. apply in_app_iff in I as [I|[<-|I]]; [|contradiction|]; apply C; auto; apply in_app_iff; auto. }
    destruct (existsb (fun f => (ks_id f =? ks_id k) && zlist_eqb (kbytes (ks_key k)) (kbytes (ks_key f))) acc) eqn:EX.
    { apply existsb_exists in EX as (f & If & Ef). apply andb_true_iff in Ef as [Ef _]. apply Z.eqb_eq in Ef.
      destruct (IH acc ND NZ) as (A & B & C).
      - intros a b Ia Ib. apply HF; apply in_app_iff; [apply in_app_iff in Ia as [|]|apply in_app_iff in Ib as [|]]; cbn; auto.
      - split; [exact A|]. split; [intros x I; destruct (B x I) as [X Y]; split; [|exact Y]; apply in_app_iff in X as [|]; apply in_app_iff; cbn; auto|].
        intros x I N. apply in_app_iff in I as [I|[<-|I]]; [| rewrite <- Ef|]; apply C; auto; try (apply in_app_iff; auto); rewrite ?Ef; auto. }
    assert (NI : ~ In (ks_id k) (ids acc)).
    { intros I. apply in_map_iff in I as (f & Ef & If).
      assert (X : existsb (fun f => (ks_id f =? ks_id k) && zlist_eqb (kbytes (ks_key k)) (kbytes (ks_key f))) acc = true); [|congruence].
      apply existsb_exists. exists f. split; [exact If|]. rewrite Ef, Z.eqb_refl. cbn [andb]. 
      rewrite (HF k f); [apply zlist_eqb_refl|apply in_app_iff; right; left; reflexivity|apply in_app_iff; left; exact If|congruence]. }
    destruct (IH (acc ++ [k])) as (A & B & C).
    + unfold ids. rewrite map_app. cbn [map]. apply NoDup_app; [exact ND|constructor; [intros []|constructor]|]. intros x I [<-|[]]. exact (NI I).
    + intros x I. apply in_app_iff in I as [I|[<-|[]]]; [apply NZ, I|exact E0].
    + intros a b Ia Ib. rewrite <- app_assoc in Ia, Ib. apply HF; assumption.
    + rewrite <- app_assoc in B, C. split; [exact A|]. split; [exact B|exact C].
Qed.

(** Number of different participants among the shares. *)
Definition participants (ks : list keyshare) : nat := length (nodup Z.eq_dec (ids ks)).

Lemma filter_split s coefs n ks : incl ks (map (the_share s coefs) (seq 1 n)) ->
  NoDup (ids (filter_shares [] ks)) /\ incl (filter_shares [] ks) ks /\ length (filter_shares [] ks) = participants ks.
Proof.
  intros I.
  assert (SH : forall k, In k ks -> exists x, (1 <= x <= n)%nat /\ k = the_share s coefs x).
  { intros k Ik. apply I in Ik. apply in_map_iff in Ik as (x & <- & Hx). apply in_seq in Hx. exists x. split; [lia|reflexivity]. }
  destruct (filter_spec ks []) as (A & B & C).
  - constructor.
  - intros k [].
  - intros a b Ia Ib E. destruct (SH a Ia) as (x & _ & ->). destruct (SH b Ib) as (y & _ & ->). cbn [ks_id the_share] in E.
    apply Nat2Z.inj in E. subst y. reflexivity.
  - split; [exact A|]. split; [intros k Ik; apply B in Ik as [Ik _]; exact Ik|].
    replace (length (filter_shares [] ks)) with (length (ids (filter_shares [] ks))) by apply map_length.
    unfold participants. apply Nat.le_antisymm; apply NoDup_incl_length; auto using NoDup_nodup.
    + intros x Ix. apply nodup_In. apply in_map_iff in Ix as (k & <- & Ik). apply B in Ik as [Ik _]. apply in_map, Ik.
    + intros x Ix. apply nodup_In in Ix. apply in_map_iff in Ix as (k & <- & Ik). apply C; [exact Ik|].
      destruct (SH k Ik) as (y & Hy & ->). cbn. lia.
Qed.

Lemma nth_map_default {A B} (f : A -> B) l i d d' : (i < length l)%nat -> nth i (map f l) d = f (nth i l d').
Proof. revert i; induction l as [|a l IH]; intros [|i] H; cbn in *; try lia; [reflexivity|apply IH; lia]. Qed.

(** Interpolating any list of shares with different ids, at least as many as coefficients. *)
Lemma weighted_shares s coefs n ks : 0 <= s < ell -> Z.of_nat n < 2 ^ 32 -> incl ks (map (the_share s coefs) (seq 1 n)) -> NoDup (ids ks) ->
  (S (length coefs) <= length ks)%nat ->
  exists cs, lagrange (ids ks) = Ok cs /\ length cs = length ks /\ (forall c, In c cs -> 0 <= c < ell) /\
    sumn (fun i => nth i cs 0 * nth i (map (fun k => key_scalar (ks_key k)) ks) 0) (length ks) == s.
Proof.
  intros B Hn I ND L.
  assert (SH : forall k, In k ks -> exists x, (1 <= x <= n)%nat /\ k = the_share s coefs x).
  { intros k Ik. apply I in Ik. apply in_map_iff in Ik as (x & <- & Hx). apply in_seq in Hx. exists x. split; [lia|reflexivity]. }
  assert (D : distinct ell (ids ks)).
  { apply nodup_distinct; [exact ND|]. intros x Ix. apply in_map_iff in Ix as (k & <- & Ik). destruct (SH k Ik) as (y & Hy & ->). cbn [the_share ks_id].
    pose proof ell_bounds. assert (2 ^ 32 < 2 ^ 252) by reflexivity. lia. }
  destruct (lagrange_ok (ids ks) D) as (cs & E & Lc & HC).
  assert (Lids : length (ids ks) = length ks) by apply map_length. rewrite Lids in *.
  exists cs. split; [exact E|]. split; [exact Lc|]. split.
  { intros c Ic. apply (In_nth _ _ 0) in Ic as (k & Hk & <-). apply (HC k). lia. }
  rewrite <- Lids at 1.
  apply (eqm_trans ell _ (peval (s :: coefs) 0)); [|cbn [peval]; rewrite Z.mul_0_l, Z.add_0_r; apply eqm_ref].
  apply (lagrange_at_0 ell prime_ell (ids ks) (fun i => nth i cs 0) (fun i => nth i (map (fun k => key_scalar (ks_key k)) ks) 0) (s :: coefs)).
  - exact D.
  - rewrite Lids. cbn [length]. exact L.
  - intros i Hi. apply (HC i). lia.
  - intros i Hi. rewrite Lids in Hi. set (k0 := the_share 0 [] 0).
    unfold ids. rewrite (nth_map_default _ _ _ _ k0) by exact Hi. rewrite (nth_map_default _ _ _ _ k0) by exact Hi.
    destruct (SH (nth i ks k0) (nth_In _ _ Hi)) as (x & Hx & ->). cbn [the_share ks_id ks_key].
    rewrite extend_scalar_ok by apply mod_range. apply eqm_sym, eqm_mod_l.
Qed.

(** ** Reconstruction *)
Lemma reconstruct_enough s coefs n t ks : 0 <= s < ell -> Z.of_nat n < 2 ^ 32 -> length coefs = Z.to_nat (t - 1) -> 1 <= t ->
  incl ks (map (the_share s coefs) (seq 1 n)) -> t <= Z.of_nat (participants ks) ->
  reconstruct sha512 ks t = Ok (extend_scalar sha512 s).
Proof.
  intros B Hn L Ht I P. destruct (filter_split s coefs n ks I) as (ND & IN & LEN).
  unfold reconstruct. cbv zeta. rewrite LEN. destruct (Z.ltb_spec (Z.of_nat (participants ks)) t); [lia|].
  destruct (weighted_shares s coefs n (filter_shares [] ks) B Hn) as (cs & E & Lc & _ & SUM).
  - intros k Ik. apply I, IN, Ik.
  - exact ND.
  - rewrite LEN, L. lia.
  - fold (ids (filter_shares [] ks)). rewrite E. cbn [bind]. do 2 f_equal.
    destruct (weighted_sum_ok (filter_shares [] ks) cs 0 ltac:(lia) ltac:(pose proof ell_pos; lia)) as [R W].
    apply eqm_small; auto. apply (eqm_trans ell _ _ _ W). rewrite Z.add_0_l. exact SUM.
Qed.
Lemma reconstruct_few s coefs n t ks : incl ks (map (the_share s coefs) (seq 1 n)) -> Z.of_nat (participants ks) < t ->
  reconstruct sha512 ks t = Throw.
Proof.
  intros I P. destruct (filter_split s coefs n ks I) as (_ & _ & LEN). unfold reconstruct. cbv zeta. rewrite LEN.
  destruct (Z.ltb_spec (Z.of_nat (participants ks)) t); [reflexivity|lia].
Qed.

(** Conflicting shares *)
Lemma filter_keeps ks : forall acc k, (In k acc \/ In k ks /\ ks_id k <> 0) ->
  exists f, In f (filter_shares acc ks) /\ ks_id f = ks_id k /\ kbytes (ks_key f) = kbytes (ks_key k).
Proof.
  induction ks as [|x ks IH]; intros acc k H; cbn [filter_shares].
  - destruct H as [H|[[] _]]. exists k. auto.
  - destruct (Z.eqb_spec (ks_id x) 0) as [E0|E0].
    { apply IH. destruct H as [H|[[<-|H] N]]; [auto|contradiction|auto]. }
    destruct (existsb (fun f => (ks_id f =? ks_id x) && zlist_eqb (kbytes (ks_key x)) (kbytes (ks_key f))) acc) eqn:EX.
    + destruct H as [H|[[<-|H] N]]; [apply IH; auto| |apply IH; auto].
      apply existsb_exists in EX as (f & If & Ef). apply andb_true_iff in Ef as [Ef Eb]. apply Z.eqb_eq in Ef. apply zlist_eqb_spec in Eb.
      destruct (IH acc f (or_introl If)) as (g & Ig & Eg & Kg). exists g. rewrite Eg, Kg. auto.
    + apply IH. destruct H as [H|[[<-|H] N]]; [left; apply in_app_iff; auto|left; apply in_app_iff; cbn; auto|auto].
Qed.
Lemma reconstruct_conflict ks t a b : In a ks -> In b ks -> ks_id a = ks_id b -> ks_id a <> 0 -> kbytes (ks_key a) <> kbytes (ks_key b) ->
  reconstruct sha512 ks t = Throw.
Proof.
  intros Ia Ib E N K.
  destruct (filter_keeps ks [] a (or_intror (conj Ia N))) as (f & If & Ef & Kf).
  destruct (filter_keeps ks [] b (or_intror (conj Ib (fun Z0 => N (eq_trans E Z0))))) as (g & Ig & Eg & Kg).
  unfold reconstruct. cbv zeta. destruct (Z.of_nat (length (filter_shares [] ks)) <? t); [reflexivity|].
  set (v := filter_shares [] ks) in *.
  apply (In_nth _ _ f) in If as (i & Hi & Ei). apply (In_nth _ _ f) in Ig as (j & Hj & Ej).
  assert (NE : i <> j) by (intros ->; apply K; rewrite Ei in Ej; congruence).
  unfold lagrange. rewrite (lag_all_dup (map ks_id v) i j); [reflexivity| | |exact NE| |lia|reflexivity].
  - rewrite map_length. exact Hi.
  - rewrite map_length. exact Hj.
  - rewrite !(nth_map_default ks_id _ _ 0 f), Ei, Ej by assumption. congruence.
Qed.
End Keys.
