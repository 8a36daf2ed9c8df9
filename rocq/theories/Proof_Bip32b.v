From Verif Require Import Base BaseLemmas Model_Hex Proof_Hex Spec_Ed25519 Model_Bip32 Spec_Bip32 Proof_Bip32.
From Coq Require Import Znumtheory.
Ltac Zify.zify_post_hook ::= idtac.

Lemma lev32_bound (l : list Z) : length l = 32%nat -> bytes_ok l -> 0 <= lev 256 l < 2 ^ 256.
Proof.
  intros L B. pose proof (lev_bound 256 l ltac:(lia) B) as X. unfold zlen in X. rewrite L in X. exact X.
Qed.
Lemma lev28_bound (l : list Z) : length l = 28%nat -> bytes_ok l -> 0 <= lev 256 l < 2 ^ 224.
Proof.
  intros L B. pose proof (lev_bound 256 l ltac:(lia) B) as X. unfold zlen in X. rewrite L in X. exact X.
Qed.

Lemma index_bytes_eq i mode : serialize_index32 i mode = index_bytes mode i.
Proof.
  unfold serialize_index32, index_bytes. cbv zeta. rewrite !Z.shiftr_div_pow2, Z.pow_0_r, Z.div_1_r by lia. destruct mode; reflexivity.
Qed.
Lemma v1_acc x : 0 <= x < 256 -> Z.land (Z.shiftr x 5) 8 = 0.
Proof.
  assert (F : forallb (fun x => Z.land (Z.shiftr x 5) 8 =? 0) (map Z.of_nat (seq 0 256)) = true) by (vm_compute; reflexivity).
  intros Hx. apply Z.eqb_eq. apply (forallb_range _ 256 F x). lia.
Qed.
Lemma times8_v1_map z : forall p, bytes_ok z -> Z.land p 8 = 0 -> times8_v1 z p = map (fun b => (8 * b) mod 256) z.
Proof.
  induction z as [|x r IH]; intros p B Hp; cbn [times8_v1 map]; [reflexivity|].
  apply bytes_ok_cons in B as [Hx B]. unfold byte_ok in Hx.
  rewrite Hp, shiftl_mul by lia. rewrite (IH _ B (v1_acc x Hx)). f_equal. f_equal. lia.
Qed.

Lemma zl8_tweak mode z : length z = 64%nat -> bytes_ok z -> lev 256 (firstn 32 (zl8 mode z)) = tweak_of mode z.
Proof.
  intros L B. destruct mode.
  - unfold zl8, tweak_of.
    rewrite firstn_app_exact by (rewrite (proj2 (times8_v1_ok _ _)), firstn_length; lia).
    rewrite times8_v1_map; [reflexivity|apply bytes_ok_firstn; exact B|reflexivity].
  - apply zl8_v2_value; assumption.
Qed.
Lemma tweak_bound mode z : length z = 64%nat -> bytes_ok z ->
  0 <= tweak_of mode z < 2 ^ 256 /\ (mode = V2 -> 0 <= tweak_of mode z <= 2 ^ 227 - 8 /\ tweak_of mode z mod 8 = 0).
Proof.
  intros L B. split.
  - rewrite <- zl8_tweak by assumption. destruct (zl8_len mode z L B) as [L2 B2].
    apply lev32_bound; [rewrite firstn_length; lia|apply bytes_ok_firstn; exact B2].
  - intros ->. unfold tweak_of. pose proof (lev28_bound (firstn 28 z) ltac:(rewrite firstn_length; lia) ltac:(apply bytes_ok_firstn; exact B)).
    replace (2 ^ 227) with (8 * 2 ^ 224) by reflexivity. split; [lia|]. rewrite Z.mul_comm. apply Z.mod_mul. lia.
Qed.
(** In mode V2 the tweak vanishes only for a zero HMAC prefix. *)
Lemma tweak_v2_zero z : length z = 64%nat -> bytes_ok z -> tweak_of V2 z mod ell = 0 <-> lev 256 (firstn 28 z) = 0.
Proof.
  intros L B. pose proof (tweak_bound V2 z L B) as [_ T]. specialize (T eq_refl) as [T _].
  rewrite Z.mod_small by (pose proof ell_bounds; lia). unfold tweak_of. lia.
Qed.

Section P.
Variable sha512 sha256 : list Z -> list Z.
Variable hmac512 : list Z -> list Z -> list Z.
Variable pbkdf2 : Z -> nat -> list Z -> list Z -> list Z.
Variable enc : Z -> list Z.
Variable padd : list Z -> list Z -> option (list Z).
Hypothesis HO : hashes_ok sha512 sha256 hmac512 pbkdf2.
Hypothesis EG : ed_group enc padd.

Lemma publicKey_spec k : 
  publicKey enc k = if kL k mod ell =? 0 then Throw else Ok {| pbytes := enc (kL k mod ell); pcc := kcc k |}.
Proof.
  unfold publicKey, bip32_publickey, mul_base, sc_reduce. fold (kL k). destruct (kL k mod ell =? 0); reflexivity.
Qed.
Lemma publicKey_ok k pk : publicKey enc k = Ok pk <-> usable (kL k) /\ pk = {| pbytes := enc (kL k); pcc := kcc k |}.
Proof.
  rewrite publicKey_spec, (enc_mod _ _ EG). unfold usable. destruct (Z.eqb_spec (kL k mod ell) 0) as [E|E].
  - split; [discriminate|intros [A _]; contradiction].
  - split; [intros H; injection H as <-; auto|intros [_ ->]; reflexivity].
Qed.

Definition z_of (k : xprv) (index : Z) (mode : dmode) : list Z :=
  hmac512 (kcc k) ((if index_is_hardened index then [0] ++ kbytes k else [2] ++ enc (kL k)) ++ serialize_index32 index mode).
Definition cc_of (k : xprv) (index : Z) (mode : dmode) : list Z :=
  firstn 32 (skipn 32 (hmac512 (kcc k) ((if index_is_hardened index then [1] ++ kbytes k else [3] ++ enc (kL k)) ++ serialize_index32 index mode))).

Lemma z_of_ok k i m : length (z_of k i m) = 64%nat /\ bytes_ok (z_of k i m).
Proof. apply (hmac_ok _ _ _ _ HO). Qed.
Lemma cc_of_ok k i m : length (cc_of k i m) = 32%nat /\ bytes_ok (cc_of k i m).
Proof.
  unfold cc_of. match goal with |- context [hmac512 ?a ?b] => destruct (hmac_ok _ _ _ _ HO a b) as [L B]; set (h := hmac512 a b) in * end.
  rewrite firstn_length, skipn_length. split; [lia|]. apply bytes_ok_firstn, bytes_ok_skipn, B.
Qed.

Definition child (k : xprv) (index : Z) (mode : dmode) : xprv :=
  {| kbytes :=
    (let z := z_of k index mode in
     let right := skipn 32 (kbytes k) in
     match mode with
     | V1 => bip32_scalar_add (zl8 V1 z) (kbytes k) ++ add_bytes (firstn 32 (skipn 32 z)) right
     | V2 => add_carry (firstn 32 (zl8 V2 z)) (kbytes k) 0 ++ add_carry01 (firstn 32 (skipn 32 z)) right 0
     end); kcc := cc_of k index mode |}.

Lemma derive_eq k i m : usable (kL k) -> prv_deriveChild hmac512 enc k i m = Ok (child k i m).
Proof.
  intros U. unfold prv_deriveChild. rewrite publicKey_spec. unfold usable in U.
  destruct (Z.eqb_spec (kL k mod ell) 0); [contradiction|]. cbn [bind].
  unfold child, z_of, cc_of. cbn [pbytes]. rewrite (enc_mod _ _ EG). reflexivity.
Qed.
Lemma derive_iff k i m c : prv_deriveChild hmac512 enc k i m = Ok c <-> usable (kL k) /\ c = child k i m.
Proof.
  split.
  - intros H. assert (U : usable (kL k)).
    { unfold prv_deriveChild in H. rewrite publicKey_spec in H. unfold usable. destruct (Z.eqb_spec (kL k mod ell) 0); [discriminate|assumption]. }
    split; [exact U|]. rewrite (derive_eq _ _ _ U) in H. congruence.
  - intros [U ->]. apply derive_eq, U.
Qed.

Lemma scalar_add_len a b : length (bip32_scalar_add a b) = 32%nat /\ bytes_ok (bip32_scalar_add a b).
Proof. unfold bip32_scalar_add. split; [apply pack_le_length|apply pack_le_ok]. Qed.

Lemma child_wf k i m : wf_prv k -> wf_prv (child k i m).
Proof.
  intros (L & B & Lc & Bc). destruct (z_of_ok k i m) as [Lz Bz]. destruct (cc_of_ok k i m) as [Lcc Bcc].
  assert (Ls : length (skipn 32 (kbytes k)) = 32%nat) by (rewrite skipn_length; lia).
  assert (Lf : length (firstn 32 (skipn 32 (z_of k i m))) = 32%nat) by (rewrite firstn_length, skipn_length; lia).
  unfold wf_prv, child. cbn [kbytes kcc]. repeat split; auto.
  - destruct m; rewrite app_length.
    + rewrite (proj1 (scalar_add_len _ _)), (proj2 (add_bytes_ok _ _)) by lia. lia.
    + rewrite add_carry01_eq; [|apply bytes_ok_firstn, bytes_ok_skipn, Bz|apply bytes_ok_skipn, B|lia].
      assert (Lz8 : length (firstn 32 (zl8 V2 (z_of k i V2))) = 32%nat) by (destruct (zl8_len V2 _ Lz Bz); rewrite firstn_length; lia).
      rewrite (proj2 (add_carry_ok (firstn 32 (zl8 V2 (z_of k i V2))) (kbytes k) 0)) by lia.
      rewrite (proj2 (add_carry_ok (firstn 32 (skipn 32 (z_of k i V2))) (skipn 32 (kbytes k)) 0)) by lia. lia.
  - destruct m; apply bytes_ok_app; split.
    + apply scalar_add_len.
    + apply add_bytes_ok.
    + apply add_carry_ok.
    + rewrite add_carry01_eq; [|apply bytes_ok_firstn, bytes_ok_skipn, Bz|apply bytes_ok_skipn, B|lia]. apply add_carry_ok.
Qed.

Lemma firstn_len32 (l : list Z) : (32 <= length l)%nat -> length (firstn 32 l) = 32%nat.
Proof. intros; rewrite firstn_length; lia. Qed.

Lemma child_kL k i m : wf_prv k ->
  kL (child k i m) = match m with V1 => (tweak_of V1 (z_of k i V1) + kL k) mod ell | V2 => (tweak_of V2 (z_of k i V2) + kL k) mod 2 ^ 256 end.
Proof.
  intros (L & B & Lc & Bc). destruct (z_of_ok k i m) as [Lz Bz]. destruct (zl8_len m _ Lz Bz) as [L8 B8].
  unfold kL at 1, child. cbn [kbytes]. destruct m.
  - rewrite firstn_app_exact by (symmetry; apply scalar_add_len).
    unfold bip32_scalar_add, sc_reduce. rewrite zl8_tweak by assumption. fold (kL k).
    rewrite <- Z.add_mod by (pose proof ell_bounds; lia). 
    match goal with |- lev 256 (pack_le 32 ?v) = _ => pose proof (pack_le_value 32 v) as X end.
    rewrite X. apply Z.mod_small. pose proof ell_bounds.
    pose proof (Z.mod_pos_bound (tweak_of V1 (z_of k i V1) + kL k) ell ltac:(lia)).
    change (256 ^ Z.of_nat 32) with (2 ^ 256). lia.
  - pose proof (firstn_len32 (zl8 V2 (z_of k i V2)) ltac:(lia)) as Lf.
    rewrite firstn_app_exact by (rewrite (proj2 (add_carry_ok _ _ _)) by lia; symmetry; exact Lf).
    rewrite add_carry_value by lia. rewrite Lf. fold (kL k). rewrite zl8_tweak by assumption. unfold zlen. rewrite Lf.
    change (256 ^ Z.of_nat 32) with (2 ^ 256). f_equal. lia.
Qed.
Lemma child_kR k i : wf_prv k ->
  kR (child k i V2) = (lev 256 (firstn 32 (skipn 32 (z_of k i V2))) + kR k) mod 2 ^ 256.
Proof.
  intros (L & B & Lc & Bc). destruct (z_of_ok k i V2) as [Lz Bz]. destruct (zl8_len V2 _ Lz Bz) as [L8 B8].
  unfold kR at 1, child. cbn [kbytes].
  pose proof (firstn_len32 (zl8 V2 (z_of k i V2)) ltac:(lia)) as Lf.
  assert (Lf2 : length (firstn 32 (skipn 32 (z_of k i V2))) = 32%nat) by (rewrite firstn_length, skipn_length; lia).
  assert (Ls : length (skipn 32 (kbytes k)) = 32%nat) by (rewrite skipn_length; lia).
  rewrite skipn_app_exact by (rewrite (proj2 (add_carry_ok _ _ _)) by lia; symmetry; exact Lf).
  rewrite add_carry01_eq; [|apply bytes_ok_firstn, bytes_ok_skipn, Bz|apply bytes_ok_skipn, B|lia].
  rewrite add_carry_value by lia. rewrite Lf2. rewrite (firstn_all2 (n := 32) (skipn 32 (kbytes k))) by lia. unfold zlen; rewrite Lf2. fold (kR k).
  change (256 ^ Z.of_nat 32) with (2 ^ 256). f_equal. lia.
Qed.

(** The bound under which the 256-bit addition of mode V2 does not overflow in [n] steps. *)
Definition room (m : dmode) (k : xprv) (n : nat) : Prop := m = V2 -> kL k + Z.of_nat n * 2 ^ 227 <= 2 ^ 256.

Lemma kL_bound k : wf_prv k -> 0 <= kL k < 2 ^ 256.
Proof. intros (L & B & _). apply lev32_bound; [rewrite firstn_length; lia|apply bytes_ok_firstn, B]. Qed.

Lemma child_kL_room k i m n : wf_prv k -> room m k (S n) ->
  kL (child k i m) mod ell = (tweak_of m (z_of k i m) + kL k) mod ell /\ room m (child k i m) n /\
  (m = V2 -> kL (child k i m) = tweak_of m (z_of k i m) + kL k).
Proof.
  intros W R. rewrite child_kL by exact W. destruct (z_of_ok k i m) as [Lz Bz].
  pose proof (tweak_bound m _ Lz Bz) as [T1 T2]. pose proof (kL_bound k W) as KB. pose proof ell_pos.
  destruct m.
  - rewrite Z.mod_mod by lia. split; [reflexivity|]. split; [intros X; discriminate X|intros X; discriminate X].
  - specialize (T2 eq_refl) as [T2 _]. specialize (R eq_refl). rewrite Nat2Z.inj_succ, Z.mul_succ_l in R.
    assert (E : (tweak_of V2 (z_of k i V2) + kL k) mod 2 ^ 256 = tweak_of V2 (z_of k i V2) + kL k) by (apply Z.mod_small; nia).
    rewrite E. repeat split. intros _. rewrite child_kL by exact W. rewrite E. lia.
Qed.

(** One soft step *)
Lemma pub_child_spec k i m : soft i -> usable (kL k) -> 
  let pk := {| pbytes := enc (kL k); pcc := kcc k |} in
  z_soft hmac512 pk i m = z_of k i m /\
  pub_deriveChild hmac512 enc padd pk i m =
    if tweak_of m (z_of k i m) mod ell =? 0 then Throw
    else Ok {| pbytes := enc (tweak_of m (z_of k i m) + kL k); pcc := cc_of k i m |}.
Proof.
  intros S U pk. destruct (z_of_ok k i m) as [Lz Bz].
  assert (Z1 : z_soft hmac512 pk i m = z_of k i m) by (unfold z_soft, z_of; rewrite soft_not_hardened, <- index_bytes_eq by exact S; reflexivity).
  split; [exact Z1|]. unfold pub_deriveChild. rewrite soft_not_hardened by exact S.
  cbv zeta. rewrite index_bytes_eq. fold (z_soft hmac512 pk i m). rewrite Z1.
  unfold bip32_publickey, mul_base, sc_reduce. rewrite zl8_tweak by assumption.
  destruct (tweak_of m (z_of k i m) mod ell =? 0); [reflexivity|]. cbn [bind].
  unfold bip32_point_add. unfold pk at 1. cbn [pbytes]. rewrite (padd_enc _ _ EG). cbn [bind]. f_equal.
  unfold cc_of. rewrite soft_not_hardened by exact S. unfold pk; cbn [pbytes pcc].
  rewrite <- (enc_mod _ _ EG (tweak_of m (z_of k i m) + kL k)), <- (enc_mod _ _ EG (_ mod ell + _)).
  rewrite Z.add_mod_idemp_l by (pose proof ell_pos; lia). rewrite <- index_bytes_eq. reflexivity.
Qed.

Lemma z_of_step k i m : 0 <= i < 2 ^ 32 -> z_of k i m = hmac512 (kcc k) (step_data 0 2 k (enc (kL k)) i m).
Proof. intros R. unfold z_of, step_data. rewrite hardened_iff by exact R. rewrite <- index_bytes_eq. destruct (2 ^ 31 <=? i); reflexivity. Qed.
Lemma cc_of_step k i m : 0 <= i < 2 ^ 32 -> cc_of k i m = skipn 32 (hmac512 (kcc k) (step_data 1 3 k (enc (kL k)) i m)).
Proof.
  intros R. unfold cc_of, step_data. rewrite hardened_iff by exact R. rewrite <- index_bytes_eq.
  transitivity (firstn 32 (skipn 32 (hmac512 (kcc k) ((if 2 ^ 31 <=? i then 1 :: kbytes k else 3 :: enc (kL k)) ++ serialize_index32 i m)))); [destruct (2 ^ 31 <=? i); reflexivity|].
  apply firstn_all2. rewrite skipn_length, (proj1 (hmac_ok _ _ _ _ HO _ _)). apply Nat.leb_le. reflexivity.
Qed.
Lemma add_bytes_map a : forall b, add_bytes a b = map (fun p => (fst p + snd p) mod 256) (combine a b).
Proof. induction a as [|x a IH]; intros [|y b]; cbn [add_bytes combine map fst snd]; try reflexivity. rewrite IH. f_equal. exact (Z.land_ones _ 8 ltac:(lia)). Qed.
Lemma step_formula k i m c : wf_prv k -> 0 <= i < 2 ^ 32 -> prv_deriveChild hmac512 enc k i m = Ok c ->
  let z := hmac512 (kcc k) (step_data 0 2 k (enc (kL k)) i m) in
  kL c = (kL k + tweak_of m z) mod (match m with V1 => ell | V2 => 2 ^ 256 end) /\
  (m = V1 -> skipn 32 (kbytes c) = map (fun p => (fst p + snd p) mod 256) (combine (skipn 32 z) (skipn 32 (kbytes k)))) /\
  (m = V2 -> kR c = (kR k + lev 256 (skipn 32 z)) mod 2 ^ 256) /\
  kcc c = skipn 32 (hmac512 (kcc k) (step_data 1 3 k (enc (kL k)) i m)).
Proof.
  intros W R HD z. apply derive_iff in HD as [U ->]. destruct (z_of_ok k i m) as [Lz Bz]. pose proof (z_of_step k i m R) as Z1. fold z in Z1.
  assert (F : firstn 32 (skipn 32 z) = skipn 32 z) by (apply firstn_all2; rewrite skipn_length, <- Z1, Lz; apply Nat.leb_le; reflexivity).
  split; [rewrite child_kL by exact W; destruct m; rewrite Z1, Z.add_comm; reflexivity|].
  split; [intros ->; unfold child; cbn [kbytes]; rewrite skipn_app_exact by (symmetry; apply scalar_add_len); rewrite Z1, F; apply add_bytes_map|].
  split; [intros ->; rewrite child_kR by exact W; rewrite Z1, F, Z.add_comm; reflexivity|]. unfold child. cbn [kcc]. apply cc_of_step, R.
Qed.
Lemma pub_step_formula k pk i m q : soft i -> publicKey enc k = Ok pk -> pub_deriveChild hmac512 enc padd pk i m = Ok q ->
  pbytes q = enc (kL k + tweak_of m (hmac512 (pcc pk) (2 :: pbytes pk ++ index_bytes m i))) /\
  pcc q = skipn 32 (hmac512 (pcc pk) (3 :: pbytes pk ++ index_bytes m i)).
Proof.
  intros S HP HD. apply publicKey_ok in HP as [U ->]. destruct (pub_child_spec k i m S U) as [Z1 E]. rewrite E in HD. destruct (_ =? 0); [discriminate|]. injection HD as <-.
  unfold z_soft in Z1. cbn [app] in Z1. cbn [pbytes pcc] in *. rewrite Z1, Z.add_comm. split; [reflexivity|]. rewrite cc_of_step by (unfold soft in S; lia). unfold step_data.
  unfold soft in S. destruct (Z.leb_spec (2 ^ 31) i); [lia|reflexivity].
Qed.

Lemma soft_step k pk i m c cpk : wf_prv k -> soft i -> room m k 1 ->
  publicKey enc k = Ok pk -> prv_deriveChild hmac512 enc k i m = Ok c -> publicKey enc c = Ok cpk ->
  pub_deriveChild hmac512 enc padd pk i m = Ok cpk \/
  pub_deriveChild hmac512 enc padd pk i m = Throw /\ tweak_of m (z_soft hmac512 pk i m) mod ell = 0.
Proof.
  intros W S R HP HD HC. apply publicKey_ok in HP as [U ->]. apply derive_iff in HD as [_ ->]. apply publicKey_ok in HC as [Uc ->].
  destruct (pub_child_spec k i m S U) as [Z1 E]. rewrite Z1, E.
  destruct (Z.eqb_spec (tweak_of m (z_of k i m) mod ell) 0) as [T|T]; [right; auto|left].
  destruct (child_kL_room k i m 0 W R) as [K _].
  do 2 f_equal. rewrite <- (enc_mod _ _ EG), <- K, (enc_mod _ _ EG). reflexivity.
Qed.

(** A child derived from the public key belongs to the privately derived child. *)
Lemma soft_step_conv k pk i m q : wf_prv k -> soft i -> room m k 1 ->
  publicKey enc k = Ok pk -> pub_deriveChild hmac512 enc padd pk i m = Ok q ->
  exists c, prv_deriveChild hmac512 enc k i m = Ok c /\ pcc q = kcc c /\ pbytes q = enc (kL c) /\
    (usable (kL c) -> publicKey enc c = Ok q).
Proof.
  intros W S R HP HD. apply publicKey_ok in HP as [U ->]. exists (child k i m). split; [apply derive_eq, U|].
  destruct (pub_child_spec k i m S U) as [Z1 E]. rewrite E in HD.
  destruct (Z.eqb_spec (tweak_of m (z_of k i m) mod ell) 0) as [T|T]; [discriminate|]. injection HD as <-.
  destruct (child_kL_room k i m 0 W R) as [K _]. cbn [pbytes pcc].
  assert (X : enc (tweak_of m (z_of k i m) + kL k) = enc (kL (child k i m))) by (rewrite <- (enc_mod _ _ EG), <- K, (enc_mod _ _ EG); reflexivity).
  repeat split; [exact X|]. intros Uc. apply publicKey_ok. split; [exact Uc|]. rewrite X. reflexivity.
Qed.

Lemma soft_path path : forall k pk m c cpk, wf_prv k -> Forall soft path -> room m k (length path) ->
  publicKey enc k = Ok pk -> prv_derivePath hmac512 enc k path m = Ok c -> publicKey enc c = Ok cpk ->
  pub_derivePath hmac512 enc padd pk path m = Ok cpk \/
  pub_derivePath hmac512 enc padd pk path m = Throw /\
  exists pre i post k' pk', path = pre ++ i :: post /\ prv_derivePath hmac512 enc k pre m = Ok k' /\ publicKey enc k' = Ok pk' /\
    tweak_of m (z_soft hmac512 pk' i m) mod ell = 0.
Proof.
  induction path as [|i path IH]; intros k pk m c cpk W F R HP HD HC; cbn [prv_derivePath pub_derivePath] in *.
  - injection HD as <-. left. congruence.
  - inversion F as [|? ? Si F']; subst. apply bind_ok in HD as (k1 & D1 & HD).
    assert (E1 := D1). apply derive_iff in E1 as [U E1].
    assert (R1 : room m k 1) by (intros Hm; specialize (R Hm); cbn [length] in R; nia).
    assert (exists pk1, publicKey enc k1 = Ok pk1) as [pk1 P1].
    { destruct path as [|j path]; cbn [prv_derivePath] in HD; [injection HD as <-; eauto|].
      apply bind_ok in HD as (k2 & D2 & _). apply derive_iff in D2 as [U1 _].
      eexists. apply publicKey_ok. split; [exact U1|reflexivity]. }
    destruct (soft_step k pk i m k1 pk1 W Si R1 HP D1 P1) as [X|[X T]]; rewrite X; cbn [bind].
    + destruct (child_kL_room k i m (length path) W R) as [_ [R2 _]].
      destruct (IH k1 pk1 m c cpk ltac:(subst k1; apply child_wf; exact W) F' ltac:(subst k1; exact R2) P1 HD HC) as [Y|[Y (pre & j & post & k' & pk' & -> & A & B & C)]]; [left; exact Y|].
      right. split; [exact Y|]. exists (i :: pre), j, post, k', pk'. cbn [app prv_derivePath]. rewrite D1. cbn [bind]. auto.
    + right. split; [reflexivity|]. exists [], i, path, k, pk. auto.
Qed.

(** Formula of mode V2 *)
Lemma v2_formula k i c : wf_prv k -> kL k + 2 ^ 227 <= 2 ^ 256 -> prv_deriveChild hmac512 enc k i V2 = Ok c ->
  let z := hmac512 (kcc k) ((if 2 ^ 31 <=? i then [0] ++ kbytes k else [2] ++ enc (kL k)) ++ pack_le 4 i) in
  0 <= i < 2 ^ 32 ->
  kL c = kL k + 8 * lev 256 (firstn 28 z) /\ kR c = (kR k + lev 256 (skipn 32 z)) mod 2 ^ 256.
Proof.
  intros W R HD z Hi. apply derive_iff in HD as [U ->].
  assert (Ez : z_of k i V2 = z).
  { unfold z_of, z. rewrite hardened_iff by exact Hi. repeat f_equal.
    unfold serialize_index32, pack_le. cbn [seq map]. rewrite !land_255. reflexivity. }
  destruct (z_of_ok k i V2) as [Lz Bz].
  destruct (child_kL_room k i V2 0 W ltac:(intros _; lia)) as (_ & _ & K). rewrite (K eq_refl), child_kR by exact W.
  rewrite Ez in *. split; [unfold tweak_of; lia|].
  rewrite (firstn_all2 (n := 32) (skipn 32 z)) by (rewrite skipn_length; lia). f_equal. lia.
Qed.

(** Scalars that are multiples of 8 below 8 ell are usable *)
Lemma usable8 v : v mod 8 = 0 -> 0 < v < 8 * ell -> usable v.
Proof.
  intros M B E. apply Z.mod_divide in E; [|pose proof ell_pos; lia]. apply Z.mod_divide in M as [q ->]; [|lia].
  rewrite Z.mul_comm in E. apply Gauss in E.
  - destruct E as [t ->]. pose proof ell_pos as EP. clear -B EP. revert B EP. generalize ell. intros e B EP. destruct (Z_le_gt_dec t 0); nia.
  - apply rel_prime_sym. apply Zgcd_1_rel_prime. vm_compute. reflexivity.
Qed.
Lemma clamped3_usable v : clamped3 v -> usable v.
Proof. intros [M B]. apply usable8; [exact M|]. pose proof ell_bounds. replace (2 ^ 254) with (4 * 2 ^ 252) in B by reflexivity. replace (2 ^ 253) with (2 * 2 ^ 252) in B by reflexivity. lia. Qed.
Lemma clamped_usable v : clamped v -> usable v.
Proof. intros [M B]. apply usable8; [exact M|]. pose proof ell_bounds. replace (2 ^ 254) with (4 * 2 ^ 252) in B by reflexivity. replace (2 ^ 255) with (8 * 2 ^ 252) in B by reflexivity. lia. Qed.

Lemma v2_path path : forall k, wf_prv k -> kL k mod 8 = 0 -> 2 ^ 254 <= kL k -> kL k + Z.of_nat (length path) * 2 ^ 227 < 2 ^ 255 ->
  exists c, prv_derivePath hmac512 enc k path V2 = Ok c /\ wf_prv c /\ kL c mod 8 = 0 /\
    kL k <= kL c <= kL k + Z.of_nat (length path) * (2 ^ 227 - 8).
Proof.
  induction path as [|i path IH]; intros k W M Lo Hi; cbn [prv_derivePath].
  - exists k. repeat split; try apply W; auto; lia.
  - assert (U : usable (kL k)) by (apply clamped_usable; split; [exact M|]; cbn [length] in Hi; nia).
    rewrite (derive_eq _ _ _ U). cbn [bind].
    destruct (z_of_ok k i V2) as [Lz Bz]. destruct (tweak_bound V2 _ Lz Bz) as [_ T]. specialize (T eq_refl) as [T1 T2].
    destruct (child_kL_room k i V2 0 W ltac:(intros _; change (2 ^ 256) with (2 * 2 ^ 255); cbn [length] in Hi; nia)) as (_ & _ & K). specialize (K eq_refl).
    cbn [length] in *. rewrite Nat2Z.inj_succ, Z.mul_succ_l in *.
    destruct (IH (child k i V2)) as (c & D & Wc & Mc & Bc).
    + apply child_wf, W.
    + rewrite K, Z.add_mod, T2, M by lia. reflexivity.
    + lia.
    + lia.
    + exists c. split; [exact D|]. split; [exact Wc|]. split; [exact Mc|]. lia.
Qed.

Lemma v2_total path k : wf_prv k -> clamped3 (kL k) -> (length path <= Z.to_nat (2 ^ 25))%nat ->
  exists c pc, prv_derivePath hmac512 enc k path V2 = Ok c /\ publicKey enc c = Ok pc /\ wf_prv c /\ clamped (kL c).
Proof.
  intros W [M B] L.
  assert (N : Z.of_nat (length path) <= 2 ^ 25) by lia.
  replace (2 ^ 254) with (2 * 2 ^ 253) in B by reflexivity.
  destruct (v2_path path k W M) as (c & D & Wc & Mc & Bc).
  { change (2 ^ 254) with (2 * 2 ^ 253). lia. }
  { change (2 ^ 255) with (4 * 2 ^ 253). assert (2 ^ 253 = 2 * 2 ^ 25 * 2 ^ 227) by reflexivity. nia. }
  assert (C : clamped (kL c)).
  { split; [exact Mc|]. change (2 ^ 254) with (2 * 2 ^ 253). change (2 ^ 255) with (4 * 2 ^ 253).
    assert (2 ^ 253 = 2 * 2 ^ 25 * 2 ^ 227) by reflexivity. nia. }
  exists c. eexists. split; [exact D|]. split; [apply publicKey_ok; split; [apply clamped_usable, C|reflexivity]|]. auto.
Qed.

(** Roots *)
Lemma xprv_of_bytes_wf b : length b = 96%nat -> bytes_ok b -> wf_prv (xprv_of_bytes b) /\ kL (xprv_of_bytes b) = lev 256 (firstn 32 b).
Proof.
  intros L B. unfold wf_prv, xprv_of_bytes, kL. cbn [kbytes kcc]. rewrite !firstn_length, skipn_length.
  repeat split; try lia; try (apply bytes_ok_firstn; auto using bytes_ok_skipn).
  rewrite firstn_firstn. reflexivity.
Qed.
Lemma pbkdf2_root p s : let k := xprv_of_bytes (tweak_bits_icarus (pbkdf2 4096 96 p s)) in wf_prv k /\ clamped3 (kL k).
Proof.
  destruct (pbkdf2_ok _ _ _ _ HO 4096 96%nat p s) as [L B].
  destruct (tweak_icarus_spec (pbkdf2 4096 96 p s) ltac:(lia) B) as (C & B2 & L2).
  destruct (xprv_of_bytes_wf (tweak_bits_icarus (pbkdf2 4096 96 p s)) ltac:(lia) B2) as [W K].
  split; [exact W|]. rewrite K. exact C.
Qed.
Lemma generate_root r : wf_prv (prv_generate pbkdf2 r) /\ clamped3 (kL (prv_generate pbkdf2 r)).
Proof. apply pbkdf2_root. Qed.
Lemma mnemonic_root s p : wf_prv (prv_fromMnemonic pbkdf2 s p) /\ clamped3 (kL (prv_fromMnemonic pbkdf2 s p)).
Proof. apply pbkdf2_root. Qed.
Lemma seed_root s : wf_prv (prv_fromSeed sha512 sha256 s) /\ clamped (kL (prv_fromSeed sha512 sha256 s)).
Proof.
  destruct (sha512_ok _ _ _ _ HO s) as [L B]. destruct (sha256_ok _ _ _ _ HO ([1] ++ s)) as [L1 B1].
  destruct (tweak_byron_spec (sha512 s) ltac:(lia) B) as (C & B2 & L2 & _).
  unfold wf_prv, prv_fromSeed, kL. cbn [kbytes kcc]. repeat split; auto; try apply C. lia.
Qed.

Lemma hash_repeatedly_root count_text fuel : forall key n b, hash_repeatedly sha512 hmac512 count_text fuel key n = Ok b ->
  length b = 96%nat /\ bytes_ok b /\ clamped3 (lev 256 (firstn 32 b)).
Proof.
  induction fuel as [|fuel IH]; intros key n b H; cbn [hash_repeatedly] in H; [discriminate|].
  set (tag := hmac512 key (str "Root Seed Chain " ++ count_text n)) in *.
  destruct (hmac_ok _ _ _ _ HO key (str "Root Seed Chain " ++ count_text n)) as [Lt Bt]. fold tag in Lt, Bt.
  destruct (sha512_ok _ _ _ _ HO (firstn 32 tag)) as [L B].
  destruct (tweak_byron_spec (sha512 (firstn 32 tag)) ltac:(lia) B) as (C & B2 & L2 & C3).
  set (p := tweak_bits_byron (sha512 (firstn 32 tag))) in *.
  destruct (Z.eqb_spec (Z.land (nth 31 p 0) 32) 0) as [E|E]; cbn [negb] in H; [|eapply IH; exact H].
  assert (E2 : b = p ++ skipn 32 tag) by congruence. subst b. rewrite app_length, skipn_length. split; [lia|]. split; [apply bytes_ok_app; split; [exact B2|apply bytes_ok_skipn, Bt]|].
  rewrite firstn_app. replace (32 - length p)%nat with 0%nat by lia. cbn [firstn]. rewrite app_nil_r. apply C3, E.
Qed.
Lemma byron_root blake2b_256 count_text cbor_bstr s k : prv_fromMnemonicByron sha512 blake2b_256 hmac512 count_text cbor_bstr s = Ok k ->
  wf_prv k /\ clamped3 (kL k).
Proof.
  intros H. unfold prv_fromMnemonicByron in H. apply bind_ok in H as (b & Hb & E). injection E as <-.
  apply hash_repeatedly_root in Hb as (L & B & C). destruct (xprv_of_bytes_wf b L B) as [W K]. split; [exact W|]. rewrite K. exact C.
Qed.
Lemma hash_repeatedly_noUB count_text fuel : forall key n, hash_repeatedly sha512 hmac512 count_text fuel key n <> UB.
Proof.
  induction fuel as [|fuel IH]; intros key n; cbn [hash_repeatedly]; [discriminate|].
  destruct (negb _); [apply IH|discriminate].
Qed.

(** What the roots are *)
Lemma pbkdf2_formula p s : let d := pbkdf2 4096 96 p s in let k := xprv_of_bytes (tweak_bits_icarus d) in
  kL k = clamp3 (lev 256 (firstn 32 d)) /\ skipn 32 (kbytes k) = firstn 32 (skipn 32 d) /\ kcc k = skipn 64 d.
Proof.
  intros d k. destruct (pbkdf2_ok _ _ _ _ HO 4096 96%nat p s) as [L B]. fold d in L, B.
  destruct (tweak_icarus_value d ltac:(lia) B) as [V S]. destruct (tweak_icarus_spec d ltac:(lia) B) as (_ & B2 & L2).
  destruct (xprv_of_bytes_wf (tweak_bits_icarus d) ltac:(lia) B2) as [_ K]. unfold k. rewrite K. split; [exact V|]. unfold xprv_of_bytes. cbn [kbytes kcc].
  split.
  - rewrite skipn_firstn_comm. change (64 - 32)%nat with 32%nat. rewrite S. reflexivity.
  - replace (skipn 64 (tweak_bits_icarus d)) with (skipn 64 d); [apply firstn_all2; rewrite skipn_length; lia|].
    assert (X : forall l : list Z, skipn 64 l = skipn 32 (skipn 32 l)) by (intros l; do 32 (destruct l as [|? l]; [reflexivity|]); reflexivity).
    rewrite !X, S. reflexivity.
Qed.
Lemma seed_formula s : let k := prv_fromSeed sha512 sha256 s in
  kL k = clamp (lev 256 (firstn 32 (sha512 s))) /\ skipn 32 (kbytes k) = skipn 32 (sha512 s) /\ kcc k = sha256 (1 :: s).
Proof.
  destruct (sha512_ok _ _ _ _ HO s) as [L B]. destruct (tweak_byron_value (sha512 s) ltac:(lia) B) as (V & S & _).
  cbv zeta. unfold kL, prv_fromSeed. cbn [kbytes kcc]. split; [exact V|]. split; [exact S|reflexivity].
Qed.
Lemma repeatedly_formula count_text fuel : forall key n,
  let v j := lev 256 (firstn 32 (root_hash sha512 hmac512 count_text key j)) in
  let bit253 j := v j / 2 ^ 253 mod 2 in
  (exists j, n <= j < n + Z.of_nat fuel /\ (forall i, n <= i < j -> bit253 i = 1) /\ bit253 j = 0 /\
    exists b, hash_repeatedly sha512 hmac512 count_text fuel key n = Ok b /\ let k := xprv_of_bytes b in
    kL k = clamp (v j) /\ skipn 32 (kbytes k) = skipn 32 (root_hash sha512 hmac512 count_text key j) /\ kcc k = skipn 32 (root_tag hmac512 count_text key j)) \/
  (forall i, n <= i < n + Z.of_nat fuel -> bit253 i = 1) /\ hash_repeatedly sha512 hmac512 count_text fuel key n = Throw.
Proof.
  induction fuel as [|fuel IH]; intros key n v bit253; cbn [hash_repeatedly]; [right; split; [intros i Hi; lia|reflexivity]|].
  destruct (hmac_ok _ _ _ _ HO key (str "Root Seed Chain " ++ count_text n)) as [Lt Bt]. change (hmac512 key (str "Root Seed Chain " ++ count_text n)) with (root_tag hmac512 count_text key n) in *.
  change (sha512 (firstn 32 (root_tag hmac512 count_text key n))) with (root_hash sha512 hmac512 count_text key n).
  destruct (sha512_ok _ _ _ _ HO (firstn 32 (root_tag hmac512 count_text key n))) as [L B]. change (sha512 (firstn 32 (root_tag hmac512 count_text key n))) with (root_hash sha512 hmac512 count_text key n) in L, B.
  set (h := root_hash sha512 hmac512 count_text key n) in *. set (tag := root_tag hmac512 count_text key n) in *.
  destruct (tweak_byron_value h ltac:(lia) B) as (V & S & T). destruct (tweak_byron_spec h ltac:(lia) B) as (_ & B2 & L2 & _).
  rewrite T. assert (Q : bit253 n = lev 256 (firstn 32 h) / 2 ^ 253 mod 2) by reflexivity. rewrite <- Q.
  assert (R : bit253 n = 0 \/ bit253 n = 1) by (pose proof (Z.mod_pos_bound (lev 256 (firstn 32 h) / 2 ^ 253) 2 ltac:(lia)); lia).
  destruct R as [R|R].
  - left. rewrite R. exists n. split; [lia|]. split; [intros i Hi; lia|]. split; [exact R|]. cbn [Z.mul Z.eqb negb]. eexists. split; [reflexivity|]. cbv zeta.
    unfold kL, xprv_of_bytes. cbn [kbytes kcc].
    rewrite (firstn_app_exact (tweak_bits_byron h)) by lia. rewrite (skipn_app_exact (tweak_bits_byron h)) by lia.
    split; [exact V|]. split; [exact S|]. fold tag. rewrite firstn_all2; [reflexivity|]. rewrite skipn_length. rewrite Lt. apply Nat.leb_le. reflexivity.
  - rewrite R. change (negb (32 * 1 =? 0)) with true. cbv iota. destruct (IH key (n + 1)) as [(j & J & A1 & A2 & A3)|[A1 A2]].
    + left. exists j. split; [lia|]. split; [|split; assumption]. intros i Hi. destruct (Z.eq_dec i n) as [->|]; [exact R|apply A1; lia].
    + right. split; [|exact A2]. intros i Hi. destruct (Z.eq_dec i n) as [->|]; [exact R|apply A1; lia].
Qed.
Lemma byron_formula blake2b_256 count_text cbor_bstr s :
  let key := cbor_bstr (blake2b_256 (cbor_bstr s)) in
  let v j := lev 256 (firstn 32 (root_hash sha512 hmac512 count_text key j)) in
  let bit253 j := v j / 2 ^ 253 mod 2 in
  (exists j, 1 <= j <= 1000 /\ (forall i, 1 <= i < j -> bit253 i = 1) /\ bit253 j = 0 /\
    exists k, prv_fromMnemonicByron sha512 blake2b_256 hmac512 count_text cbor_bstr s = Ok k /\
    kL k = clamp (v j) /\ skipn 32 (kbytes k) = skipn 32 (root_hash sha512 hmac512 count_text key j) /\ kcc k = skipn 32 (root_tag hmac512 count_text key j)) \/
  (forall i, 1 <= i <= 1000 -> bit253 i = 1) /\ prv_fromMnemonicByron sha512 blake2b_256 hmac512 count_text cbor_bstr s = Throw.
Proof.
  intros key v bit253. unfold prv_fromMnemonicByron, hash_seed. fold key. destruct (repeatedly_formula count_text 1000 key 1) as [(j & J & A1 & A2 & b & A3 & A4)|[A1 A2]].
  - left. exists j. split; [lia|]. split; [exact A1|]. split; [exact A2|]. exists (xprv_of_bytes b). rewrite A3. split; [reflexivity|exact A4].
  - right. split; [intros i Hi; apply A1; lia|]. rewrite A2. reflexivity.
Qed.

(** Signatures *)
Lemma sign_verifies verify k m sig pk : ed_verifies enc sha512 verify ->
  sign sha512 enc k m = Ok sig -> publicKey enc k = Ok pk -> length sig = 64%nat /\ verify (pbytes pk) m sig = true.
Proof.
  intros EV HS HP. unfold sign in HS. rewrite HP in HS. cbn [bind] in HS.
  apply publicKey_ok in HP as [U ->]. cbn [pbytes] in *.
  unfold bip32_sign in HS. set (r := lev 256 (sha512 (skipn 32 (kbytes k) ++ m)) mod ell) in *.
  unfold mul_base in HS. destruct (Z.eqb_spec r 0) as [E|E]; [discriminate|]. cbn [bind] in HS. assert (OI : forall (x y : list Z), Ok x = Ok y -> x = y) by congruence. apply OI in HS. subst sig.
  unfold sc_reduce. fold (kL k). pose proof ell_bounds as EB.
  match goal with |- context [pack_le 32 ?v] => set (S := v) end.
  assert (SB : 0 <= S < ell) by (apply Z.mod_pos_bound; lia).
  split; [rewrite app_length, (enc_len _ _ EG), pack_le_length; reflexivity|].
  apply EV; [lia|]. split; [exact U|].
  assert (Er : r mod ell = r) by (unfold r; apply Z.mod_mod; lia).
  split; [rewrite Er; exact E|]. split; [lia|]. unfold S.
  rewrite <- Z.mul_mod by lia. rewrite Z.add_mod_idemp_l by lia. f_equal. ring.
Qed.
Lemma sign_total k m : usable (kL k) ->
  sign sha512 enc k m = Throw /\ lev 256 (sha512 (skipn 32 (kbytes k) ++ m)) mod ell = 0 \/
  exists sig, sign sha512 enc k m = Ok sig.
Proof.
  intros U. unfold sign. rewrite publicKey_spec. unfold usable in U. destruct (Z.eqb_spec (kL k mod ell) 0); [contradiction|].
  cbn [bind]. unfold bip32_sign, mul_base. destruct (Z.eqb_spec (lev 256 (sha512 (skipn 32 (kbytes k) ++ m)) mod ell) 0) as [E|E]; [left; auto|right].
  eexists. reflexivity.
Qed.
End P.

(** ** Encryption *)
Lemma xor_xor (a : list Z) : forall s, (length a <= length s)%nat -> xor_bytes (xor_bytes a s) s = a.
Proof.
  induction a as [|x a IH]; intros [|y s] H; cbn [length] in H; try lia; try reflexivity.
  unfold xor_bytes in *. cbn [combine map fst snd]. f_equal.
  - rewrite Z.lxor_assoc, Z.lxor_nilpotent, Z.lxor_0_r. reflexivity.
  - apply IH. lia.
Qed.
Lemma decrypt_encrypt pbkdf2 chacha20 k p : wf_prv k -> (forall key nonce n, length (chacha20 key nonce n) = n) ->
  decrypt pbkdf2 chacha20 (encrypt pbkdf2 chacha20 k p) p = k.
Proof.
  intros W L. destruct p as [|x p]; [reflexivity|]. unfold decrypt, encrypt. cbn [kbytes kcc].
  rewrite xor_xor; [destruct k; reflexivity|]. unfold stream. cbv zeta. rewrite L, (proj1 W). lia.
Qed.
