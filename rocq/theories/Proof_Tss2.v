From Verif Require Import Base BaseLemmas Model_Hex Proof_Hex Spec_Ed25519 Prime Model_Bip32 Spec_Bip32 Proof_Bip32 Proof_Bip32b Model_Tss Spec_Tss Proof_Poly Proof_Tss.
From Coq Require Import Znumtheory Permutation Sorted.
Ltac Zify.zify_post_hook ::= idtac.
Local Notation "a == b" := (eqm ell a b) (at level 70).
Local Hint Resolve prime_ell ell0 : core.
Opaque sc_inv.

Definition sumz (l : list Z) : Z := fold_right Z.add 0 l.
Lemma sumz_app a b : sumz (a ++ b) = sumz a + sumz b.
Proof. unfold sumz. induction a as [|x a IH]; [reflexivity|]. cbn [app fold_right]. rewrite IH. ring. Qed.
Lemma sumz_perm a b : Permutation a b -> sumz a = sumz b.
Proof. unfold sumz. induction 1; cbn [fold_right]; lia. Qed.
Lemma sumz_map_ext {A} (f g : A -> Z) l : (forall x, In x l -> f x == g x) -> sumz (map f l) == sumz (map g l).
Proof.
  induction l as [|a l IH]; intros H; [apply eqm_ref|]. unfold sumz; cbn [map fold_right]. apply eqm_add; auto; [apply H; left; reflexivity|].
  apply IH. intros x I. apply H. right; exact I.
Qed.
Definition kscal (k : keyshare) : Z := key_scalar (ks_key k).
Definition kl (k : keyshare) : Z := kL (ks_key k).

Section Keys.
Variable sha512 sha256 : list Z -> list Z.
Variable enc : Z -> list Z.
Variable padd : list Z -> list Z -> option (list Z).
Hypothesis EG : ed_group enc padd.

Lemma enc_eqm a b : a == b -> enc a = enc b.
Proof. intros E. rewrite <- (enc_mod _ _ EG a), <- (enc_mod _ _ EG b). f_equal. exact E. Qed.
Lemma enc_eqm_inv a b : enc a = enc b -> a == b.
Proof. apply (enc_inj _ _ EG). Qed.
Lemma pt_add_enc a b : pt_add padd (enc a) (enc b) = Ok (enc (a + b)).
Proof. unfold pt_add. rewrite (padd_enc _ _ EG). reflexivity. Qed.
Lemma sum_points_enc l : forall a, sum_points padd (enc a) (map enc l) = Ok (enc (a + sumz l)).
Proof.
  induction l as [|x l IH]; intros a; cbn [map sum_points]; [rewrite Z.add_0_r; reflexivity|].
  rewrite pt_add_enc. cbn [bind]. rewrite IH. do 2 f_equal. unfold sumz; cbn [fold_right]. ring.
Qed.

Lemma pub_bytes k : usable (kL k) -> omap pbytes (publicKey enc k) = Ok (enc (kL k)).
Proof.
  intros U. unfold omap. assert (P : publicKey enc k = Ok {| pbytes := enc (kL k); pcc := kcc k |}) by (apply (publicKey_ok enc padd EG); auto).
  rewrite P. reflexivity.
Qed.
Lemma pubs_ok ks : (forall k, In k ks -> usable (kl k)) ->
  mapM (fun s => omap pbytes (publicKey enc (ks_key s))) ks = Ok (map enc (map kl ks)).
Proof. intros H. rewrite map_map. apply mapM_ok_map. intros k I. apply pub_bytes, H, I. Qed.
Lemma pubs_inv ks l : mapM (fun s => omap pbytes (publicKey enc (ks_key s))) ks = Ok l -> forall k, In k ks -> usable (kl k).
Proof.
  revert l; induction ks as [|x ks IH]; intros l H k I; [destruct I|]. cbn [mapM] in H.
  apply bind_ok in H as (p & Hp & H). apply bind_ok in H as (ps & Hps & _). destruct I as [<-|I]; [|eapply IH; eauto].
  unfold omap in Hp. apply bind_ok in Hp as (q & Hq & _). apply (publicKey_ok enc padd EG) in Hq. apply Hq.
Qed.
Definition cc_of_keys (ks : list keyshare) : list Z := sha256 (concat (map enc (map kl ks))).
Lemma make_cc_ok ks : (forall k, In k ks -> usable (kl k)) -> make_cc sha256 enc ks = Ok (cc_of_keys ks).
Proof. intros H. unfold make_cc. rewrite (pubs_ok ks H). reflexivity. Qed.
Lemma make_cc_inv ks c : make_cc sha256 enc ks = Ok c -> (forall k, In k ks -> usable (kl k)) /\ c = cc_of_keys ks.
Proof.
  intros H. assert (U : forall k, In k ks -> usable (kl k)).
  { unfold make_cc in H. apply bind_ok in H as (l & Hl & _). eapply pubs_inv; exact Hl. }
  split; [exact U|]. rewrite (make_cc_ok ks U) in H. congruence.
Qed.

(** ** Direct splitting *)
Definition gshare (gen : nat -> xprv) (j : nat) : keyshare := {| ks_id := Z.of_nat j + 1; ks_key := gen j |}.
Definition gsum (gen : nat -> xprv) (m : nat) : Z := sumz (map kscal (map (gshare gen) (seq 0 m))).
Lemma gsum_S gen m : gsum gen (S m) = gsum gen m + key_scalar (gen m).
Proof. unfold gsum. rewrite seq_S, !map_app, sumz_app. cbn [Nat.add map]. unfold sumz at 2; cbn [fold_right]. unfold kscal at 2, gshare at 2. cbn [ks_key]. ring. Qed.

Lemma direct_loop_ok gen s k : forall i ss ab keys, 0 <= ss < ell -> ss == s - gsum gen i -> ((0 < i)%nat -> ab = enc (gsum gen i)) ->
  exists ss' ab', direct_loop enc padd gen i k ss ab keys = Ok (ss', ab', keys ++ map (gshare gen) (seq i k)) /\
    0 <= ss' < ell /\ ss' == s - gsum gen (i + k) /\ ((0 < i + k)%nat -> ab' = enc (gsum gen (i + k))) /\ (k = 0%nat -> ab' = ab /\ ss' = ss).
Proof.
  induction k as [|k IH]; intros i ss ab keys B E A; cbn [direct_loop].
  - exists ss, ab. cbn [seq map]. rewrite app_nil_r, Nat.add_0_r. repeat split; auto; lia.
  - cbv zeta. set (ai := key_scalar (gen i)).
    assert (X : exists ab1, match i with O => Ok (pt_mul enc ai) | _ => pt_add padd ab (pt_mul enc ai) end = Ok ab1 /\ ab1 = enc (gsum gen (S i))).
    { destruct i as [|i].
      - eexists. split; [reflexivity|]. rewrite gsum_S. reflexivity.
      - rewrite (A ltac:(lia)). unfold pt_mul. rewrite pt_add_enc. eexists. split; [reflexivity|]. rewrite (gsum_S gen (S i)). reflexivity. }
    destruct X as (ab1 & X1 & X2). 
    replace (match i with O => Ok (pt_mul enc ai) | _ => pt_add padd ab (pt_mul enc ai) end) with (Ok ab1) by (symmetry; exact X1).
    cbn [bind].
    destruct (IH (S i) (sc_sub ss ai) ab1 (keys ++ [gshare gen i]) (mod_range _)) as (ss' & ab' & R & B' & E' & A' & _).
    + unfold sc_sub. apply (eqm_trans ell _ (ss - ai)); [apply eqm_mod_l|]. rewrite gsum_S. fold ai.
      replace (s - (gsum gen i + ai)) with (s - gsum gen i + - ai) by ring. replace (ss - ai) with (ss + - ai) by ring. apply eqm_add; auto; apply eqm_ref.
    + intros _. exact X2.
    + exists ss', ab'. fold (gshare gen i). rewrite R. rewrite <- app_assoc. cbn [seq map app].
      replace (i + S k)%nat with (S i + k)%nat by lia. repeat split; auto; try lia; discriminate.
Qed.

Definition last_scalar (root : xprv) (gen : nat -> xprv) (m : nat) : Z := (key_scalar root - gsum gen m) mod ell.
Definition direct_keys (root : xprv) (n : Z) (gen : nat -> xprv) : list keyshare :=
  let m := Z.to_nat (n - 1) in
  map (gshare gen) (seq 0 m) ++ [{| ks_id := n; ks_key := extend_scalar sha512 (last_scalar root gen m) |}].

Lemma direct_split_eq root n gen : 1 <= n < 2 ^ 32 ->
  direct_split sha512 sha256 enc padd root n gen =
    let* cc := make_cc sha256 enc (direct_keys root n gen) in
    Ok ({| pbytes := enc (if n =? 1 then 1 + key_scalar root else key_scalar root); pcc := cc |}, direct_keys root n gen).
Proof.
  intros Hn. unfold direct_split. rewrite Z.mod_small by lia. set (m := Z.to_nat (n - 1)).
  destruct (direct_loop_ok gen (key_scalar root) m 0 (key_scalar root) (pt_mul enc (sc_fromUint 1)) []) as (ss & ab & R & B & E & A & Z0).
  - apply key_scalar_range.
  - unfold gsum; cbn. rewrite Z.sub_0_r. apply eqm_ref.
  - lia.
  - rewrite R. cbn [bind app Nat.add] in *.
    assert (ES : ss = last_scalar root gen m) by (apply eqm_small; [assumption|apply mod_range|]; apply (eqm_trans ell _ _ _ E); apply eqm_sym, eqm_mod_l).
    rewrite ES. fold (direct_keys root n gen).
    assert (P : pt_add padd ab (pt_mul enc (last_scalar root gen m)) = Ok (enc (if n =? 1 then 1 + key_scalar root else key_scalar root))).
    { unfold pt_mul. destruct (Z.eqb_spec n 1) as [N|N].
      - assert (M0 : m = 0%nat) by (unfold m; subst n; reflexivity). destruct (Z0 M0) as [-> Es]. unfold pt_mul, sc_fromUint.
        rewrite pt_add_enc, <- ES, Es. reflexivity.
      - rewrite A by (unfold m; lia). rewrite pt_add_enc. f_equal. apply enc_eqm. unfold last_scalar.
        apply (eqm_trans ell _ (gsum gen m + (key_scalar root - gsum gen m))); [apply eqm_add; auto; [apply eqm_ref|apply eqm_mod_l]|].
        replace (gsum gen m + (key_scalar root - gsum gen m)) with (key_scalar root) by ring. apply eqm_ref. }
    rewrite P. cbn [bind]. reflexivity.
Qed.

Lemma direct_keys_sum root n gen : 1 <= n -> sumz (map kscal (direct_keys root n gen)) == key_scalar root.
Proof.
  intros Hn. unfold direct_keys. rewrite map_app, sumz_app. fold (gsum gen (Z.to_nat (n - 1))). cbn [map]. unfold sumz at 1; cbn [fold_right].
  unfold kscal. cbn [ks_key]. rewrite extend_scalar_ok by apply mod_range. unfold last_scalar. rewrite Z.add_0_r.
  apply (eqm_trans ell _ (gsum gen (Z.to_nat (n - 1)) + (key_scalar root - gsum gen (Z.to_nat (n - 1))))); [apply eqm_add; auto; [apply eqm_ref|apply eqm_mod_l]|].
  replace (gsum gen (Z.to_nat (n - 1)) + (key_scalar root - gsum gen (Z.to_nat (n - 1)))) with (key_scalar root) by ring. apply eqm_ref.
Qed.
Lemma kscal_kl k : kscal k == kl k. Proof. apply eqm_mod_l. Qed.
Lemma sum_kl ks : sumz (map kscal ks) == sumz (map kl ks).
Proof. apply sumz_map_ext. intros; apply kscal_kl. Qed.

Lemma direct_keys_ids root n gen : 1 <= n -> map ks_id (direct_keys root n gen) = map Z.of_nat (seq 1 (Z.to_nat n)).
Proof.
  intros Hn. unfold direct_keys. rewrite map_app, map_map. cbn [map ks_id gshare].
  replace (Z.to_nat n) with (S (Z.to_nat (n - 1))) by lia. rewrite seq_S, map_app. cbn [map]. f_equal.
  - rewrite <- seq_shift, map_map. apply map_ext. intros. cbn [ks_id gshare]. lia.
  - f_equal. lia.
Qed.

(** Composite keys of a direct dealer: any list of usable shares. *)
Lemma direct_compositeKey d ks : algorithm d = Direct -> (forall k, In k ks -> usable (kl k)) -> ks <> [] -> threshold d <= zlen ks ->
  compositeKey sha512 sha256 enc padd d ks = Ok {| pbytes := enc (sumz (map kl ks)); pcc := cc_of_keys ks |}.
Proof.
  intros A U N T. unfold compositeKey. unfold zlen in T. destruct (Z.ltb_spec (Z.of_nat (length ks)) (threshold d)); [lia|]. rewrite A.
  rewrite (pubs_ok ks U). cbn [bind]. destruct ks as [|k r]; [congruence|]. cbn [map]. rewrite sum_points_enc. reflexivity.
Qed.
Lemma direct_compositeKeyPub d ks : algorithm d = Direct -> ks <> [] -> threshold d <= zlen ks ->
  compositeKeyPub sha256 padd d (map (fun k => {| pbytes := enc (kl k); pcc := kcc (ks_key k) |}) ks) = Ok {| pbytes := enc (sumz (map kl ks)); pcc := cc_of_keys ks |}.
Proof.
  intros A N T. unfold compositeKeyPub, make_cc_pub. unfold zlen in T. rewrite map_length. destruct (Z.ltb_spec (Z.of_nat (length ks)) (threshold d)); [lia|]. rewrite A.
  rewrite map_map. cbn [pbytes]. rewrite <- (map_map kl enc). destruct ks as [|k r]; [congruence|]. cbn [map]. rewrite sum_points_enc. reflexivity.
Qed.
Lemma fold_sc_add ks : forall s, 0 <= s < ell ->
  0 <= fold_left (fun s x => sc_add s (kscal x)) ks s < ell /\ fold_left (fun s x => sc_add s (kscal x)) ks s == s + sumz (map kscal ks).
Proof.
  induction ks as [|k ks IH]; intros s B; cbn [fold_left map].
  - unfold sumz; cbn [fold_right]. rewrite Z.add_0_r. split; [exact B|apply eqm_ref].
  - destruct (IH (sc_add s (kscal k)) (mod_range _)) as [R E]. split; [exact R|]. apply (eqm_trans ell _ _ _ E).
    unfold sumz at 2; cbn [fold_right]. fold (sumz (map kscal ks)). rewrite Z.add_assoc. apply eqm_add; auto; [apply eqm_mod_l|apply eqm_ref].
Qed.
Lemma kL_pack s r c : 0 <= s < ell -> kL {| kbytes := pack_le 32 s ++ r; kcc := c |} = s.
Proof.
  intros B. unfold kL. cbn [kbytes]. rewrite firstn_app_exact by (symmetry; apply pack_le_length).
  pose proof (pack_le_value 32 s) as X. rewrite X. apply Z.mod_small. pose proof ell_bounds. change (256 ^ Z.of_nat 32) with (2 ^ 256). lia.
Qed.
Lemma direct_compositeSigningKey d ks : algorithm d = Direct -> (forall k, In k ks -> usable (kl k)) -> ks <> [] -> threshold d <= zlen ks ->
  exists k, compositeSigningKey sha512 sha256 enc d ks = Ok k /\ kL k = sumz (map kl ks) mod ell /\ kcc k = cc_of_keys ks.
Proof.
  intros A U N T. unfold compositeSigningKey. unfold zlen in T. destruct (Z.ltb_spec (Z.of_nat (length ks)) (threshold d)); [lia|]. rewrite A.
  destruct ks as [|k r]; [congruence|]. rewrite (make_cc_ok (k :: r) U). cbn [bind]. cbv zeta.
  change (fun (s : Z) (x : keyshare) => sc_add s (key_scalar (ks_key x))) with (fun s x => sc_add s (kscal x)).
  destruct (fold_sc_add r (kscal k) (key_scalar_range _)) as [B E]. change (key_scalar (ks_key k)) with (kscal k).
  eexists. split; [reflexivity|]. split; [|reflexivity]. rewrite kL_pack by exact B.
  apply eqm_small; [assumption|apply mod_range|]. apply (eqm_trans ell _ _ _ E). change (kscal k + sumz (map kscal r)) with (sumz (map kscal (k :: r))).
  apply (eqm_trans ell _ _ _ (sum_kl (k :: r))). apply eqm_sym, eqm_mod_l.
Qed.

Lemma direct_split_inv root n gen pk keys : 1 <= n < 2 ^ 32 -> direct_split sha512 sha256 enc padd root n gen = Ok (pk, keys) ->
  keys = direct_keys root n gen /\ (forall k, In k keys -> usable (kl k)) /\
  pk = {| pbytes := enc (if n =? 1 then 1 + key_scalar root else key_scalar root); pcc := cc_of_keys keys |}.
Proof.
  intros Hn H. rewrite direct_split_eq in H by exact Hn. apply bind_ok in H as (cc & Hc & H). apply make_cc_inv in Hc as [U ->]. injection H as <- <-. auto.
Qed.
Lemma direct_split_total root n gen : 1 <= n < 2 ^ 32 ->
  (forall j, (Z.of_nat j < n - 1) -> usable (kL (gen j))) -> usable (kL root - sumz (map (fun j => kL (gen j)) (seq 0 (Z.to_nat (n - 1))))) ->
  exists r, direct_split sha512 sha256 enc padd root n gen = Ok r.
Proof.
  intros Hn U L. rewrite direct_split_eq by exact Hn. rewrite make_cc_ok; [eexists; reflexivity|].
  intros k I. unfold direct_keys in I. apply in_app_iff in I as [I|[<-|[]]].
  - apply in_map_iff in I as (j & <- & I). apply in_seq in I. apply U. lia.
  - unfold kl. cbn [ks_key]. rewrite extend_kL by apply mod_range. unfold usable, last_scalar. rewrite Z.mod_mod by auto.
    intros E. apply L. rewrite <- E. fold (eqm ell (kL root - sumz (map (fun j => kL (gen j)) (seq 0 (Z.to_nat (n - 1))))) (key_scalar root - gsum gen (Z.to_nat (n - 1)))).
    replace (kL root - sumz (map (fun j => kL (gen j)) (seq 0 (Z.to_nat (n - 1))))) with (kL root + - sumz (map (fun j => kL (gen j)) (seq 0 (Z.to_nat (n - 1))))) by ring.
    replace (key_scalar root - gsum gen (Z.to_nat (n - 1))) with (key_scalar root + - gsum gen (Z.to_nat (n - 1))) by ring.
    apply eqm_add; auto; [apply eqm_sym, eqm_mod_l|]. apply eqm_opp; auto. unfold gsum. rewrite map_map. apply sumz_map_ext. intros x _. apply eqm_sym, eqm_mod_l.
Qed.

(** ** Signatures *)
Variable verify : list Z -> list Z -> list Z -> bool.
Hypothesis EV : ed_verifies enc sha512 verify.

Lemma sc_reduce_pack s : 0 <= s < ell -> sc_reduce (pack_le 32 s) = s.
Proof.
  intros B. unfold sc_reduce. pose proof (pack_le_value 32 s) as X. pose proof ell_bounds.
  rewrite X. change (256 ^ Z.of_nat 32) with (2 ^ 256). rewrite (Z.mod_small s (2 ^ 256)) by lia. apply Z.mod_small, B.
Qed.
Lemma commit_ok nonce : zlen nonce = 32 \/ zlen nonce = 64 ->
  commitmentShareFromNonce enc nonce = Ok (enc (sc_reduce nonce), pack_le 32 (sc_reduce nonce)).
Proof.
  intros H. unfold commitmentShareFromNonce. destruct (Z.eqb_spec (zlen nonce) 32); destruct (Z.eqb_spec (zlen nonce) 64); try lia; reflexivity.
Qed.

Lemma fold_sigs R ss : length R = 32%nat -> (forall s, In s ss -> 0 <= s < ell) -> forall a, 0 <= a < ell ->
  0 <= fold_left (fun a s => sc_add a (sc_reduce (skipn 32 s))) (map (fun s => R ++ pack_le 32 s) ss) a < ell /\
  fold_left (fun a s => sc_add a (sc_reduce (skipn 32 s))) (map (fun s => R ++ pack_le 32 s) ss) a == a + sumz ss.
Proof.
  intros LR. induction ss as [|s ss IH]; intros B a Ba; cbn [map fold_left].
  - unfold sumz; cbn [fold_right]. rewrite Z.add_0_r. split; [exact Ba|apply eqm_ref].
  - rewrite skipn_app_exact by lia. rewrite sc_reduce_pack by (apply B; left; reflexivity).
    destruct (IH (fun x I => B x (or_intror I)) (sc_add a s) (mod_range _)) as [X Y]. split; [exact X|].
    apply (eqm_trans ell _ _ _ Y). unfold sumz at 2; cbn [fold_right]. fold (sumz ss). rewrite Z.add_assoc. apply eqm_add; auto; [apply eqm_mod_l|apply eqm_ref].
Qed.
Lemma aggregate_ok R ss : length R = 32%nat -> ss <> [] -> (forall s, In s ss -> 0 <= s < ell) ->
  aggregateSignatureShares (map (fun s => R ++ pack_le 32 s) ss) = Ok (R ++ pack_le 32 (sumz ss mod ell)).
Proof.
  intros LR N B. unfold aggregateSignatureShares.
  destruct (fold_sigs R ss LR B 0 ltac:(pose proof ell_pos; lia)) as [X Y]. 
  assert (E : fold_left (fun a s => sc_add a (sc_reduce (skipn 32 s))) (map (fun s => R ++ pack_le 32 s) ss) 0 = sumz ss mod ell).
  { apply eqm_small; [assumption|apply mod_range|]. apply (eqm_trans ell _ _ _ Y). rewrite Z.add_0_l. apply eqm_sym, eqm_mod_l. }
  assert (F : forallb (fun s => zlist_eqb R (firstn 32 s)) (map (fun s => R ++ pack_le 32 s) ss) = true).
  { apply forallb_forall. intros s I. apply in_map_iff in I as (x & <- & _). rewrite firstn_app_exact by lia. apply zlist_eqb_refl. }
  destruct ss as [|s0 ss]; [congruence|]. cbn [map] in *.
  rewrite (firstn_app_exact R) by lia. rewrite F. cbn [negb]. rewrite E. reflexivity.
Qed.

(** The common algebra: shares r_i + k c_i a_i with the r_i, c_i a_i summing to r and a. *)
Lemma combined_verifies (parts : list (Z * Z)) (r a : Z) msg : parts <> [] ->
  sumz (map fst parts) == r -> sumz (map snd parts) == a -> ~ r == 0 -> ~ a == 0 ->
  let R := enc r in
  let k := sc_reduce (sha512 (R ++ enc a ++ msg)) in
  exists sig, aggregateSignatureShares (map (fun p => R ++ pack_le 32 ((fst p + k * snd p) mod ell)) parts) = Ok sig /\ verify (enc a) msg sig = true.
Proof.
  intros N ER EA Nr Na R k.
  rewrite <- (map_map (fun p => (fst p + k * snd p) mod ell) (fun s => R ++ pack_le 32 s)).
  rewrite aggregate_ok.
  - eexists. split; [reflexivity|]. unfold R. apply EV; [pose proof ell_bounds; pose proof (mod_range (sumz (map (fun p => (fst p + k * snd p) mod ell) parts))); lia|].
    split; [exact Na|]. split; [exact Nr|]. split; [apply mod_range|].
    fold (eqm ell (sumz (map (fun p => (fst p + k * snd p) mod ell) parts)) (r + lev 256 (sha512 (enc r ++ enc a ++ msg)) * a)).
    apply (eqm_trans ell _ (sumz (map fst parts) + k * sumz (map snd parts))).
    + clear. induction parts as [|p ps IH]; [unfold sumz; cbn; rewrite Z.mul_0_r; apply eqm_ref|].
      unfold sumz; cbn [map fold_right]. fold (sumz (map (fun p => (fst p + k * snd p) mod ell) ps)). fold (sumz (map fst ps)). fold (sumz (map snd ps)).
      replace (fst p + sumz (map fst ps) + k * (snd p + sumz (map snd ps))) with ((fst p + k * snd p) + (sumz (map fst ps) + k * sumz (map snd ps))) by ring.
      apply eqm_add; auto. apply eqm_mod_l.
    + apply eqm_add; auto. apply eqm_mul; auto. unfold k, sc_reduce. apply eqm_mod_l.
  - apply (enc_len _ _ EG).
  - destruct parts; [congruence|discriminate].
  - intros s I. apply in_map_iff in I as (p & <- & _). apply mod_range.
Qed.

Lemma agg_commit (ns : list (list Z)) : ns <> [] -> 
  aggregateCommitmentShares padd (map (fun n => enc (sc_reduce n)) ns) = Ok (enc (sumz (map sc_reduce ns))).
Proof.
  intros N. destruct ns as [|n ns]; [congruence|]. cbn [map aggregateCommitmentShares]. rewrite <- (map_map sc_reduce enc). rewrite sum_points_enc. reflexivity.
Qed.

(** Direct groups. *)
Definition direct_sigs (msg R : list Z) (pk : xpub) (grp : list (list Z * keyshare)) : list (list Z) :=
  map (fun p => signatureShare0 sha512 msg (pack_le 32 (sc_reduce (fst p))) R pk (snd p)) grp.

Lemma direct_signature d grp pk msg : algorithm d = Direct -> grp <> [] ->
  compositeKey sha512 sha256 enc padd d (map snd grp) = Ok pk ->
  let rs := map fst grp in
  exists R, aggregateCommitmentShares padd (map (fun n => enc (sc_reduce n)) rs) = Ok R /\
    (R <> enc 0 -> pbytes pk <> enc 0 ->
     exists sig, aggregateSignatureShares (direct_sigs msg R pk grp) = Ok sig /\ verify (pbytes pk) msg sig = true).
Proof.
  intros A N CK rs. exists (enc (sumz (map sc_reduce rs))). split; [apply agg_commit; unfold rs; destruct grp; [congruence|discriminate]|].
  set (r := sumz (map sc_reduce rs)). set (a := sumz (map kl (map snd grp))).
  assert (PK : pbytes pk = enc a).
  { assert (T : threshold d <= zlen (map snd grp) /\ forall k, In k (map snd grp) -> usable (kl k)).
    { unfold compositeKey in CK. unfold zlen. destruct (Z.ltb_spec (Z.of_nat (length (map snd grp))) (threshold d)); [discriminate|]. split; [lia|].
      rewrite A in CK. apply bind_ok in CK as (l & Hl & _). eapply pubs_inv; exact Hl. }
    rewrite (direct_compositeKey d (map snd grp) A (proj2 T)) in CK; [|destruct grp; [congruence|discriminate]|apply T]. injection CK as <-. reflexivity. }
  intros NR NA. rewrite PK in *.
  destruct (combined_verifies (map (fun p => (sc_reduce (fst p), kscal (snd p))) grp) r a msg) as (sig & S & V).
  - destruct grp; [congruence|discriminate].
  - rewrite map_map. cbn [fst]. unfold r, rs. rewrite map_map. apply eqm_ref.
  - rewrite map_map. cbn [snd]. unfold a. rewrite map_map. apply sumz_map_ext. intros p _. apply kscal_kl.
  - intros E. apply NR. apply enc_eqm, E.
  - intros E. apply NA. apply enc_eqm, E.
  - exists sig. split; [|exact V]. rewrite <- S. f_equal. unfold direct_sigs. rewrite map_map. apply map_ext. intros p. cbn [fst snd].
    unfold signatureShare0. rewrite PK. cbv zeta. rewrite sc_reduce_pack by apply mod_range. unfold sc_add, sc_mul.
    rewrite Z.add_mod_idemp_r by auto. reflexivity.
Qed.

(** Shamir groups. *)
Lemma sumn_dot (ys : list Z) : forall cs, length cs = length ys -> sumn (fun i => nth i cs 0 * nth i ys 0) (length ys) = sumz (map (fun p => fst p * snd p) (combine cs ys)).
Proof.
  induction ys as [|y ys IH]; intros [|c cs] L; try discriminate L; [reflexivity|]. cbn [length]. rewrite sumn_shift. cbn [nth combine map].
  unfold sumz; cbn [fold_right fst snd]. fold (sumz (map (fun p => fst p * snd p) (combine cs ys))). rewrite <- IH by (cbn in L; lia). reflexivity.
Qed.
Lemma combine_map_r {A B C} (f : B -> C) (l : list A) : forall r, combine l (map f r) = map (fun p => (fst p, f (snd p))) (combine l r).
Proof. induction l as [|a l IH]; intros [|b r]; cbn [combine map fst snd]; try reflexivity. f_equal. apply IH. Qed.
Lemma combine_map_l {A B C} (f : A -> C) (l : list A) : forall (r : list B), combine (map f l) r = map (fun p => (f (fst p), snd p)) (combine l r).
Proof. induction l as [|a l IH]; intros [|b r]; cbn [combine map fst snd]; try reflexivity. f_equal. apply IH. Qed.
Lemma map_snd_combine {A B} (l : list A) : forall (r : list B), length l = length r -> map snd (combine l r) = r.
Proof. induction l as [|a l IH]; intros [|b r] L; try discriminate L; [reflexivity|]. cbn [combine map snd]. f_equal. apply IH. cbn in L; lia. Qed.

Definition shamir_sigs (msg R : list Z) (pk : xpub) (lcs : list (list Z)) (grp : list (list Z * keyshare)) : list (list Z) :=
  map (fun p => signatureShare sha512 msg (pack_le 32 (sc_reduce (fst (snd p)))) R (fst p) pk (snd (snd p))) (combine lcs grp).

(** *** Sorting of ids *)
Lemma insert_perm x l : Permutation (x :: l) (insert_id x l).
Proof. induction l as [|y l IH]; cbn [insert_id]; [reflexivity|]. destruct (x <=? y); [reflexivity|]. rewrite perm_swap. constructor. exact IH. Qed.
Lemma sort_perm l : Permutation l (sort_ids l).
Proof. unfold sort_ids. induction l as [|x l IH]; cbn [fold_right]; [constructor|]. rewrite <- insert_perm. constructor. exact IH. Qed.
Lemma insert_sorted x l : StronglySorted Z.le l -> StronglySorted Z.le (insert_id x l).
Proof.
  induction l as [|y l IH]; intros S; cbn [insert_id]; [repeat constructor|]. inversion S as [|? ? S' F]; subst.
  destruct (Z.leb_spec x y).
  - constructor; [exact S|]. constructor; [exact H|]. eapply Forall_impl; [|exact F]. intros; cbn in *; lia.
  - constructor; [apply IH, S'|]. rewrite <- insert_perm. constructor; [lia|exact F].
Qed.
Lemma sort_sorted l : StronglySorted Z.le (sort_ids l).
Proof. unfold sort_ids. induction l as [|x l IH]; cbn [fold_right]; [constructor|apply insert_sorted, IH]. Qed.
Lemma adjacent_spec l : StronglySorted Z.le l -> adjacent_equal l = false <-> NoDup l.
Proof.
  induction l as [|x l IH]; intros S; [split; [constructor|reflexivity]|]. inversion S as [|? ? S' F]; subst.
  destruct l as [|y l]; [split; [intros; constructor; [intros []|constructor]|reflexivity]|].
  change (adjacent_equal (x :: y :: l)) with ((y =? x) || adjacent_equal (y :: l)). rewrite orb_false_iff, (IH S'). split.
  - intros [E ND]. constructor; [|exact ND]. intros I. inversion S' as [|? ? S'' F']; subst. apply Z.eqb_neq in E.
    rewrite Forall_forall in F, F'. pose proof (F y (or_introl eq_refl)). destruct I as [->|I]; [lia|]. pose proof (F' x I). lia.
  - intros ND. inversion ND; subst. split; [|assumption]. apply Z.eqb_neq. intros ->. apply H1. left; reflexivity.
Qed.

Lemma compute_ok ids : NoDup ids -> ~ In 0 ids -> (forall x, In x ids -> 0 <= x < ell) ->
  exists cs, lagrange ids = Ok cs /\ computeLagrangeCoefficients ids = Ok (map (pack_le 32) cs).
Proof.
  intros ND NZ B. destruct (lagrange_ok ids (nodup_distinct ids ND B)) as (cs & E & _). exists cs. split; [exact E|].
  unfold computeLagrangeCoefficients. pose proof (sort_perm ids) as P. pose proof (sort_sorted ids) as S. destruct (sort_ids ids) as [|x l] eqn:ES.
  - apply Permutation_sym, Permutation_nil in P. subst ids. cbn in E. injection E as <-. reflexivity.
  - destruct (Z.eqb_spec x 0) as [->|N]; [exfalso; apply NZ; eapply Permutation_in; [apply Permutation_sym, P|left; reflexivity]|].
    assert (A : adjacent_equal (x :: l) = false) by (apply adjacent_spec; [exact S|]; eapply Permutation_NoDup; [exact P|exact ND]).
    rewrite A, E. reflexivity.
Qed.
Lemma compute_throws ids : (forall x, In x ids -> 0 <= x < 2 ^ 64) -> (In 0 ids \/ ~ NoDup ids) <-> computeLagrangeCoefficients ids = Throw.
Proof.
  intros B. pose proof (sort_perm ids) as P. pose proof (sort_sorted ids) as S. split.
  - intros H. unfold computeLagrangeCoefficients. destruct (sort_ids ids) as [|x l] eqn:ES.
    + apply Permutation_sym, Permutation_nil in P. subst ids. exfalso. destruct H as [[]|H]. apply H. constructor.
    + destruct (Z.eqb_spec x 0) as [->|N]; [reflexivity|].
      destruct (adjacent_equal (x :: l)) eqn:A; [reflexivity|]. exfalso. apply adjacent_spec in A; [|exact S]. destruct H as [H|H].
      * apply (Permutation_in _ P) in H. inversion S as [|? ? S' F]; subst. rewrite Forall_forall in F.
        assert (0 <= x) by (apply B; eapply Permutation_in; [apply Permutation_sym, P|left; reflexivity]).
        destruct H as [H|H]; [congruence|]. pose proof (F 0 H). lia.
      * apply H. eapply Permutation_NoDup; [apply Permutation_sym, P|exact A].
  - intros H. destruct (in_dec Z.eq_dec 0 ids) as [I|I]; [left; exact I|right]. intros ND.
    destruct (compute_ok ids ND I) as (cs & _ & E); [|congruence]. intros x Ix. pose proof (B x Ix). pose proof ell_bounds. assert (2 ^ 64 < 2 ^ 252) by reflexivity. lia.
Qed.

Lemma shamir_signature root n t coefs pk keys grp msg : 1 <= t <= n -> n < 2 ^ 32 - 1 -> length coefs = Z.to_nat (t - 1) ->
  shamir_split sha512 enc root n t coefs = Ok (pk, keys) ->
  incl (map snd grp) keys -> NoDup (map ks_id (map snd grp)) -> t <= zlen grp ->
  exists lcs R, computeLagrangeCoefficients (map ks_id (map snd grp)) = Ok lcs /\
    aggregateCommitmentShares padd (map (fun n => enc (sc_reduce n)) (map fst grp)) = Ok R /\
    (R <> enc 0 ->
     exists sig, aggregateSignatureShares (shamir_sigs msg R pk lcs grp) = Ok sig /\ verify (pbytes pk) msg sig = true).
Proof.
  intros Ht Hn Lc SP I ND LG. destruct (shamir_split_ok sha512 enc padd EG root n t coefs pk keys ltac:(lia) Lc SP) as (S0 & C0 & -> & ->). cbn [pbytes].
  set (s := key_scalar root) in *. set (ks := map snd grp) in *. unfold zlen in LG.
  assert (LK : length ks = length grp) by apply map_length.
  destruct (weighted_shares sha512 s coefs (Z.to_nat n) ks (key_scalar_range _) ltac:(lia) I ND ltac:(lia)) as (cs & EL & LL & RC & SUM).
  destruct (compute_ok (map ks_id ks) ND) as (cs' & E1 & E2).
  { intros Z0. apply in_map_iff in Z0 as (k & E & Ik). apply I in Ik. apply in_map_iff in Ik as (x & <- & Hx). apply in_seq in Hx. cbn in E. lia. }
  { intros y Iy. apply in_map_iff in Iy as (k & <- & Ik). apply I in Ik. apply in_map_iff in Ik as (x & <- & Hx). apply in_seq in Hx. cbn [the_share ks_id].
    pose proof ell_bounds. assert (2 ^ 32 < 2 ^ 252) by reflexivity. lia. }
  unfold ids in EL. rewrite EL in E1. injection E1 as <-.
  exists (map (pack_le 32) cs), (enc (sumz (map sc_reduce (map fst grp)))). split; [exact E2|].
  assert (NG : grp <> []) by (intros ->; cbn in LG; lia).
  split; [apply agg_commit; destruct grp; [congruence|discriminate]|].
  intros NR. set (r := sumz (map sc_reduce (map fst grp))) in *.
  destruct (combined_verifies (map (fun p => (sc_reduce (fst (snd p)), fst p * kscal (snd (snd p)))) (combine cs grp)) r (kL root) msg) as (sig & SG & V).
  - intros E. apply map_eq_nil in E. destruct cs as [|c cs]; [cbn in LL; lia|]. destruct grp; [congruence|discriminate].
  - rewrite map_map. cbn [fst]. unfold r. rewrite map_map. rewrite <- (map_map snd (fun g : list Z * keyshare => sc_reduce (fst g))).
    rewrite map_snd_combine by lia. apply eqm_ref.
  - rewrite map_map. cbn [snd]. apply (eqm_trans ell _ s); [|apply eqm_mod_l].
    rewrite <- (map_length (fun k => key_scalar (ks_key k)) ks) in SUM. rewrite sumn_dot in SUM by (rewrite map_length; lia).
    unfold ks in SUM. rewrite map_map, combine_map_r, map_map in SUM. cbn [fst snd] in SUM. exact SUM.
  - intros E. apply NR. apply enc_eqm, E.
  - intros E. apply S0. apply eqm_small; [apply key_scalar_range|pose proof ell_pos; lia|]. apply (eqm_trans ell _ (kL root)); [apply eqm_mod_l|exact E].
  - exists sig. split; [|exact V]. rewrite <- SG. f_equal. unfold shamir_sigs. rewrite combine_map_l, !map_map. apply map_ext_in. intros p Ip. cbn [fst snd].
    unfold signatureShare. cbv zeta. cbn [pbytes]. rewrite sc_reduce_pack by apply mod_range.
    rewrite sc_reduce_pack by (apply RC; destruct p; apply in_combine_l in Ip; exact Ip).
    unfold sc_add, sc_mul. f_equal. f_equal. rewrite Z.add_mod_idemp_r by auto. 
    apply eqm_add; auto; [apply eqm_ref|]. unfold kscal.
    set (k := sc_reduce _). replace (k * (fst p * key_scalar (ks_key (snd (snd p))))) with (k * fst p * key_scalar (ks_key (snd (snd p)))) by ring.
    apply eqm_mul; auto; [apply eqm_mod_l|apply eqm_ref].
Qed.
End Keys.

(** ** Secrecy *)
Lemma secrecy t xs ys s : length xs = Z.to_nat (t - 1) -> NoDup xs -> (forall x, In x xs -> 1 <= x < 2 ^ 32) ->
  length ys = length xs -> (forall y, In y ys -> 0 <= y < ell) -> 0 <= s < ell ->
  exists! coefs, length coefs = Z.to_nat (t - 1) /\ (forall c, In c coefs -> 0 <= c < ell) /\
    Forall2 (fun x y => share_loop coefs x s 1 (Z.to_nat (t - 1)) = Ok y) xs ys.
Proof.
  intros LX ND BX LY BY BS. pose proof ell_bounds as EB. assert (B32 : 2 ^ 32 < 2 ^ 252) by reflexivity.
  assert (D : distinct ell (0 :: xs)).
  { apply nodup_distinct; [constructor; [intros I; apply BX in I; lia|exact ND]|]. intros x [<-|I]; [lia|]. apply BX in I. lia. }
  set (val := fun i => nth i (s :: ys) 0).
  destruct (interp_exists ell prime_ell (0 :: xs) val D) as (p & LP & HP). cbn [length] in LP.
  destruct p as [|p0 p]; [discriminate LP|]. cbn [length] in LP.
  assert (P0 : p0 == s).
  { specialize (HP 0%nat ltac:(cbn; lia)). cbn [nth peval] in HP. unfold val in HP. cbn [nth] in HP. rewrite Z.mul_0_l, Z.add_0_r in HP. exact HP. }
  exists (map (fun c => c mod ell) p). split.
  - split; [rewrite map_length; lia|]. split; [intros c I; apply in_map_iff in I as (d & <- & _); apply mod_range|].
    assert (EP : forall x, peval (s :: map (fun c => c mod ell) p) x == peval (p0 :: p) x).
    { intros x. cbn [peval]. apply eqm_add; auto; [apply eqm_sym, P0|]. apply eqm_mul; auto; [apply eqm_ref|]. clear.
      induction p as [|c p IH]; [apply eqm_ref|]. cbn [map peval]. apply eqm_add; auto; [apply eqm_mod_l|]. apply eqm_mul; auto. apply eqm_ref. }
    assert (F : forall k, (k < length xs)%nat -> share_loop (map (fun c => c mod ell) p) (nth k xs 0) s 1 (Z.to_nat (t - 1)) = Ok (nth k ys 0)).
    { intros k Hk. rewrite share_value by (auto; rewrite map_length; lia). f_equal.
      apply eqm_small; [apply mod_range|apply BY, nth_In; lia|]. apply (eqm_trans ell _ (peval (s :: map (fun c => c mod ell) p) (nth k xs 0))); [apply eqm_mod_l|].
      apply (eqm_trans ell _ _ _ (EP _)). specialize (HP (S k) ltac:(cbn [length]; lia)). cbn [nth] in HP. exact HP. }
    revert F. revert LY. clear. revert ys. induction xs as [|x xs IH]; intros [|y ys] L F; try discriminate L; constructor.
    + apply (F 0%nat). cbn; lia.
    + apply IH; [cbn in L; lia|]. intros k Hk. apply (F (S k)). cbn; lia.
  - intros q (LQ & BQ & FQ).
    assert (HU : Forall2 (eqm ell) (p0 :: p) (s :: q)).
    { apply (coefs_unique ell prime_ell (0 :: xs)); [exact D|cbn [length]; lia|cbn [length]; lia|].
      intros x I. destruct (In_nth _ _ 0 I) as (k & Hk & <-). apply (eqm_trans ell _ _ _ (HP k Hk)). destruct k as [|k].
      - cbn [nth peval]. unfold val; cbn [nth]. rewrite Z.mul_0_l, Z.add_0_r. apply eqm_ref.
      - cbn [nth length] in *. unfold val; cbn [nth].
        assert (X : share_loop q (nth k xs 0) s 1 (Z.to_nat (t - 1)) = Ok (nth k ys 0)).
        { assert (Hk' : (k < length xs)%nat) by lia. clear -FQ Hk'. revert k Hk'. induction FQ as [|x y xs ys H F IH]; intros [|k] Hk; cbn in *; try lia; [exact H|apply IH; lia]. }
        rewrite share_value in X by auto. injection X as X. rewrite <- X. apply eqm_mod_l. }
    inversion HU as [|? ? ? ? _ HT]; subst. clear -HT BQ. induction HT as [|a b p q E F IH]; [reflexivity|]. cbn [map]. f_equal.
    + unfold eqm in E. rewrite E. apply Z.mod_small. apply BQ. left; reflexivity.
    + apply IH. intros c I. apply BQ. right; exact I.
Qed.

(** ** Nonce reuse *)
Lemma nonce_reuse sha512 g agg1 agg2 : length agg1 = 32%nat -> length agg2 = 32%nat ->
  let k1 := sc_reduce (sha512 (agg1 ++ pbytes (sg_vkey g) ++ sg_msg g)) in
  let k2 := sc_reduce (sha512 (agg2 ++ pbytes (sg_vkey g) ++ sg_msg g)) in
  let c := sc_reduce (sg_coef g) in
  k1 <> k2 -> c <> 0 ->
  let S1 := sc_reduce (skipn 32 (signer_sign sha512 g agg1)) in
  let S2 := sc_reduce (skipn 32 (signer_sign sha512 g agg2)) in
  sc_mul (sc_sub S1 S2) (sc_inv (sc_mul (sc_sub k1 k2) c)) = key_scalar (ks_key (sg_key g)).
Proof.
  intros L1 L2 k1 k2 c NK NC S1 S2. set (a := key_scalar (ks_key (sg_key g))). set (r := sc_reduce (sg_nonce g)).
  assert (B1 : forall agg, length agg = 32%nat -> sc_reduce (skipn 32 (signer_sign sha512 g agg)) == r + sc_reduce (sha512 (agg ++ pbytes (sg_vkey g) ++ sg_msg g)) * c * a).
  { intros agg L. unfold signer_sign, signatureShare. cbv zeta. rewrite skipn_app_exact by lia. rewrite sc_reduce_pack by apply mod_range.
    unfold sc_add. apply (eqm_trans ell _ (r + sc_mul (sc_mul (sc_reduce (sha512 (agg ++ pbytes (sg_vkey g) ++ sg_msg g))) c) a)); [apply eqm_mod_l|].
    apply eqm_add; auto; [apply eqm_ref|]. unfold sc_mul. apply (eqm_trans ell _ ((sc_reduce (sha512 (agg ++ pbytes (sg_vkey g) ++ sg_msg g)) * c) mod ell * a)); [apply eqm_mod_l|].
    apply eqm_mul; auto; [apply eqm_mod_l|apply eqm_ref]. }
  pose proof (B1 agg1 L1) as E1. pose proof (B1 agg2 L2) as E2. fold S1 k1 in E1. fold S2 k2 in E2.
  assert (K : ~ sc_mul (sc_sub k1 k2) c == 0).
  { intros E. assert (X : (k1 - k2) * c == 0).
    { apply (eqm_trans ell _ (sc_mul (sc_sub k1 k2) c)); [|exact E]. unfold sc_mul, sc_sub. apply eqm_sym. apply (eqm_trans ell _ ((k1 - k2) mod ell * c)); [apply eqm_mod_l|].
      apply eqm_mul; auto; [apply eqm_mod_l|apply eqm_ref]. }
    apply eqm_int in X; auto. destruct X as [X|X].
    - apply NK. apply eqm_small; [apply mod_range|apply mod_range|]. apply eqm_sub; auto. apply eqm_0_divide; auto.
    - apply NC. apply eqm_small; [apply mod_range|pose proof ell_pos; lia|exact X]. }
  apply eqm_small; [apply mod_range|apply mod_range|]. unfold sc_mul at 1.
  apply (eqm_trans ell _ (sc_sub S1 S2 * sc_inv (sc_mul (sc_sub k1 k2) c))); [apply eqm_mod_l|].
  apply (eqm_trans ell _ ((sc_mul (sc_sub k1 k2) c * a) * sc_inv (sc_mul (sc_sub k1 k2) c))).
  - apply eqm_mul; auto; [|apply eqm_ref]. unfold sc_sub at 1. apply (eqm_trans ell _ (S1 - S2)); [apply eqm_mod_l|].
    apply (eqm_trans ell _ ((k1 - k2) * c * a)).
    + replace ((k1 - k2) * c * a) with ((r + k1 * c * a) + - (r + k2 * c * a)) by ring. replace (S1 - S2) with (S1 + - S2) by ring.
      apply eqm_add; auto. apply eqm_opp; auto.
    + apply eqm_mul; auto; [|apply eqm_ref]. unfold sc_mul, sc_sub. apply eqm_sym. apply (eqm_trans ell _ ((k1 - k2) mod ell * c)); [apply eqm_mod_l|].
      apply eqm_mul; auto; [apply eqm_mod_l|apply eqm_ref].
  - replace ((sc_mul (sc_sub k1 k2) c * a) * sc_inv (sc_mul (sc_sub k1 k2) c)) with ((sc_inv (sc_mul (sc_sub k1 k2) c) * sc_mul (sc_sub k1 k2) c) * a) by ring.
    apply (eqm_trans ell _ (1 * a)); [apply eqm_mul; auto; [apply sc_inv_ok, K|apply eqm_ref]|rewrite Z.mul_1_l; apply eqm_ref].
Qed.
Lemma lev_zero32 : sc_reduce (repeat 0 32) = 0. Proof. vm_compute. reflexivity. Qed.
(** A signer that signs before committing uses the nonce zero. *)
Lemma zero_nonce sha512 msg vkey key coef agg : length agg = 32%nat ->
  let g := signer_new_coef msg vkey key coef in
  let k := sc_reduce (sha512 (agg ++ pbytes vkey ++ msg)) in
  let c := sc_reduce coef in
  k <> 0 -> c <> 0 ->
  sc_mul (sc_reduce (skipn 32 (signer_sign sha512 g agg))) (sc_inv (sc_mul k c)) = key_scalar (ks_key key).
Proof.
  intros L g k c NK NC. set (a := key_scalar (ks_key key)).
  assert (E : sc_reduce (skipn 32 (signer_sign sha512 g agg)) == sc_mul k c * a).
  { unfold signer_sign, signatureShare, g, signer_new_coef. cbn [sg_msg sg_nonce sg_coef sg_vkey sg_key]. cbv zeta. rewrite skipn_app_exact by lia.
    rewrite sc_reduce_pack by apply mod_range. rewrite lev_zero32. fold k c a. unfold sc_add. rewrite Z.add_0_l.
    apply (eqm_trans ell _ (sc_mul (sc_mul k c) a)); [apply eqm_mod_l|]. apply eqm_mod_l. }
  assert (K : ~ sc_mul k c == 0).
  { intros X. assert (X2 : k * c == 0) by (apply (eqm_trans ell _ (sc_mul k c)); [apply eqm_sym, eqm_mod_l|exact X]).
    apply eqm_int in X2; auto. destruct X2 as [X2|X2]; [apply NK|apply NC]; (apply eqm_small; [apply mod_range|pose proof ell_pos; lia|exact X2]). }
  apply eqm_small; [apply mod_range|apply mod_range|]. unfold sc_mul at 1.
  apply (eqm_trans ell _ (sc_reduce (skipn 32 (signer_sign sha512 g agg)) * sc_inv (sc_mul k c))); [apply eqm_mod_l|].
  apply (eqm_trans ell _ ((sc_mul k c * a) * sc_inv (sc_mul k c))); [apply eqm_mul; auto; apply eqm_ref|].
  replace (sc_mul k c * a * sc_inv (sc_mul k c)) with ((sc_inv (sc_mul k c) * sc_mul k c) * a) by ring.
  apply (eqm_trans ell _ (1 * a)); [apply eqm_mul; auto; [apply sc_inv_ok, K|apply eqm_ref]|rewrite Z.mul_1_l; apply eqm_ref].
Qed.
