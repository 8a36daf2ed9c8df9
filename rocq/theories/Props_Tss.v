(** C26-C30: threshold keys and signatures. *)
From Verif Require Import Base BaseLemmas Model_Hex Proof_Hex Spec_Ed25519 Prime Model_Bip32 Spec_Bip32 Proof_Bip32 Proof_Bip32b
  Model_Tss Spec_Tss Proof_Poly Proof_Tss Proof_Tss2 Props_Bip32.
From Coq Require Import Permutation.
Ltac Zify.zify_post_hook ::= idtac.
Opaque sc_inv.

Definition shamir_dealer (n t : Z) : dealer := {| num_keys := n; threshold := t; algorithm := Shamir |}.
Definition direct_dealer (n : Z) : dealer := {| num_keys := n; threshold := n; algorithm := Direct |}.

(** The constructors accept exactly 1 <= t <= n and build these dealers. *)
Theorem C26_dealers : forall n t, 0 <= n < 2 ^ 32 -> 0 <= t < 2 ^ 32 ->
  (1 <= t <= n -> dealer3 n t Shamir = Ok (shamir_dealer n t) /\
     dealer2 n t = Ok (if t =? n then direct_dealer n else shamir_dealer n t)) /\
  (~ 1 <= t <= n -> dealer3 n t Shamir = Throw /\ dealer3 n t Direct = Throw /\ dealer2 n t = Throw) /\
  (1 <= n -> dealer1 n = Ok (direct_dealer n) /\ dealer3 n n Direct = Ok (direct_dealer n)) /\
  (n = 0 -> dealer1 n = Throw) /\
  (t <> n -> dealer3 n t Direct = Throw).
Proof.
  intros n t Bn Bt. unfold dealer1, dealer2, dealer3, shamir_dealer, direct_dealer.
  rewrite Z.eqb_refl. cbn [negb].
  destruct (Z.ltb_spec n 1), (Z.ltb_spec t 1), (Z.ltb_spec n t), (Z.eqb_spec t n); cbn [orb negb]; repeat split; intros; try lia; try reflexivity;
    try (subst; reflexivity); rewrite ?Z.ltb_irrefl; reflexivity.
Qed.

(** ** C26 Shamir reconstruction *)
(** A split with nonzero coefficients succeeds for every usable root key. *)
Theorem C26_split_total : forall sha512 sha256 enc padd, ed_group enc padd -> forall root n t gen coefs,
  1 <= t <= n -> n < 2 ^ 32 - 1 -> length coefs = Z.to_nat (t - 1) -> usable (kL root) -> ~ In 0 coefs ->
  exists r, splitRootKey sha512 sha256 enc padd (shamir_dealer n t) root gen coefs = Ok r.
Proof.
  intros sha512 sha256 enc padd EG root n t gen coefs Ht Hn Lc U C0. unfold splitRootKey, shamir_dealer. cbn [algorithm num_keys threshold].
  rewrite (shamir_split_eq sha512 enc padd EG root n t coefs ltac:(lia) Lc U C0). eexists. reflexivity.
Qed.

(** Participants 1..n, the root's public key; any shares with at least t different participants, in any order and with
    any copies, give the root's secret scalar and public key. *)
Theorem C26_reconstruct : forall sha512 sha256 enc padd, ed_group enc padd -> forall root n t gen coefs pk keys,
  1 <= t <= n -> n < 2 ^ 32 - 1 -> length coefs = Z.to_nat (t - 1) ->
  splitRootKey sha512 sha256 enc padd (shamir_dealer n t) root gen coefs = Ok (pk, keys) ->
  map ks_id keys = map Z.of_nat (seq 1 (Z.to_nat n)) /\ publicKey enc root = Ok pk /\
  forall ks, incl ks keys -> t <= count_distinct (map ks_id ks) ->
  exists k p, compositeSigningKey sha512 sha256 enc (shamir_dealer n t) ks = Ok k /\ kL k = kL root mod ell /\
    compositeKey sha512 sha256 enc padd (shamir_dealer n t) ks = Ok p /\ publicKey enc k = Ok p /\ pbytes p = pbytes pk.
Proof.
  intros sha512 sha256 enc padd EG root n t gen coefs pk keys Ht Hn Lc SP. unfold splitRootKey, shamir_dealer in SP. cbn [algorithm num_keys threshold] in SP.
  destruct (shamir_split_ok sha512 enc padd EG root n t coefs pk keys ltac:(lia) Lc SP) as (S0 & C0 & -> & ->).
  assert (U : usable (kL root)) by exact S0.
  split; [rewrite map_map; reflexivity|]. split; [apply (publicKey_ok enc padd EG); auto|].
  intros ks I D. pose proof (reconstruct_enough sha512 (key_scalar root) coefs (Z.to_nat n) t ks (key_scalar_range _) ltac:(lia) Lc ltac:(lia) I D) as R.
  assert (T : (Z.of_nat (length ks) <? t) = false).
  { apply Z.ltb_ge. unfold count_distinct in D. pose proof (NoDup_incl_length (NoDup_nodup Z.eq_dec (map ks_id ks)) (fun x H => proj1 (nodup_In Z.eq_dec _ x) H)) as X. rewrite map_length in X. lia. }
  assert (CS : compositeSigningKey sha512 sha256 enc (shamir_dealer n t) ks = Ok (extend_scalar sha512 (key_scalar root))).
  { unfold compositeSigningKey, shamir_dealer. cbn [algorithm threshold]. rewrite T. exact R. }
  assert (EK : kL (extend_scalar sha512 (key_scalar root)) = kL root mod ell) by (apply extend_kL, key_scalar_range).
  assert (P : publicKey enc (extend_scalar sha512 (key_scalar root)) = Ok {| pbytes := enc (kL (extend_scalar sha512 (key_scalar root))); pcc := kcc (extend_scalar sha512 (key_scalar root)) |}).
  { apply (publicKey_ok enc padd EG). split; [|reflexivity]. unfold usable. rewrite EK, Z.mod_mod by apply ell0. exact U. }
  eexists _, _. split; [exact CS|]. split; [exact EK|]. split; [|split; [exact P|]].
  - unfold compositeKey. rewrite CS. unfold shamir_dealer; cbn [algorithm threshold]. rewrite T. cbn [bind]. exact P.
  - cbn [pbytes]. rewrite EK. apply (enc_mod _ _ EG).
Qed.

(** Fewer than t different participants are refused, whatever copies are supplied. *)
Theorem C26_too_few : forall sha512 sha256 enc padd, ed_group enc padd -> forall root n t gen coefs pk keys ks,
  1 <= t <= n -> n < 2 ^ 32 - 1 -> length coefs = Z.to_nat (t - 1) ->
  splitRootKey sha512 sha256 enc padd (shamir_dealer n t) root gen coefs = Ok (pk, keys) ->
  incl ks keys -> count_distinct (map ks_id ks) < t ->
  compositeSigningKey sha512 sha256 enc (shamir_dealer n t) ks = Throw /\ compositeKey sha512 sha256 enc padd (shamir_dealer n t) ks = Throw.
Proof.
  intros sha512 sha256 enc padd EG root n t gen coefs pk keys ks Ht Hn Lc SP I D. unfold splitRootKey, shamir_dealer in SP. cbn [algorithm num_keys threshold] in SP.
  destruct (shamir_split_ok sha512 enc padd EG root n t coefs pk keys ltac:(lia) Lc SP) as (S0 & C0 & -> & ->).
  pose proof (reconstruct_few sha512 (key_scalar root) coefs (Z.to_nat n) t ks I D) as R.
  assert (CS : compositeSigningKey sha512 sha256 enc (shamir_dealer n t) ks = Throw).
  { unfold compositeSigningKey, shamir_dealer; cbn [algorithm threshold]. destruct (_ <? _); [reflexivity|exact R]. }
  split; [exact CS|]. unfold compositeKey. rewrite CS. cbn [algorithm shamir_dealer threshold bind]. destruct (_ <? _); reflexivity.
Qed.

(** Two different shares claiming the same participant are refused: no key is built from inconsistent shares. *)
Theorem C26_conflict : forall sha512 sha256 enc n t ks a b,
  In a ks -> In b ks -> ks_id a = ks_id b -> ks_id a <> 0 -> kbytes (ks_key a) <> kbytes (ks_key b) ->
  compositeSigningKey sha512 sha256 enc (shamir_dealer n t) ks = Throw.
Proof.
  intros. unfold compositeSigningKey, shamir_dealer; cbn [algorithm threshold]. destruct (_ <? _); [reflexivity|].
  eapply reconstruct_conflict; [exact H|exact H0|..]; assumption.
Qed.

(** At n = 2^32 - 1, which the constructors accept, the loop bound wraps and the split returns no share at all. *)
Theorem C26_max_refuted : forall sha512 sha256 enc padd, ed_group enc padd -> forall root t gen coefs,
  usable (kL root) -> ~ In 0 coefs ->
  exists pk, splitRootKey sha512 sha256 enc padd (shamir_dealer (2 ^ 32 - 1) t) root gen coefs = Ok (pk, []).
Proof.
  intros sha512 sha256 enc padd EG root t gen coefs U C0. unfold splitRootKey, shamir_dealer. cbn [algorithm num_keys threshold]. unfold shamir_split.
  destruct (Z.eqb_spec (key_scalar root) 0) as [E|E]; [exfalso; apply U; exact E|].
  replace (existsb (fun c => c =? 0) coefs) with false.
  - change (Z.to_nat ((2 ^ 32 - 1 + 1) mod 2 ^ 32 - 1)) with 0%nat. cbn [seq mapM bind].
    assert (P : publicKey enc root = Ok {| pbytes := enc (kL root); pcc := kcc root |}) by (apply (publicKey_ok enc padd EG); auto).
    rewrite P. eexists. reflexivity.
  - symmetry. apply Bool.not_true_is_false. intros X. apply existsb_exists in X as (c & I & Ec). apply Z.eqb_eq in Ec. subst. contradiction.
Qed.

(** ** C27 Direct splitting *)
Theorem C27_split_total : forall sha512 sha256 enc padd, ed_group enc padd -> forall root n gen coefs, 1 <= n < 2 ^ 32 ->
  (forall j, Z.of_nat j < n - 1 -> usable (kL (gen j))) ->
  usable (kL root - total (map (fun j => kL (gen j)) (seq 0 (Z.to_nat (n - 1))))) ->
  exists r, splitRootKey sha512 sha256 enc padd (direct_dealer n) root gen coefs = Ok r.
Proof.
  intros sha512 sha256 enc padd EG root n gen coefs Hn U L. unfold splitRootKey, direct_dealer; cbn [algorithm num_keys].
  apply (direct_split_total sha512 sha256 enc padd EG); assumption.
Qed.

(** n participants whose secret scalars sum to the root's; for n >= 2 the returned public key is the root's, and the
    shares in any order give that public key and the root's secret scalar.  Missing a share is refused. *)
Theorem C27_direct : forall sha512 sha256 enc padd, ed_group enc padd -> forall root n gen coefs pk keys, 1 <= n < 2 ^ 32 ->
  splitRootKey sha512 sha256 enc padd (direct_dealer n) root gen coefs = Ok (pk, keys) ->
  map ks_id keys = map Z.of_nat (seq 1 (Z.to_nat n)) /\
  total (map (fun s => kL (ks_key s)) keys) mod ell = kL root mod ell /\
  (2 <= n -> pbytes pk = enc (kL root) /\ compositeKey sha512 sha256 enc padd (direct_dealer n) keys = Ok pk) /\
  (forall ks, Permutation keys ks -> exists p k,
     compositeKey sha512 sha256 enc padd (direct_dealer n) ks = Ok p /\ pbytes p = enc (kL root) /\
     (forall pks, mapM (fun s => publicKey enc (ks_key s)) ks = Ok pks -> compositeKeyPub sha256 padd (direct_dealer n) pks = Ok p) /\
     compositeSigningKey sha512 sha256 enc (direct_dealer n) ks = Ok k /\ kL k = kL root mod ell /\ kcc k = pcc p /\
     (usable (kL root) -> publicKey enc k = Ok p)) /\
  (forall ks, zlen ks < n -> compositeKey sha512 sha256 enc padd (direct_dealer n) ks = Throw /\ compositeSigningKey sha512 sha256 enc (direct_dealer n) ks = Throw).
Proof.
  intros sha512 sha256 enc padd EG root n gen coefs pk keys Hn SP. unfold splitRootKey in SP; cbn [algorithm num_keys direct_dealer] in SP.
  destruct (direct_split_inv sha512 sha256 enc padd EG root n gen pk keys Hn SP) as (EK & U & EP).
  assert (LK : zlen keys = n).
  { unfold zlen. subst keys. rewrite <- (map_length ks_id), direct_keys_ids, map_length, seq_length by lia. lia. }
  assert (S : eqm ell (total (map kl keys)) (kL root)).
  { apply (eqm_trans ell _ (key_scalar root)); [|apply eqm_mod_l]. subst keys.
    apply (eqm_trans ell _ (sumz (map kscal (direct_keys sha512 root n gen)))); [apply eqm_sym, sum_kl|]. apply direct_keys_sum. lia. }
  split; [subst keys; apply direct_keys_ids; lia|]. split; [exact S|]. split.
  { intros N2. assert (pbytes pk = enc (kL root)) as PB.
    { subst pk. cbn [pbytes]. destruct (Z.eqb_spec n 1); [lia|]. apply (enc_mod _ _ EG). }
    split; [exact PB|]. rewrite (direct_compositeKey sha512 sha256 enc padd EG (direct_dealer n) keys eq_refl U).
    - f_equal. rewrite EP. f_equal. change (pbytes pk = enc (kL root)) in PB. rewrite EP in PB. cbn [pbytes] in PB. rewrite PB.
      apply (enc_eqm enc padd EG). exact S.
    - intros ->. unfold zlen in LK; cbn in LK. lia.
    - cbn [threshold direct_dealer]. lia. }
  split.
  - intros ks P. assert (U' : forall k, In k ks -> usable (kl k)) by (intros k I; apply U; eapply Permutation_in; [apply Permutation_sym, P|exact I]).
    assert (LS : zlen ks = n) by (unfold zlen in *; rewrite <- (Permutation_length P); exact LK).
    assert (NE : ks <> []) by (intros ->; unfold zlen in LS; cbn in LS; lia).
    assert (S' : eqm ell (sumz (map kl ks)) (kL root)).
    { rewrite <- (sumz_perm (map kl keys) (map kl ks)) by (apply Permutation_map, P). exact S. }
    destruct (direct_compositeSigningKey sha512 sha256 enc padd EG (direct_dealer n) ks eq_refl U' NE ltac:(cbn [threshold direct_dealer]; lia)) as (k & CK & KL & KC).
    exists {| pbytes := enc (sumz (map kl ks)); pcc := cc_of_keys sha256 enc ks |}, k.
    split; [apply (direct_compositeKey sha512 sha256 enc padd EG); auto; cbn [threshold direct_dealer]; lia|].
    split; [cbn [pbytes]; apply (enc_eqm enc padd EG), S'|]. split; [|split; [exact CK|split; [rewrite KL; exact S'|split; [exact KC|]]]].
    + intros pks M. rewrite (mapM_ok_map (fun s => publicKey enc (ks_key s)) (fun k => {| pbytes := enc (kl k); pcc := kcc (ks_key k) |})) in M.
      * injection M as <-. apply (direct_compositeKeyPub sha256 enc padd EG); auto. cbn [threshold direct_dealer]. lia.
      * intros s I. apply (publicKey_ok enc padd EG). split; [|reflexivity]. apply U', I.
    + intros UR. apply (publicKey_ok enc padd EG). rewrite KL, KC. split; [|f_equal; symmetry; apply (enc_mod _ _ EG)].
      unfold usable. rewrite Z.mod_mod by apply ell0. unfold eqm in S'. rewrite S'. exact UR.
  - intros ks L. unfold compositeKey, compositeSigningKey. cbn [threshold direct_dealer]. unfold zlen in L.
    destruct (Z.ltb_spec (Z.of_nat (length ks)) n); [split; reflexivity|lia].
Qed.

(** A 1-of-1 direct split returns the wrong public key: [1 + s]B instead of [s]B. *)
Theorem C27_single_refuted : forall sha512 sha256 enc padd, ed_group enc padd -> forall root gen coefs pk keys,
  splitRootKey sha512 sha256 enc padd (direct_dealer 1) root gen coefs = Ok (pk, keys) ->
  pbytes pk = enc (kL root + 1) /\ pbytes pk <> enc (kL root).
Proof.
  intros sha512 sha256 enc padd EG root gen coefs pk keys SP. unfold splitRootKey in SP; cbn [algorithm num_keys direct_dealer] in SP.
  destruct (direct_split_inv sha512 sha256 enc padd EG root 1 gen pk keys ltac:(lia) SP) as (_ & _ & ->). cbn [pbytes]. rewrite Z.eqb_refl.
  assert (E : enc (1 + key_scalar root) = enc (kL root + 1)).
  { apply (enc_eqm enc padd EG). rewrite Z.add_comm. apply eqm_add; [exact prime_ell|apply eqm_mod_l|apply eqm_ref]. }
  rewrite E. split; [reflexivity|]. intros X. apply (enc_inj _ _ EG) in X.
  assert (Y : eqm ell 1 0).
  { apply (eqm_trans ell _ ((kL root + 1) + - kL root)); [replace (kL root + 1 + - kL root) with 1 by ring; apply eqm_ref|].
    apply (eqm_trans ell _ (kL root + - kL root)); [apply eqm_add; [exact prime_ell|exact X|apply eqm_ref]|]. rewrite Z.add_opp_diag_r. apply eqm_ref. }
  vm_compute in Y. discriminate Y.
Qed.

(** ** C28 Threshold signatures verify *)
(** A signing session: every member commits to a nonce, the commitments are added, every member signs, the
    signature shares are added. *)
Theorem C28_direct : forall sha512 sha256 enc padd verify, ed_group enc padd -> ed_verifies enc sha512 verify ->
  forall n (grp : list (list Z * keyshare)) pk msg, 1 <= n ->
  (forall p, In p grp -> zlen (fst p) = 32 \/ zlen (fst p) = 64) ->
  compositeKey sha512 sha256 enc padd (direct_dealer n) (map snd grp) = Ok pk ->
  exists cs R, mapM (commitmentShareFromNonce enc) (map fst grp) = Ok cs /\ aggregateCommitmentShares padd (map fst cs) = Ok R /\
   (R <> enc 0 -> pbytes pk <> enc 0 ->
    exists sig, aggregateSignatureShares (map (fun p => signatureShare0 sha512 msg (snd (fst p)) R pk (snd p)) (combine cs (map snd grp))) = Ok sig /\
      verify (pbytes pk) msg sig = true).
Proof.
  intros sha512 sha256 enc padd verify EG EV n grp pk msg Hn NL CK.
  assert (NG : grp <> []) by (intros ->; unfold compositeKey in CK; cbn [map length threshold direct_dealer algorithm] in CK; destruct (Z.ltb_spec (Z.of_nat 0) n); [discriminate|lia]).
  exists (map (fun n => (enc (sc_reduce n), pack_le 32 (sc_reduce n))) (map fst grp)).
  destruct (direct_signature sha512 sha256 enc padd EG verify EV (direct_dealer n) grp pk msg eq_refl NG CK) as (R & AC & SG).
  exists R. split; [|split].
  - apply mapM_ok_map. intros x I. apply in_map_iff in I as (p & <- & I). apply (commit_ok sha512), NL, I.
  - rewrite map_map. exact AC.
  - intros NR NP. destruct (SG NR NP) as (sig & S & V). exists sig. split; [|exact V]. rewrite <- S. f_equal. unfold direct_sigs.
    rewrite map_map. clear. induction grp as [|p g IH]; [reflexivity|]. cbn [map combine fst snd]. f_equal. exact IH.
Qed.

Theorem C28_shamir : forall sha512 sha256 enc padd verify, ed_group enc padd -> ed_verifies enc sha512 verify ->
  forall root n t gen coefs pk keys (grp : list (list Z * keyshare)) msg,
  1 <= t <= n -> n < 2 ^ 32 - 1 -> length coefs = Z.to_nat (t - 1) ->
  splitRootKey sha512 sha256 enc padd (shamir_dealer n t) root gen coefs = Ok (pk, keys) ->
  incl (map snd grp) keys -> NoDup (map (fun p => ks_id (snd p)) grp) -> t <= zlen grp ->
  (forall p, In p grp -> zlen (fst p) = 32 \/ zlen (fst p) = 64) ->
  exists lcs cs R, computeLagrangeCoefficients (map (fun p => ks_id (snd p)) grp) = Ok lcs /\
   mapM (commitmentShareFromNonce enc) (map fst grp) = Ok cs /\ aggregateCommitmentShares padd (map fst cs) = Ok R /\
   (R <> enc 0 ->
    exists sig, aggregateSignatureShares (map (fun q => signatureShare sha512 msg (snd (fst (snd q))) R (fst q) pk (snd (snd q))) (combine lcs (combine cs (map snd grp)))) = Ok sig /\
      verify (pbytes pk) msg sig = true).
Proof.
  intros sha512 sha256 enc padd verify EG EV root n t gen coefs pk keys grp msg Ht Hn Lc SP I ND LG NL.
  unfold splitRootKey in SP; cbn [algorithm num_keys threshold shamir_dealer] in SP. rewrite <- (map_map snd ks_id) in *.
  destruct (shamir_signature sha512 sha256 enc padd EG verify EV root n t coefs pk keys grp msg Ht Hn Lc SP I ND LG) as (lcs & R & L & AC & SG).
  exists lcs, (map (fun n => (enc (sc_reduce n), pack_le 32 (sc_reduce n))) (map fst grp)), R. split; [exact L|]. split; [|split].
  - apply mapM_ok_map. intros x J. apply in_map_iff in J as (p & <- & J). apply (commit_ok sha512), NL, J.
  - rewrite map_map. exact AC.
  - intros NR. destruct (SG NR) as (sig & S & V). exists sig. split; [|exact V]. rewrite <- S. f_equal. unfold shamir_sigs.
    clear. revert lcs. induction grp as [|p g IH]; intros [|c l]; try reflexivity. cbn [map combine fst snd]. f_equal. apply IH.
Qed.

(** Coefficients are refused for exactly the participant lists with a zero or repeated index. *)
Theorem C28_coefficients_refused : forall ids, (forall x, In x ids -> 0 <= x < 2 ^ 32) ->
  (computeLagrangeCoefficients ids = Throw <-> In 0 ids \/ ~ NoDup ids) /\ computeLagrangeCoefficients ids <> UB.
Proof.
  intros ids B. assert (B' : forall x, In x ids -> 0 <= x < 2 ^ 64) by (intros x I; apply B in I; lia). split.
  - pose proof (compute_throws (fun x => x) ids B'). tauto.
  - intros E. unfold computeLagrangeCoefficients in E. destruct (sort_ids ids); [discriminate|]. destruct (_ =? _); [discriminate|].
    destruct (adjacent_equal _); [discriminate|]. unfold lagrange in E.
    pose proof (lag_all_noUB ids ids 0) as X. destruct (lag_all ids 0 ids); cbn in E; congruence.
Qed.
(** Shares made for different aggregate commitments are never mixed. *)
Theorem C28_commitments_must_agree : forall sigs s1 s2, In s1 sigs -> In s2 sigs -> firstn 32 s1 <> firstn 32 s2 ->
  aggregateSignatureShares sigs = Throw.
Proof.
  intros sigs s1 s2 I1 I2 N. unfold aggregateSignatureShares. destruct sigs as [|s0 r]; [destruct I1|].
  destruct (forallb (fun s => zlist_eqb (firstn 32 s0) (firstn 32 s)) (s0 :: r)) eqn:F; [|reflexivity]. exfalso. rewrite forallb_forall in F.
  apply N. rewrite <- (proj1 (zlist_eqb_spec _ _) (F s1 I1)). apply zlist_eqb_spec, F, I2.
Qed.
(** The stateful signer signs as the free function does, with the nonce of its last commitment. *)
Theorem C28_stateful : forall sha512 enc msg vkey key coef seed agg g c,
  (forall x, length (sha512 x) = 64%nat) ->
  signer_commit sha512 enc (signer_new_coef msg vkey key coef) seed = Ok (g, c) ->
  exists nonce, zlen nonce = 64 /\ commitmentShareFromNonce enc nonce = Ok (c, pack_le 32 (sc_reduce nonce)) /\
    signer_sign sha512 g agg = signatureShare sha512 msg (pack_le 32 (sc_reduce nonce)) agg coef vkey key /\
    forall coef', signer_sign_coef sha512 g agg coef' = signatureShare sha512 msg (pack_le 32 (sc_reduce nonce)) agg coef' vkey key.
Proof.
  intros sha512 enc msg vkey key coef seed agg g c HL H. unfold signer_commit, commitmentShareAndNonce in H. cbn [sg_msg sg_key sg_coef sg_vkey signer_new_coef] in H.
  set (x := sha512 (seed ++ skipn 32 (kbytes (ks_key key)) ++ msg)) in *.
  assert (Lx : zlen x = 64) by (unfold zlen, x; rewrite HL; reflexivity).
  rewrite (commit_ok sha512 enc x (or_intror Lx)) in H. cbn [bind fst snd] in H. injection H as <- <-. exists x. split; [exact Lx|]. split; [apply (commit_ok sha512); right; exact Lx|].
  split; reflexivity.
Qed.
(** A signer built without coefficient signs as a member of a direct group. *)
(** a commitment needs 32 or 64 bytes of nonce, and is the point of the nonce reduced modulo the group order *)
Theorem C28_commitment : forall enc nonce,
  (is_ok (commitmentShareFromNonce enc nonce) = true <-> zlen nonce = 32 \/ zlen nonce = 64) /\
  (zlen nonce = 32 \/ zlen nonce = 64 ->
   exists c n, commitmentShareFromNonce enc nonce = Ok (c, n) /\ c = enc (lev 256 nonce mod ell) /\ lev 256 n = lev 256 nonce mod ell /\ length n = 32%nat) /\
  (~ (zlen nonce = 32 \/ zlen nonce = 64) -> commitmentShareFromNonce enc nonce = Throw).
Proof.
  intros enc nonce. split; [|split].
  - split; [|intros H; rewrite (commit_ok (fun x => x) enc nonce H); reflexivity].
    unfold commitmentShareFromNonce. destruct (Z.eqb_spec (zlen nonce) 32); [auto|]. destruct (Z.eqb_spec (zlen nonce) 64); [auto|]. discriminate.
  - intros H. do 2 eexists. split; [exact (commit_ok (fun x => x) enc nonce H)|]. split; [reflexivity|]. split; [|apply pack_le_length].
    rewrite pack_le_value. unfold sc_reduce. pose proof ell_bounds. pose proof (mod_range (lev 256 nonce)). change (256 ^ Z.of_nat 32) with (2 ^ 256). apply Z.mod_small. lia.
  - intros H. unfold commitmentShareFromNonce. destruct (Z.eqb_spec (zlen nonce) 32); [tauto|]. destruct (Z.eqb_spec (zlen nonce) 64); [tauto|]. reflexivity.
Qed.
Theorem C28_default_coefficient : forall sha512 msg nonce agg vkey key,
  signatureShare sha512 msg nonce agg (sg_coef (signer_new msg vkey key)) vkey key = signatureShare0 sha512 msg nonce agg vkey key.
Proof.
  intros. unfold signatureShare, signatureShare0. cbv zeta. cbn [sg_coef signer_new].
  replace (sc_reduce (1 :: repeat 0 31)) with 1 by (vm_compute; reflexivity). f_equal. f_equal. f_equal. unfold sc_mul. rewrite Z.mul_1_r.
  f_equal. f_equal. unfold sc_reduce. apply Z.mod_mod, ell0.
Qed.

(** ** C29 Secrecy *)
(** What a share is: the value of the secret polynomial at the participant's number. *)
Theorem C29_shares_are_values : forall sha512 sha256 enc padd, ed_group enc padd -> forall root n t gen coefs pk keys,
  1 <= t <= n -> n < 2 ^ 32 - 1 -> length coefs = Z.to_nat (t - 1) ->
  splitRootKey sha512 sha256 enc padd (shamir_dealer n t) root gen coefs = Ok (pk, keys) ->
  forall k, In k keys -> kL (ks_key k) = peval (kL root :: coefs) (ks_id k) mod ell /\
    kbytes (ks_key k) = kbytes (extend_scalar sha512 (kL (ks_key k))) /\ kcc (ks_key k) = kcc (extend_scalar sha512 (kL (ks_key k))).
Proof.
  intros sha512 sha256 enc padd EG root n t gen coefs pk keys Ht Hn Lc SP k I. unfold splitRootKey in SP; cbn [algorithm num_keys threshold shamir_dealer] in SP.
  destruct (shamir_split_ok sha512 enc padd EG root n t coefs pk keys ltac:(lia) Lc SP) as (S0 & C0 & -> & ->).
  apply in_map_iff in I as (x & <- & I). unfold the_share. cbn [ks_key ks_id]. rewrite extend_kL by apply mod_range.
  split; [|split; reflexivity]. apply (eqm_trans ell _ _ _ eq_refl). cbn [peval]. apply eqm_add; [exact prime_ell|apply eqm_mod_l|apply eqm_ref].
Qed.
Local Lemma Forall2_imp {A B} (P Q : A -> B -> Prop) l r : (forall a b, P a b -> Q a b) -> Forall2 P l r -> Forall2 Q l r.
Proof. intros H; induction 1; constructor; auto. Qed.
(** For t-1 participants, any values of their shares and any candidate secret there is exactly one choice of the
    random coefficients that gives these values. *)
Theorem C29_secrecy : forall t xs ys s, length xs = Z.to_nat (t - 1) -> NoDup xs -> (forall x, In x xs -> 1 <= x < 2 ^ 32) ->
  length ys = length xs -> (forall y, In y ys -> 0 <= y < ell) -> 0 <= s < ell ->
  exists! coefs, length coefs = Z.to_nat (t - 1) /\ (forall c, In c coefs -> 0 <= c < ell) /\
    Forall2 (fun x y => peval (s :: coefs) x mod ell = y) xs ys.
Proof.
  intros t xs ys s LX ND BX LY BY BS. destruct (secrecy t xs ys s LX ND BX LY BY BS) as (coefs & (L & B & F) & Uq).
  assert (EQ : forall c x y, length c = Z.to_nat (t - 1) -> share_loop c x s 1 (Z.to_nat (t - 1)) = Ok y <-> peval (s :: c) x mod ell = y).
  { intros c x y Lc. rewrite (share_value c x s t BS Lc). split; [congruence|intros ->; reflexivity]. }
  exists coefs. split.
  - split; [exact L|]. split; [exact B|]. eapply Forall2_imp; [|exact F]. intros a b H. apply EQ; assumption.
  - intros c (Lc & Bc & Fc). apply Uq. split; [exact Lc|]. split; [exact Bc|]. eapply Forall2_imp; [|exact Fc]. intros a b H. apply EQ; assumption.
Qed.
(** The one limit: the code redraws zero coefficients, so with t = 2 a share is never equal to the secret itself,
    and its holder can rule out that one candidate. *)
Theorem C29_rules_out_own_value : forall sha512 sha256 enc padd, ed_group enc padd -> forall root n gen c pk keys,
  2 <= n -> n < 2 ^ 32 - 1 -> 0 <= c < ell ->
  splitRootKey sha512 sha256 enc padd (shamir_dealer n 2) root gen [c] = Ok (pk, keys) ->
  forall k, In k keys -> kL (ks_key k) <> kL root mod ell.
Proof.
  intros sha512 sha256 enc padd EG root n gen c pk keys H2 Hn Bc SP k I E.
  destruct (C29_shares_are_values sha512 sha256 enc padd EG root n 2 gen [c] pk keys ltac:(lia) Hn eq_refl SP k I) as [V _]. rewrite V in E.
  unfold splitRootKey in SP; cbn [algorithm num_keys threshold shamir_dealer] in SP.
  destruct (shamir_split_ok sha512 enc padd EG root n 2 [c] pk keys ltac:(lia) eq_refl SP) as (S0 & C0 & -> & ->).
  apply in_map_iff in I as (x & <- & I). apply in_seq in I. cbn [ks_id the_share] in E. cbn [peval] in E. rewrite Z.mul_0_r, Z.add_0_r in E.
  assert (X : eqm ell (Z.of_nat x * c) 0).
  { apply (eqm_trans ell _ ((kL root + Z.of_nat x * c) + - kL root)); [replace (kL root + Z.of_nat x * c + - kL root) with (Z.of_nat x * c) by ring; apply eqm_ref|].
    apply (eqm_trans ell _ (kL root + - kL root)); [apply eqm_add; [exact prime_ell|exact E|apply eqm_ref]|]. rewrite Z.add_opp_diag_r. apply eqm_ref. }
  apply eqm_int in X; [|exact prime_ell]. pose proof ell_bounds. assert (2 ^ 32 < 2 ^ 252) by reflexivity.
  destruct X as [X|X]; apply eqm_small in X; try lia. apply C0. left. exact X.
Qed.

(** ** C30 Nonces *)
(** The claim is false: a signer keeps its nonce.  Two shares made for different challenges give its secret. *)
Theorem C30_reuse_refuted : forall sha512 g agg1 agg2, length agg1 = 32%nat -> length agg2 = 32%nat ->
  let k1 := sc_reduce (sha512 (agg1 ++ pbytes (sg_vkey g) ++ sg_msg g)) in
  let k2 := sc_reduce (sha512 (agg2 ++ pbytes (sg_vkey g) ++ sg_msg g)) in
  let c := sc_reduce (sg_coef g) in
  k1 <> k2 -> c <> 0 ->
  let S1 := sc_reduce (skipn 32 (signer_sign sha512 g agg1)) in
  let S2 := sc_reduce (skipn 32 (signer_sign sha512 g agg2)) in
  sc_mul (sc_sub S1 S2) (sc_inv (sc_mul (sc_sub k1 k2) c)) = kL (ks_key (sg_key g)) mod ell.
Proof. exact nonce_reuse. Qed.
(** A signer asked to sign before it has committed uses the nonce zero: one share gives its secret. *)
Theorem C30_uncommitted_refuted : forall sha512 msg vkey key coef agg, length agg = 32%nat ->
  let g := signer_new_coef msg vkey key coef in
  let k := sc_reduce (sha512 (agg ++ pbytes vkey ++ msg)) in
  let c := sc_reduce coef in
  k <> 0 -> c <> 0 ->
  sc_mul (sc_reduce (skipn 32 (signer_sign sha512 g agg))) (sc_inv (sc_mul k c)) = kL (ks_key key) mod ell.
Proof. exact zero_nonce. Qed.
(** What holds: each commitment replaces the nonce by the hash of the fresh entropy, the key's second half and the
    message, and the nonce is the discrete logarithm of the commitment returned. *)
Theorem C30_commit : forall sha512 enc g seed g' c, (forall x, length (sha512 x) = 64%nat) ->
  signer_commit sha512 enc g seed = Ok (g', c) ->
  sc_reduce (sg_nonce g') = lev 256 (sha512 (seed ++ skipn 32 (kbytes (ks_key (sg_key g))) ++ sg_msg g)) mod ell /\
  c = enc (sc_reduce (sg_nonce g')) /\
  sg_msg g' = sg_msg g /\ sg_coef g' = sg_coef g /\ sg_vkey g' = sg_vkey g /\ sg_key g' = sg_key g.
Proof.
  intros sha512 enc g seed g' c HL H. unfold signer_commit, commitmentShareAndNonce in H.
  set (x := sha512 (seed ++ skipn 32 (kbytes (ks_key (sg_key g))) ++ sg_msg g)) in *.
  assert (Lx : zlen x = 64) by (unfold zlen, x; rewrite HL; reflexivity).
  rewrite (commit_ok sha512 enc x (or_intror Lx)) in H. cbn [bind fst snd] in H. injection H as <- <-. cbn [sg_nonce sg_msg sg_coef sg_vkey sg_key].
  rewrite sc_reduce_pack by apply mod_range. repeat split; reflexivity.
Qed.

(** The nonce in use after a history: the hash of the entropy of the last commitment, the second half of the
    key share and the message; zero if there was no commitment. *)
Definition nonce_in_use (sha512 : list Z -> list Z) (msg : list Z) (key : keyshare) (h : list signer_call) : Z :=
  match latest_seed h with
  | Some seed => lev 256 (sha512 (seed ++ skipn 32 (kbytes (ks_key key)) ++ msg)) mod ell
  | None => 0
  end.
Lemma run_state sha512 enc : (forall x, length (sha512 x) = 64%nat) -> forall h g, exists g' out,
  signer_run sha512 enc g h = Ok (g', out) /\ length out = length h /\
  sg_msg g' = sg_msg g /\ sg_coef g' = sg_coef g /\ sg_vkey g' = sg_vkey g /\ sg_key g' = sg_key g /\
  sc_reduce (sg_nonce g') = match latest_seed h with Some _ => nonce_in_use sha512 (sg_msg g) (sg_key g) h | None => sc_reduce (sg_nonce g) end.
Proof.
  intros HL. induction h as [|c h IH]; intros g.
  - exists g, []. cbn. repeat split; reflexivity.
  - assert (X : exists g1 o, signer_step sha512 enc g c = Ok (g1, o) /\ sg_msg g1 = sg_msg g /\ sg_coef g1 = sg_coef g /\ sg_vkey g1 = sg_vkey g /\ sg_key g1 = sg_key g /\
      sc_reduce (sg_nonce g1) = match c with Commit seed => lev 256 (sha512 (seed ++ skipn 32 (kbytes (ks_key (sg_key g))) ++ sg_msg g)) mod ell | _ => sc_reduce (sg_nonce g) end).
    { destruct c as [seed|agg|agg coef]; cbn [signer_step]; [|exists g, (signer_sign sha512 g agg); repeat split; reflexivity|exists g, (signer_sign_coef sha512 g agg coef); repeat split; reflexivity].
      assert (E : exists g1 o, signer_commit sha512 enc g seed = Ok (g1, o)).
      { unfold signer_commit, commitmentShareAndNonce. set (x := sha512 _). assert (Lx : zlen x = 64) by (unfold zlen, x; rewrite HL; reflexivity). rewrite (commit_ok sha512 enc x (or_intror Lx)). cbn [bind]. eauto. }
      destruct E as (g1 & o & E). exists g1, o. destruct (C30_commit sha512 enc g seed g1 o HL E) as (A & _ & B & C & D & F). auto 10. }
    destruct X as (g1 & o & E & M & C & V & K & N). destruct (IH g1) as (g' & out & R & L & M' & C' & V' & K' & N').
    exists g', (o :: out). cbn [signer_run]. rewrite E. cbn [bind fst snd]. rewrite R. cbn [bind fst snd]. split; [reflexivity|].
    split; [cbn [length]; rewrite L; reflexivity|]. rewrite M', C', V', K', N', M, C, V, K. repeat split.
    unfold nonce_in_use. cbn [latest_seed]. destruct (latest_seed h); [reflexivity|]. destruct c; exact N.
Qed.
(** C30, exactly: every call of every history succeeds, and the share made after a history [h] is the
    aggregate commitment followed by nonce + challenge * coefficient * key, for the nonce of the last
    commitment in [h], or zero: nothing else ever replaces the nonce. *)
Theorem C30_history : forall sha512 enc, (forall x, length (sha512 x) = 64%nat) ->
  forall msg vkey key coef h, exists g out,
  signer_run sha512 enc (signer_new_coef msg vkey key coef) h = Ok (g, out) /\ length out = length h /\
  forall agg coef', length agg = 32%nat ->
    let share c := (nonce_in_use sha512 msg key h + lev 256 (sha512 (agg ++ pbytes vkey ++ msg)) * lev 256 c * kL (ks_key key)) mod ell in
    signer_sign sha512 g agg = agg ++ pack_le 32 (share coef) /\
    signer_sign_coef sha512 g agg coef' = agg ++ pack_le 32 (share coef').
Proof.
  intros sha512 enc HL msg vkey key coef h.
  destruct (run_state sha512 enc HL h (signer_new_coef msg vkey key coef)) as (g & out & R & L & M & C & V & K & N).
  exists g, out. split; [exact R|]. split; [exact L|]. intros agg coef' La share.
  cbn [signer_new_coef sg_msg sg_coef sg_vkey sg_key sg_nonce] in *.
  assert (N' : sc_reduce (sg_nonce g) = nonce_in_use sha512 msg key h).
  { rewrite N. unfold nonce_in_use. destruct (latest_seed h); [reflexivity|exact lev_zero32]. }
  assert (A : forall c, signatureShare sha512 msg (sg_nonce g) agg c vkey key = agg ++ pack_le 32 (share c)).
  { intros c. unfold signatureShare, share. cbv zeta. rewrite N'. f_equal. f_equal. change (key_scalar (ks_key key)) with (kL (ks_key key) mod ell). unfold sc_add, sc_mul, sc_reduce.
    pose proof ell0. rewrite <- Z.add_mod_idemp_r by assumption. rewrite <- (Z.add_mod_idemp_r _ (lev 256 _ * _ * _)) by assumption. f_equal. f_equal.
    rewrite Z.mod_mod by assumption. rewrite Z.mul_mod_idemp_l, Z.mul_mod_idemp_r by assumption.
    rewrite <- Z.mul_mod_idemp_l by assumption. rewrite <- Z.mul_mod by assumption. rewrite Z.mul_mod_idemp_l by assumption. reflexivity. }
  unfold signer_sign, signer_sign_coef. rewrite M, C, V, K. split; apply A.
Qed.
(** C30, for a signer that holds the key alone (constructed without a coefficient): the coefficient is one. *)
Theorem C30_history_alone : forall sha512 enc, (forall x, length (sha512 x) = 64%nat) ->
  forall msg vkey key h, exists g out,
  signer_run sha512 enc (signer_new msg vkey key) h = Ok (g, out) /\ length out = length h /\
  forall agg, length agg = 32%nat ->
    signer_sign sha512 g agg = agg ++ pack_le 32 ((nonce_in_use sha512 msg key h + lev 256 (sha512 (agg ++ pbytes vkey ++ msg)) * kL (ks_key key)) mod ell).
Proof.
  intros sha512 enc HL msg vkey key h.
  destruct (C30_history sha512 enc HL msg vkey key (1 :: repeat 0 31) h) as (g & out & R & L & S).
  exists g, out. split; [exact R|]. split; [exact L|]. intros agg La.
  destruct (S agg [] La) as [S1 _]. rewrite S1. f_equal. f_equal. f_equal. f_equal.
  assert (E : lev 256 (1 :: repeat 0 31) = 1) by (vm_compute; reflexivity). rewrite E, Z.mul_1_r. reflexivity.
Qed.
(** C30: of two shares of one history, for different challenges, with no commitment between them, the key
    share can be computed; and so from a share made before the first commitment. *)
Theorem C30_reuse_reveals_refuted : forall sha512 enc, (forall x, length (sha512 x) = 64%nat) ->
  forall msg vkey key coef h1 h2 g1 o1 g2 o2 agg1 agg2,
  signer_run sha512 enc (signer_new_coef msg vkey key coef) h1 = Ok (g1, o1) -> signer_run sha512 enc g1 h2 = Ok (g2, o2) ->
  latest_seed h2 = None -> length agg1 = 32%nat -> length agg2 = 32%nat ->
  let k1 := sc_reduce (sha512 (agg1 ++ pbytes vkey ++ msg)) in
  let k2 := sc_reduce (sha512 (agg2 ++ pbytes vkey ++ msg)) in
  let c := sc_reduce coef in
  k1 <> k2 -> c <> 0 ->
  sc_mul (sc_sub (sc_reduce (skipn 32 (signer_sign sha512 g1 agg1))) (sc_reduce (skipn 32 (signer_sign sha512 g2 agg2))))
    (sc_inv (sc_mul (sc_sub k1 k2) c)) = kL (ks_key key) mod ell.
Proof.
  intros sha512 enc HL msg vkey key coef h1 h2 g1 o1 g2 o2 agg1 agg2 R1 R2 N2 L1 L2 k1 k2 c NK NC.
  destruct (run_state sha512 enc HL h1 (signer_new_coef msg vkey key coef)) as (g & out & R & _ & M & C & V & K & N).
  assert (g = g1) as -> by congruence. cbn [signer_new_coef sg_msg sg_coef sg_vkey sg_key] in *.
  assert (E : g2 = g1).
  { clear - N2 R2. revert g1 o2 R2 N2. induction h2 as [|x h IH]; intros g1 o2 R2 N2; [cbn in R2; congruence|].
    cbn [latest_seed] in N2. destruct (latest_seed h); [discriminate|]. destruct x as [s|a|a b]; [discriminate| |]; cbn [signer_run signer_step bind fst snd] in R2;
      (destruct (signer_run sha512 enc g1 h) as [[g' o']| |] eqn:E; cbn [bind fst snd] in R2; try discriminate);
      assert (g' = g2) as -> by congruence; exact (IH g1 o' E eq_refl). }
  subst g2. pose proof (nonce_reuse sha512 g1 agg1 agg2 L1 L2) as X. rewrite M, C, V, K in X. exact (X NK NC).
Qed.

(** ** Examples: the hypotheses are met by concrete cases in the toy group *)
Transparent sc_inv.
Definition ex_gen (j : nat) : xprv := prv_fromMnemonic toy_pbkdf2 (str "gen") (map (fun _ => 65) (seq 0 (S j))).
Definition ex_shamir := splitRootKey (toy_h 64) (toy_h 32) toy_enc toy_padd (shamir_dealer 4 3) toy_root ex_gen [12345; 67890].
Definition ex_direct := splitRootKey (toy_h 64) (toy_h 32) toy_enc toy_padd (direct_dealer 3) toy_root ex_gen [].
Definition pick (o : outcome (xpub * list keyshare)) (is : list nat) : list keyshare :=
  match o with Ok (_, ks) => map (fun i => nth i ks {| ks_id := 0; ks_key := toy_root |}) is | _ => [] end.
Definition pkof (o : outcome (xpub * list keyshare)) : list Z := match o with Ok (p, _) => pbytes p | _ => [] end.
Example C26_nontrivial :
  is_ok ex_shamir = true /\ length (pkof ex_shamir) = 32%nat /\
  omap (fun k => kL k) (compositeSigningKey (toy_h 64) (toy_h 32) toy_enc (shamir_dealer 4 3) (pick ex_shamir [3; 0; 3; 1]%nat)) = Ok (kL toy_root mod ell) /\
  compositeSigningKey (toy_h 64) (toy_h 32) toy_enc (shamir_dealer 4 3) (pick ex_shamir [3; 0; 3; 0]%nat) = Throw.
Proof. vm_compute. repeat split. Qed.
Example C27_nontrivial : is_ok ex_direct = true /\
  omap pbytes (compositeKey (toy_h 64) (toy_h 32) toy_enc toy_padd (direct_dealer 3) (pick ex_direct [2; 0; 1]%nat)) = Ok (toy_enc (kL toy_root)) /\
  (exists r, splitRootKey (toy_h 64) (toy_h 32) toy_enc toy_padd (direct_dealer 1) toy_root ex_gen [] = Ok r).
Proof. vm_compute. repeat split. eexists. reflexivity. Qed.
Definition ex_session (lcs : list (list Z)) (o : outcome (xpub * list keyshare)) (grp : list (list Z * keyshare)) : bool :=
  match o, mapM (commitmentShareFromNonce toy_enc) (map fst grp) with
  | Ok (pk, _), Ok cs =>
      match aggregateCommitmentShares toy_padd (map fst cs) with
      | Ok R => match aggregateSignatureShares (map (fun q => signatureShare (toy_h 64) (str "msg") (snd (fst (snd q))) R (fst q) pk (snd (snd q))) (combine lcs (combine cs (map snd grp)))) with
                | Ok sig => toy_verify (pbytes pk) (str "msg") sig
                | _ => false end
      | _ => false end
  | _, _ => false
  end.
Example C28_nontrivial :
  match computeLagrangeCoefficients [4; 1; 2] with
  | Ok lcs => ex_session lcs ex_shamir (combine [toy_h 64 [1]; toy_h 64 [2]; toy_h 32 [3]] (pick ex_shamir [3; 0; 1]%nat))
  | _ => false end = true /\
  ex_session (repeat (1 :: repeat 0 31) 3) ex_direct (combine [toy_h 64 [1]; toy_h 64 [2]; toy_h 32 [3]] (pick ex_direct [0; 1; 2]%nat)) = true.
Proof. vm_compute. split; reflexivity. Qed.
Example C29_nontrivial : peval [7; 5; 11] 3 = 7 + 5 * 3 + 11 * 9. Proof. reflexivity. Qed.
Example C30_nontrivial :
  let g := signer_new (str "msg") {| pbytes := toy_enc 5; pcc := [] |} {| ks_id := 1; ks_key := toy_root |} in
  match signer_commit (toy_h 64) toy_enc g (repeat 9 64) with
  | Ok (g', _) => negb (sc_reduce (toy_h 64 (toy_enc 3 ++ toy_enc 5 ++ str "msg")) =? sc_reduce (toy_h 64 (toy_enc 4 ++ toy_enc 5 ++ str "msg"))) && negb (sc_reduce (sg_coef g') =? 0)
                  && negb (sc_reduce (sg_nonce g') =? 0)
  | _ => false end = true.
Proof. vm_compute. reflexivity. Qed.

Example C30_history_nontrivial : omap (fun r => map (firstn 4) (snd r)) (signer_run (toy_h 64) toy_enc
    (signer_new (str "msg") {| pbytes := toy_enc 5; pcc := [] |} {| ks_id := 1; ks_key := toy_root |}) [Commit [1]; Sign (toy_enc 3); Commit [2]; Sign (toy_enc 4)]) <> Throw /\
  nonce_in_use (toy_h 64) (str "msg") {| ks_id := 1; ks_key := toy_root |} [Commit [1]; Sign (toy_enc 3)] <>
  nonce_in_use (toy_h 64) (str "msg") {| ks_id := 1; ks_key := toy_root |} [Commit [1]; Sign (toy_enc 3); Commit [2]].
Proof. vm_compute. split; discriminate. Qed.

Print Assumptions C26_dealers. Print Assumptions C26_split_total. Print Assumptions C26_reconstruct. Print Assumptions C26_too_few. Print Assumptions C26_conflict. Print Assumptions C26_max_refuted.
Print Assumptions C27_split_total. Print Assumptions C27_direct. Print Assumptions C27_single_refuted.
Print Assumptions C28_direct. Print Assumptions C28_shamir. Print Assumptions C28_coefficients_refused. Print Assumptions C28_commitments_must_agree. Print Assumptions C28_stateful. Print Assumptions C28_default_coefficient.
Print Assumptions C29_shares_are_values. Print Assumptions C29_secrecy. Print Assumptions C29_rules_out_own_value.
Print Assumptions C30_reuse_refuted. Print Assumptions C30_uncommitted_refuted. Print Assumptions C30_commit. Print Assumptions C30_history. Print Assumptions C30_reuse_reveals_refuted.
