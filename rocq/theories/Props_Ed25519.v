(** C67: plain Ed25519 keys. *)
From Verif Require Import Base BaseLemmas Model_Hex Proof_Hex Spec_Ed25519 Prime Model_Bip32 Spec_Bip32 Proof_Bip32 Proof_Bip32b Spec_Files Proof_Files Model_Ed25519 Props_Bip32.
From Coq Require Import Znumtheory.
Ltac Zify.zify_post_hook ::= idtac.

Definition sha_ok (sha512 : list Z -> list Z) : Prop := forall x, length (sha512 x) = 64%nat /\ bytes_ok (sha512 x).

Section C67.
Variables (sha512 : list Z -> list Z) (enc : Z -> list Z) (padd : list Z -> list Z -> option (list Z)) (verify : list Z -> list Z -> list Z -> bool).
Hypothesis SO : sha_ok sha512.
Hypothesis EG : ed_group enc padd.
Hypothesis EV : ed_verifies enc sha512 verify.
Let e0 : ell <> 0. Proof. pose proof ell_pos. lia. Qed.

Lemma clamp_scalar seed : lev 256 (firstn 32 (sodium_clamp (sha512 seed))) = rfc_scalar sha512 seed.
Proof. destruct (SO seed) as [L B]. destruct (tweak_byron_value (sha512 seed) ltac:(lia) B) as [V _]. exact V. Qed.
Lemma public_rfc seed : ed_publicKey sha512 enc seed = rfc_public sha512 enc seed.
Proof. unfold ed_publicKey, sodium_seed_keypair. cbn [fst]. cbv zeta. rewrite clamp_scalar. reflexivity. Qed.
Lemma sign_rfc seed msg : length seed = 32%nat -> ed_sign sha512 enc seed msg = rfc_sign sha512 enc seed msg.
Proof.
  intros L. unfold ed_sign, sodium_seed_keypair, sodium_sign. cbn [snd]. cbv zeta. rewrite clamp_scalar.
  rewrite (firstn_app_exact seed _ 32), (skipn_app_exact seed _ 32) by (symmetry; exact L). rewrite clamp_scalar.
  unfold rfc_sign. cbv zeta. fold (rfc_nonce sha512 seed msg). rewrite (enc_mod enc padd EG). fold (rfc_public sha512 enc seed).
  f_equal. f_equal. rewrite Z.add_mod_idemp_r by exact e0. rewrite Z.add_comm. rewrite <- Z.add_mod_idemp_r by exact e0.
  rewrite Z.mul_mod_idemp_l by exact e0. rewrite Z.add_mod_idemp_r by exact e0. reflexivity.
Qed.
Lemma scalar_unit seed : rfc_scalar sha512 seed mod ell <> 0.
Proof.
  apply clamped_usable. destruct (SO seed) as [L B]. pose proof (clamp_scalar seed) as C. unfold clamped, rfc_scalar in *. cbv zeta.
  set (h := lev 256 (firstn 32 (sha512 seed))) in *.
  assert (D : h mod 2 ^ 254 mod 8 = h mod 8). { change (2 ^ 254) with (8 * 2 ^ 251). rewrite Z.rem_mul_r by lia. rewrite (Z.mul_comm 8). rewrite Z.mod_add by lia. apply Z.mod_mod. lia. }
  pose proof (Z.mod_pos_bound h (2 ^ 254) ltac:(lia)) as HB. pose proof (Z.mod_pos_bound h 8 ltac:(lia)) as H8.
  pose proof (Z.div_mod (h mod 2 ^ 254) 8 ltac:(lia)) as DM. rewrite D in DM.
  pose proof (Z.mod_le (h mod 2 ^ 254) 8 ltac:(lia) ltac:(lia)) as LE. rewrite D in LE.
  split.
  - replace (2 ^ 254 + (h mod 2 ^ 254 - h mod 8)) with (0 + (2 ^ 251 + h mod 2 ^ 254 / 8) * 8) by (change (2 ^ 254) with (2 ^ 251 * 8) in *; lia).
    rewrite Z.mod_add by lia. reflexivity.
  - change (2 ^ 255) with (2 ^ 254 + 2 ^ 254). lia.
Qed.
Lemma sig_parts seed msg : length seed = 32%nat ->
  exists S, 0 <= S < ell /\ ed_sign sha512 enc seed msg = enc (rfc_nonce sha512 seed msg) ++ pack_le 32 S /\
    S = (rfc_nonce sha512 seed msg + lev 256 (sha512 (enc (rfc_nonce sha512 seed msg) ++ rfc_public sha512 enc seed ++ msg)) * rfc_scalar sha512 seed) mod ell.
Proof. intros L. rewrite sign_rfc by exact L. unfold rfc_sign. cbv zeta. eexists. split; [|split; [reflexivity|reflexivity]]. apply Z.mod_pos_bound, ell_pos. Qed.
Lemma small v : 0 <= v < ell -> 0 <= v < 2 ^ 256.
Proof. intros H. assert (ell < 2 ^ 256) by reflexivity. lia. Qed.
End C67.

(** C67: the public key and the signatures are those of RFC 8032 (Spec_Files.v: rfc_public, rfc_sign), for every seed and message. *)
Theorem C67_rfc8032 : forall sha512 enc padd, sha_ok sha512 -> ed_group enc padd -> forall prv msg, length prv = 32%nat ->
  ed_publicKey sha512 enc prv = rfc_public sha512 enc prv /\ ed_sign sha512 enc prv msg = rfc_sign sha512 enc prv msg.
Proof. intros sha512 enc padd SO EG prv msg L. split; [exact (public_rfc _ _ SO prv)|exact (sign_rfc _ _ padd SO EG prv msg L)]. Qed.
Print Assumptions C67_rfc8032.

(** C67: a signature is 64 bytes and verifies under the key's public key (unless the nonce, a hash, is a multiple of the group order). *)
Theorem C67_sign_verify : forall sha512 enc padd verify, sha_ok sha512 -> ed_group enc padd -> ed_verifies enc sha512 verify ->
  forall prv msg, length prv = 32%nat -> rfc_nonce sha512 prv msg mod ell <> 0 ->
  length (ed_sign sha512 enc prv msg) = 64%nat /\ bytes_ok (ed_sign sha512 enc prv msg) /\
  ed_verifySignature verify (ed_publicKey sha512 enc prv) msg (ed_sign sha512 enc prv msg) = true.
Proof.
  intros sha512 enc padd verify SO EG EV prv msg L N. destruct (sig_parts _ _ padd SO EG prv msg L) as (S & RS & E & VS). rewrite E.
  split. { rewrite app_length, pack_le_length, (enc_len enc padd EG). reflexivity. }
  split. { apply bytes_ok_app. split; [apply (enc_bytes enc padd EG)|apply pack_le_ok]. }
  unfold ed_verifySignature. rewrite (public_rfc _ _ SO). unfold rfc_public. apply EV; [apply small; exact RS|].
  split; [apply scalar_unit; exact SO|]. split; [exact N|]. split; [lia|]. exact VS.
Qed.
Print Assumptions C67_sign_verify.

(** C67: no other second half verifies: for the signature's first half R, the only accepted 64 bytes R ++ s are the signature itself. *)
Theorem C67_not_malleable : forall sha512 enc padd verify, sha_ok sha512 -> ed_group enc padd -> ed_verifies enc sha512 verify ->
  forall prv msg s, length prv = 32%nat -> length s = 32%nat -> bytes_ok s ->
  let sig := ed_sign sha512 enc prv msg in
  ed_verifySignature verify (ed_publicKey sha512 enc prv) msg (firstn 32 sig ++ s) = true -> s = skipn 32 sig.
Proof.
  intros sha512 enc padd verify SO EG EV prv msg s L LS BS. cbv zeta. destruct (sig_parts _ _ padd SO EG prv msg L) as (S & RS & E & VS). rewrite E.
  rewrite firstn_app_exact, skipn_app_exact by (symmetry; apply (enc_len enc padd EG)).
  unfold ed_verifySignature. rewrite (public_rfc _ _ SO). unfold rfc_public. intros V.
  assert (P : s = pack_le 32 (lev 256 s)).
  { apply (lev_inj 256); try lia; [exact BS|apply pack_le_ok|rewrite pack_le_length; exact LS|].
    pose proof (pack_le_value 32 (lev 256 s)) as X. rewrite X. symmetry. apply Z.mod_small.
    pose proof (lev_bound 256 s ltac:(lia) BS) as LB. unfold zlen in LB. rewrite LS in LB. exact LB. }
  assert (R : 0 <= lev 256 s < 2 ^ 256).
  { pose proof (lev_bound 256 s ltac:(lia) BS) as LB. unfold zlen in LB. rewrite LS in LB. exact LB. }
  rewrite P in V. apply EV in V; [|exact R]. destruct V as (_ & _ & _ & V). rewrite P, V, VS. reflexivity.
Qed.
Print Assumptions C67_not_malleable.

(** C67: a signature that is accepted for another message is a collision of the challenge hash modulo the group order. *)
Theorem C67_bound_to_message : forall sha512 enc padd verify, sha_ok sha512 -> ed_group enc padd -> ed_verifies enc sha512 verify ->
  forall prv msg msg', length prv = 32%nat ->
  let sig := ed_sign sha512 enc prv msg in let pub := ed_publicKey sha512 enc prv in
  ed_verifySignature verify pub msg' sig = true ->
  lev 256 (sha512 (firstn 32 sig ++ pub ++ msg')) mod ell = lev 256 (sha512 (firstn 32 sig ++ pub ++ msg)) mod ell.
Proof.
  intros sha512 enc padd verify SO EG EV prv msg msg' L. cbv zeta. destruct (sig_parts _ _ padd SO EG prv msg L) as (S & RS & E & VS). rewrite E.
  rewrite firstn_app_exact by (symmetry; apply (enc_len enc padd EG)). unfold ed_verifySignature. rewrite (public_rfc _ _ SO). unfold rfc_public in *. intros V.
  apply EV in V; [|apply small; exact RS]. destruct V as (U & _ & _ & V). rewrite VS in V. clear VS RS E.
  set (r := rfc_nonce sha512 prv msg) in *. set (a := rfc_scalar sha512 prv) in *.
  set (h := lev 256 (sha512 (enc r ++ enc a ++ msg))) in *. set (h' := lev 256 (sha512 (enc r ++ enc a ++ msg'))) in *.
  assert (e0 : ell <> 0) by (pose proof ell_pos; lia).
  assert (D : (ell | (h' - h) * a)).
  { apply Z.mod_divide; [exact e0|]. replace ((h' - h) * a) with ((r + h' * a) - (r + h * a)) by ring. rewrite Zminus_mod, V, Z.sub_diag. apply Z.mod_0_l, e0. }
  apply prime_mult in D; [|exact prime_ell]. destruct D as [D|D].
  - apply Z.mod_divide in D; [|exact e0]. rewrite (Z.div_mod (h' - h) ell e0) in D. 
    assert (Q : h' = h + ((h' - h) / ell) * ell) by (pose proof (Z.div_mod (h' - h) ell e0) as X; rewrite <- X in D; lia).
    rewrite Q at 1. apply Z.mod_add, e0.
  - apply Z.mod_divide in D; [|exact e0]. contradiction.
Qed.
Print Assumptions C67_bound_to_message.

(** C67: a generated key holds the 32 random bytes; a key's bytes are those it was made from. *)
Theorem C67_generate : forall sha512 enc random, length random = 32%nat -> ed_generate sha512 enc random = random.
Proof. intros sha512 enc random L. unfold ed_generate, ed_PrivateKey, sodium_seed_keypair. cbn [snd]. cbv zeta. apply firstn_app_exact. symmetry. exact L. Qed.
Print Assumptions C67_generate.

(** Not vacuous: the toy group and hash of Props_Bip32.v. *)
Example C67_example : let prv := repeat 7 32 in let m := str "message" in let sig := ed_sign (toy_h 64) toy_enc prv m in
  rfc_nonce (toy_h 64) prv m mod ell <> 0 /\ ed_verifySignature toy_verify (ed_publicKey (toy_h 64) toy_enc prv) m sig = true /\
  ed_verifySignature toy_verify (ed_publicKey (toy_h 64) toy_enc prv) (str "massage") sig = false.
Proof. cbv zeta. split; [vm_compute; discriminate|]. split; vm_compute; reflexivity. Qed.
Example C67_hypotheses : sha_ok (toy_h 64) /\ ed_group toy_enc toy_padd /\ ed_verifies toy_enc (toy_h 64) toy_verify.
Proof. split; [exact (sha512_ok _ _ _ _ toy_hashes)|]. split; [exact toy_group|exact toy_verifies]. Qed.
