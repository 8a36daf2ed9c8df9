(** The laws that theorems ask of the hash functions (how long a digest is, and that it consists of bytes) hold of the functions the library
    really calls, for every message: BLAKE2b-224, BLAKE2b-256, SHA-256 and SHA-512 as written from the standards in Spec_Hashes. *)
From Verif Require Import Base BaseLemmas Model_Hex Proof_Hex Spec_Hashes Spec_Ledger Spec_Mnemonic Model_Mnemonic Model_Bip32 Spec_Ed25519 Spec_Bip32 Spec_Kes Spec_Address Proof_Mnemonic Props_Mnemonic Props_Spend.
Ltac Zify.zify_post_hook ::= idtac.

Lemma put_length l i x : length (put l i x) = length l.
Proof. revert i. induction l as [|y l IH]; intros [|i]; cbn [put length]; auto. Qed.
Lemma flat_map_fixed (f : Z -> list Z) n l : (forall x, length (f x) = n) -> length (flat_map f l) = (n * length l)%nat.
Proof. intros F. induction l as [|x l IH]; cbn [flat_map length]; [lia|]. rewrite app_length, F, IH. lia. Qed.
Lemma flat_map_bytes (f : Z -> list Z) l : (forall x, bytes_ok (f x)) -> bytes_ok (flat_map f l).
Proof. intros F. induction l as [|x l IH]; cbn [flat_map]; [constructor|]. apply Forall_app. split; [apply F|exact IH]. Qed.
Lemma bytes_firstn n l : bytes_ok l -> bytes_ok (firstn n l).
Proof. intros B. revert n. induction B as [|x l Bx B IH]; intros [|n]; cbn [firstn]; constructor; auto. apply IH. Qed.

Lemma blake_blocks_length k : forall h b t, length h = 8%nat -> length (blake_blocks k h b t) = 8%nat.
Proof.
  induction k as [|k IH]; intros h b t L; [exact L|].
  cbn [blake_blocks]. destruct k as [|k]; [unfold blake_compress; rewrite map_length, seq_length; reflexivity|].
  apply IH. unfold blake_compress. rewrite map_length, seq_length. reflexivity.
Qed.
Lemma sha_rounds_length p kws : forall v, length v = 8%nat -> length (fold_left (sha_round p) kws v) = 8%nat.
Proof. induction kws as [|kw kws IH]; intros v L; cbn [fold_left]; [exact L|]. apply IH. reflexivity. Qed.
Lemma sha_blocks_length p bs : forall h, length h = 8%nat -> length (fold_left (sha_block p) bs h) = 8%nat.
Proof.
  induction bs as [|b bs IH]; intros h L; cbn [fold_left]; [exact L|]. apply IH.
  unfold sha_block. rewrite map_length, combine_length, sha_rounds_length, L by exact L. reflexivity.
Qed.

(** C87: every digest has its length and consists of bytes. *)
Theorem C87_blake2b : forall n m, (1 <= n <= 64)%nat -> bytesN (Z.of_nat n) (blake2b n m).
Proof.
  intros n m Hn. unfold blake2b. split.
  - apply bytes_firstn, flat_map_bytes. intros x. apply pack_le_ok.
  - unfold zlen. rewrite firstn_length, (flat_map_fixed _ 8) by (intros x; apply pack_le_length).
    rewrite blake_blocks_length by (rewrite put_length; reflexivity). lia.
Qed.
Theorem C87_digests : forall m,
  bytesN 28 (blake2b_224 m) /\ bytesN 32 (blake2b_256 m) /\ bytesN 32 (sha256 m) /\ bytesN 64 (sha512 m).
Proof.
  intros m. split; [apply (C87_blake2b 28); lia|]. split; [apply (C87_blake2b 32); lia|].
  unfold sha256, sha512, sha2_hash. split; (split; [apply flat_map_bytes; intros x; apply pack_be_ok|]);
    unfold zlen; erewrite flat_map_fixed by (intros x; apply pack_be_length); rewrite sha_blocks_length by reflexivity; reflexivity.
Qed.
Print Assumptions C87_digests.

Lemma bytes_combine f a b : (forall x y, byte_ok x -> byte_ok y -> byte_ok (f x y)) -> bytes_ok a -> bytes_ok b -> bytes_ok (map (fun xy => f (fst xy) (snd xy)) (combine a b)).
Proof.
  intros F A. revert b. induction A as [|x a Hx A IH]; intros b B; cbn [combine map]; [constructor|].
  destruct B as [|y b Hy B]; cbn [combine map]; constructor; [apply F; assumption|apply IH; exact B].
Qed.
Lemma byte_lxor x y : byte_ok x -> byte_ok y -> byte_ok (Z.lxor x y).
Proof.
  unfold byte_ok. intros X Y. split; [apply Z.lxor_nonneg; lia|]. change 256 with (2 ^ 8).
  destruct (Z.eq_dec (Z.lxor x y) 0) as [->|N]; [lia|].
  assert (0 <= Z.lxor x y) by (apply Z.lxor_nonneg; lia).
  apply Z.log2_lt_pow2; [lia|]. eapply Z.le_lt_trans; [apply Z.log2_lxor; lia|].
  assert (forall z, 0 <= z < 256 -> Z.log2 z < 8).
  { intros z Hz. destruct (Z.eq_dec z 0) as [->|]; [reflexivity|]. apply Z.log2_lt_pow2; lia. }
  apply Z.max_lub_lt; auto.
Qed.
Lemma hmac512_ok k m : bytesN 64 (hmac512 k m).
Proof. apply C87_digests. Qed.
Lemma xor_ok a b : bytesN 64 a -> bytesN 64 b -> bytesN 64 (Spec_Hashes.xor_bytes a b).
Proof.
  intros [A LA] [B LB]. split; [apply bytes_combine; auto using byte_lxor|].
  unfold Spec_Hashes.xor_bytes, zlen in *. rewrite map_length, combine_length. lia.
Qed.
Lemma pbkdf2_iter_ok n pass : forall u acc, bytesN 64 acc -> bytesN 64 (pbkdf2_iter n pass u acc).
Proof. induction n as [|n IH]; intros u acc A; cbn [pbkdf2_iter]; [exact A|]. apply IH, xor_ok; [exact A|apply hmac512_ok]. Qed.
Lemma flat_map_fixed_nat (f : nat -> list Z) n l : (forall x, length (f x) = n) -> length (flat_map f l) = (n * length l)%nat.
Proof. intros F. induction l as [|x l IH]; cbn [flat_map length]; [lia|]. rewrite app_length, F, IH. lia. Qed.
Lemma flat_map_bytes_nat (f : nat -> list Z) l : (forall x, bytes_ok (f x)) -> bytes_ok (flat_map f l).
Proof. intros F. induction l as [|x l IH]; cbn [flat_map]; [constructor|]. apply Forall_app. split; [apply F|exact IH]. Qed.

(** The laws assumed of the hash functions in the theorems on keys, wallets and phrases. *)
Theorem C87_hashes_ok : hashes_ok sha512 sha256 hmac512 pbkdf2_512 /\ sha256_shape sha256 /\ forall x, hash28 (blake2b_224 x).
Proof.
  assert (N : forall n b, bytesN (Z.of_nat n) b -> length b = n /\ bytes_ok b) by (intros n b [B L]; split; [unfold zlen in L; lia|exact B]).
  split; [|split].
  - constructor.
    + intros x. apply (N 64%nat), C87_digests.
    + intros x. apply (N 32%nat), C87_digests.
    + intros k x. apply (N 64%nat), hmac512_ok.
    + intros i n p s. unfold pbkdf2_512.
      assert (A : forall j, bytesN 64 (pbkdf2_block i p s j)) by (intros j; apply pbkdf2_iter_ok, hmac512_ok).
      split; [|apply bytes_firstn, flat_map_bytes_nat; intros x; apply A].
      rewrite firstn_length, (flat_map_fixed_nat _ 64) by (intros x; apply (N 64%nat), A). rewrite seq_length.
      pose proof (Nat.div_mod (n + 63) 64 ltac:(lia)). pose proof (Nat.mod_upper_bound (n + 63) 64 ltac:(lia)). lia.
  - intros x. destruct (N 32%nat _ (proj1 (proj2 (proj2 (C87_digests x))))). split; assumption.
  - intros x. destruct (N 28%nat _ (proj1 (C87_digests x))). split; assumption.
Qed.
Print Assumptions C87_hashes_ok.

(** Recovery phrases with SHA-256 itself: nothing is assumed. *)
Theorem C87_phrases : forall size lang ent, bip39_size size -> bytes_ok ent -> length ent = (4 * (size / 3))%nat ->
  exists m, generate sha256 size lang ent = Ok m /\ length (m_words m) = size /\ verify_checksum sha256 m = Ok true /\ toSeed m = Ok ent /\
  (exists idx, m_idx m = idx /\ is_bip39_split ent (leading_bits (size / 3) (sha256 ent)) idx) /\
  Mnemonic_of_text (join_spaces (m_words m)) lang = Ok m /\
  forall text m' ent', Mnemonic_of_text text lang = Ok m' -> verify_checksum sha256 m' = Ok true -> toSeed m' = Ok ent' ->
  (text = join_spaces (m_words m) <-> ent' = ent).
Proof.
  intros size lang ent B BO L. destruct C87_hashes_ok as (_ & S & _).
  destruct (C16_generate_round_trip sha256 S size lang ent B BO L) as (m & G & LI & DI & W & V & T & TE).
  destruct (C16_generate_is_bip39 sha256 S size lang ent B BO L) as (idx & G2 & L2 & SP).
  destruct (C76_phrase_restores sha256 S size lang ent B BO L) as (m3 & G3 & L3 & R3).
  assert (m3 = m) by congruence. subst m3. exists m. split; [exact G|]. split; [exact L3|]. split; [exact V|]. split; [exact T|].
  split; [exists (m_idx m); split; [reflexivity|]; assert (E : m = {| m_words := map (word_at lang) idx; m_idx := idx |}) by congruence; rewrite E; exact SP|].
  split; [|exact R3]. rewrite W, (C18_text_round_trip lang (m_idx m)) by (rewrite ?LI; assumption). destruct m as [w i]. cbn [m_words m_idx] in *. rewrite W. reflexivity.
Qed.
Print Assumptions C87_phrases.
(** The key tree of KES with BLAKE2b-256: only laws of Ed25519 are left to assume. *)
Theorem C87_kes : forall ed_pk ed_sign ed_verify,
  (forall s, length (ed_pk s) = 32%nat) -> (forall s m, length (ed_sign s m) = 64%nat) -> (forall s m, ed_verify (ed_pk s) m (ed_sign s m) = true) ->
  kes_crypto blake2b_256 ed_pk ed_sign ed_verify.
Proof.
  intros pk sg vf A B C. constructor; [|exact A|exact B|exact C]. intros x.
  destruct (C87_digests x) as (_ & [_ L] & _). unfold zlen in L. lia.
Qed.
Print Assumptions C87_kes.

(** RFC 7693 (appendix A), FIPS 180-4 and RFC 4231 (test case 2) on their examples *)
Example C87_published :
  hex_encode (blake2b 64 (str "abc")) = str "ba80a53f981c4d0d6a2797b69f12f6e94c212f14685ac4b74b12bb6fdbffa2d17d87c5392aab792dc252d5de4533cc9518d38aa8dbf1925ab92386edd4009923" /\
  hex_encode (sha256 (str "abc")) = str "ba7816bf8f01cfea414140de5dae2223b00361a396177a9cb410ff61f20015ad" /\
  hex_encode (sha512 (str "abc")) = str "ddaf35a193617abacc417349ae20413112e6fa4e89a97ea20a9eeee64b55d39a2192992a274fc1a836ba3c23a3feebbd454d4423643ce80e2a9ac94fa54ca49f" /\
  hex_encode (hmac512 (str "Jefe") (str "what do ya want for nothing?")) =
    str "164b7a7bfcf819e2e395fbe73b56e0a387bd64222e831fd610270cd7ea2505549758bf75c05a994a6d034f65f8f0e6fdcaeab1a34d4a6b4b636e070a38bce737".
Proof. split; [vm_compute; reflexivity|]. split; [vm_compute; reflexivity|]. split; vm_compute; reflexivity. Qed.
(** test/test_cardano_mnemonic_api.cpp:51-104, the other way round *)
Example C87_ex : let ent := [254; 144; 194; 227; 170; 116; 34; 32; 109; 75; 157; 248; 70; 162; 69; 60; 124; 252; 153; 245] in
  bip39_size 15 /\ bytes_ok ent /\ length ent = 20%nat /\
  match generate sha256 15 English ent with
  | Ok m => join_spaces (m_words m) = str "write maid rib female drama awake release inhale weapon crush mule jump sound erupt stereo"
  | _ => False
  end.
Proof. split; [right; right; left; reflexivity|]. split; [apply bytes_okb_spec; reflexivity|]. split; [reflexivity|vm_compute; reflexivity]. Qed.
