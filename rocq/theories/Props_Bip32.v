(** Properties C31-C35: BIP32-Ed25519 keys. *)
From Verif Require Import Base BaseLemmas Model_Hex Proof_Hex Spec_Ed25519 Model_Bip32 Spec_Bip32 Proof_Bip32 Proof_Bip32b.

(** A toy group, hash and verifier meeting the assumptions, used by the examples. *)
Definition toy_enc (k : Z) : list Z := pack_le 32 (k mod ell).
Definition toy_padd (a b : list Z) : option (list Z) := Some (toy_enc (lev 256 a + lev 256 b)).
Definition toy_h (n : nat) (x : list Z) : list Z := pack_le n (bev 256 (1 :: x) * 981240912309812309812309123 * 2 ^ 300 / 7).
Definition toy_hmac (k x : list Z) : list Z := toy_h 64 (k ++ x).
Definition toy_pbkdf2 (i : Z) (n : nat) (p s : list Z) : list Z := toy_h n (p ++ s).
Definition toy_verify (pk m sig : list Z) : bool :=
  let a := lev 256 pk in let r := lev 256 (firstn 32 sig) in let S := lev 256 (skipn 32 sig) in
  negb (a mod ell =? 0) && negb (r mod ell =? 0) && (S <? ell) &&
  (S =? (r + lev 256 (toy_h 64 (firstn 32 sig ++ pk ++ m)) * a) mod ell).

Lemma toy_lev k : lev 256 (toy_enc k) = k mod ell.
Proof.
  unfold toy_enc. pose proof (pack_le_value 32 (k mod ell)) as X. rewrite X. apply Z.mod_small.
  pose proof ell_bounds. pose proof (Z.mod_pos_bound k ell ltac:(lia)). change (256 ^ Z.of_nat 32) with (2 ^ 256). lia.
Qed.
Lemma toy_group : ed_group toy_enc toy_padd.
Proof.
  pose proof ell_pos as EP. constructor.
  - intros. apply pack_le_length.
  - intros. apply pack_le_ok.
  - intros. unfold toy_enc. rewrite Z.mod_mod by lia. reflexivity.
  - intros a b E. rewrite <- !toy_lev, E. reflexivity.
  - intros a b. unfold toy_padd. rewrite !toy_lev. unfold toy_enc. rewrite <- Z.add_mod by lia. reflexivity.
Qed.
Lemma toy_hashes : hashes_ok (toy_h 64) (toy_h 32) toy_hmac toy_pbkdf2.
Proof. constructor; intros; split; try apply pack_le_length; try apply pack_le_ok. Qed.
Lemma toy_verifies : ed_verifies toy_enc (toy_h 64) toy_verify.
Proof.
  intros a r S m HS. pose proof ell_pos as EP. unfold toy_verify.
  rewrite firstn_app_exact, skipn_app_exact by (symmetry; apply pack_le_length).
  assert (LS : lev 256 (pack_le 32 S) = S) by (pose proof (pack_le_value 32 S) as X; rewrite X; apply Z.mod_small; exact HS).
  rewrite LS, !toy_lev, !Z.mod_mod by lia.
  rewrite !andb_true_iff, !negb_true_iff, !Z.eqb_neq, Z.ltb_lt, Z.eqb_eq.
  rewrite Z.add_mod_idemp_l by lia.
  rewrite <- (Z.add_mod_idemp_r r (_ * (a mod ell))), Z.mul_mod_idemp_r, Z.add_mod_idemp_r by lia. tauto.
Qed.
Definition toy_root : xprv := prv_fromMnemonic toy_pbkdf2 (str "seed") (str "pass").

(** C31: soft derivation commutes with taking the public key, chain code included; the only other
    outcome is that the public derivation throws, when the tweak is zero modulo the group order. *)
Theorem C31_soft_step : forall sha512 sha256 hmac512 pbkdf2 enc padd,
  hashes_ok sha512 sha256 hmac512 pbkdf2 -> ed_group enc padd ->
  forall k pk i mode c cpk, wf_prv k -> soft i -> (mode = V2 -> kL k + 2 ^ 227 <= 2 ^ 256) ->
  publicKey enc k = Ok pk -> prv_deriveChild hmac512 enc k i mode = Ok c -> publicKey enc c = Ok cpk ->
  pub_deriveChild hmac512 enc padd pk i mode = Ok cpk \/
  pub_deriveChild hmac512 enc padd pk i mode = Throw /\ tweak_of mode (z_soft hmac512 pk i mode) mod ell = 0.
Proof.
  intros sha512 sha256 hmac512 pbkdf2 enc padd HO EG k pk i mode c cpk W S R. apply (soft_step _ _ _ _ _ _ HO EG); auto.
Qed.
Print Assumptions C31_soft_step.
(** In mode V2 a zero tweak means that the first 28 bytes of the HMAC are all zero. *)
Theorem C31_zero_tweak : forall z, length z = 64%nat -> bytes_ok z ->
  tweak_of V2 z mod ell = 0 <-> lev 256 (firstn 28 z) = 0.
Proof. exact tweak_v2_zero. Qed.
Print Assumptions C31_zero_tweak.

(** C31, the other way: what is derived from the public key is the public key of the private child. *)
Theorem C31_public_child_is_public_key : forall sha512 sha256 hmac512 pbkdf2 enc padd,
  hashes_ok sha512 sha256 hmac512 pbkdf2 -> ed_group enc padd ->
  forall k pk i mode q, wf_prv k -> soft i -> (mode = V2 -> kL k + 2 ^ 227 <= 2 ^ 256) ->
  publicKey enc k = Ok pk -> pub_deriveChild hmac512 enc padd pk i mode = Ok q ->
  exists c, prv_deriveChild hmac512 enc k i mode = Ok c /\ pcc q = kcc c /\ pbytes q = enc (kL c) /\
    (usable (kL c) -> publicKey enc c = Ok q).
Proof.
  intros sha512 sha256 hmac512 pbkdf2 enc padd HO EG k pk i mode q W S R. apply (soft_step_conv _ _ _ _ _ _ HO EG); auto.
Qed.
Print Assumptions C31_public_child_is_public_key.

(** C31 along a path of any length. *)
Theorem C31_soft_path : forall sha512 sha256 hmac512 pbkdf2 enc padd,
  hashes_ok sha512 sha256 hmac512 pbkdf2 -> ed_group enc padd ->
  forall path k pk mode c cpk, wf_prv k -> Forall soft path ->
  (mode = V2 -> kL k + Z.of_nat (length path) * 2 ^ 227 <= 2 ^ 256) ->
  publicKey enc k = Ok pk -> prv_derivePath hmac512 enc k path mode = Ok c -> publicKey enc c = Ok cpk ->
  pub_derivePath hmac512 enc padd pk path mode = Ok cpk \/
  pub_derivePath hmac512 enc padd pk path mode = Throw /\
  exists pre i post k' pk', path = pre ++ i :: post /\ prv_derivePath hmac512 enc k pre mode = Ok k' /\
    publicKey enc k' = Ok pk' /\ tweak_of mode (z_soft hmac512 pk' i mode) mod ell = 0.
Proof. intros sha512 sha256 hmac512 pbkdf2 enc padd HO EG. exact (soft_path _ _ _ _ _ _ HO EG). Qed.
Print Assumptions C31_soft_path.
Example C31_nontrivial : exists c pk cpk,
  publicKey toy_enc toy_root = Ok pk /\
  prv_derivePath toy_hmac toy_enc toy_root [0; 5; 2 ^ 31 - 1] V2 = Ok c /\ publicKey toy_enc c = Ok cpk /\
  pub_derivePath toy_hmac toy_enc toy_padd pk [0; 5; 2 ^ 31 - 1] V2 = Ok cpk /\
  kL toy_root + 3 * 2 ^ 227 <= 2 ^ 256 /\ wf_prv toy_root.
Proof.
  eexists. eexists. eexists. split; [vm_compute; reflexivity|]. split; [vm_compute; reflexivity|].
  split; [vm_compute; reflexivity|]. split; [vm_compute; reflexivity|]. split; [vm_compute; discriminate|].
  apply (mnemonic_root _ _ _ _ toy_hashes).
Qed.
Example C31_nontrivial_v1 : exists c pk cpk,
  publicKey toy_enc toy_root = Ok pk /\
  prv_derivePath toy_hmac toy_enc toy_root [0; 5; 2 ^ 31 - 1] V1 = Ok c /\ publicKey toy_enc c = Ok cpk /\
  pub_derivePath toy_hmac toy_enc toy_padd pk [0; 5; 2 ^ 31 - 1] V1 = Ok cpk.
Proof.
  eexists. eexists. eexists. split; [vm_compute; reflexivity|]. split; [vm_compute; reflexivity|].
  split; vm_compute; reflexivity.
Qed.

(** Mode V2 computes the formula of the BIP32-Ed25519 paper: kL + 8 ZL (28 bytes), kR + ZR mod 2^256,
    with Z from the private key for hardened indices and from the public key otherwise. *)
Theorem C31_v2_formula : forall sha512 sha256 hmac512 pbkdf2 enc padd,
  hashes_ok sha512 sha256 hmac512 pbkdf2 -> ed_group enc padd ->
  forall k i c, wf_prv k -> kL k + 2 ^ 227 <= 2 ^ 256 -> prv_deriveChild hmac512 enc k i V2 = Ok c ->
  let z := hmac512 (kcc k) ((if 2 ^ 31 <=? i then [0] ++ kbytes k else [2] ++ enc (kL k)) ++ pack_le 4 i) in
  0 <= i < 2 ^ 32 ->
  kL c = kL k + 8 * lev 256 (firstn 28 z) /\ kR c = (kR k + lev 256 (skipn 32 z)) mod 2 ^ 256.
Proof. intros sha512 sha256 hmac512 pbkdf2 enc padd HO EG. exact (v2_formula _ _ _ _ _ _ HO EG). Qed.
Print Assumptions C31_v2_formula.

(** Every derivation step, both modes and both kinds of index: which bytes are hashed, and how the child comes from the hashes. *)
Theorem C31_derivation_step : forall sha512 sha256 hmac512 pbkdf2 enc padd,
  hashes_ok sha512 sha256 hmac512 pbkdf2 -> ed_group enc padd ->
  forall k i mode c, wf_prv k -> 0 <= i < 2 ^ 32 -> prv_deriveChild hmac512 enc k i mode = Ok c ->
  let z := hmac512 (kcc k) (step_data 0 2 k (enc (kL k)) i mode) in
  kL c = (kL k + tweak_of mode z) mod (match mode with V1 => ell | V2 => 2 ^ 256 end) /\
  (mode = V1 -> skipn 32 (kbytes c) = map (fun p => (fst p + snd p) mod 256) (combine (skipn 32 z) (skipn 32 (kbytes k)))) /\
  (mode = V2 -> kR c = (kR k + lev 256 (skipn 32 z)) mod 2 ^ 256) /\
  kcc c = skipn 32 (hmac512 (kcc k) (step_data 1 3 k (enc (kL k)) i mode)).
Proof. intros sha512 sha256 hmac512 pbkdf2 enc padd HO EG k i mode c. exact (step_formula _ _ _ _ _ _ HO EG k i mode c). Qed.
Theorem C31_public_derivation_step : forall sha512 sha256 hmac512 pbkdf2 enc padd,
  hashes_ok sha512 sha256 hmac512 pbkdf2 -> ed_group enc padd ->
  forall k pk i mode q, soft i -> publicKey enc k = Ok pk -> pub_deriveChild hmac512 enc padd pk i mode = Ok q ->
  pbytes q = enc (kL k + tweak_of mode (hmac512 (pcc pk) (2 :: pbytes pk ++ index_bytes mode i))) /\
  pcc q = skipn 32 (hmac512 (pcc pk) (3 :: pbytes pk ++ index_bytes mode i)).
Proof. intros sha512 sha256 hmac512 pbkdf2 enc padd HO EG k pk i mode q. exact (pub_step_formula _ _ _ _ _ _ HO EG k pk i mode q). Qed.
Print Assumptions C31_derivation_step.
Print Assumptions C31_public_derivation_step.
Example C31_index_bytes_ex : index_bytes V1 2147483692 = [128; 0; 0; 44] /\ index_bytes V2 2147483692 = [44; 0; 0; 128].
Proof. split; reflexivity. Qed.

(** C32: a hardened index needs the private key. *)
Theorem C32_hardened_public_throws : forall hmac512 enc padd pk i mode, 2 ^ 31 <= i < 2 ^ 32 ->
  pub_deriveChild hmac512 enc padd pk i mode = Throw.
Proof.
  intros hmac512 enc padd pk i mode Hi. unfold pub_deriveChild. rewrite hardened_iff by lia.
  destruct (Z.leb_spec (2 ^ 31) i); [reflexivity|lia].
Qed.
Print Assumptions C32_hardened_public_throws.
(** Soft indices derive, for the public key of any usable private key, unless the tweak is zero. *)
Theorem C32_soft_public_derives : forall sha512 sha256 hmac512 pbkdf2 enc padd,
  hashes_ok sha512 sha256 hmac512 pbkdf2 -> ed_group enc padd ->
  forall k pk i mode, soft i -> publicKey enc k = Ok pk ->
  tweak_of mode (z_soft hmac512 pk i mode) mod ell <> 0 ->
  exists q, pub_deriveChild hmac512 enc padd pk i mode = Ok q.
Proof.
  intros sha512 sha256 hmac512 pbkdf2 enc padd HO EG k pk i mode S HP T.
  apply (publicKey_ok _ _ EG) in HP as [U ->].
  destruct (pub_child_spec _ _ _ _ _ _ HO EG k i mode S U) as [Z1 E]. rewrite Z1 in T. rewrite E.
  destruct (Z.eqb_spec (tweak_of mode (z_of hmac512 enc k i mode) mod ell) 0); [contradiction|eauto].
Qed.
Print Assumptions C32_soft_public_derives.
Theorem C32_harden : forall i, 0 <= i < 2 ^ 32 ->
  HardenIndex i = Z.lor i (2 ^ 31) /\ 2 ^ 31 <= HardenIndex i < 2 ^ 32 /\
  HardenIndex (HardenIndex i) = HardenIndex i /\
  (forall j, soft j -> HardenIndex i <> j) /\
  (forall j, soft i -> soft j -> HardenIndex i = HardenIndex j -> i = j).
Proof. exact harden_props. Qed.
Print Assumptions C32_harden.
(** Distinct indices give distinct HMAC inputs, in either byte order. *)
Theorem C32_index_encoding_injective : forall i j mode, 0 <= i < 2 ^ 32 -> 0 <= j < 2 ^ 32 ->
  serialize_index32 i mode = index_bytes mode i /\ (serialize_index32 i mode = serialize_index32 j mode -> i = j).
Proof. intros i j mode Hi Hj. split; [apply index_bytes_eq|exact (serialize_inj i j mode Hi Hj)]. Qed.
Print Assumptions C32_index_encoding_injective.
Example C32_nontrivial : HardenIndex 1852 = 2147485500 /\ HardenIndex 2147485500 = 2147485500 /\
  exists q, pub_deriveChild toy_hmac toy_enc toy_padd {| pbytes := toy_enc 5; pcc := repeat 7 32 |} 3 V2 = Ok q.
Proof. vm_compute. repeat split. eexists. reflexivity. Qed.

(** C33: encrypting and decrypting with the same password is the identity. *)
Theorem C33_encrypt_round_trip : forall pbkdf2 chacha20,
  (forall key nonce n, length (chacha20 key nonce n) = n) ->
  forall k password, wf_prv k -> decrypt pbkdf2 chacha20 (encrypt pbkdf2 chacha20 k password) password = k.
Proof. intros pbkdf2 chacha20 L k p W. apply decrypt_encrypt; assumption. Qed.
Print Assumptions C33_encrypt_round_trip.
Lemma nth_xor : forall a b i, length a = length b -> nth i (map (fun p => Z.lxor (fst p) (snd p)) (combine a b)) 0 = Z.lxor (nth i a 0) (nth i b 0).
Proof.
  induction a as [|x a IH]; intros [|y b] i E; try discriminate; destruct i; try reflexivity. cbn. apply IH. cbn in E. congruence.
Qed.
(** C33, the format: the 64 key bytes are xored with 64 bytes of ChaCha20, whose key and nonce are 40 bytes of PBKDF2-HMAC-SHA512
    (15000 iterations) of the password; the salt is the text "encrypted wallet salt" with its terminating zero.  The chain code is kept as it is,
    and the empty password leaves the key as it is. *)
Theorem C33_format : forall pbkdf2 chacha20, (forall key nonce n, length (chacha20 key nonce n) = n) ->
  (forall i n p s, length (pbkdf2 i n p s) = n) ->
  forall k password, wf_prv k ->
    let e := encrypt pbkdf2 chacha20 k password in
    kcc e = kcc k /\ length (kbytes e) = 64%nat /\ (password = [] -> e = k) /\
    (password <> [] -> exists key nonce, length key = 32%nat /\ length nonce = 8%nat /\
       key ++ nonce = pbkdf2 15000 40%nat password (map (fun c => Z.of_nat (Ascii.nat_of_ascii c)) (list_ascii_of_string "encrypted wallet salt") ++ [0]) /\
       forall i, (i < 64)%nat -> nth i (kbytes e) 0 = Z.lxor (nth i (kbytes k) 0) (nth i (chacha20 key nonce 64%nat) 0)).
Proof.
  intros pb cc L LP k pw (L64 & _ & _ & _). cbv zeta. destruct pw as [|w pw].
  { cbn [encrypt]. split; [reflexivity|]. split; [exact L64|]. split; [reflexivity|]. intros N. exfalso; apply N; reflexivity. }
  cbn [encrypt kbytes kcc]. split; [reflexivity|]. unfold stream. cbv zeta.
  set (buf := pb 15000 40%nat (w :: pw) wallet_salt).
  assert (LB : length buf = 40%nat) by apply LP.
  split. { unfold xor_bytes. rewrite map_length, combine_length, L64, L. reflexivity. }
  split; [discriminate|]. intros _. exists (firstn 32 buf), (firstn 8 (skipn 32 buf)).
  split. { rewrite firstn_length, LB. reflexivity. }
  split. { rewrite firstn_length, skipn_length, LB. reflexivity. }
  split. { replace (firstn 8 (skipn 32 buf)) with (skipn 32 buf) by (symmetry; apply firstn_all2; rewrite skipn_length, LB; lia).
    rewrite firstn_skipn. unfold buf. f_equal. }
  intros i I. unfold xor_bytes.
  set (S_ := cc _ _ _). assert (LS : length S_ = 64%nat) by apply L.
  apply nth_xor. congruence.
Qed.
Print Assumptions C33_format.
Example C33_nontrivial : let cc := fun key nonce n => toy_h n (key ++ nonce) in
  encrypt toy_pbkdf2 cc toy_root (str "pw") <> toy_root /\
  decrypt toy_pbkdf2 cc (encrypt toy_pbkdf2 cc toy_root (str "pw")) (str "pw") = toy_root.
Proof. vm_compute. split; [discriminate|reflexivity]. Qed.

(** C34: roots are clamped. *)
Theorem C34_seed_root : forall sha512 sha256 hmac512 pbkdf2, hashes_ok sha512 sha256 hmac512 pbkdf2 ->
  forall s, wf_prv (prv_fromSeed sha512 sha256 s) /\ clamped (kL (prv_fromSeed sha512 sha256 s)).
Proof. intros sha512 sha256 hmac512 pbkdf2 HO. exact (seed_root _ _ _ _ HO). Qed.
Print Assumptions C34_seed_root.
Theorem C34_generated_root : forall sha512 sha256 hmac512 pbkdf2, hashes_ok sha512 sha256 hmac512 pbkdf2 ->
  forall r, wf_prv (prv_generate pbkdf2 r) /\ clamped3 (kL (prv_generate pbkdf2 r)).
Proof. intros sha512 sha256 hmac512 pbkdf2 HO. exact (generate_root _ _ _ _ HO). Qed.
Print Assumptions C34_generated_root.
Theorem C34_mnemonic_root : forall sha512 sha256 hmac512 pbkdf2, hashes_ok sha512 sha256 hmac512 pbkdf2 ->
  forall s p, wf_prv (prv_fromMnemonic pbkdf2 s p) /\ clamped3 (kL (prv_fromMnemonic pbkdf2 s p)).
Proof. intros sha512 sha256 hmac512 pbkdf2 HO. exact (mnemonic_root _ _ _ _ HO). Qed.
Print Assumptions C34_mnemonic_root.
Theorem C34_byron_root : forall sha512 sha256 blake2b_256 hmac512 pbkdf2, hashes_ok sha512 sha256 hmac512 pbkdf2 ->
  forall count_text cbor_bstr s,
  match prv_fromMnemonicByron sha512 blake2b_256 hmac512 count_text cbor_bstr s with
  | Ok k => wf_prv k /\ clamped3 (kL k) | Throw => True | UB => False
  end.
Proof.
  intros sha512 sha256 blake2b_256 hmac512 pbkdf2 HO count_text cbor_bstr s.
  destruct (prv_fromMnemonicByron sha512 blake2b_256 hmac512 count_text cbor_bstr s) as [k| |] eqn:E; [|exact I|].
  - exact (byron_root _ _ _ _ HO _ _ _ _ _ E).
  - unfold prv_fromMnemonicByron in E. destruct (hash_repeatedly sha512 hmac512 count_text 1000 (hash_seed blake2b_256 cbor_bstr s) 1) eqn:F; cbn [bind] in E; try discriminate.
    exact (hash_repeatedly_noUB _ _ _ _ _ _ F).
Qed.
Print Assumptions C34_byron_root.
(** What the roots are, exactly. Icarus: PBKDF2 with the passphrase as password and the mnemonic entropy as salt, 4096 rounds, 96 bytes, clamped;
    a generated key: the same with an empty password and the random bytes as salt. *)
Theorem C34_icarus_formula : forall sha512 sha256 hmac512 pbkdf2, hashes_ok sha512 sha256 hmac512 pbkdf2 ->
  forall entropy passphrase random,
  (let d := pbkdf2 4096 96%nat passphrase entropy in let k := prv_fromMnemonic pbkdf2 entropy passphrase in
   kL k = clamp3 (lev 256 (firstn 32 d)) /\ skipn 32 (kbytes k) = firstn 32 (skipn 32 d) /\ kcc k = skipn 64 d) /\
  (let d := pbkdf2 4096 96%nat [] random in let k := prv_generate pbkdf2 random in
   kL k = clamp3 (lev 256 (firstn 32 d)) /\ skipn 32 (kbytes k) = firstn 32 (skipn 32 d) /\ kcc k = skipn 64 d).
Proof. intros sha512 sha256 hmac512 pbkdf2 HO e p r. split; exact (pbkdf2_formula _ _ _ _ HO _ _). Qed.
Print Assumptions C34_icarus_formula.
Theorem C34_seed_formula : forall sha512 sha256 hmac512 pbkdf2, hashes_ok sha512 sha256 hmac512 pbkdf2 ->
  forall s, let k := prv_fromSeed sha512 sha256 s in
  kL k = clamp (lev 256 (firstn 32 (sha512 s))) /\ skipn 32 (kbytes k) = skipn 32 (sha512 s) /\ kcc k = sha256 (1 :: s).
Proof. intros sha512 sha256 hmac512 pbkdf2 HO. exact (seed_formula _ _ _ _ HO). Qed.
Print Assumptions C34_seed_formula.
(** Legacy mnemonics: the first of 1000 candidates whose bit 253 is clear, or failure when there is none. *)
Theorem C34_byron_formula : forall sha512 sha256 blake2b_256 hmac512 pbkdf2, hashes_ok sha512 sha256 hmac512 pbkdf2 ->
  forall count_text cbor_bstr s,
  let key := cbor_bstr (blake2b_256 (cbor_bstr s)) in
  let v j := lev 256 (firstn 32 (root_hash sha512 hmac512 count_text key j)) in
  let bit253 j := v j / 2 ^ 253 mod 2 in
  (exists j, 1 <= j <= 1000 /\ (forall i, 1 <= i < j -> bit253 i = 1) /\ bit253 j = 0 /\
    exists k, prv_fromMnemonicByron sha512 blake2b_256 hmac512 count_text cbor_bstr s = Ok k /\
    kL k = clamp (v j) /\ skipn 32 (kbytes k) = skipn 32 (root_hash sha512 hmac512 count_text key j) /\ kcc k = skipn 32 (root_tag hmac512 count_text key j)) \/
  (forall i, 1 <= i <= 1000 -> bit253 i = 1) /\ prv_fromMnemonicByron sha512 blake2b_256 hmac512 count_text cbor_bstr s = Throw.
Proof. intros sha512 sha256 blake2b_256 hmac512 pbkdf2 HO count_text cbor_bstr s. exact (byron_formula _ _ _ _ HO blake2b_256 count_text cbor_bstr s). Qed.
Print Assumptions C34_byron_formula.
(** Clamped keys have a public key. *)
Theorem C34_root_has_public_key : forall enc padd, ed_group enc padd ->
  forall k, clamped (kL k) \/ clamped3 (kL k) -> publicKey enc k = Ok {| pbytes := enc (kL k); pcc := kcc k |}.
Proof.
  intros enc padd EG k [C|C]; apply (publicKey_ok _ _ EG); (split; [|reflexivity]).
  - apply clamped_usable, C.
  - apply clamped3_usable, C.
Qed.
Print Assumptions C34_root_has_public_key.
(** From a root with bit 253 clear, every mode V2 path of up to 2^25 steps (hardened or soft) derives,
    never overflows 256 bits, and every key on the way is clamped and has a public key. *)
Theorem C34_v2_never_fails : forall sha512 sha256 hmac512 pbkdf2 enc padd,
  hashes_ok sha512 sha256 hmac512 pbkdf2 -> ed_group enc padd ->
  forall path k, wf_prv k -> clamped3 (kL k) -> (length path <= Z.to_nat (2 ^ 25))%nat ->
  exists c pc, prv_derivePath hmac512 enc k path V2 = Ok c /\ publicKey enc c = Ok pc /\ wf_prv c /\ clamped (kL c).
Proof. intros sha512 sha256 hmac512 pbkdf2 enc padd HO EG. exact (v2_total _ _ _ _ _ _ HO EG). Qed.
Print Assumptions C34_v2_never_fails.
Example C34_nontrivial : clamped3 (kL toy_root) /\ wf_prv toy_root /\
  is_ok (prv_derivePath toy_hmac toy_enc toy_root [2 ^ 31 + 1852; 2 ^ 31 + 1815; 2 ^ 31; 0; 0] V2) = true.
Proof.
  pose proof (mnemonic_root _ _ _ _ toy_hashes (str "seed") (str "pass")) as [W C].
  split; [exact C|]. split; [exact W|]. vm_compute. reflexivity.
Qed.

(** C35: signatures verify; signing fails only if the nonce hash is a multiple of the group order. *)
Theorem C35_signature_verifies : forall sha512 enc padd verify, ed_group enc padd -> ed_verifies enc sha512 verify ->
  forall k m sig pk, sign sha512 enc k m = Ok sig -> publicKey enc k = Ok pk ->
  length sig = 64%nat /\ verify (pbytes pk) m sig = true.
Proof. intros sha512 enc padd verify EG EV k m sig pk. apply (sign_verifies _ _ _ EG). exact EV. Qed.
Print Assumptions C35_signature_verifies.
Theorem C35_sign_total : forall sha512 enc k m, usable (kL k) ->
  sign sha512 enc k m = Throw /\ lev 256 (sha512 (skipn 32 (kbytes k) ++ m)) mod ell = 0 \/
  exists sig, sign sha512 enc k m = Ok sig.
Proof. exact sign_total. Qed.
Print Assumptions C35_sign_total.
Example C35_nontrivial : exists sig pk, sign (toy_h 64) toy_enc toy_root (str "msg") = Ok sig /\
  publicKey toy_enc toy_root = Ok pk /\ toy_verify (pbytes pk) (str "msg") sig = true /\
  toy_verify (pbytes pk) (str "msh") sig = false.
Proof. eexists. eexists. split; [vm_compute; reflexivity|]. split; [vm_compute; reflexivity|]. split; vm_compute; reflexivity. Qed.
