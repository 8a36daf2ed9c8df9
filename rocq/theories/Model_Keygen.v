(** Model of the program /repo/examples/generate_stake_pool_keys/main.cpp: from a seed phrase to the eight files of a stake pool. *)
From Verif Require Import Base Model_Hex Spec_Cbor Model_Cbor Model_Bech32 Model_Mnemonic Model_Bip32 Model_Kes Model_Pool Model_Files.

(** What the program changes: the files (contents by path) and the text printed; [saves] counts the files opened so far.
    main.cpp:39-66 *)
Definition files : Type := list Z -> option (list Z).
(** main.cpp:36-66 *)
Record world := { files_of : files; printed : list Z; saves : nat }.
(** main.cpp:26-69.  A program: the contents of the files at every moment on the way, the state at the end, and how it ends. *)
Definition io (A : Type) : Type := world -> list files * world * outcome A.
(** main.cpp:26-69: a computation that leaves the world alone *)
Definition pure {A} (o : outcome A) : io A := fun w => ([], w, o).
(** main.cpp:26-69: one statement after the other; an exception ends the program (nothing catches it) *)
Definition then_ {A B} (p : io A) (q : A -> io B) : io B := fun w =>
  match p w with
  | (tr, w, Ok x) => let '(tr', w', o) := q x w in (tr ++ tr', w', o)
  | (tr, w, Throw) => (tr, w, Throw)
  | (tr, w, UB) => (tr, w, UB)
  end.
Notation "'do' x <- p ; q" := (then_ p (fun x => q)) (at level 200, x pattern, p at level 100, q at level 200).
(** main.cpp:36-37: std::cout (taken to succeed) *)
Definition print (s : list Z) : io unit := fun w => ([], {| files_of := files_of w; printed := printed w ++ s; saves := saves w |}, Ok tt).
(** util.cpp:28-61 on one path among others *)
Definition put (fs : files) (path : list Z) (c : option (list Z)) : files := fun p => if zlist_eqb p path then c else fs p.

Section Main.
(** util.cpp:35, 43-60: what the file system does for the [i]-th file the program opens: whether it opens, and how many bytes it takes; and the stream's buffering *)
Variables (direct : nat -> nat -> bool) (opens : nat -> bool) (room : nat -> nat).
Variables (sha512 : list Z -> list Z) (hmac512 : list Z -> list Z -> list Z) (pbkdf2 : Z -> nat -> list Z -> list Z -> list Z) (enc : Z -> list Z).
Variables (blake2b_224 blake2b_256 : list Z -> list Z) (ed_pk : list Z -> list Z).

(** util.cpp:28-61 writeEnvelopeTextFile *)
Definition save (path : string) (type desc hex : list Z) : io unit := fun w =>
  let p := str path in
  let '(tr, fin, o) := write_file direct (opens (saves w)) (room (saves w)) (files_of w p) (envelope_chunks type desc hex) in
  (map (put (files_of w) p) tr, {| files_of := put (files_of w) p fin; printed := printed w; saves := S (saves w) |}, o).
(** stake_pool.cpp:40-47, 114-121, 395-447: saveToFile of a key *)
Definition save_key (path type desc : string) (key : list Z) : io unit := save path (str type) (str desc) (bstr_hex key).

(** ed25519.cpp:54-62 and kes.hpp:526-546, stake_pool.cpp:449-456 KesSigningKey::generate.  [seed]: the 32 random bytes. *)
Definition kes_generate (seed : list Z) : outcome kes_key :=
  let* (s, _, _) := kes_keygen blake2b_256 ed_pk 6 (zeros (sk_size 6 + 4)) seed in
  let* b := sub_ub (prv s) 0 (sk_size 6) in
  kes_of_bytes 6 b.
(** stake_pool.cpp:197-209, 216-220 OperationalCertificateManager::generate with an extended key (whose sign may throw) *)
Definition opcert_generate_ext (hot : list Z) (count period : Z) (skey : xprv) : outcome opcert :=
  let c := opcert_unsigned hot count period in
  let* sigma := sign sha512 enc skey (opcert_message c) in
  Ok {| oc_hot := oc_hot c; oc_seq := oc_seq c; oc_period := oc_period c; oc_sigma := sigma |}.

(** main.cpp:26-69.  [seed_phrase]: the literal of line 28; [kes_seed], [vrf_seed]: what the random generator gives at lines 44 and 63.
    include/cardano/stake_pool.hpp:302 VrfSigningKey::generate is VRFSecretKey::generate, vrf.cpp:50-64. *)
Definition keygen_main (seed_phrase kes_seed vrf_seed : list Z) : io Z :=
  do mn <- pure (Mnemonic_of_text seed_phrase English);
  do cold_skey <- pure (let* ent := toSeed mn in cold_fromMnemonic hmac512 pbkdf2 enc ent);
  do cold_vkey <- pure (cold_xsk_vkey enc cold_skey);
  do _ <- print (str "Generating stake pool keys for pool with ID:" ++ nl);
  do id <- pure (bech32_encode (str "pool") (pool_id blake2b_224 cold_vkey));
  do _ <- print (id ++ nl);
  do _ <- save_key "./cold.skey" "StakePoolExtendedSigningKey_ed25519_bip32" "Stake Pool Operator Signing Key" (kbytes cold_skey);
  do _ <- save_key "./cold.vkey" "StakePoolVerificationKey_ed25519" "Stake Pool Operator Verification Key" cold_vkey;
  do kes_skey <- pure (kes_generate kes_seed);
  do kes_vkey <- pure (kes_publicKey blake2b_256 6 kes_skey);
  do _ <- save_key "./kes.skey" "KesSigningKey_ed25519_kes_2^6" "KES Signing Key" (kes_file_bytes 6 kes_skey);
  do _ <- save_key "./kes.vkey" "KesVerificationKey_ed25519_kes_2^6" "KES Verification Key" kes_vkey;
  do _ <- save "./cold.counter" (str "NodeOperationalCertificateIssueCounter") (str "Next certificate issue number: " ++ to_string 0) (hex_encode (counter_serialize 0 cold_vkey));
  do op_cert <- pure (opcert_generate_ext kes_vkey 0 1 cold_skey);
  do _ <- save "./pool.cert" (str "NodeOperationalCertificate") [] (hex_encode (opcert_serialize_with op_cert cold_vkey));
  do _ <- save_key "./vrf.skey" "VrfSigningKey_PraosVRF" "VRF Signing Key" (vrf_fromSeed ed_pk vrf_seed);
  do _ <- save_key "./vrf.vkey" "VrfVerificationKey_PraosVRF" "VRF Verification Key" (vrf_publicKey (vrf_fromSeed ed_pk vrf_seed));
  pure (Ok 0).
End Main.
