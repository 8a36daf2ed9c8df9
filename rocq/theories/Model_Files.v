(** Model of the text-envelope writer (/repo/src/util.cpp:28-61) and of the saveToFile and asBech32 methods and cold keys of
    /repo/src/stake_pool.cpp, /repo/include/cardano/stake_pool.hpp. *)
From Verif Require Import Base Model_Hex Spec_Cbor Model_Cbor Model_Ledger Model_Bech32 Model_Bip32 Model_Kes Model_Pool.

(** ** writeEnvelopeTextFile *)
(** util.cpp:47-50: the newline character *)
Definition nl : list Z := [10].
(** util.cpp:47-51: the strings sent to the stream, one per operator<< *)
Definition envelope_chunks (type desc hex : list Z) : list (list Z) :=
  [str "{" ++ nl;
   str "    ""type"": """; type; str """," ++ nl;
   str "    ""description"": """; desc; str """," ++ nl;
   str "    ""cborHex"": """; hex; str """" ++ nl;
   str "}"].
(** util.cpp:47-51: the whole text of an envelope file *)
Definition envelope_text (type desc hex : list Z) : list Z := concat (envelope_chunks type desc hex).

(** The file system's part of it, for one path.  [old]: what the file held ([None]: no file).  [opens]: whether it can be opened for writing;
    opening truncates it.  [room]: how many bytes the device takes before it fails.  std::filebuf keeps a buffer; [direct b c] is the library's policy:
    whether a string of [c] bytes that comes when [b] bytes are buffered goes to the device at once, with the buffer, or to the buffer.
    A failed write sets badbit, which throws (util.cpp:43, 54-60); what the destructor's close() cannot write is lost silently (util.cpp:52).
    Simplification: the device stores bytes in order (no reordering by the operating system's cache). *)
Record disk := { d_content : list Z; d_room : nat }.
(** util.cpp:43-60: the device takes what it has room for *)
Definition dev_write (d : disk) (data : list Z) : disk * bool :=
  ({| d_content := d_content d ++ firstn (d_room d) data; d_room := d_room d - length data |}, (length data <=? d_room d)%nat).
(** util.cpp:43-60.  every content the file has while [data] is being written *)
Definition dev_states (d : disk) (data : list Z) : list (list Z) :=
  map (fun k => d_content d ++ firstn k data) (seq 0 (S (min (d_room d) (length data)))).
(** util.cpp:43-60.  the contents the file goes through, its last content, and how the function ends *)
Fixpoint stream_run (direct : nat -> nat -> bool) (d : disk) (buf : list Z) (chunks : list (list Z)) : list (list Z) * disk * outcome unit :=
  match chunks with
  | [] => let '(d', _) := dev_write d buf in (dev_states d buf, d', Ok tt)
  | c :: r =>
      if direct (length buf) (length c) then
        let '(d', ok) := dev_write d (buf ++ c) in
        if ok then let '(tr, d'', o) := stream_run direct d' [] r in (dev_states d (buf ++ c) ++ tr, d'', o)
        else (dev_states d (buf ++ c), d', Throw)
      else stream_run direct d (buf ++ c) r
  end.
(** util.cpp:28-61 writeEnvelopeTextFile *)
Definition write_file (direct : nat -> nat -> bool) (opens : bool) (room : nat) (old : option (list Z)) (chunks : list (list Z))
  : list (option (list Z)) * option (list Z) * outcome unit :=
  if opens then
    let '(tr, d, o) := stream_run direct {| d_content := []; d_room := room |} [] chunks in
    (old :: map Some ([] :: tr), Some (d_content d), o)
  else ([old], old, Throw).
(** util.cpp:35 (inside the standard library).  libstdc++: a buffer of 8191 characters; a string of 1024 characters or of the room left goes to the device at once (std::basic_filebuf::xsputn) *)
Definition libstdcxx (b c : nat) : bool := (Z.min 1024 (8191 - Z.of_nat b) <=? Z.of_nat c).

(** ** Decimal text: std::to_string of a uint64_t (at most 20 digits) *)
(** stake_pool.cpp:152: std::to_string of a uint64_t (at most 20 digits) *)
Fixpoint dec_digits (fuel : nat) (n : Z) : list Z :=
  match fuel with O => [] | S f => if n <? 10 then [48 + n] else dec_digits f (n / 10) ++ [48 + n mod 10] end.
(** stake_pool.cpp:152: std::to_string *)
Definition to_string (n : Z) : list Z := dec_digits 20 n.

(** ** saveToFile: the text written *)
(** stake_pool.cpp:43-45, 68-70, 117-119, 400-402, 411-413, 432-434, 443-445.  cppbor::Bstr(bytes).encode() in hexadecimal *)
Definition bstr_hex (b : list Z) : list Z := hex_encode (cbor_encode (CBytes b)).
(** stake_pool.cpp:40-47, 65-72, 114-121, 395-415, 427-447: the common shape of the keys' saveToFile *)
Definition key_text (type desc : string) (key : list Z) : list Z := envelope_text (str type) (str desc) (bstr_hex key).
(** stake_pool.cpp:40-47; stake_pool.hpp:83-84 *)
Definition cold_vk_file (k : list Z) : list Z := key_text "StakePoolVerificationKey_ed25519" "Stake Pool Operator Verification Key" k.
(** stake_pool.cpp:65-72; stake_pool.hpp:139-140 *)
Definition cold_sk_file (k : list Z) : list Z := key_text "StakePoolSigningKey_ed25519" "Stake Pool Operator Signing Key" k.
(** stake_pool.cpp:114-121; stake_pool.hpp:254-256: bytes() is the 64-byte key without the chain code *)
Definition cold_xsk_file (k : xprv) : list Z := key_text "StakePoolExtendedSigningKey_ed25519_bip32" "Stake Pool Operator Signing Key" (kbytes k).
(** stake_pool.cpp:395-404 *)
Definition vrf_vk_file (k : list Z) : list Z := key_text "VrfVerificationKey_PraosVRF" "VRF Verification Key" k.
(** stake_pool.cpp:406-415 *)
Definition vrf_sk_file (k : list Z) : list Z := key_text "VrfSigningKey_PraosVRF" "VRF Signing Key" k.
(** stake_pool.cpp:427-436 *)
Definition kes_vk_file (k : list Z) : list Z := key_text "KesVerificationKey_ed25519_kes_2^6" "KES Verification Key" k.
(** stake_pool.cpp:438-447; the signing key's period is left out *)
Definition kes_sk_file (k : kes_key) : list Z := key_text "KesSigningKey_ed25519_kes_2^6" "KES Signing Key" (kes_file_bytes 6 k).
(** stake_pool.cpp:145-155 *)
Definition counter_file (count : Z) (vkey : list Z) : list Z :=
  envelope_text (str "NodeOperationalCertificateIssueCounter") (str "Next certificate issue number: " ++ to_string count) (hex_encode (counter_serialize count vkey)).
(** stake_pool.cpp:260-268 *)
Definition opcert_file (c : opcert) (vkey : list Z) : list Z :=
  envelope_text (str "NodeOperationalCertificate") [] (hex_encode (opcert_serialize_with c vkey)).
(** stake_pool.cpp:368-375 *)
Definition registration_file (p : pool_params) : outcome (list Z) :=
  let* b := registration_serialize p in Ok (envelope_text (str "NodeOperationalCertificate") (str "Stake Pool Registration Certificate") (hex_encode b)).
(** include/cardano/stake_pool.hpp:672-679 the constructor of DeregistrationCertificateManager *)
Definition deregistration_new (pool : list Z) (epoch : Z) : cert := PoolRetire pool epoch.
(** include/cardano/stake_pool.hpp:683 *)
Definition deregistration_setEpoch (c : cert) (epoch : Z) : cert := match c with PoolRetire p _ => PoolRetire p epoch | c => c end.
(** include/cardano/stake_pool.hpp:695-699 *)
Definition deregistration_serialize (c : cert) : outcome (list Z) := serialize (cert_ser c).
(** stake_pool.cpp:377-384 *)
Definition deregistration_file (c : cert) : outcome (list Z) :=
  let* b := deregistration_serialize c in Ok (envelope_text (str "DeregistrationCertificateManager") (str "Stake Pool Retirement Certificate") (hex_encode b)).

(** saveToFile of an object whose serialize() gives [b], stake_pool.cpp:368-384: an exception there comes before the file is opened *)
Definition save_envelope (direct : nat -> nat -> bool) (opens : bool) (room : nat) (old : option (list Z)) (type desc : list Z) (b : outcome (list Z))
  : list (option (list Z)) * option (list Z) * outcome unit :=
  match b with
  | Ok b => write_file direct opens room old (envelope_chunks type desc (hex_encode b))
  | Throw => ([old], old, Throw)
  | UB => ([], None, UB)
  end.

(** ** asBech32: stake_pool.cpp:49-53, 74-78, 123-127 *)
(** stake_pool.cpp:49-53 *)
Definition cold_vk_bech32 (k : list Z) : outcome (list Z) := bech32_encode (str "pool_vk") k.
(** stake_pool.cpp:74-78 *)
Definition cold_sk_bech32 (k : list Z) : outcome (list Z) := bech32_encode (str "pool_sk") k.
(** stake_pool.cpp:123-127 *)
Definition cold_xsk_bech32 (k : xprv) : outcome (list Z) := bech32_encode (str "pool_xsk") (kbytes k).

(** ** Cold keys *)
Section ColdKeys.
Variables (sha512 sha256 : list Z -> list Z) (hmac512 : list Z -> list Z -> list Z) (pbkdf2 : Z -> nat -> list Z -> list Z -> list Z).
Variables (enc : Z -> list Z) (blake2b_224 : list Z -> list Z).
(** bip32_ed25519.cpp:512-520 PrivateKey::xbytes *)
Definition xprv_xbytes (k : xprv) : list Z := kbytes k ++ kcc k.
(** include/cardano/stake_pool.hpp:194-199: the constructor from 96 bytes *)
Definition cold_xsk_of_bytes (b : list Z) : xprv := xprv_of_bytes b.
(** ColdSigningKey::extend, stake_pool.cpp:85-89 *)
Definition cold_extend (seed : list Z) : xprv := cold_xsk_of_bytes (xprv_xbytes (prv_fromSeed sha512 sha256 seed)).
(** ExtendedColdSigningKey::fromRootKey, stake_pool.cpp:91-100 *)
Definition cold_fromRootKey (root : xprv) : outcome xprv :=
  let* k := prv_deriveChild hmac512 enc root (HardenIndex 1853) V2 in
  let* k := prv_deriveChild hmac512 enc k (HardenIndex 1815) V2 in
  let* k := prv_deriveChild hmac512 enc k (HardenIndex 0) V2 in
  let* k := prv_deriveChild hmac512 enc k (HardenIndex 0) V2 in
  Ok (cold_xsk_of_bytes (xprv_xbytes k)).
(** ExtendedColdSigningKey::fromMnemonic, stake_pool.cpp:102-112, for the bytes of mn.toSeed() *)
Definition cold_fromMnemonic (seed : list Z) : outcome xprv :=
  let root_key := prv_fromMnemonic pbkdf2 seed [] in
  let* k := prv_deriveChild hmac512 enc root_key (HardenIndex 1853) V2 in
  let* k := prv_deriveChild hmac512 enc k (HardenIndex 1815) V2 in
  let* k := prv_deriveChild hmac512 enc k (HardenIndex 0) V2 in
  let* k := prv_deriveChild hmac512 enc k (HardenIndex 0) V2 in
  Ok (cold_xsk_of_bytes (xprv_xbytes k)).
(** include/cardano/stake_pool.hpp:236-239 verificationKey of the extended key *)
Definition cold_xsk_vkey (k : xprv) : outcome (list Z) := let* p := publicKey enc k in Ok (pbytes p).
(** stake_pool.cpp:129-132 *)
Definition cold_xsk_poolId (k : xprv) : outcome (list Z) := let* v := cold_xsk_vkey k in Ok (pool_id blake2b_224 v).
End ColdKeys.
