(** Properties C58 (what the files written by saveToFile contain), C59 (what a failed or interrupted save leaves), C60 (pool cold keys). *)
From Verif Require Import Base BaseLemmas Spec_Hex Model_Hex Proof_Hex Spec_Cbor Model_Cbor Proof_Cbor Spec_Ed25519 Model_Bip32 Spec_Bip32 Proof_Bip32 Proof_Bip32b Props_Bip32.
From Verif Require Import Spec_Bech32 Model_Bech32 Proof_Bech32 Spec_Ledger Model_Ledger Proof_Ledger Props_Ledger Model_Kes Model_Pool Props_Pool Spec_Files Model_Files Proof_Files.
Ltac Zify.zify_post_hook ::= idtac.

(** ** C58 *)
(** Whatever type and description a caller gives (free of quotes, backslashes and control characters), the text is a JSON object whose members read back. *)
Theorem C58_envelope_reads_back : forall type desc bytes, plain type -> plain desc -> bytes_ok bytes ->
  read_envelope (envelope_text type desc (hex_encode bytes)) = Some {| en_type := type; en_desc := desc; en_payload := bytes |} /\
  json_object (envelope_text type desc (hex_encode bytes)) = Some [(str "type", type); (str "description", desc); (str "cborHex", spec_hex_text bytes)].
Proof.
  intros t d b T D O. split; [apply read_envelope_text; assumption|]. rewrite json_envelope; [|assumption|assumption|apply hex_plain, O]. destruct (hex_text_round_trip b O) as [-> _]. reflexivity.
Qed.
Lemma ok_inj_b {A} (x y : A) : Ok x = Ok y -> x = y.
Proof. congruence. Qed.
Ltac plain_lit := apply plainb_ok; vm_compute; reflexivity.
(** The six kinds of key file: the type and the bytes read back are the key's. *)
Definition fits (k : list Z) : Prop := bytes_ok k /\ zlen k < 2 ^ 64.
Theorem C58_key_files : forall k, fits k ->
  read_key_file (cold_vk_file k) = Some (str "StakePoolVerificationKey_ed25519", k) /\
  read_key_file (cold_sk_file k) = Some (str "StakePoolSigningKey_ed25519", k) /\
  read_key_file (vrf_vk_file k) = Some (str "VrfVerificationKey_PraosVRF", k) /\
  read_key_file (vrf_sk_file k) = Some (str "VrfSigningKey_PraosVRF", k) /\
  read_key_file (kes_vk_file k) = Some (str "KesVerificationKey_ed25519_kes_2^6", k).
Proof. intros k [O L]. repeat apply conj; apply read_key_text; first [plain_lit|assumption]. Qed.
(** The KES signing key's file holds its 608 bytes without the period. *)
Theorem C58_kes_signing_key_file : forall key, bytes_ok (prv key) -> zlen (prv key) = 612 ->
  exists b, read_key_file (kes_sk_file key) = Some (str "KesSigningKey_ed25519_kes_2^6", b) /\ zlen b = 608 /\ exists period, prv key = b ++ period /\ zlen period = 4.
Proof.
  intros key O L. assert (S6 : Z.of_nat (sk_size 6) = 608) by (vm_compute; reflexivity). unfold kes_sk_file, kes_file_bytes. revert S6. generalize (sk_size 6). intros n S6.
  exists (firstn n (prv key)). unfold zlen in L. assert (LF : zlen (firstn n (prv key)) = 608) by (unfold zlen; rewrite firstn_length; lia).
  split; [|split; [exact LF|]].
  - apply read_key_text; [plain_lit|plain_lit|apply bytes_ok_firstn, O|]. rewrite LF. reflexivity.
  - exists (skipn n (prv key)). rewrite firstn_skipn. split; [reflexivity|]. unfold zlen. rewrite skipn_length. lia.
Qed.
(** Equal files hold equal keys of the same kind. *)
Inductive key_kind := ColdVk | ColdSk | VrfVk | VrfSk | KesVk.
Definition key_file (kind : key_kind) (k : list Z) : list Z :=
  match kind with ColdVk => cold_vk_file k | ColdSk => cold_sk_file k | VrfVk => vrf_vk_file k | VrfSk => vrf_sk_file k | KesVk => kes_vk_file k end.
Theorem C58_key_files_injective : forall kind kind' k k', fits k -> fits k' -> key_file kind k = key_file kind' k' -> kind = kind' /\ k = k'.
Proof.
  intros kind kind' k k' F F' E. destruct (C58_key_files k F) as (A1 & A2 & A3 & A4 & A5), (C58_key_files k' F') as (B1 & B2 & B3 & B4 & B5).
  destruct kind, kind'; cbn [key_file] in E; match type of E with ?a = ?b => assert (X : read_key_file a = read_key_file b) by (rewrite E; reflexivity) end;
    rewrite ?A1, ?A2, ?A3, ?A4, ?A5, ?B1, ?B2, ?B3, ?B4, ?B5 in X; try (split; [reflexivity|congruence]); exfalso; revert X; clear; intros X;
    match type of X with Some (?a, ?x) = Some (?b, ?y) => assert (Y : a = b) by congruence; revert Y; clear; vm_compute; discriminate end.
Qed.
(** The counter file: the count in the description, in decimal, and in the payload with the key. *)
Theorem C58_counter_file : forall count vkey, u64 count -> bytesN 32 vkey ->
  exists e digits, read_envelope (counter_file count vkey) = Some e /\ en_type e = str "NodeOperationalCertificateIssueCounter" /\
    is_decimal count digits /\ en_desc e = str "Next certificate issue number: " ++ digits /\ payload_item e = Some (CArray [CUint count; CBytes vkey]).
Proof.
  intros n k U [O L]. pose proof (to_string_decimal n U) as D.
  destruct (read_item_text (str "NodeOperationalCertificateIssueCounter") (str "Next certificate issue number: " ++ to_string n) (CArray [CUint n; CBytes k])) as (e & R & T & De & P).
  - plain_lit.
  - apply Forall_app. split; [plain_lit|apply (decimal_plain n), D].
  - cbn [cbor_ok fold_right]. split; [reflexivity|]. split; [exact U|]. split; [|exact I]. split; [exact O|]. rewrite L. reflexivity.
  - exists e, (to_string n). repeat (split; [assumption|]); assumption.
Qed.
(** The operational certificate's file. *)
Theorem C58_opcert_file : forall c vkey, opcert_wf c -> bytesN 32 vkey ->
  exists e, read_envelope (opcert_file c vkey) = Some e /\ en_type e = str "NodeOperationalCertificate" /\
    payload_item e = Some (CArray [CArray [CBytes (oc_hot c); CUint (oc_seq c); CUint (oc_period c); CBytes (oc_sigma c)]; CBytes vkey]).
Proof.
  intros c k ((HO & HL) & S & P & (GO & GL)) [O L].
  destruct (read_item_text (str "NodeOperationalCertificate") [] (CArray [opcert_item c; CBytes k])) as (e & R & T & _ & Pa).
  - plain_lit.
  - constructor.
  - unfold opcert_item. cbn [cbor_ok fold_right]. rewrite HL, GL, L. unfold u64, zlen in *. cbn [length]. repeat split; solve [assumption|lia].
  - exists e. repeat (split; [assumption|]); assumption.
Qed.
(** Certificate files: retirement and registration.  The payload is the certificate's serialisation. *)
Theorem C58_retirement_file : forall pool epoch, bytesN 28 pool -> u64 epoch ->
  exists text e, deregistration_file (deregistration_new pool epoch) = Ok text /\ read_envelope text = Some e /\ payload_item e = Some (CArray [CUint 4; CBytes pool; CUint epoch]) /\
    forall other, deregistration_file (deregistration_setEpoch (deregistration_new pool other) epoch) = Ok text.
Proof.
  intros p n W U.
  destruct (read_item_text (str "DeregistrationCertificateManager") (str "Stake Pool Retirement Certificate") (CArray [CUint 4; CBytes p; CUint n])) as (e & R & T & _ & Pa).
  - plain_lit.
  - plain_lit.
  - apply (cert_ok (PoolRetire p n)); [split; assumption|reflexivity].
  - eexists. exists e. split; [reflexivity|]. split; [exact R|]. split; [exact Pa|]. reflexivity.
Qed.
Theorem C58_registration_file : forall p text, pool_wf p -> registration_file p = Ok text ->
  exists e item, read_envelope text = Some e /\ en_desc e = str "Stake Pool Registration Certificate" /\ cert_ser (PoolReg p) = Ok item /\ payload_item e = Some item.
Proof.
  intros p text W E. unfold registration_file, registration_serialize, serialize in E. destruct (cert_ser (PoolReg p)) as [c| |] eqn:G; try discriminate E. cbn [bind] in E. apply ok_inj_b in E. subst text.
  destruct (read_item_text (str "NodeOperationalCertificate") (str "Stake Pool Registration Certificate") c) as (e & R & _ & D & Pa); [plain_lit|plain_lit|apply (cert_ok (PoolReg p)); assumption|].
  exists e, c. repeat (split; [solve [assumption|reflexivity]|]); assumption.
Qed.
(** Missing: the file's type says which kind of object it holds.  A registration certificate carries the type of an operational certificate. *)
Theorem C58_registration_type_refuted : forall p text c vkey, pool_wf p -> registration_file p = Ok text -> opcert_wf c -> bytesN 32 vkey ->
  exists e e', read_envelope text = Some e /\ read_envelope (opcert_file c vkey) = Some e' /\ en_type e = en_type e'.
Proof.
  intros p text c k W E Wc Wk. destruct (C58_opcert_file c k Wc Wk) as (e' & R' & T' & _). unfold registration_file, registration_serialize, serialize in E.
  destruct (cert_ser (PoolReg p)) as [x| |] eqn:G; try discriminate E. cbn [bind] in E. apply ok_inj_b in E. subst text.
  destruct (read_item_text (str "NodeOperationalCertificate") (str "Stake Pool Registration Certificate") x) as (e & R & T & _ & Pa); [plain_lit|plain_lit|apply (cert_ok (PoolReg p)); assumption|].
  exists e, e'. split; [exact R|]. split; [exact R'|]. congruence.
Qed.
(** Missing: an extended cold key's file holds the key.  It leaves out the chain code: keys that differ only there have the same file. *)
Theorem C58_extended_key_file_refuted : forall k, wf_prv k ->
  read_key_file (cold_xsk_file k) = Some (str "StakePoolExtendedSigningKey_ed25519_bip32", kbytes k) /\
  forall cc, cold_xsk_file {| kbytes := kbytes k; kcc := cc |} = cold_xsk_file k.
Proof.
  intros k (L & O & _). split; [|reflexivity]. unfold cold_xsk_file. apply read_key_text; [plain_lit|plain_lit|exact O|]. unfold zlen. rewrite L. reflexivity.
Qed.
(** Missing: any description.  One with quotes adds members or breaks the text. *)
Theorem C58_unescaped_refuted :
  json_object (envelope_text (str "T") (str "x"", ""cborHex"": ""00") (str "01")) = Some [(str "type", str "T"); (str "description", str "x"); (str "cborHex", str "00"); (str "cborHex", str "01")] /\
  json_object (envelope_text (str "T") (str "say ""hi""") (str "01")) = None /\ json_object (envelope_text (str "T") (str "a\") (str "01")) = None.
Proof. split; [vm_compute; reflexivity|]. split; vm_compute; reflexivity. Qed.
(** Word for word: every member of every kind of file, in order.  [file_says text type desc item]: the text is a JSON object with exactly these three members,
    the last being the hexadecimal text of bytes that are exactly the CBOR item. *)
Definition file_says (text type desc : list Z) (item : cbor) : Prop :=
  exists bytes, json_object text = Some [(str "type", type); (str "description", desc); (str "cborHex", spec_hex_text bytes)] /\ cbor_read bytes = Some (item, []).
Lemma says_text t d c : plain t -> plain d -> cbor_ok c -> file_says (envelope_text t d (hex_encode (cbor_encode c))) t d c.
Proof.
  intros T D OK. exists (cbor_encode c). split; [apply C58_envelope_reads_back; [assumption|assumption|apply encode_bytes, OK]|].
  pose proof (cbor_round_trip c [] OK) as R. rewrite app_nil_r in R. exact R.
Qed.
Theorem C58_word_for_word :
  (forall k, fits k ->
     file_says (cold_vk_file k) (str "StakePoolVerificationKey_ed25519") (str "Stake Pool Operator Verification Key") (CBytes k) /\
     file_says (cold_sk_file k) (str "StakePoolSigningKey_ed25519") (str "Stake Pool Operator Signing Key") (CBytes k) /\
     file_says (vrf_vk_file k) (str "VrfVerificationKey_PraosVRF") (str "VRF Verification Key") (CBytes k) /\
     file_says (vrf_sk_file k) (str "VrfSigningKey_PraosVRF") (str "VRF Signing Key") (CBytes k) /\
     file_says (kes_vk_file k) (str "KesVerificationKey_ed25519_kes_2^6") (str "KES Verification Key") (CBytes k)) /\
  (forall key b period, bytes_ok (prv key) -> prv key = b ++ period -> zlen b = 608 -> zlen period = 4 ->
     file_says (kes_sk_file key) (str "KesSigningKey_ed25519_kes_2^6") (str "KES Signing Key") (CBytes b)) /\
  (forall k, wf_prv k -> file_says (cold_xsk_file k) (str "StakePoolExtendedSigningKey_ed25519_bip32") (str "Stake Pool Operator Signing Key") (CBytes (kbytes k))) /\
  (forall count vkey, u64 count -> bytesN 32 vkey -> exists digits, is_decimal count digits /\
     file_says (counter_file count vkey) (str "NodeOperationalCertificateIssueCounter") (str "Next certificate issue number: " ++ digits) (CArray [CUint count; CBytes vkey])) /\
  (forall c vkey, opcert_wf c -> bytesN 32 vkey ->
     file_says (opcert_file c vkey) (str "NodeOperationalCertificate") [] (CArray [CArray [CBytes (oc_hot c); CUint (oc_seq c); CUint (oc_period c); CBytes (oc_sigma c)]; CBytes vkey])) /\
  (forall p text item, pool_wf p -> registration_file p = Ok text -> cert_ser (PoolReg p) = Ok item ->
     file_says text (str "NodeOperationalCertificate") (str "Stake Pool Registration Certificate") item) /\
  (forall pool epoch, bytesN 28 pool -> u64 epoch -> exists text, deregistration_file (deregistration_new pool epoch) = Ok text /\
     file_says text (str "DeregistrationCertificateManager") (str "Stake Pool Retirement Certificate") (CArray [CUint 4; CBytes pool; CUint epoch])).
Proof.
  split; [intros k [O L]; unfold cold_vk_file, cold_sk_file, vrf_vk_file, vrf_sk_file, kes_vk_file, key_text, bstr_hex; repeat apply conj; (apply says_text; [plain_lit|plain_lit|split; assumption])|].
  split.
  { intros key b per O E Lb Lp. unfold kes_sk_file, key_text, bstr_hex. replace (kes_file_bytes 6 key) with b.
    - apply says_text; [plain_lit|plain_lit|]. split; [|rewrite Lb; reflexivity]. rewrite E in O. exact (proj1 (proj1 (Forall_app _ _ _) O)).
    - assert (S6 : Z.of_nat (sk_size 6) = 608) by (vm_compute; reflexivity). unfold kes_file_bytes. rewrite E. symmetry. apply firstn_app_exact. unfold zlen in Lb. lia. }
  split; [intros k (L & O & _); unfold cold_xsk_file, key_text, bstr_hex; apply says_text; [plain_lit|plain_lit|]; split; [exact O|]; unfold zlen; rewrite L; reflexivity|].
  split.
  { intros n k U [O L]. pose proof (to_string_decimal n U) as D. exists (to_string n). split; [exact D|]. unfold counter_file, counter_serialize.
    apply (says_text _ _ (CArray [CUint n; CBytes k])); [plain_lit|apply Forall_app; split; [plain_lit|apply (decimal_plain n), D]|].
    cbn [cbor_ok fold_right]. split; [reflexivity|]. split; [exact U|]. split; [|exact I]. split; [exact O|]. rewrite L. reflexivity. }
  split.
  { intros c k ((HO & HL) & S & P & (GO & GL)) [O L]. unfold opcert_file, opcert_serialize_with. apply (says_text _ _ (CArray [opcert_item c; CBytes k])); [plain_lit|constructor|].
    unfold opcert_item. cbn [cbor_ok fold_right]. rewrite HL, GL, L. unfold u64, zlen in *. cbn [length]. repeat split; solve [assumption|lia]. }
  split.
  { intros p text c W E G. unfold registration_file, registration_serialize, serialize in E. rewrite G in E. cbn [bind] in E. apply ok_inj_b in E. subst text.
    apply says_text; [plain_lit|plain_lit|apply (cert_ok (PoolReg p)); assumption]. }
  intros p n W U. eexists. split; [reflexivity|]. apply (says_text _ _ (CArray [CUint 4; CBytes p; CUint n])); [plain_lit|plain_lit|]. apply (cert_ok (PoolRetire p n)); [split; assumption|reflexivity].
Qed.
Print Assumptions C58_word_for_word.
Example C58_ex : fits (repeat 7 32) /\ opcert_wf {| oc_hot := repeat 7 32; oc_seq := 3; oc_period := 400; oc_sigma := repeat 9 64 |} /\ bytesN 28 (repeat 1 28) /\
  is_decimal 1207 (str "1207") /\ to_string 1207 = str "1207" /\ length (cold_vk_file (repeat 7 32)) = 196%nat /\
  exists text, registration_file ex_pool = Ok text /\ pool_wf ex_pool.
Proof.
  assert (B : forall n x, 0 <= x < 256 -> bytes_ok (repeat x n)) by (intros n x H; induction n; cbn [repeat]; constructor; [exact H|assumption]).
  split; [split; [apply B; lia|reflexivity]|]. split; [split; [split; [apply B; lia|reflexivity]|]; split; [split; [vm_compute; discriminate|reflexivity]|]; split; [split; [vm_compute; discriminate|reflexivity]|]; split; [apply B; lia|reflexivity]|].
  split; [split; [apply B; lia|reflexivity]|]. split; [rewrite <- (eq_refl : to_string 1207 = str "1207"); apply to_string_decimal; split; [lia|reflexivity]|].
  split; [reflexivity|]. split; [vm_compute; reflexivity|]. eexists. split; [vm_compute; reflexivity|]. apply C43_ex_pool.
Qed.

(** ** C59 *)
(** A file that cannot be opened is reported and left as it was; so is an object that cannot be serialised. *)
Theorem C59_open_failure : forall direct room old chunks, write_file direct false room old chunks = ([old], old, Throw).
Proof. reflexivity. Qed.
Theorem C59_unserialisable : forall direct opens room old type desc, save_envelope direct opens room old type desc Throw = ([old], old, Throw).
Proof. reflexivity. Qed.
(** With room for the text, the call returns and the file holds exactly the text, whatever the stream buffers. *)
Theorem C59_complete : forall direct room old type desc bytes, (length (envelope_text type desc (hex_encode bytes)) <= room)%nat ->
  exists trace, save_envelope direct true room old type desc (Ok bytes) = (trace, Some (envelope_text type desc (hex_encode bytes)), Ok tt).
Proof.
  intros direct room old t d b L. cbn [save_envelope]. unfold write_file. destruct (stream_run _ _ _ _) as [[tr dk] o] eqn:E. apply stream_spec in E as (A & _ & C & _). cbn [d_content d_room app] in *.
  unfold envelope_text in *. rewrite firstn_all2 in A by exact L. rewrite A, (C L). eexists. reflexivity.
Qed.
(** An error or a crash at any point: the file holds what it held before the call, or a part of the text from its beginning; and it is a complete text
    or one that no reader takes for a key. *)
Theorem C59_every_crash_point : forall direct opens room old type desc bytes trace final o content,
  plain type -> plain desc -> bytes_ok bytes -> save_envelope direct opens room old type desc (Ok bytes) = (trace, final, o) -> In content (final :: trace) ->
  content = old \/ exists t, content = Some t /\ (exists rest, envelope_text type desc (hex_encode bytes) = t ++ rest) /\
    (t = envelope_text type desc (hex_encode bytes) \/ json_object t = None).
Proof.
  intros direct opens room old ty d b tr fin o c T D O E I. cbn [save_envelope] in E. unfold write_file in E. destruct opens; [|assert (fin = old /\ tr = [old]) as [-> ->] by (split; congruence); left; destruct I as [<-|[<-|[]]]; reflexivity].
  destruct (stream_run _ _ _ _) as [[tr0 dk] o0] eqn:G. apply stream_spec in G as (A & B & _ & _). cbn [d_content d_room app] in *. fold (envelope_text ty d (hex_encode b)) in *. set (text := envelope_text ty d (hex_encode b)) in *.
  assert (P : forall k, exists t, Some (firstn k text) = Some t /\ (exists rest, text = t ++ rest) /\ (t = text \/ json_object t = None)).
  { intros k. exists (firstn k text). split; [reflexivity|]. split; [exists (skipn k text); symmetry; apply firstn_skipn|].
    destruct (skipn k text) as [|x r] eqn:S; [left; rewrite <- (firstn_skipn k text) at 2; rewrite S, app_nil_r; reflexivity|right].
    apply (envelope_prefix ty d (hex_encode b) _ (x :: r) T D (hex_plain _ O)); [|discriminate]. rewrite <- S. symmetry. apply firstn_skipn. }
  assert (fin = Some (d_content dk) /\ tr = old :: map Some ([] :: tr0)) as [-> ->] by (split; congruence).
  destruct I as [<-|[<-|I]]; [right; rewrite A; apply P|left; reflexivity|right]. apply in_map_iff in I as (x & <- & [<-|I]); [apply (P 0%nat)|]. destruct (B x I) as (k & _ & ->). apply P.
Qed.
(** Reported errors are real: an exception means the device was full (or the file could not be opened). *)
Theorem C59_throw_means_full : forall direct room old type desc bytes trace final, save_envelope direct true room old type desc (Ok bytes) = (trace, final, Throw) ->
  (room < length (envelope_text type desc (hex_encode bytes)))%nat.
Proof.
  intros direct room old t d b tr fin E. destruct (Nat.lt_ge_cases room (length (envelope_text t d (hex_encode b)))) as [L|L]; [exact L|]. destruct (C59_complete direct room old t d b L) as (tr' & X). rewrite X in E. discriminate.
Qed.
(** Missing: a call that returns has written the file.  What is still in the stream's buffer when it returns is written by the destructor, whose failure nobody
    sees: with libstdc++'s buffer, a short text on a full device is reported as saved whatever the room. *)
Theorem C59_silent_truncation_refuted : forall room old type desc bytes trace final o,
  Z.of_nat (length (envelope_text type desc (hex_encode bytes))) < 1024 ->
  save_envelope libstdcxx true room old type desc (Ok bytes) = (trace, final, o) -> o = Ok tt /\ final = Some (firstn room (envelope_text type desc (hex_encode bytes))).
Proof.
  intros room old t d b tr fin o L E. cbn [save_envelope] in E. unfold write_file in E. destruct (stream_run _ _ _ _) as [[tr0 dk] o0] eqn:G.
  assert (H : o0 = Ok tt).
  { apply (stream_buffered _ _ _ _ _ _ _ G). intros x y S I. cbn [app] in S. fold (envelope_text t d (hex_encode b)) in S. unfold libstdcxx. apply Z.leb_gt. apply Z.min_glb_lt; lia. }
  apply stream_spec in G as (A & _). cbn [d_content d_room app] in A. split; [congruence|]. replace fin with (Some (d_content dk)) by congruence. rewrite A. reflexivity.
Qed.
(** Missing: the old file survives until the new one is complete.  There is a point where it is gone and the new one is empty. *)
Theorem C59_not_atomic_refuted : forall direct room old type desc bytes, exists trace final o,
  save_envelope direct true room old type desc (Ok bytes) = (trace, final, o) /\ In (Some []) trace.
Proof.
  intros direct room old t d b. cbn [save_envelope]. unfold write_file. destruct (stream_run _ _ _ _) as [[tr dk] o] eqn:E. do 3 eexists. split; [reflexivity|]. right. left. reflexivity.
Qed.
Example C59_ex : exists trace, save_envelope libstdcxx true 16 (Some [1; 2]) (str "T") (str "d") (Ok [3]) = (trace, Some (str "{" ++ [10] ++ str "    ""type"": ""T"), Ok tt) /\
  In (Some [1; 2]) trace /\ In (Some []) trace /\ In (Some (str "{")) trace.
Proof. eexists. split; [vm_compute; reflexivity|]. split; [left; reflexivity|]. split; [right; left; reflexivity|]. right. right. right. left. reflexivity. Qed.
Example C59_ex_throw : exists trace final, save_envelope libstdcxx true 20 None (str "T") (str "d") (Ok (repeat 0 600)) = (trace, final, Throw).
Proof. do 2 eexists. vm_compute. reflexivity. Qed.

(** ** C60 *)
Section C60.
Variables (sha512 sha256 : list Z -> list Z) (hmac512 : list Z -> list Z -> list Z) (pbkdf2 : Z -> nat -> list Z -> list Z -> list Z).
Variables (enc : Z -> list Z) (padd : list Z -> list Z -> option (list Z)).
Hypothesis HO : hashes_ok sha512 sha256 hmac512 pbkdf2.
Hypothesis EG : ed_group enc padd.
Lemma of_xbytes k : wf_prv k -> cold_xsk_of_bytes (xprv_xbytes k) = k.
Proof.
  intros (L & _ & Lc & _). unfold cold_xsk_of_bytes, xprv_of_bytes, xprv_xbytes. destruct k as [b c]. cbn [kbytes kcc] in *.
  rewrite (firstn_app_exact b c 64), (skipn_app_exact b c 64) by lia. rewrite firstn_all2 by lia. reflexivity.
Qed.
Lemma extend_key seed : cold_extend sha512 sha256 seed = prv_fromSeed sha512 sha256 seed.
Proof. apply of_xbytes. apply (seed_root _ _ _ _ HO). Qed.
Lemma extend_kL seed : kL (cold_extend sha512 sha256 seed) = rfc_scalar sha512 seed /\ skipn 32 (kbytes (cold_extend sha512 sha256 seed)) = skipn 32 (sha512 seed) /\ usable (rfc_scalar sha512 seed).
Proof.
  rewrite extend_key. destruct (sha512_ok _ _ _ _ HO seed) as [L B]. destruct (tweak_byron_value (sha512 seed) ltac:(lia) B) as [V S]. unfold kL, prv_fromSeed. cbn [kbytes]. fold (rfc_scalar sha512 seed) in V.
  split; [exact V|]. split; [exact S|]. destruct (seed_root _ _ _ _ HO seed) as [_ C]. unfold kL, prv_fromSeed in C. cbn [kbytes] in C. unfold rfc_scalar. cbn zeta. rewrite V in C. apply clamped_usable, C.
Qed.
Lemma extend_public seed : publicKey enc (cold_extend sha512 sha256 seed) = Ok {| pbytes := rfc_public sha512 enc seed; pcc := sha256 ([1] ++ seed) |}.
Proof.
  destruct (extend_kL seed) as (K & _ & U). apply (publicKey_ok _ _ EG). rewrite K. split; [exact U|]. unfold rfc_public. rewrite extend_key. reflexivity.
Qed.
Lemma extend_sign seed msg : rfc_nonce sha512 seed msg mod ell <> 0 -> sign sha512 enc (cold_extend sha512 sha256 seed) msg = Ok (rfc_sign sha512 enc seed msg).
Proof.
  intros N. unfold sign. rewrite extend_public. cbn [bind pbytes]. destruct (extend_kL seed) as (K & S & _). unfold bip32_sign, mul_base. rewrite S. fold (rfc_nonce sha512 seed msg).
  destruct (Z.eqb_spec (rfc_nonce sha512 seed msg mod ell) 0); [contradiction|]. cbn [bind]. rewrite (enc_mod _ _ EG). unfold sc_reduce. fold (kL (cold_extend sha512 sha256 seed)). rewrite K.
  unfold rfc_sign. cbn zeta. f_equal. f_equal. f_equal. pose proof ell_pos. rewrite <- Z.mul_mod by lia. rewrite <- Z.add_mod by lia. f_equal. lia.
Qed.
Lemma derive_wf k i c : wf_prv k -> prv_deriveChild hmac512 enc k i V2 = Ok c -> wf_prv c.
Proof. intros W E. apply (derive_iff _ _ _ EG) in E as [_ ->]. apply (child_wf _ _ _ _ _ HO), W. Qed.
Lemma from_root root : wf_prv root -> cold_fromRootKey hmac512 enc root = prv_derivePath hmac512 enc root [2 ^ 31 + 1853; 2 ^ 31 + 1815; 2 ^ 31; 2 ^ 31] V2.
Proof.
  intros W. unfold cold_fromRootKey. change (HardenIndex 1853) with (2 ^ 31 + 1853). change (HardenIndex 1815) with (2 ^ 31 + 1815). change (HardenIndex 0) with (2 ^ 31). cbn [prv_derivePath].
  destruct (prv_deriveChild hmac512 enc root (2 ^ 31 + 1853) V2) as [a| |] eqn:A; cbn [bind]; [|reflexivity|reflexivity]. apply (derive_wf _ _ _ W) in A.
  destruct (prv_deriveChild hmac512 enc a (2 ^ 31 + 1815) V2) as [b| |] eqn:B; cbn [bind]; [|reflexivity|reflexivity]. apply (derive_wf _ _ _ A) in B.
  destruct (prv_deriveChild hmac512 enc b (2 ^ 31) V2) as [c| |] eqn:C; cbn [bind]; [|reflexivity|reflexivity]. apply (derive_wf _ _ _ B) in C.
  destruct (prv_deriveChild hmac512 enc c (2 ^ 31) V2) as [d| |] eqn:D; cbn [bind]; [|reflexivity|reflexivity]. apply (derive_wf _ _ _ C) in D. rewrite (of_xbytes d D). reflexivity.
Qed.
End C60.
(** Extending a plain Ed25519 pool key keeps the verification key and the pool id. *)
Theorem C60_extend_same_pool : forall sha512 sha256 hmac512 pbkdf2 enc padd blake2b_224, hashes_ok sha512 sha256 hmac512 pbkdf2 -> ed_group enc padd ->
  forall seed, cold_xsk_vkey enc (cold_extend sha512 sha256 seed) = Ok (rfc_public sha512 enc seed) /\
    cold_xsk_poolId enc blake2b_224 (cold_extend sha512 sha256 seed) = Ok (pool_id blake2b_224 (rfc_public sha512 enc seed)).
Proof.
  intros. assert (E : cold_xsk_vkey enc (cold_extend sha512 sha256 seed) = Ok (rfc_public sha512 enc seed)).
  { unfold cold_xsk_vkey. rewrite (extend_public _ _ _ _ _ _ H H0). reflexivity. }
  split; [exact E|]. unfold cold_xsk_poolId. rewrite E. reflexivity.
Qed.
(** ... and signs every message as the plain key does (unless the nonce is a multiple of the group order, when the extended key refuses). *)
Theorem C60_extend_same_signatures : forall sha512 sha256 hmac512 pbkdf2 enc padd, hashes_ok sha512 sha256 hmac512 pbkdf2 -> ed_group enc padd ->
  forall seed msg, rfc_nonce sha512 seed msg mod ell <> 0 -> sign sha512 enc (cold_extend sha512 sha256 seed) msg = Ok (rfc_sign sha512 enc seed msg).
Proof. intros ? ? ? ? ? ? H G seed msg. apply (extend_sign _ _ _ _ _ _ H G). Qed.
(** Pool keys from a root key: path 1853'/1815'/0'/0' (CIP-1853). *)
Theorem C60_from_root_key : forall sha512 sha256 hmac512 pbkdf2 enc padd, hashes_ok sha512 sha256 hmac512 pbkdf2 -> ed_group enc padd ->
  forall root, wf_prv root -> cold_fromRootKey hmac512 enc root = prv_derivePath hmac512 enc root [2 ^ 31 + 1853; 2 ^ 31 + 1815; 2 ^ 31; 2 ^ 31] V2.
Proof. intros ? ? ? ? ? ? H G. apply (from_root _ _ _ _ _ _ H G). Qed.
(** From a mnemonic: the key of the root key with an empty passphrase; there always is one, with a verification key. *)
Theorem C60_from_mnemonic : forall sha512 sha256 hmac512 pbkdf2 enc padd, hashes_ok sha512 sha256 hmac512 pbkdf2 -> ed_group enc padd ->
  forall seed, cold_fromMnemonic hmac512 pbkdf2 enc seed = cold_fromRootKey hmac512 enc (prv_fromMnemonic pbkdf2 seed []) /\
    exists k vk, cold_fromMnemonic hmac512 pbkdf2 enc seed = Ok k /\ cold_xsk_vkey enc k = Ok vk /\ wf_prv k /\ clamped (kL k).
Proof.
  intros s5 s2 hm pb enc padd H G seed. split; [reflexivity|]. destruct (mnemonic_root _ _ _ _ H seed []) as [W C].
  destruct (v2_total _ _ _ _ _ _ H G [2 ^ 31 + 1853; 2 ^ 31 + 1815; 2 ^ 31; 2 ^ 31] _ W C) as (c & pc & E & P & Wc & Cc); [apply Nat2Z.inj_le; rewrite Z2Nat.id by lia; cbn [length]; lia|].
  exists c, (pbytes pc). change (cold_fromMnemonic hm pb enc seed) with (cold_fromRootKey hm enc (prv_fromMnemonic pb seed [])). rewrite (from_root _ _ _ _ _ _ H G _ W). split; [exact E|].
  split; [unfold cold_xsk_vkey; rewrite P; reflexivity|]. split; assumption.
Qed.
(** The Bech32 texts decode to the key bytes with the prefix of the kind. *)
Theorem C60_bech32 : forall k, bytes_ok k ->
  (exists t, cold_vk_bech32 k = Ok t /\ bech32_decode t = Ok (str "pool_vk", k)) /\ (exists t, cold_sk_bech32 k = Ok t /\ bech32_decode t = Ok (str "pool_sk", k)).
Proof.
  assert (U : forall s, bytes_okb s = true -> existsb is_upper s = false -> s <> [] -> forall k, bytes_ok k -> exists t, bech32_encode s k = Ok t /\ bech32_decode t = Ok (s, k)).
  { intros s A B N k O. apply bech32_round_trip; [apply bytes_okb_spec, A|exact O|apply no_upper_iff, B|exact N]. }
  intros k O. split; apply U; try reflexivity; try discriminate; exact O.
Qed.
(** Missing: the extended key's text leaves out the chain code. *)
Theorem C60_extended_bech32_refuted : forall k, wf_prv k -> (exists t, cold_xsk_bech32 k = Ok t /\ bech32_decode t = Ok (str "pool_xsk", kbytes k)) /\
  forall cc, cold_xsk_bech32 {| kbytes := kbytes k; kcc := cc |} = cold_xsk_bech32 k.
Proof.
  intros k (_ & O & _). split; [|reflexivity]. apply bech32_round_trip; [apply bytes_okb_spec; reflexivity|exact O|apply no_upper_iff; reflexivity|discriminate].
Qed.
Example C60_ex : rfc_nonce (toy_h 64) (str "seed") (str "msg") mod ell <> 0 /\ (exists sig, sign (toy_h 64) toy_enc (cold_extend (toy_h 64) (toy_h 32) (str "seed")) (str "msg") = Ok sig) /\
  (exists k, cold_fromMnemonic toy_hmac toy_pbkdf2 toy_enc (str "entropy") = Ok k).
Proof. split; [vm_compute; discriminate|]. split; [eexists; vm_compute; reflexivity|]. eexists. vm_compute. reflexivity. Qed.

Print Assumptions C58_envelope_reads_back.
Print Assumptions C58_key_files.
Print Assumptions C58_kes_signing_key_file.
Print Assumptions C58_key_files_injective.
Print Assumptions C58_counter_file.
Print Assumptions C58_opcert_file.
Print Assumptions C58_retirement_file.
Print Assumptions C58_registration_file.
Print Assumptions C58_registration_type_refuted.
Print Assumptions C58_extended_key_file_refuted.
Print Assumptions C58_unescaped_refuted.
Print Assumptions C59_open_failure.
Print Assumptions C59_unserialisable.
Print Assumptions C59_complete.
Print Assumptions C59_every_crash_point.
Print Assumptions C59_throw_means_full.
Print Assumptions C59_silent_truncation_refuted.
Print Assumptions C59_not_atomic_refuted.
Print Assumptions C60_extend_same_pool.
Print Assumptions C60_extend_same_signatures.
Print Assumptions C60_from_root_key.
Print Assumptions C60_from_mnemonic.
Print Assumptions C60_bech32.
Print Assumptions C60_extended_bech32_refuted.
