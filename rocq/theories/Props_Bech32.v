(** Properties C03-C06: the Bech32 text form. *)
From Verif Require Import Base Spec_Hex Model_Hex Proof_Hex Model_Bech32 Spec_Bech32 Proof_Bech32.

(** C03: encoding with a non-empty, not upper-case prefix succeeds and decodes back. *)
Theorem C03_bech32_round_trip : forall hrp payload,
  bytes_ok hrp -> bytes_ok payload -> no_upper hrp -> hrp <> [] ->
  exists text, bech32_encode hrp payload = Ok text /\ bech32_decode text = Ok (hrp, payload).
Proof. exact bech32_round_trip. Qed.
Print Assumptions C03_bech32_round_trip.

(** C03: what is produced is the BIP-173 text of the payload. *)
Theorem C03_bech32_encode_is_bip173 : forall hrp payload,
  bytes_ok hrp -> bytes_ok payload -> no_upper hrp ->
  exists text, bech32_encode hrp payload = Ok text /\ is_bech32 hrp payload text.
Proof. exact encode_spec. Qed.
Print Assumptions C03_bech32_encode_is_bip173.

(** C03: an upper-case letter in the prefix is refused. *)
Theorem C03_bech32_encode_refuses_upper : forall hrp payload,
  ~ no_upper hrp -> bech32_encode hrp payload = Throw.
Proof. exact encode_upper. Qed.
Print Assumptions C03_bech32_encode_refuses_upper.

Example C03_nontrivial :
  bytes_ok (str "a1ddr") /\ no_upper (str "a1ddr") /\
  bech32_encode (str "a1ddr") [1; 2; 255] = Ok (str "a1ddr1qyp07fmmfgs").
Proof.
  split; [apply bytes_okb_spec; reflexivity|]. split; [|vm_compute; reflexivity].
  apply no_upper_iff. reflexivity.
Qed.

(** C04: an accepted text is, in lower case, exactly the encoding of what it decodes to. *)
Theorem C04_bech32_canonical : forall text hrp payload,
  bytes_ok text -> bech32_decode text = Ok (hrp, payload) ->
  bech32_encode hrp payload = Ok (map ascii_lower text).
Proof. exact bech32_canonical. Qed.
Print Assumptions C04_bech32_canonical.

(** C04: the accepted texts are exactly the BIP-173 texts (up to letter case). *)
Theorem C04_bech32_decode_sound : forall text hrp payload,
  bytes_ok text -> bech32_decode text = Ok (hrp, payload) ->
  hrp <> [] /\ bytes_ok hrp /\ bytes_ok payload /\ no_upper hrp /\ is_bech32 hrp payload (map ascii_lower text).
Proof. exact decode_to_spec. Qed.
Print Assumptions C04_bech32_decode_sound.

Theorem C04_bech32_decode_complete : forall text hrp payload,
  bytes_ok text -> hrp <> [] -> bytes_ok payload ->
  is_bech32 hrp payload (map ascii_lower text) -> bech32_decode text = Ok (hrp, payload).
Proof. exact decode_of_spec. Qed.
Print Assumptions C04_bech32_decode_complete.

Example C04_nontrivial :
  bech32_decode (str "abcdef1qpzry9x8gf2tvdw0s3jn54khce6mua7lmqqqxw") =
  Ok (str "abcdef", [0; 68; 50; 20; 199; 66; 84; 182; 53; 207; 132; 101; 58; 86; 215; 198; 117; 190; 119; 223]).
Proof. vm_compute. reflexivity. Qed.

(** C03, C04: the variants on hexadecimal text.  Even-length hexadecimal in either case is encoded as the bytes it denotes and comes back in lower case;
    any other text is refused, as is an upper-case prefix; decoding gives the two lower-case digits of each payload byte of an accepted text, and fails as decoding to bytes does. *)
Theorem C03_bech32_hex_round_trip : forall hrp hex, bytes_ok hrp -> no_upper hrp -> hrp <> [] ->
  Nat.even (length hex) = true -> Forall spec_hex_char hex ->
  exists payload text, bytes_ok payload /\ spec_hex_text payload = map spec_lower hex /\ is_bech32 hrp payload text /\
    bech32_encode_hex hrp hex = Ok text /\ bech32_decode_hex text = Ok (hrp, map spec_lower hex).
Proof.
  intros hrp hex Bh U N E F. destruct (proj1 (hex_decode_accepts hex) (conj E F)) as (b & D & _). destruct (hex_decode_then_encode hex b D) as [Bb Eb].
  destruct (hex_text_round_trip b Bb) as [ES _]. destruct (encode_spec hrp b Bh Bb U) as (text & ET & IS). destruct (bech32_round_trip hrp b Bh Bb U N) as (text' & ET' & DT).
  assert (text' = text) by congruence. subst text'. exists b, text. split; [exact Bb|]. split; [congruence|]. split; [exact IS|].
  unfold bech32_encode_hex, bech32_decode_hex. rewrite D. cbn [bind]. split; [exact ET|]. rewrite DT. cbn [bind]. rewrite Eb. reflexivity.
Qed.
Print Assumptions C03_bech32_hex_round_trip.
Theorem C03_bech32_hex_refuses : forall hrp hex, ~ no_upper hrp \/ ~ (Nat.even (length hex) = true /\ Forall spec_hex_char hex) -> bech32_encode_hex hrp hex = Throw.
Proof.
  intros hrp hex [U|N]; unfold bech32_encode_hex.
  - destruct (hex_decode hex) as [b| |] eqn:D; cbn [bind]; [exact (encode_upper hrp b U)|reflexivity|]. exfalso.
    destruct (hex_decode_accepts hex) as [A R]. assert (X : (Nat.even (length hex) = true /\ Forall spec_hex_char hex) \/ ~ (Nat.even (length hex) = true /\ Forall spec_hex_char hex)).
    { destruct (Nat.even (length hex)); [|right; intros [? _]; discriminate]. destruct (Forall_dec spec_hex_char (fun c => in_dec Z.eq_dec c _) hex); [left; auto|right; intros [_ ?]; auto]. }
    destruct X as [X|X]; [destruct (A X) as (b & E & _); congruence|rewrite (R X) in D; discriminate].
  - rewrite (proj2 (hex_decode_accepts hex) N). reflexivity.
Qed.
Print Assumptions C03_bech32_hex_refuses.
Theorem C04_bech32_decode_hex_exact : forall text, bytes_ok text ->
  match bech32_decode text with
  | Ok (hrp, payload) => bech32_decode_hex text = Ok (hrp, spec_hex_text payload)
  | Throw => bech32_decode_hex text = Throw
  | UB => bech32_decode_hex text = UB
  end.
Proof.
  intros text B. unfold bech32_decode_hex. destruct (bech32_decode text) as [[hrp payload]| |] eqn:D; [|reflexivity..]. cbn [bind].
  destruct (decode_to_spec text hrp payload B D) as (_ & _ & Bp & _). rewrite (proj1 (hex_text_round_trip payload Bp)). reflexivity.
Qed.
Print Assumptions C04_bech32_decode_hex_exact.
Example C03_hex_nontrivial : bech32_encode_hex (str "a1ddr") (str "0102fF") = Ok (str "a1ddr1qyp07fmmfgs") /\
  bech32_decode_hex (str "A1DDR1qyp07fmmfgs") = Ok (str "a1ddr", str "0102ff") /\ bech32_encode_hex (str "a") (str "012") = Throw.
Proof. split; [vm_compute; reflexivity|split; vm_compute; reflexivity]. Qed.

(** C05: substitutions in the data part are detected when they lie within six consecutive
    characters, or are at most three within 1023 characters, or at most four within 89.
    (Characters that become '1' move the separator and are excluded.) *)
Theorem C05_bech32_detects_errors : forall h p u u' q,
  let s := h ++ str "1" ++ p ++ u ++ q in
  let s' := h ++ str "1" ++ p ++ u' ++ q in
  bytes_ok s -> bytes_ok s' -> ~ In 49 (p ++ u ++ q) -> ~ In 49 u' ->
  length u = length u' ->
  (1 <= differing u u')%nat ->
  (length u <= 6 \/ (length u <= 1023 /\ differing u u' <= 3) \/ (length u <= 89 /\ differing u u' <= 4))%nat ->
  is_ok (bech32_decode s) = true -> is_ok (bech32_decode s') = false.
Proof. exact bech32_detects. Qed.
Print Assumptions C05_bech32_detects_errors.

Example C05_nontrivial :
  is_ok (bech32_decode (str "abcdef" ++ str "1" ++ str "qpzry9x8" ++ str "gf2tvdw0s3" ++ str "jn54khce6mua7lmqqqxw")) = true /\
  differing (str "gf2tvdw0s3") (str "gf3tvdw0rr") = 3%nat.
Proof. vm_compute. split; reflexivity. Qed.

(** C06: exactly when the decoder reads outside its table: after the last '1' (with something
    before it and at least six characters after it) come characters of the alphabet, in either
    case, and then one of code 128 or more. *)
Theorem C06_bech32_unsafe_exactly : forall text, bytes_ok text ->
  (bech32_decode text = UB <->
   exists h d c q, text = h ++ str "1" ++ d ++ c :: q /\ h <> [] /\ ~ In 49 (d ++ c :: q) /\
     (6 <= length (d ++ c :: q))%nat /\ Forall (fun x => In (ascii_lower x) alphabet) d /\ 128 <= c).
Proof. exact decode_ub_iff. Qed.
Print Assumptions C06_bech32_unsafe_exactly.

(** C06: so on texts of 7-bit characters the decoder has no undefined behaviour. *)
Theorem C06_bech32_ascii_safe : forall text,
  Forall (fun c => 0 <= c < 128) text -> bech32_decode text <> UB.
Proof. exact decode_ascii_safe. Qed.
Print Assumptions C06_bech32_ascii_safe.

(** C06 fails in general: a character code of 128 or more after the separator reads outside
    the lookup table (e.g. any UTF-8 letter typed into an address). *)
Theorem C06_bech32_memory_safety_refuted : exists text, bytes_ok text /\ bech32_decode text = UB.
Proof. exists (str "addr1qqqqq" ++ [195; 169]). split; [apply bytes_okb_spec|]; vm_compute; reflexivity. Qed.
Print Assumptions C06_bech32_memory_safety_refuted.
