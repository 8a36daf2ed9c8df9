(** Properties C07-C10: the Base58 text form. *)
From Verif Require Import Base Spec_Hex Model_Hex Proof_Hex Model_Base58 Spec_Base58 Proof_Base58.

(** C07: any byte string with a non-zero byte encodes to its Base58 text and decodes back. *)
Theorem C07_base58_round_trip : forall b, bytes_ok b -> Exists (fun x => x <> 0) b ->
  exists text, base58_encode b = Ok text /\ is_base58 b text /\ base58_decode text = Ok b.
Proof. exact base58_round_trip. Qed.
Print Assumptions C07_base58_round_trip.

(** C07: every Base58 text of such a byte string decodes to it. *)
Theorem C07_base58_decode_complete : forall b text, bytes_ok b -> Exists (fun x => x <> 0) b ->
  is_base58 b text -> base58_decode text = Ok b.
Proof. exact base58_decode_spec. Qed.
Print Assumptions C07_base58_decode_complete.

Example C07_nontrivial : Exists (fun x => x <> 0) [0; 0; 1; 2; 3] /\
  base58_encode [0; 0; 1; 2; 3] = Ok (str "11Ldp").
Proof. split; [|vm_compute; reflexivity]. apply Exists_exists. exists 3. split; [cbn; tauto|discriminate]. Qed.

(** C08: the strings C07 does not cover.  [n] zero bytes encode to [n] ones, as Base58 says,
    but [n] ones decode to [n + 1] zero bytes, so no all-zero string survives; *)
Theorem C08_base58_all_zero : forall n,
  base58_encode (repeat 0 (S n)) = Ok (repeat 49 (S n)) /\ is_base58 (repeat 0 (S n)) (repeat 49 (S n)) /\
  base58_decode (repeat 49 n) = Ok (repeat 0 (S n)).
Proof.
  intros n. split; [exact (all_zero_encode n)|]. split; [|exact (all_zero_decode n)].
  exists (S n), [], []. rewrite !app_nil_r. repeat split; try constructor; intros; discriminate.
Qed.
Print Assumptions C08_base58_all_zero.

Theorem C08_base58_all_zero_refuted : forall b text, Forall (fun x => x = 0) b -> b <> [] ->
  base58_encode b = Ok text -> base58_decode text <> Ok b.
Proof.
  intros b text Hz Hne He Hd.
  assert (b = repeat 0 (length b)) as Eb.
  { clear -Hz. induction Hz as [|x l -> H IH]; [reflexivity|]. cbn [length repeat]. rewrite <- IH. reflexivity. }
  destruct b as [|x b]; [congruence|]. cbn [length] in Eb. rewrite Eb in He, Hd.
  rewrite all_zero_encode in He.
  assert (text = repeat 49 (S (length b))) as -> by congruence.
  rewrite (all_zero_decode (S (length b))) in Hd.
  assert (H : length (repeat 0 (S (S (length b)))) = length (repeat 0 (S (length b)))) by congruence.
  rewrite !repeat_length in H. lia.
Qed.
Print Assumptions C08_base58_all_zero_refuted.

(** ... and encoding is undefined for exactly one byte string, the empty one
    ([values.size() - 1] wraps and [values[0]] is read). *)
Theorem C08_base58_undefined_exactly : forall b, bytes_ok b -> (base58_encode b = UB <-> b = []).
Proof.
  intros b Hb. split; [|intros ->; reflexivity]. intros H. destruct b as [|x b]; [reflexivity|].
  destruct (base58_encode_safe (x :: b) Hb) as (t & E); [discriminate|congruence].
Qed.
Print Assumptions C08_base58_undefined_exactly.

(** C09: exactly the texts with a character of code 128 or more are refused. *)
Theorem C09_base58_decode_accepts : forall s, bytes_ok s ->
  (base58_decode s = Throw <-> Exists (fun c => 128 <= c) s) /\ base58_decode s <> UB.
Proof.
  intros s Hs. destruct (base58_decode_accepts s Hs) as [H1 H2].
  destruct (Exists_dec (fun c => 128 <= c) s) as [E|E]; [intros c; apply Z_le_dec| |].
  - rewrite (H2 E). split; [tauto|discriminate].
  - assert (F : Forall (fun c => c < 128) s).
    { apply Forall_forall. intros c Hc. destruct (Z_lt_dec c 128); auto. exfalso. apply E. apply Exists_exists. exists c. split; auto. lia. }
    destruct (H1 F) as (b & ->). split; [split; [discriminate|tauto]|discriminate].
Qed.
Print Assumptions C09_base58_decode_accepts.

(** C09: what every other text gives: one zero byte per leading '1', then the shortest big-endian
    form (one zero byte for 0) of the number it spells, characters outside the alphabet counting
    as [b58_continue] says. *)
Theorem C09_base58_decode_exact : forall s, Forall (fun c => 0 <= c < 128) s ->
  exists body, base58_decode s = Ok (repeat 0 (ones_of s) ++ body) /\ bytes_ok body /\
    (body = [0] \/ hd 0 body <> 0) /\ bev 256 body = b58_number s.
Proof. exact base58_decode_exact. Qed.
Print Assumptions C09_base58_decode_exact.

Example C09_nontrivial : b58_number (str "10Oz") = 14448269980379 /\
  base58_decode (str "10Oz") = Ok [0; 13; 35; 255; 255; 242; 219] /\ ones_of (str "10Oz") = 1%nat.
Proof. vm_compute. auto. Qed.

(** C09 fails: "0OIl" contains only characters outside the alphabet and is accepted. *)
Theorem C09_base58_reject_foreign_refuted : exists s b,
  Forall (fun c => ~ In c b58_alphabet) s /\ s <> [] /\ base58_decode s = Ok b.
Proof.
  exists (str "0OIl"), [2; 250; 39; 255; 252; 248; 121].
  split; [|split; [discriminate|vm_compute; reflexivity]].
  repeat constructor; vm_compute; intuition discriminate.
Qed.
Print Assumptions C09_base58_reject_foreign_refuted.

(** C10: the digit buffer is never overrun and every digit is below 58, for every non-empty input. *)
Theorem C10_base58_encode_buffer : forall b, bytes_ok b -> b <> [] ->
  exists out, b58_enc_loop (b58_cap b) b [0] = Ok out /\ digits_ok 58 out.
Proof. exact enc_buffer. Qed.
Print Assumptions C10_base58_encode_buffer.

Theorem C10_base58_encode_returns : forall b, bytes_ok b -> b <> [] -> exists text, base58_encode b = Ok text.
Proof. exact base58_encode_safe. Qed.
Print Assumptions C10_base58_encode_returns.

Example C10_tight : base58_encode (repeat 255 20) = Ok (str "4ZrjxJnU1LA5xSyrWMNuXTvSYKwt").
Proof. vm_compute. reflexivity. Qed.

(** C07, C08, C09: the variants on hexadecimal text. *)
Theorem C07_base58_hex_round_trip : forall hex, Nat.even (length hex) = true -> Forall spec_hex_char hex -> Exists (fun c => c <> 48) hex ->
  exists b text, bytes_ok b /\ spec_hex_text b = map spec_lower hex /\ is_base58 b text /\
    base58_encode_hex hex = Ok text /\ base58_decode_hex text = Ok (map spec_lower hex).
Proof.
  intros hex E F X. destruct (proj1 (hex_decode_accepts hex) (conj E F)) as (b & D & _). destruct (hex_decode_then_encode hex b D) as [Bb Eb].
  destruct (hex_text_round_trip b Bb) as [ES _].
  assert (NZ : Exists (fun x => x <> 0) b).
  { destruct (Exists_dec (fun x => x <> 0) b) as [Y|Y]; [intros x; destruct (Z.eq_dec x 0); [right; auto|left; auto]|exact Y|]. exfalso.
    assert (A : Forall (fun x => x = 0) b) by (apply Forall_forall; intros x I; destruct (Z.eq_dec x 0); [assumption|exfalso; apply Y, Exists_exists; exists x; auto]).
    assert (AL : Forall (fun c => c = 48) (map spec_lower hex)). { rewrite <- Eb, ES. clear -A. induction A as [|x l -> A IH]; [constructor|]. unfold spec_hex_text. cbn [map List.concat app]. constructor; [reflexivity|]. constructor; [reflexivity|exact IH]. }
    apply Exists_exists in X as (c & I & N). apply N. pose proof (proj1 (Forall_forall _ _) AL (spec_lower c) (in_map _ _ _ I)) as Q. cbv beta in Q. unfold spec_lower in Q. destruct ((65 <=? c) && (c <=? 90)) eqn:B; [|exact Q]. apply andb_true_iff in B as [B _]. apply Z.leb_le in B. lia. }
  destruct (base58_round_trip b Bb NZ) as (text & ET & IS & DT). exists b, text. split; [exact Bb|]. split; [congruence|]. split; [exact IS|].
  unfold base58_encode_hex, base58_decode_hex. rewrite D. cbn [bind]. split; [exact ET|]. rewrite DT. cbn [bind]. rewrite Eb. reflexivity.
Qed.
Print Assumptions C07_base58_hex_round_trip.
(** Encoding refuses what is not even-length hexadecimal and is undefined on the empty text only; decoding gives the two lower-case digits of every byte decoding to bytes gives. *)
Theorem C08_base58_hex_outcomes : forall hex,
  (base58_encode_hex hex = Throw <-> ~ (Nat.even (length hex) = true /\ Forall spec_hex_char hex)) /\ (base58_encode_hex hex = UB <-> hex = []).
Proof.
  intros hex. assert (X : (Nat.even (length hex) = true /\ Forall spec_hex_char hex) \/ ~ (Nat.even (length hex) = true /\ Forall spec_hex_char hex)).
  { destruct (Nat.even (length hex)); [|right; intros [? _]; discriminate]. destruct (Forall_dec spec_hex_char (fun c => in_dec Z.eq_dec c _) hex); [left; auto|right; intros [_ ?]; auto]. }
  unfold base58_encode_hex. destruct X as [X|X].
  - destruct (proj1 (hex_decode_accepts hex) X) as (b & D & L). rewrite D. cbn [bind]. pose proof (proj1 (hex_decode_then_encode hex b D)) as Bb. split.
    + split; [|intros Y; destruct (Y X)]. intros E. exfalso. destruct b as [|x b]; [vm_compute in E; discriminate|]. destruct (base58_encode_safe (x :: b) Bb) as (t & ET); [discriminate|congruence].
    + split.
      * intros E. destruct b as [|x b]; [destruct hex; [reflexivity|cbn in L; lia]|]. destruct (base58_encode_safe (x :: b) Bb) as (t & ET); [discriminate|congruence].
      * intros ->. destruct b; [reflexivity|cbn in L; lia].
  - rewrite (proj2 (hex_decode_accepts hex) X). cbn [bind]. split; [tauto|]. split; [discriminate|]. intros ->. exfalso. apply X. split; [reflexivity|constructor].
Qed.
Print Assumptions C08_base58_hex_outcomes.
Theorem C09_base58_decode_hex_exact : forall s, bytes_ok s ->
  (Exists (fun c => 128 <= c) s -> base58_decode_hex s = Throw) /\
  (Forall (fun c => c < 128) s -> exists b, base58_decode s = Ok b /\ bytes_ok b /\ base58_decode_hex s = Ok (spec_hex_text b)).
Proof.
  intros s B. destruct (base58_decode_accepts s B) as [H1 H2]. unfold base58_decode_hex. split.
  - intros E. rewrite (H2 E). reflexivity.
  - intros F. assert (F' : Forall (fun c => 0 <= c < 128) s) by (apply Forall_forall; intros c I; split; [apply (proj1 (Forall_forall _ _) B c I)|apply (proj1 (Forall_forall _ _) F c I)]).
    destruct (base58_decode_exact s F') as (body & D & Bb & _). rewrite D. exists (repeat 0 (ones_of s) ++ body). assert (BA : bytes_ok (repeat 0 (ones_of s) ++ body)).
    { apply Forall_app. split; [|exact Bb]. apply Forall_forall. intros x I. apply repeat_spec in I. subst x. unfold byte_ok. lia. }
    split; [reflexivity|]. split; [exact BA|]. cbn [bind]. rewrite (proj1 (hex_text_round_trip _ BA)). reflexivity.
Qed.
Print Assumptions C09_base58_decode_hex_exact.
Example C07_hex_nontrivial : base58_encode_hex (str "0000010203") = Ok (str "11Ldp") /\ base58_decode_hex (str "11Ldp") = Ok (str "0000010203") /\ base58_encode_hex (str "0x") = Throw.
Proof. split; [vm_compute; reflexivity|split; vm_compute; reflexivity]. Qed.
