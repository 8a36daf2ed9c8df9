(** Lemmas about the text envelopes. *)
From Verif Require Import Base BaseLemmas Spec_Hex Model_Hex Proof_Hex Spec_Cbor Model_Cbor Proof_Cbor Spec_Files Model_Ledger Model_Bip32 Spec_Bip32 Proof_Bip32 Proof_Bip32b Spec_Ed25519 Model_Kes Model_Pool Model_Files.
Ltac Zify.zify_post_hook ::= idtac.

(** ** Strings *)
Lemma read_chars_plain s : forall r, plain s -> read_chars (s ++ 34 :: r) = Some (s, r).
Proof.
  induction s as [|c s IH]; intros r P; [reflexivity|]. inversion P as [|? ? (A & B & C) P']; subst. cbn [app read_chars].
  destruct (Z.eqb_spec c 34); [lia|]. destruct (Z.ltb_spec c 32); [lia|]. destruct (Z.eqb_spec c 92); [lia|]. rewrite (IH r P'). reflexivity.
Qed.
Lemma read_chars_prefix s : forall n, plain s -> read_chars (firstn n s) = None.
Proof.
  induction s as [|c s IH]; intros n P; [destruct n; reflexivity|]. destruct n as [|n]; [reflexivity|]. inversion P as [|? ? (A & B & C) P']; subst. cbn [firstn read_chars].
  destruct (Z.eqb_spec c 34); [lia|]. destruct (Z.ltb_spec c 32); [lia|]. destruct (Z.eqb_spec c 92); [lia|]. rewrite (IH n P'). reflexivity.
Qed.
Lemma hex_digit_plain d : 0 <= d < 16 -> 32 <= spec_hex_digit d /\ spec_hex_digit d <> 34 /\ spec_hex_digit d <> 92.
Proof.
  intros H. assert (E : d = 0 \/ d = 1 \/ d = 2 \/ d = 3 \/ d = 4 \/ d = 5 \/ d = 6 \/ d = 7 \/ d = 8 \/ d = 9 \/ d = 10 \/ d = 11 \/ d = 12 \/ d = 13 \/ d = 14 \/ d = 15) by lia.
  repeat (destruct E as [->|E]; [vm_compute; repeat split; discriminate|]). subst. vm_compute. repeat split; discriminate.
Qed.
Lemma hex_plain b : bytes_ok b -> plain (hex_encode b).
Proof.
  intros O. destruct (hex_text_round_trip b O) as [-> _]. unfold spec_hex_text, plain. induction O as [|x b B O IH]; [constructor|]. cbn [map concat app]. unfold byte_ok in B.
  constructor; [apply hex_digit_plain; split; [apply Z.div_pos; lia|apply Z.div_lt_upper_bound; lia]|]. constructor; [apply hex_digit_plain; apply Z.mod_pos_bound; lia|exact IH].
Qed.
Lemma hex_digit_find d : 0 <= d < 16 -> find (fun d' => spec_hex_digit d' =? spec_hex_digit d) (map Z.of_nat (seq 0 16)) = Some d.
Proof.
  intros H. assert (E : d = 0 \/ d = 1 \/ d = 2 \/ d = 3 \/ d = 4 \/ d = 5 \/ d = 6 \/ d = 7 \/ d = 8 \/ d = 9 \/ d = 10 \/ d = 11 \/ d = 12 \/ d = 13 \/ d = 14 \/ d = 15) by lia.
  repeat (destruct E as [->|E]; [vm_compute; reflexivity|]). subst. vm_compute. reflexivity.
Qed.
Lemma hex_bytes_encode b : bytes_ok b -> hex_bytes (hex_encode b) = Some b.
Proof.
  intros O. destruct (hex_text_round_trip b O) as [-> _]. unfold spec_hex_text. induction O as [|x b B O IH]; [reflexivity|]. cbn [map concat app hex_bytes]. unfold byte_ok in B.
  rewrite (hex_digit_find (x / 16)) by (split; [apply Z.div_pos; lia|apply Z.div_lt_upper_bound; lia]). rewrite (hex_digit_find (x mod 16)) by (apply Z.mod_pos_bound; lia). rewrite IH.
  do 2 f_equal. pose proof (Z.div_mod x 16). lia.
Qed.

(** ** The object *)
Definition q : Z := 34.
Lemma envelope_shape t d h : envelope_text t d h =
  str "{" ++ [10] ++ str "    ""type"": """ ++ t ++ q :: str "," ++ [10] ++ str "    ""description"": """ ++ d ++ q :: str "," ++ [10] ++ str "    ""cborHex"": """ ++ h ++ q :: [10; 125].
Proof. unfold envelope_text, envelope_chunks, nl. cbn [concat]. rewrite <- ?app_assoc. reflexivity. Qed.
Lemma json_envelope t d h : plain t -> plain d -> plain h ->
  json_object (envelope_text t d h) = Some [(str "type", t); (str "description", d); (str "cborHex", h)].
Proof.
  intros T D H. rewrite envelope_shape. unfold json_object. cbn.
  unfold read_member. cbn. rewrite (read_chars_plain t _ T). cbn.
  unfold read_member. cbn. rewrite (read_chars_plain d _ D). cbn.
  unfold read_member. cbn. rewrite (read_chars_plain h _ H). cbn. reflexivity.
Qed.

(** ** No strict prefix of an object text that ends in its closing brace is an object text *)
Lemma read_chars_app s : forall x r s', read_chars s = Some (x, r) -> read_chars (s ++ s') = Some (x, r ++ s').
Proof.
  assert (G : forall n s, (length s <= n)%nat -> forall x r s', read_chars s = Some (x, r) -> read_chars (s ++ s') = Some (x, r ++ s')); [|apply (G (length s)); lia]. clear s.
  induction n as [|n IH]; intros [|c s] L x r s' E; try discriminate; cbn [length] in L; [lia|]. cbn [read_chars] in E. cbn [app read_chars].
  destruct (c =? 34); [injection E as <- <-; reflexivity|]. destruct (c <? 32); [discriminate|]. destruct (c =? 92).
  - destruct s as [|e s]; [discriminate|]. cbn [app]. destruct (unescape e); [|discriminate]. destruct (read_chars s) as [[y t]|] eqn:F; [|discriminate].
    rewrite (IH s ltac:(cbn [length] in L; lia) _ _ s' F). injection E as <- <-. reflexivity.
  - destruct (read_chars s) as [[y t]|] eqn:F; [|discriminate]. rewrite (IH s ltac:(lia) _ _ s' F). injection E as <- <-. reflexivity.
Qed.
Lemma skip_ws_app s : forall c r s', skip_ws s = c :: r -> skip_ws (s ++ s') = c :: r ++ s'.
Proof. induction s as [|x s IH]; intros c r s' E; [discriminate|]. cbn [skip_ws app] in *. destruct (is_ws x); [apply IH, E|]. injection E as <- <-. reflexivity. Qed.
Lemma expect_app c s r s' : expect c (skip_ws s) = Some r -> expect c (skip_ws (s ++ s')) = Some (r ++ s').
Proof.
  intros E. destruct (skip_ws s) as [|x t] eqn:F; [discriminate|]. rewrite (skip_ws_app _ _ _ s' F). cbn [expect] in *. destruct (x =? c); [|discriminate]. injection E as <-. reflexivity.
Qed.
Lemma read_string_app s x r s' : read_string (skip_ws s) = Some (x, r) -> read_string (skip_ws (s ++ s')) = Some (x, r ++ s').
Proof.
  unfold read_string. intros E. destruct (expect 34 (skip_ws s)) as [t|] eqn:F; [|discriminate]. rewrite (expect_app _ _ _ s' F). apply read_chars_app, E.
Qed.
Lemma read_member_app s m r s' : read_member s = Some (m, r) -> read_member (s ++ s') = Some (m, r ++ s').
Proof.
  unfold read_member. intros E. destruct (read_string (skip_ws s)) as [[k t]|] eqn:F; [|discriminate]. rewrite (read_string_app _ _ _ s' F).
  destruct (expect 58 (skip_ws t)) as [t2|] eqn:G; [|discriminate]. rewrite (expect_app _ _ _ s' G). destruct (read_string (skip_ws t2)) as [[v t3]|] eqn:H; [|discriminate].
  rewrite (read_string_app _ _ _ s' H). injection E as <- <-. reflexivity.
Qed.
Lemma read_members_app f : forall f' s ms r s', (f <= f')%nat -> read_members f s = Some (ms, r) -> read_members f' (s ++ s') = Some (ms, r ++ s').
Proof.
  induction f as [|f IH]; intros f' s ms r s' L E; [discriminate|]. destruct f' as [|f']; [lia|]. cbn [read_members] in *. destruct (read_member s) as [[m t]|] eqn:F; [|discriminate]. rewrite (read_member_app _ _ _ s' F).
  destruct (skip_ws t) as [|c u] eqn:G; [discriminate|]. rewrite (skip_ws_app _ _ _ s' G). destruct (c =? 125); [injection E as <- <-; reflexivity|]. destruct (c =? 44); [|discriminate].
  destruct (read_members f u) as [[l v]|] eqn:H; [|discriminate]. rewrite (IH f' u l v s' ltac:(lia) H). injection E as <- <-. reflexivity.
Qed.
Lemma skip_ws_nil_app a b : skip_ws (a ++ b) = [] -> skip_ws b = [].
Proof. induction a as [|x a IH]; [auto|]. cbn [app skip_ws]. destruct (is_ws x); [exact IH|discriminate]. Qed.
Lemma object_prefix p s' ms ms' : json_object p = Some ms -> json_object (p ++ s') = Some ms' -> ms' = ms /\ skip_ws s' = [].
Proof.
  unfold json_object. intros E E'. destruct (expect 123 (skip_ws p)) as [t|] eqn:F; [|discriminate]. rewrite (expect_app _ _ _ s' F) in E'.
  destruct (read_members (length t) t) as [[l r]|] eqn:G; [|discriminate]. assert (L : (length t <= length (t ++ s'))%nat) by (rewrite app_length; lia). rewrite (read_members_app _ _ _ _ _ s' L G) in E'.
  destruct (is_nil (skip_ws r)); [|discriminate]. injection E as <-. destruct (skip_ws (r ++ s')) eqn:W; [|discriminate]. injection E' as <-. split; [reflexivity|]. eapply skip_ws_nil_app, W.
Qed.
Lemma skip_ws_last s c : is_ws c = false -> skip_ws (s ++ [c]) <> [].
Proof. intros W. induction s as [|x s IH]; cbn [app skip_ws]; [rewrite W; discriminate|]. destruct (is_ws x); [exact IH|discriminate]. Qed.
Lemma envelope_end t d h : exists s, envelope_text t d h = s ++ [125].
Proof. eexists. unfold envelope_text, envelope_chunks. cbn [concat]. rewrite !app_assoc. rewrite app_nil_r. reflexivity. Qed.
Lemma envelope_prefix t d h p s' : plain t -> plain d -> plain h -> envelope_text t d h = p ++ s' -> s' <> [] -> json_object p = None.
Proof.
  intros T D H E N. destruct (json_object p) as [ms|] eqn:J; [exfalso|reflexivity]. pose proof (json_envelope t d h T D H) as K. rewrite E in K.
  destruct (object_prefix _ _ _ _ J K) as [_ W]. destruct (envelope_end t d h) as [s L]. rewrite L in E. destruct (exists_last N) as (s2 & c & ->). rewrite app_assoc in E. apply app_inj_tail in E as [_ <-].
  exact (skip_ws_last s2 125 eq_refl W).
Qed.

(** ** Payloads *)
Lemma read_envelope_text t d b : plain t -> plain d -> bytes_ok b ->
  read_envelope (envelope_text t d (hex_encode b)) = Some {| en_type := t; en_desc := d; en_payload := b |}.
Proof.
  intros T D O. unfold read_envelope. rewrite (json_envelope _ _ _ T D (hex_plain _ O)). cbn [member find fst]. unfold member. cbn -[hex_bytes hex_encode].
  rewrite (hex_bytes_encode _ O). reflexivity.
Qed.

Lemma read_key_text t d k : plain (str t) -> plain (str d) -> bytes_ok k -> zlen k < 2 ^ 64 -> read_key_file (key_text t d k) = Some (str t, k).
Proof.
  intros T D O L. unfold read_key_file, key_text, bstr_hex. assert (OK : cbor_ok (CBytes k)) by (split; assumption).
  rewrite (read_envelope_text _ _ _ T D (encode_bytes _ OK)). unfold payload_item. cbn [en_payload en_type].
  pose proof (cbor_round_trip (CBytes k) [] OK) as R. rewrite app_nil_r in R. rewrite R. reflexivity.
Qed.
Lemma read_item_text t d c : plain t -> plain d -> cbor_ok c ->
  exists e, read_envelope (envelope_text t d (hex_encode (cbor_encode c))) = Some e /\ en_type e = t /\ en_desc e = d /\ payload_item e = Some c.
Proof.
  intros T D OK. rewrite (read_envelope_text _ _ _ T D (encode_bytes _ OK)). eexists. split; [reflexivity|]. split; [reflexivity|]. split; [reflexivity|].
  unfold payload_item. cbn [en_payload]. pose proof (cbor_round_trip c [] OK) as R. rewrite app_nil_r in R. rewrite R. reflexivity.
Qed.
Definition plainb (s : list Z) : bool := forallb (fun c => (32 <=? c) && negb (c =? 34) && negb (c =? 92)) s.
Lemma plainb_ok s : plainb s = true -> plain s.
Proof.
  unfold plainb, plain. rewrite forallb_forall, Forall_forall. intros H c I. specialize (H c I). apply andb_prop in H as [H C]. apply andb_prop in H as [A B].
  apply Z.leb_le in A. apply negb_true_iff, Z.eqb_neq in B, C. auto.
Qed.

(** ** Decimal numerals *)
Lemma bev_snoc10 l x : bev 10 (l ++ [x]) = 10 * bev 10 l + x.
Proof. unfold bev. rewrite fold_left_app. cbn [fold_left]. lia. Qed.
Lemma dec_digits_spec f : forall n, 0 <= n < 10 ^ Z.of_nat f -> (0 < f)%nat ->
  dec_digits f n <> [] /\ Forall (fun c => 48 <= c <= 57) (dec_digits f n) /\ bev 10 (map (fun c => c - 48) (dec_digits f n)) = n /\
  (forall c r, dec_digits f n = c :: r -> (r <> [] \/ 0 < n) -> c <> 48).
Proof.
  induction f as [|f IH]; intros n B F; [lia|]. cbn [dec_digits]. destruct (Z.ltb_spec n 10).
  - split; [discriminate|]. split; [constructor; [lia|constructor]|]. split; [cbn [map]; unfold bev; cbn [fold_left]; lia|]. intros c r E [N|P]; [assert (r = []) by congruence; contradiction|assert (c = 48 + n) by congruence; lia].
  - rewrite Nat2Z.inj_succ, Z.pow_succ_r in B by lia. assert (f <> 0)%nat by (intros ->; cbn in B; lia).
    assert (D : 1 <= n / 10 < 10 ^ Z.of_nat f) by (split; [apply Z.div_le_lower_bound; lia|apply Z.div_lt_upper_bound; lia]).
    destruct (IH (n / 10) ltac:(lia) ltac:(lia)) as (N & R & V & Z0). pose proof (Z.mod_pos_bound n 10 ltac:(lia)) as M.
    split; [destruct (dec_digits f (n / 10)); discriminate|]. split; [apply Forall_app; split; [exact R|constructor; [lia|constructor]]|]. split.
    + rewrite map_app. cbn [map]. rewrite bev_snoc10, V. pose proof (Z.div_mod n 10 ltac:(lia)) as DM. lia.
    + intros c r E _. destruct (dec_digits f (n / 10)) as [|c0 r0] eqn:G; [contradiction|]. injection E as <- <-. apply (Z0 c0 r0 eq_refl). right. lia.
Qed.
Lemma to_string_decimal n : 0 <= n < 2 ^ 64 -> is_decimal n (to_string n).
Proof.
  intros B. destruct (dec_digits_spec 20 n) as (N & R & V & Z0); [split; [lia|]; apply Z.lt_trans with (2 ^ 64); [lia|reflexivity]|lia|].
  split; [exact N|]. split; [exact R|]. split; [exact V|]. intros c r E L. apply (Z0 c r E). left. exact L.
Qed.
Lemma decimal_plain n t : is_decimal n t -> plain t.
Proof. intros (_ & R & _). unfold plain. revert R. apply Forall_impl. lia. Qed.
Lemma decimal_unique n m t : is_decimal n t -> is_decimal m t -> n = m.
Proof. intros (_ & _ & A & _) (_ & _ & B & _). congruence. Qed.

(** ** Streams *)
Lemma firstn_prefix {A} k (a b : list A) : (k <= length a)%nat -> firstn k (a ++ b) = firstn k a.
Proof. intros L. rewrite firstn_app. replace (k - length a)%nat with 0%nat by lia. cbn. apply app_nil_r. Qed.
Lemma firstn_over {A} k (a b : list A) : (length a <= k)%nat -> firstn k (a ++ b) = a ++ firstn (k - length a) b.
Proof. intros L. rewrite firstn_app, firstn_all2 by exact L. reflexivity. Qed.
Lemma dev_states_in d data rest c : In c (dev_states d data) -> exists k, (k <= d_room d)%nat /\ c = d_content d ++ firstn k (data ++ rest).
Proof.
  unfold dev_states. intros I. apply in_map_iff in I as (k & <- & I). apply in_seq in I. exists k. split; [lia|]. rewrite firstn_prefix by lia. reflexivity.
Qed.
Local Opaque dev_states.
Lemma stream_spec direct chunks : forall d buf tr d' o, stream_run direct d buf chunks = (tr, d', o) ->
  let text := buf ++ concat chunks in
  d_content d' = d_content d ++ firstn (d_room d) text /\
  (forall c, In c tr -> exists k, (k <= d_room d)%nat /\ c = d_content d ++ firstn k text) /\
  ((length text <= d_room d)%nat -> o = Ok tt) /\ (o = Ok tt \/ o = Throw).
Proof.
  induction chunks as [|c r IH]; intros d buf tr d' o E; cbn [stream_run] in E; cbn zeta.
  - unfold dev_write in E. cbn [concat]. injection E as <- <- <-. rewrite app_nil_r. split; [reflexivity|]. split; [|split; [reflexivity|left; reflexivity]].
    intros c I. apply (dev_states_in _ _ []) in I. rewrite app_nil_r in I. exact I.
  - cbn [concat]. destruct (direct (length buf) (length c)).
    + unfold dev_write in E. destruct (Nat.leb_spec (length (buf ++ c)) (d_room d)) as [L|L].
      * destruct (stream_run _ _ _ _) as [[tr0 d0] o0] eqn:G. injection E as <- <- <-. apply IH in G as (A & B & C & D). cbn [d_content d_room app] in *.
        rewrite firstn_all2 in A, B by exact L. rewrite app_assoc. split; [rewrite A, (firstn_over _ (buf ++ c)) by exact L; symmetry; apply app_assoc|]. split; [|split; [|exact D]].
        -- intros x I. apply in_app_or in I as [I|I]; [apply dev_states_in, I|]. destruct (B x I) as (k & K & ->). exists (length (buf ++ c) + k)%nat. split; [lia|].
           rewrite firstn_app_2. symmetry. apply app_assoc.
        -- intros T. apply C. rewrite app_length in T. lia.
      * injection E as <- <- <-. cbn [d_content]. rewrite app_assoc. split; [rewrite (firstn_prefix _ (buf ++ c) (concat r)) by lia; reflexivity|]. split; [|split; [|right; reflexivity]].
        -- intros x I. apply dev_states_in, I.
        -- intros T. rewrite app_length in T. lia.
    + apply IH in E. rewrite <- app_assoc in E. exact E.
Qed.
Local Transparent dev_states.
(** When the policy sends nothing to the device before the end, the function never throws. *)
Lemma stream_buffered direct chunks : forall d buf tr d' o, stream_run direct d buf chunks = (tr, d', o) ->
  (forall b c, (b + c <= length (buf ++ concat chunks))%nat -> In c (map (@length Z) chunks) -> direct b c = false) -> o = Ok tt.
Proof.
  induction chunks as [|c r IH]; intros d buf tr d' o E H; cbn [stream_run] in E; [unfold dev_write in E; congruence|].
  rewrite (H (length buf) (length c)) in E; [|rewrite app_length; cbn [concat]; rewrite app_length; lia|left; reflexivity].
  apply IH in E; [exact E|]. intros b x L I. apply H; [cbn [concat]; rewrite <- app_assoc in L; exact L|right; exact I].
Qed.

(** ** Cold keys *)
Lemma land_127_64 x : 0 <= x < 256 -> Z.lor (Z.land x 127) 64 = 64 + x mod 64.
Proof.
  intros B. assert (E : forallb (fun n => Z.lor (Z.land (Z.of_nat n) 127) 64 =? 64 + Z.of_nat n mod 64) (seq 0 256) = true) by (vm_compute; reflexivity).
  rewrite forallb_forall in E. specialize (E (Z.to_nat x) ltac:(apply in_seq; lia)). rewrite Z2Nat.id in E by lia. apply Z.eqb_eq, E.
Qed.
Lemma tweak_byron_value d : (32 <= length d)%nat -> bytes_ok d ->
  lev 256 (firstn 32 (tweak_bits_byron d)) = (let h := lev 256 (firstn 32 d) in 2 ^ 254 + (h mod 2 ^ 254 - h mod 8)) /\ skipn 32 (tweak_bits_byron d) = skipn 32 d.
Proof.
  intros L B. destruct (shape32 d L) as (a & m & b & r & -> & Lm).
  unfold tweak_bits_byron. change (upd 0 ?f (a :: m ++ b :: r)) with (f a :: m ++ b :: r). rewrite !upd31 by exact Lm.
  apply bytes_ok_cons in B as [Ha B]. apply bytes_ok_app in B as [Bm B]. apply bytes_ok_cons in B as [Hb Br]. unfold byte_ok in *.
  rewrite !lev32 by exact Lm. split.
  - cbn zeta. rewrite land_248 by exact Ha. rewrite land_127_64 by exact Hb.
    pose proof (lev_bound 256 m ltac:(lia) Bm) as LB. unfold zlen in LB; rewrite ?Lm in LB. revert LB. generalize (lev 256 m). intros M LB.
    assert (E1 : (a + 256 * M + 2 ^ 248 * b) mod 8 = a mod 8).
    { replace (a + 256 * M + 2 ^ 248 * b) with (a + (32 * M + 2 ^ 245 * b) * 8) by (change (2 ^ 248) with (8 * 2 ^ 245); ring). apply Z.mod_add. lia. }
    assert (E2 : (a + 256 * M + 2 ^ 248 * b) mod 2 ^ 254 = a + 256 * M + 2 ^ 248 * (b mod 64)).
    { symmetry. apply (Z.mod_unique _ _ (b / 64)).
      - left. pose proof (Z.mod_pos_bound b 64 ltac:(lia)). change (256 ^ Z.of_nat 30) with (2 ^ 240) in LB. change (2 ^ 254) with (64 * 2 ^ 248). change (2 ^ 248) with (256 * 2 ^ 240) in *. lia.
      - change (2 ^ 254) with (64 * 2 ^ 248). pose proof (Z.div_mod b 64 ltac:(lia)) as D. replace (2 ^ 248 * b) with (2 ^ 248 * (64 * (b / 64) + b mod 64)) by (rewrite <- D; reflexivity). ring. }
    rewrite E1, E2. pose proof (Z.div_mod a 8 ltac:(lia)). change (2 ^ 254) with (64 * 2 ^ 248). lia.
  - change (skipn 32 (?x :: m ++ ?y :: r)) with (skipn 31 (m ++ y :: r)). rewrite !skipn_app, Lm. rewrite !(skipn_all2 (n := 31) m) by lia. reflexivity.
Qed.
