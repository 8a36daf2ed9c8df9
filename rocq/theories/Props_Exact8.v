(** C44, C58 and C68, completed: exactly which scripts come back, which descriptions come back from a file, and which descriptions of unspent outputs are accepted, as what. *)
From Coq Require Import String.
From Verif Require Import Base BaseLemmas Model_Hex Proof_Hex Spec_Hex Spec_Cbor Model_Cbor Spec_Ledger Model_Ledger Proof_Ledger Proof_Ledger2 Props_Ledger
  Spec_Genesis Model_Genesis Model_Tx Model_Utxo Props_Utxo Spec_Files Model_Files Proof_Files.
Local Open Scope list_scope.
Ltac Zify.zify_post_hook ::= idtac.

(** C44: a script comes back exactly when no n-of-k (or empty) part is in it, at whatever depth; otherwise reading throws, and never anything else happens. *)
Theorem C44_exact : forall s, ms_wf s ->
  (deserialize_array ms_des (cbor_encode (ms_ser s)) = Ok s <-> no_nofk s) /\ (deserialize_array ms_des (cbor_encode (ms_ser s)) = Throw <-> ~ no_nofk s).
Proof.
  intros s W. assert (D : no_nofk s \/ ~ no_nofk s).
  { clear W. induction s as [|h|l IH|l IH|n l IH] using ms_nested_ind; cbn [no_nofk]; try (left; exact I); try (right; tauto).
    - induction l as [|x l IHl]; cbn [fold_right]; [left; exact I|]. inversion IH as [|? ? H1 H2]; subst. destruct H1, (IHl H2); tauto.
    - induction l as [|x l IHl]; cbn [fold_right]; [left; exact I|]. inversion IH as [|? ? H1 H2]; subst. destruct H1, (IHl H2); tauto. }
  destruct D as [N|N].
  - rewrite (C44_script_round_trip s W N). split; split; intros; try assumption; try reflexivity; try discriminate; contradiction.
  - rewrite (C44_nofk_rejected_refuted s W N). split; split; intros; try assumption; try reflexivity; try discriminate; contradiction.
Qed.
Print Assumptions C44_exact.

(** C58: a description comes back from the file exactly when it has no quote, no backslash and no control character. *)
Lemma read_chars_raw s : forall x r, read_chars s = Some (x, r) -> exists raw, s = raw ++ 34 :: r /\ Forall (fun c => 32 <= c) raw /\ (length x <= length raw)%nat /\ (length x = length raw -> raw = x /\ plain x).
Proof.
  assert (G : forall n s, (length s <= n)%nat -> forall x r, read_chars s = Some (x, r) -> exists raw, s = raw ++ 34 :: r /\ Forall (fun c => 32 <= c) raw /\ (length x <= length raw)%nat /\ (length x = length raw -> raw = x /\ plain x)); [|apply (G (length s)); lia].
  clear s. induction n as [|n IH]; intros [|c s] L x r E; try discriminate; cbn [length] in L; [lia|]. cbn [read_chars] in E.
  destruct (Z.eqb_spec c 34) as [->|N1]; [injection E as <- <-; exists []; split; [reflexivity|]; split; [constructor|]; split; [cbn; lia|]; intros _; split; [reflexivity|constructor]|].
  destruct (Z.ltb_spec c 32) as [|GE]; [discriminate|]. destruct (Z.eqb_spec c 92) as [->|N2].
  - destruct s as [|e s]; [discriminate|]. destruct (unescape e) as [c'|] eqn:U; [|discriminate]. destruct (read_chars s) as [[y t]|] eqn:F; [|discriminate]. injection E as <- <-.
    destruct (IH s ltac:(cbn [length] in L; lia) _ _ F) as (raw & -> & A & B & _). exists (92 :: e :: raw). split; [reflexivity|]. split.
    + constructor; [lia|]. constructor; [|exact A]. unfold unescape in U.
      repeat match type of U with (if ?a =? ?b then _ else _) = _ => destruct (Z.eqb_spec a b); [lia|] end. discriminate.
    + cbn [length]. split; lia.
  - destruct (read_chars s) as [[y t]|] eqn:F; [|discriminate]. injection E as <- <-. destruct (IH s ltac:(lia) _ _ F) as (raw & -> & A & B & C). exists (c :: raw). split; [reflexivity|]. split; [constructor; [lia|exact A]|]. cbn [length]. split; [lia|].
    intros X. destruct (C ltac:(lia)) as [-> P]. split; [reflexivity|]. constructor; [lia|exact P].
Qed.
Theorem C58_description_exact : forall type desc bytes, plain type -> bytes_ok bytes ->
  ((exists e, read_envelope (envelope_text type desc (hex_encode bytes)) = Some e /\ en_desc e = desc) <-> plain desc).
Proof.
  intros t d b T O. split.
  - intros (e & E & D). unfold read_envelope in E. destruct (json_object _) as [ms|] eqn:J; [|discriminate]. rewrite envelope_shape in J. unfold json_object in J. cbn -[Nat.add length read_members] in J.
    match type of J with context [read_members ?n _] => destruct n as [|f] eqn:LN; [discriminate|] end. cbn [read_members] in J.
    unfold read_member in J at 1. cbn -[Nat.add length read_members] in J. rewrite (read_chars_plain t _ T) in J. cbn -[Nat.add length read_members] in J.
    destruct f as [|f]; [discriminate|]. cbn [read_members] in J. unfold read_member in J at 1. cbn -[Nat.add length read_members] in J.
    match type of J with context [read_chars ?s] => destruct (read_chars s) as [[x r]|] eqn:R; [|discriminate] end.
    assert (X : x = d).
    { cbn -[Nat.add length read_members] in J. destruct (skip_ws r) as [|c r']; [discriminate|]. destruct (c =? 125).
      - destruct (is_nil _); [|discriminate]. injection J as <-. cbn in E. discriminate.
      - destruct (c =? 44); [|discriminate]. destruct (read_members f r') as [[ms' rest]|]; [|discriminate]. destruct (is_nil _); [|discriminate]. injection J as <-. unfold member in E. cbn -[hex_bytes] in E.
        match type of E with context [find ?p ?l] => destruct (find p l) as [m|]; [|discriminate] end. destruct (hex_bytes (snd m)); [|discriminate]. injection E as <-. exact D. }
    subst x. clear J. apply read_chars_raw in R as (raw & E1 & A & B & C).
    destruct (Nat.eq_dec (length d) (length raw)) as [Q|Q]; [exact (proj2 (C Q))|]. exfalso.
    (* the quote after the description, and then the line break, would be inside the string *)
    assert (I : In 10 raw).
    { assert (LT : (length d < length raw)%nat) by lia. clear - E1 LT. revert raw E1 LT. induction d as [|c d IH]; intros raw E1 LT.
      - destruct raw as [|r0 [|r1 [|r2 raw]]]; cbn [length] in LT; try lia; cbn in E1; injection E1; intros; subst; try discriminate. right. right. left. reflexivity.
      - destruct raw as [|r0 raw]; cbn [length] in LT; [lia|]. cbn [app] in E1. injection E1 as -> E1. right. apply IH; [exact E1|lia]. }
    rewrite Forall_forall in A. specialize (A 10 I). lia.
  - intros D. exists {| en_type := t; en_desc := d; en_payload := b |}. split; [apply read_envelope_text; assumption|reflexivity].
Qed.
Print Assumptions C58_description_exact.
Example C58_description_case : plain (str "Payment key #1") /\ ~ plain (str "say ""hi""") /\ ~ plain (str "C:\keys").
Proof.
  split; [apply plainb_ok; vm_compute; reflexivity|]. split; intros P; unfold plain in P; rewrite Forall_forall in P.
  - specialize (P 34). destruct P as (_ & X & _); [vm_compute; tauto|]. apply X. reflexivity.
  - specialize (P 92). destruct P as (_ & _ & X); [vm_compute; tauto|]. apply X. reflexivity.
Qed.

(** C68: exactly which descriptions are accepted, and as what.  A number is taken modulo 2^64; a fraction is cut towards zero and must then fit. *)
Definition counts (v : json) (n : Z) : Prop := v = JUint n \/ (exists z, v = JInt z /\ n = z mod 2 ^ 64) \/ (exists f, v = JFloat f /\ trunc f 0 (2 ^ 64) = Some n).
Lemma counts_iff v n : get_u64 v = Ok n <-> counts v n.
Proof.
  unfold counts. split.
  - destruct v; cbn [get_u64]; try discriminate; intros E.
    + injection E as <-. left. reflexivity.
    + injection E as <-. right. left. eexists. split; reflexivity.
    + right. right. unfold from_float in E. destruct (trunc f 0 (2 ^ 64)) eqn:T; [|discriminate]. injection E as <-. exists f. split; [reflexivity|exact T].
  - intros [->|[(z & -> & ->)|(f & -> & T)]]; cbn [get_u64]; [reflexivity|reflexivity|]. unfold from_float. rewrite T. reflexivity.
Qed.
Theorem C68_exact : forall j u, utxo_fromJSON j = Ok u <->
  exists t text id n v a l, field j "transaction" t /\ field t "id" (JStr text) /\ field j "index" n /\ field j "value" v /\ field v "ada" a /\ field a "lovelace" l /\
    bytes_ok id /\ map spec_lower text = spec_hex_text id /\ (32 <= length id)%nat /\ u_id u = firstn 32 id /\ counts n (u_index u) /\ counts l (u_value u).
Proof.
  intros j u. split.
  - intros H. unfold utxo_fromJSON in H.
    apply bind_ok in H. destruct H as (t & F1 & H). apply bind_ok in H. destruct H as (i & F2 & H). apply bind_ok in H. destruct H as (text & G & H).
    apply bind_ok in H. destruct H as (id & D & H). apply bind_ok in H. destruct H as (n & F3 & H). apply bind_ok in H. destruct H as (ix & G3 & H).
    apply bind_ok in H. destruct H as (v & F4 & H). apply bind_ok in H. destruct H as (a & F5 & H). apply bind_ok in H. destruct H as (l & F6 & H).
    apply bind_ok in H. destruct H as (x & G6 & H). apply bind_ok in H. destruct H as (id' & M & H). injection H as <-. cbn [u_id u_index u_value].
    unfold get_str in G. destruct i as [| | | | |s| |]; try discriminate. injection G as <-. apply field_index in F1, F2, F3, F4, F5, F6. destruct (hex_decode_then_encode _ _ D) as [B E].
    exists t, s, id, n, v, a, l. repeat (split; [assumption|]). split; [rewrite <- E; exact (proj1 (hex_text_round_trip id B))|].
    unfold make_array in M. destruct (Z.ltb_spec (zlen id) 32) as [|LE]; [discriminate|]. injection M as <-. split; [unfold zlen in LE; lia|]. split; [reflexivity|]. split; apply counts_iff; assumption.
  - intros (t & text & id & n & v & a & l & F1 & F2 & F3 & F4 & F5 & F6 & B & E & L & I & C1 & C2). unfold utxo_fromJSON.
    rewrite (index_field _ _ _ F1). cbn [bind]. rewrite (index_field _ _ _ F2). cbn [bind get_str]. rewrite (text_decodes text id B E). cbn [bind].
    rewrite (index_field _ _ _ F3). cbn [bind]. rewrite (proj2 (counts_iff _ _) C1). cbn [bind]. rewrite (index_field _ _ _ F4). cbn [bind]. rewrite (index_field _ _ _ F5). cbn [bind]. rewrite (index_field _ _ _ F6). cbn [bind].
    rewrite (proj2 (counts_iff _ _) C2). cbn [bind]. unfold make_array. destruct (Z.ltb_spec (zlen id) 32) as [X|_]; [unfold zlen in X; lia|]. cbn [bind]. destruct u as [ui ux uv]. cbn [u_id u_index u_value] in *. rewrite I. reflexivity.
Qed.
Print Assumptions C68_exact.
