(** C57 and C59: the remaining cases. *)
From Coq Require Import ZArith List Lia Bool.
From Verif Require Import Base BaseLemmas Model_Hex Model_Pool Props_Pool Spec_Files Model_Files Proof_Files Props_Files.
Import ListNotations.
Open Scope Z_scope.
Ltac Zify.zify_post_hook ::= idtac.

(** ** C57: verifying any bytes as a proof *)
Theorem C57_verify_exact : forall vverify pk m p,
  (vrf_pk_verifyProof vverify pk m p = UB <-> (length p < 80)%nat) /\ ((80 <= length p)%nat -> vrf_pk_verifyProof vverify pk m p = Ok (vverify pk m (firstn 80 p))).
Proof. intros V pk m p. unfold vrf_pk_verifyProof. destruct (Nat.ltb_spec (length p) 80); split; try (split; [lia|reflexivity]); try (split; [discriminate|lia]); intros; [lia|reflexivity]. Qed.
Print Assumptions C57_verify_exact.
Example C57_verify_case : vrf_pk_verifyProof (fun _ _ p => (length p =? 80)%nat) [1] [2] (repeat 7 81) = Ok true /\ vrf_pk_verifyProof (fun _ _ _ => true) [1] [2] (repeat 7 79) = UB.
Proof. split; reflexivity. Qed.

(** ** C59 *)
(** Whatever the stream's buffering and the room on the device: the file ends up with as much of the text as there is room for, so it is complete exactly when the text fits. *)
Theorem C59_final_exact : forall direct room old type desc bytes trace final o, let text := envelope_text type desc (hex_encode bytes) in
  save_envelope direct true room old type desc (Ok bytes) = (trace, final, o) ->
  final = Some (firstn room text) /\ (final = Some text <-> (length text <= room)%nat) /\ ((length text <= room)%nat -> o = Ok tt) /\ (o = Ok tt \/ o = Throw).
Proof.
  intros direct room old t d b tr fin o text E. cbn [save_envelope] in E. unfold write_file in E. destruct (stream_run _ _ _ _) as [[tr0 dk] o0] eqn:G. apply stream_spec in G as (A & _ & C & D). cbn [d_content d_room app] in A, C.
  assert (F : fin = Some (firstn room text)) by (replace fin with (Some (d_content dk)) by congruence; rewrite A; reflexivity). split; [exact F|]. assert (O : o = o0) by congruence. subst o0.
  split; [|split; [exact C|exact D]]. rewrite F. split; [|intros L; rewrite firstn_all2 by exact L; reflexivity].
  intros X. assert (Y : firstn room text = text) by congruence. apply (f_equal (@length _)) in Y. rewrite firstn_length in Y. lia.
Qed.
Print Assumptions C59_final_exact.
(** libstdc++: an incomplete file is reported by an exception exactly if the hexadecimal text has 1024 characters or more and does not fit up to its end; what follows it (three
    characters), and everything when it is shorter, is written by the destructor, which reports nothing. *)
Lemma stream_skip direct pre : forall d buf r, (forall p c q, pre = p ++ c :: q -> direct (length (buf ++ concat p)) (length c) = false) -> stream_run direct d buf (pre ++ r) = stream_run direct d (buf ++ concat pre) r.
Proof.
  induction pre as [|c pre IH]; intros d buf r H; cbn [app concat]; [rewrite app_nil_r; reflexivity|]. cbn [stream_run]. pose proof (H [] c pre eq_refl) as X. cbn [concat] in X. rewrite app_nil_r in X. rewrite X, app_assoc.
  apply IH. intros p c' q E. specialize (H (c :: p) c' q). cbn [concat app] in H. rewrite app_assoc in H. apply H. rewrite E. reflexivity.
Qed.
Definition before_hex (type desc : list Z) : list (list Z) := [str "{" ++ nl; str "    ""type"": """; type; str """," ++ nl; str "    ""description"": """; desc; str """," ++ nl; str "    ""cborHex"": """].
Lemma chunks_split type desc hex : envelope_chunks type desc hex = before_hex type desc ++ [hex] ++ [str """" ++ nl; str "}"]. Proof. reflexivity. Qed.
Lemma fits_not_direct b c : Z.of_nat c < 1024 -> Z.of_nat b + Z.of_nat c < 8191 -> libstdcxx b c = false.
Proof. intros C B. unfold libstdcxx. apply Z.leb_gt, Z.min_glb_lt; lia. Qed.
Theorem C59_reported_exactly : forall room old type desc bytes trace final o, Z.of_nat (length type) < 1000 -> Z.of_nat (length desc) < 1000 ->
  let text := envelope_text type desc (hex_encode bytes) in let n := length (hex_encode bytes) in
  save_envelope libstdcxx true room old type desc (Ok bytes) = (trace, final, o) ->
  (o = Throw <-> 1024 <= Z.of_nat n /\ (room + 3 < length text)%nat).
Proof.
  intros room old t d b tr fin o LT LD text n E. cbn [save_envelope] in E. unfold write_file in E. destruct (stream_run _ _ _ _) as [[tr0 dk] o0] eqn:G. assert (O : o = o0) by congruence. subst o0. clear E.
  rewrite chunks_split in G. set (pre := before_hex t d) in *.
  assert (LC : Z.of_nat (length (concat pre)) < 2100) by (unfold pre, before_hex; cbn [concat]; rewrite !app_length; cbn; lia).
  assert (LE : length text = (length (concat pre) + n + 3)%nat) by (unfold text, envelope_text; rewrite chunks_split, !concat_app, !app_length; fold pre; change (concat [str """" ++ nl; str "}"]) with [34; 10; 125]; cbn [concat]; rewrite app_nil_r; fold n; cbn [length]; lia).
  rewrite stream_skip in G.
  2:{ intros p c q EQ. assert (IN : In c pre) by (rewrite EQ; apply in_or_app; right; left; reflexivity). assert (LC1 : Z.of_nat (length c) < 1024). { unfold pre, before_hex in IN. cbn [In] in IN. repeat (destruct IN as [<-|IN]; [cbn; lia|]). contradiction. }
      assert (LP : (length (concat p) + length c <= length (concat pre))%nat) by (rewrite EQ, concat_app, app_length; cbn [concat]; rewrite app_length; lia). apply fits_not_direct; [exact LC1|]. cbn [app]. lia. }
  cbn [app] in G. cbn [stream_run] in G. fold n in G. destruct (libstdcxx (length (concat pre)) n) eqn:D.
  - assert (N : 1024 <= Z.of_nat n) by (unfold libstdcxx in D; lia).
    unfold dev_write at 1 in G. cbn [d_content d_room] in G. destruct (Nat.leb_spec (length (concat pre ++ hex_encode b)) room) as [L|L].
    + rewrite app_length in L. fold n in L. rewrite !(fits_not_direct) in G by (cbn; lia). cbv beta iota in G. cbn [app] in G. change (length (34 :: nl)) with 2%nat in G.
      assert (OK : o = Ok tt). { destruct (dev_write _ _) as [d0 ok] in G. congruence. } subst o. split; [discriminate|lia].
    + rewrite app_length in L. fold n in L. assert (o = Throw) by congruence. subst o. split; [intros _; lia|reflexivity].
  - assert (N : Z.of_nat n < 1024) by (unfold libstdcxx in D; lia).
    assert (LQ : length (str """" ++ nl) = 2%nat) by reflexivity. assert (LB : length (str "}") = 1%nat) by reflexivity.
    rewrite (fits_not_direct (length (concat pre ++ hex_encode b)) (length (str """" ++ nl))) in G by (rewrite LQ, ?(app_length (concat pre)); fold n; lia).
    rewrite (fits_not_direct (length ((concat pre ++ hex_encode b) ++ str """" ++ nl)) (length (str "}"))) in G by (rewrite ?LB, ?(app_length (concat pre ++ hex_encode b)), ?LQ, ?(app_length (concat pre)); fold n; lia). destruct (dev_write _ _) as [d0 ok] in G. assert (o = Ok tt) by congruence. subst o. split; [discriminate|lia].
Qed.
Print Assumptions C59_reported_exactly.
Example C59_reported_case : exists trace final, save_envelope libstdcxx true 100 None (str "T") (str "D") (Ok (repeat 0 600)) = (trace, final, Throw) /\ length (hex_encode (repeat 0 600)) = 1200%nat.
Proof. eexists _, _. split; vm_compute; reflexivity. Qed.
