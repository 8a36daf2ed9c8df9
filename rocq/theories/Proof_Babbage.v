(** The Babbage builder's fee loop: size as a function of the fee, convergence, witness contents. *)
From Verif Require Import Base BaseLemmas Model_Hex Proof_Hex Spec_Cbor Model_Cbor Proof_Cbor Model_Address Model_Ledger Spec_Ledger Proof_Ledger Proof_Ledger2 Model_Tx Proof_Tx.
Ltac Zify.zify_post_hook ::= idtac.

Definition bwith (b : bbuilder) (f : Z) (w : list (list Z * list Z)) : bbuilder := bb_upd b (bb_set_fee_only (bb_body b) f) w.
Definition btail (x : btxbody) : list (cbor * cbor) :=
  match bb_ttl x with Some t => [(CUint 3, CUint t)] | None => [] end
  ++ match bb_withdrawals x with [] => [] | w => [(CUint 5, CMap (map (fun p => (CBytes (fst p), CUint (snd p))) w))] end.
Definition bbase (b : bbuilder) (w : list (list Z * list Z)) : Z :=
  let x := bb_body b in
  1 + (hl (3 + zlen (btail x)) + (1 + esz (CArray (map txin_ser (bb_inputs x)))) + (1 + esz (CArray (map btxout_ser (bb_outputs x)))) + 1 + zsum (map psz (btail x)))
  + esz (bwitset_ser w) + 2.
Lemma bsize_eq b f w : bb_size (bwith b f w) = bbase b w + hl f.
Proof.
  unfold bb_size, bwith, bb_upd, bb_set_fee_only. cbn [bb_body bb_vkeys bb_flag]. unfold btx_ser. change (zlen (cbor_encode ?c)) with (esz c). rewrite esz_array.
  cbn [map zsum fold_right]. unfold btxbody_ser at 2. cbn [bb_inputs bb_outputs bb_fee bb_ttl bb_withdrawals]. rewrite esz_map.
  change (match bb_ttl (bb_body b) with Some t => [(CUint 3, CUint t)] | None => [] end ++ match bb_withdrawals (bb_body b) with [] => [] | w0 => [(CUint 5, CMap (map (fun p => (CBytes (fst p), CUint (snd p))) w0))] end) with (btail (bb_body b)).
  rewrite map_app, zsum_app, zlen_app. cbn [map zsum fold_right]. unfold psz at 1 2 3. cbn [fst snd]. rewrite !esz_uint.
  match goal with |- hl (zlen ?l) + _ = _ => change (hl (zlen l)) with 1 end. match goal with |- context [zlen ?l + zlen (btail _)] => change (zlen l) with 3 end.
  change (hl 0) with 1. change (hl 1) with 1. change (hl 2) with 1. change (esz CNull) with 1. assert (esz (CBool (bb_flag b)) = 1) as -> by (destruct (bb_flag b); reflexivity).
  unfold bbase. cbv zeta. lia.
Qed.
Lemma bbase_pos b w : 0 <= bbase b w.
Proof.
  unfold bbase. cbv zeta. pose proof (hl_range (3 + zlen (btail (bb_body b)))). pose proof (esz_pos (bwitset_ser w)). pose proof (esz_pos (CArray (map txin_ser (bb_inputs (bb_body b))))).
  pose proof (esz_pos (CArray (map btxout_ser (bb_outputs (bb_body b))))).
  assert (0 <= zsum (map psz (btail (bb_body b)))).
  { apply zsum_nonneg. apply Forall_forall. intros z I. apply in_map_iff in I as (p & <- & _). unfold psz. pose proof (esz_pos (fst p)). pose proof (esz_pos (snd p)). lia. }
  lia.
Qed.
Lemma brank_le f : (rank f <= 4)%nat. Proof. unfold rank. repeat (destruct (_ <? _); [lia|]). lia. Qed.
Lemma brank_mono f g : f <= g -> (rank f <= rank g)%nat.
Proof.
  intros L. unfold rank.
  destruct (Z.ltb_spec f 24), (Z.ltb_spec f (2 ^ 8)), (Z.ltb_spec f (2 ^ 16)), (Z.ltb_spec f (2 ^ 32)), (Z.ltb_spec g 24), (Z.ltb_spec g (2 ^ 8)), (Z.ltb_spec g (2 ^ 16)), (Z.ltb_spec g (2 ^ 32)); lia.
Qed.
Section BConverge.
Variables (b : bbuilder) (w : list (list Z * list Z)).
Let a := bb_a b.
Let c0 := bb_b b.
Hypothesis A0 : 0 <= a.
Hypothesis B0 : 0 <= c0.
Let K := bbase b w.
Hypothesis FIT : a * (K + 9) + c0 < 2 ^ 64.
Let G (f : Z) : Z := a * (K + hl f) + c0.
Lemma G_range f : 0 <= G f < 2 ^ 64.
Proof. unfold G. pose proof (hl_range f). pose proof (bbase_pos b w). fold K in H0. nia. Qed.
Lemma G_once f : to_u64 (bb_a (bwith b f w) * bb_size (bwith b f w) + bb_b (bwith b f w)) = G f.
Proof. rewrite bsize_eq. change (bb_a (bwith b f w)) with a. change (bb_b (bwith b f w)) with c0. unfold to_u64. fold K. fold (G f). apply Z.mod_small. apply G_range. Qed.
Lemma G_mono f g : f <= g -> G f <= G g.
Proof. intros L. unfold G. pose proof (hl_mono f g L). nia. Qed.
Lemma bloop_step fuel f : bb_fee_loop fuel (bwith b f w) (G f) =
  if G f =? f then Some (Ok (bwith b f w)) else match fuel with O => None | S k => bb_fee_loop k (bwith b (G f) w) (G (G f)) end.
Proof.
  destruct fuel; cbn [bb_fee_loop]; change (bb_fee (bb_body (bwith b f w))) with f; destruct (G f =? f); try reflexivity.
  cbv zeta. change (bb_upd (bwith b f w) (bb_set_fee_only (bb_body (bwith b f w)) (G f)) (bb_vkeys (bwith b f w))) with (bwith b (G f) w). rewrite G_once. reflexivity.
Qed.
Lemma bloop_up fuel : forall f, f <= G f -> (5 <= rank f + fuel)%nat -> exists c, bb_fee_loop fuel (bwith b f w) (G f) = Some (Ok (bwith b c w)) /\ c = G c.
Proof.
  induction fuel as [|k IH]; intros f L R; rewrite bloop_step.
  - pose proof (brank_le f). lia.
  - destruct (Z.eqb_spec (G f) f) as [E|N]; [exists f; auto|].
    destruct (Nat.eq_dec (rank f) (rank (G f))) as [Q|Q].
    + assert (FF : G (G f) = G f) by (unfold G at 1; rewrite <- (rank_hl f (G f) Q); reflexivity).
      rewrite bloop_step, FF, Z.eqb_refl. exists (G f). auto.
    + pose proof (brank_mono f (G f) L). apply (IH (G f)); [apply G_mono; exact L|lia].
Qed.
Lemma bloop_down fuel : forall f, G f <= f -> (rank f + 1 <= fuel)%nat -> exists c, bb_fee_loop fuel (bwith b f w) (G f) = Some (Ok (bwith b c w)) /\ c = G c.
Proof.
  induction fuel as [|k IH]; intros f L R; rewrite bloop_step; [lia|].
  destruct (Z.eqb_spec (G f) f) as [E|N]; [exists f; auto|].
  destruct (Nat.eq_dec (rank f) (rank (G f))) as [Q|Q].
  - assert (FF : G (G f) = G f) by (unfold G at 1; rewrite <- (rank_hl f (G f) Q); reflexivity).
    rewrite bloop_step, FF, Z.eqb_refl. exists (G f). auto.
  - pose proof (brank_mono (G f) f L). apply (IH (G f)); [apply G_mono; exact L|lia].
Qed.
Lemma bcalc_ok fuel : (6 <= fuel)%nat -> exists c, bb_calculate_fee fuel b w = Some (Ok (c, bwith b c [])) /\ c = a * bb_size (bwith b c w) + c0.
Proof.
  intros R. set (f := bb_fee (bb_body b)). assert (E0 : bb_upd b (bb_body b) w = bwith b f w) by (unfold bwith, f, bb_set_fee_only; destruct (bb_body b); reflexivity).
  assert (X : exists c, bb_fee_loop fuel (bwith b f w) (G f) = Some (Ok (bwith b c w)) /\ c = G c).
  { pose proof (brank_le f). destruct (Z.le_ge_cases f (G f)) as [L|L]; [apply (bloop_up fuel f L)|apply (bloop_down fuel f L)]; lia. }
  destruct X as (c & X & FC). exists c. split; [|rewrite bsize_eq; exact FC].
  unfold bb_calculate_fee. cbv zeta. rewrite E0, G_once, X. reflexivity.
Qed.
End BConverge.
Lemma bwitset_indep d d' : Forall vkey_wf d -> Forall vkey_wf d' -> length d = length d' -> esz (bwitset_ser d) = esz (bwitset_ser d').
Proof.
  intros W W' L. pose proof (wits_sz_indep {| ws_vkeys := []; ws_scripts := []; ws_bootstrap := 0 |} d d' W W' L) as X.
  unfold witset_ser in X. cbn [ws_vkeys ws_scripts ws_bootstrap] in X. unfold bwitset_ser.
  change (0 =? 0) with true in X. cbn [app] in X. rewrite !app_nil_r in X. destruct d, d'; exact X.
Qed.
Lemma bsize_indep b f d d' : Forall vkey_wf d -> Forall vkey_wf d' -> length d = length d' -> bb_size (bwith b f d) = bb_size (bwith b f d').
Proof. intros. rewrite !bsize_eq. unfold bbase. rewrite (bwitset_indep d d') by assumption. reflexivity. Qed.
Lemma bcalc_indep fuel b d d' : Forall vkey_wf d -> Forall vkey_wf d' -> length d = length d' -> bb_calculate_fee fuel b d = bb_calculate_fee fuel b d'.
Proof.
  intros W W' L. unfold bb_calculate_fee. cbv zeta.
  assert (E0 : forall w, bb_upd b (bb_body b) w = bwith b (bb_fee (bb_body b)) w) by (intros; unfold bwith, bb_set_fee_only; destruct (bb_body b); reflexivity).
  rewrite !E0. rewrite (bsize_indep b _ d d') by assumption. change (bb_a (bwith b ?f ?x)) with (bb_a b). change (bb_b (bwith b ?f ?x)) with (bb_b b).
  generalize (to_u64 (bb_a b * bb_size (bwith b (bb_fee (bb_body b)) d') + bb_b b)). generalize (bb_fee (bb_body b)).
  assert (X : forall f z, (exists f', bb_fee_loop fuel (bwith b f d) z = Some (Ok (bwith b f' d)) /\ bb_fee_loop fuel (bwith b f d') z = Some (Ok (bwith b f' d'))) \/ (bb_fee_loop fuel (bwith b f d) z = None /\ bb_fee_loop fuel (bwith b f d') z = None)).
  { induction fuel as [|k IH]; intros f z; cbn [bb_fee_loop]; change (bb_fee (bb_body (bwith b f ?x))) with f; destruct (z =? f); [left; exists f; auto|right; auto|left; exists f; auto|].
    cbv zeta. change (bb_upd (bwith b f d) (bb_set_fee_only (bb_body (bwith b f d)) z) (bb_vkeys (bwith b f d))) with (bwith b z d).
    change (bb_upd (bwith b f d') (bb_set_fee_only (bb_body (bwith b f d')) z) (bb_vkeys (bwith b f d'))) with (bwith b z d').
    change (bb_a (bwith b ?f ?x)) with (bb_a b). change (bb_b (bwith b ?f ?x)) with (bb_b b). rewrite (bsize_indep b z d d') by assumption. apply IH. }
  intros f z. destruct (X f z) as [(f' & -> & ->)|[-> ->]]; reflexivity.
Qed.
