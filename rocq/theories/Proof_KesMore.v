(** KES: signatures at any period, restored keys, keys resumed from files (C24, C25, C53). *)
From Verif Require Import BaseLemmas Model_Hex Proof_Hex Model_Kes Spec_Kes Proof_Kes Proof_KesHist.
Ltac Zify.zify_post_hook ::= idtac.

Section More.
Variable H : list Z -> list Z.
Variable ed_pk : list Z -> list Z.
Variable ed_sign : list Z -> list Z -> list Z.
Variable ed_verify : list Z -> list Z -> list Z -> bool.
Hypothesis C : kes_crypto H ed_pk ed_sign ed_verify.
Notation state := (Proof_Kes.state H ed_pk).
Notation vk := (Spec_Kes.vk H ed_pk).
Notation lseed := (Spec_Kes.lseed H).
Notation rseed := (Spec_Kes.rseed H).
Let lsl := lseed_len H ed_pk ed_sign ed_verify C.
Let rsl := rseed_len H ed_pk ed_sign ed_verify C.
Let vkl := vk_len H ed_pk ed_sign ed_verify C.
Let stl := state_len H ed_pk ed_sign ed_verify C.

(** ** Verification at a period past the end is verification at the last period *)
Lemma verify_clamped d : (d <= 31)%nat -> forall sig q pk m, 2 ^ Z.of_nat d - 1 <= q < 2 ^ 32 ->
  sig_verify H ed_verify d sig q pk m = sig_verify H ed_verify d sig (2 ^ Z.of_nat d - 1) pk m.
Proof.
  induction d as [|e IH]; intros Hd sig q pk m Hq; [reflexivity|].
  cbn [sig_verify]. destruct (sub_ub sig (length sig - 2 * 32) 32) as [l| |]; cbn [bind]; try reflexivity.
  destruct (sub_ub sig (length sig - 32) 32) as [r| |]; cbn [bind]; try reflexivity.
  destruct (negb _); try reflexivity. destruct (sub_ub sig 0 (sig_size e)) as [u| |]; cbn [bind]; try reflexivity.
  destruct (sig_of_bytes e u) as [v| |]; cbn [bind]; try reflexivity.
  rewrite half_val by lia. rewrite pow_S in *. pose proof (pow_pos e). pose proof (pow_small e ltac:(lia)).
  destruct (Z.ltb_spec q (2 ^ Z.of_nat e)); [lia|]. destruct (Z.ltb_spec (2 * 2 ^ Z.of_nat e - 1) (2 ^ Z.of_nat e)); [lia|].
  rewrite !Z.mod_small by lia. rewrite IH by lia. f_equal. lia.
Qed.
Lemma verify_min d sig q pk m : (d <= 31)%nat -> 0 <= q < 2 ^ 32 ->
  sig_verify H ed_verify d sig q pk m = sig_verify H ed_verify d sig (Z.min q (2 ^ Z.of_nat d - 1)) pk m.
Proof.
  intros Hd Hq. destruct (Z.min_spec q (2 ^ Z.of_nat d - 1)) as [[A ->]|[A ->]]; [reflexivity|]. apply verify_clamped; lia.
Qed.
Lemma period_bound : forall d kb s k pk sb h q m, (d <= 7)%nat -> length s = 32%nat -> length kb = (sk_size d + 4)%nat ->
  kes_keygen H ed_pk d kb s = Ok (k, pk, sb) -> ~ In ReloadFile h ->
  let p := Z.of_nat (updates_in h) in let q' := Z.min q (2 ^ Z.of_nat d - 1) in
  p < 2 ^ Z.of_nat d -> 0 <= q < 2 ^ 32 ->
  exists k' sig, kes_run H ed_pk d k h = Ok k' /\ kes_sign ed_sign d k' m = Ok sig /\
    (p = q' -> sig_verify H ed_verify d sig q pk m = Ok true) /\
    (p <> q' -> siblings_distinct H ed_pk s d -> sig_verify H ed_verify d sig q pk m = Ok true ->
     ed_verify (ed_pk (seed_at H s (leaf_path d q'))) m (ed_sign (seed_at H s (leaf_path d p)) m) = true).
Proof.
  intros d kb s k pk sb h q m Hd Ls Lk K NF p q' Hp Hq.
  destruct (run_ok H ed_pk ed_sign ed_verify C d s kb k pk sb h ltac:(lia) Ls Lk K NF Hp) as (k' & R & L).
  rewrite (keygen_spec H ed_pk ed_sign ed_verify C) in K by assumption.
  assert (pk = vk d s) as -> by congruence.
  exists k', (sig_at H ed_pk ed_sign d s p m). split; [exact R|].
  split; [apply (like_sign H ed_pk ed_sign ed_verify C); assumption|].
  pose proof (pow_pos d). assert (Hp0 : 0 <= p) by (unfold p; lia). assert (Hq' : 0 <= q' < 2 ^ Z.of_nat d) by (unfold q'; lia).
  rewrite verify_min by (auto; lia). fold q'. split.
  - intros <-. apply (verify_ok H ed_pk ed_sign ed_verify C); lia.
  - intros Hne D V. apply (verify_other H ed_pk ed_sign ed_verify C d ltac:(lia) s p q' m D); auto.
Qed.

(** ** A compact signature made with the period field 0 of a key at period [u] *)
Fixpoint csig0 (d : nat) (s : list Z) (u : Z) (m : list Z) : list Z :=
  match d with
  | O => ed_sign s m ++ ed_pk s
  | S e => (if u <? 2 ^ Z.of_nat e then csig0 e (lseed s) u m else csig0 e (rseed s) (u - 2 ^ Z.of_nat e) m) ++ vk e (rseed s)
  end.
Lemma csig0_len d s u m : length (csig0 d s u m) = csig_size d.
Proof.
  revert s u; induction d as [|e IH]; intros s u; cbn [csig0].
  - rewrite app_length, (sign_len _ _ _ _ C), (pk_len _ _ _ _ C). reflexivity.
  - rewrite app_length, csig_size_S, vkl. destruct (u <? _); rewrite IH; lia.
Qed.
Lemma sign_compact0 d : (d <= 31)%nat -> forall s u m extra, length s = 32%nat -> 0 <= u < 2 ^ Z.of_nat d ->
  sign_compact_from_buffer ed_pk ed_sign d (state d s u ++ extra) m 0 = Ok (csig0 d s u m).
Proof.
  induction d as [|e IH]; intros Hd s u m extra Ls Hu.
  - exact (sign_compact_spec H ed_pk ed_sign ed_verify C 0 Hd s 0 m extra Ls ltac:(cbn; lia)).
  - cbn [sign_compact_from_buffer]. rewrite half_val by lia. pose proof (pow_pos e). rewrite pow_S in Hu.
    destruct (Z.ltb_spec 0 (2 ^ Z.of_nat e)) as [_|]; [|lia].
    set (sd := if u <? 2 ^ Z.of_nat e then lseed s else rseed s).
    set (v := if u <? 2 ^ Z.of_nat e then u else u - 2 ^ Z.of_nat e).
    set (o := if u <? 2 ^ Z.of_nat e then rseed s else zeros 32).
    assert (St : state (S e) s u = state e sd v ++ o ++ vk e (lseed s) ++ vk e (rseed s)).
    { subst sd v o. cbn [Proof_Kes.state]. destruct (u <? 2 ^ Z.of_nat e); rewrite <- !app_assoc; reflexivity. }
    assert (Sg : csig0 (S e) s u m = csig0 e sd v m ++ vk e (rseed s)) by (subst sd v; cbn [csig0]; destruct (u <? 2 ^ Z.of_nat e); reflexivity).
    assert (Lsd : length sd = 32%nat) by (subst sd; destruct (u <? _); auto).
    assert (Lo : length o = 32%nat) by (subst o; destruct (u <? _); [apply rsl|apply zeros_length]).
    assert (Hv : 0 <= v < 2 ^ Z.of_nat e) by (subst v; destruct (Z.ltb_spec u (2 ^ Z.of_nat e)); lia).
    rewrite St, Sg. clear St Sg. clearbody sd v o. pose proof (stl e sd v Lsd) as Lst.
    rewrite <- !app_assoc.
    replace (state e sd v ++ o ++ vk e (lseed s) ++ vk e (rseed s) ++ extra)
      with ((state e sd v ++ o ++ vk e (lseed s)) ++ vk e (rseed s) ++ extra) by (rewrite <- !app_assoc; reflexivity).
    rewrite sub_ub_mid by (rewrite ?app_length, ?vkl; lia). cbn [bind].
    rewrite csig_size_S, zeros_app.
    replace (zeros (csig_size e) ++ zeros 32) with (zeros (csig_size e) ++ zeros 32 ++ []) by (rewrite app_nil_r; reflexivity).
    rewrite blit_mid by (rewrite ?zeros_length, ?vkl; lia). cbn [bind].
    rewrite <- !app_assoc. rewrite (sub_ub_head (state e sd v)) by (symmetry; exact Lst). cbn [bind].
    specialize (IH ltac:(lia) sd v m [] Lsd Hv). rewrite app_nil_r in IH. rewrite IH. cbn [bind].
    rewrite (blit_head (zeros (csig_size e))) by (rewrite zeros_length, csig0_len; reflexivity). cbn [bind].
    rewrite app_nil_r. unfold csig_of_bytes. rewrite app_length, csig0_len, vkl, csig_size_S, Nat.eqb_refl. reflexivity.
Qed.

Notation all_siblings_distinct := (Spec_Kes.all_siblings_distinct H ed_pk).
Notation breaks_compact := (Spec_Kes.breaks_compact H ed_pk).
Lemma second_sub s d (b : bool) y : second_preimage H ed_pk (if b then rseed s else lseed s) d y -> second_preimage H ed_pk s (S d) y.
Proof. intros (path & e & L & LY & N & E). exists (b :: path), e. cbn [length app Spec_Kes.seed_at]. split; [lia|]. split; [exact LY|]. destruct b; split; assumption. Qed.
Lemma part_app a b c : part_of a b -> part_of a (b ++ c).
Proof. intros (x & z & ->). exists x, (z ++ c). rewrite <- !app_assoc. reflexivity. Qed.
Lemma part_last a b : part_of b (a ++ b).
Proof. exists a, []. rewrite app_nil_r. reflexivity. Qed.
Lemma breaks_sub s d (b : bool) sig k : breaks_compact (if b then rseed s else lseed s) d sig -> breaks_compact s (S d) (sig ++ k).
Proof. intros (y & P & Q). exists y. split; [destruct P as [P|P]; [left|right]; apply part_app, P|exact (second_sub s d b y Q)]. Qed.
Lemma breaks_here s e sig a b k : length a = 32%nat -> length b = 32%nat -> a = k \/ b = k -> H (a ++ b) = vk (S e) s -> a ++ b <> vk e (lseed s) ++ vk e (rseed s) -> breaks_compact s (S e) (sig ++ k).
Proof.
  intros La Lb P E N. exists (a ++ b). split.
  - rewrite firstn_app_exact, skipn_app_exact by auto. destruct P as [->| ->]; [left|right]; apply part_last.
  - exists [], e. cbn [length app Spec_Kes.seed_at]. split; [lia|]. split; [rewrite app_length; lia|]. split; assumption.
Qed.
Lemma all_siblings_sub s d (b : bool) : all_siblings_distinct s (S d) -> all_siblings_distinct (if b then rseed s else lseed s) d.
Proof. intros D path e L. specialize (D (b :: path) e). cbn [length app] in D. destruct b; apply D; cbn; lia. Qed.

Lemma recompute_len d sig u m r : csig_recompute H ed_verify d sig u m = Ok r -> length r = 32%nat.
Proof.
  destruct d as [|e]; cbn [csig_recompute].
  - destruct (sub_ub sig 0 64); cbn [bind]; try discriminate. destruct (sub_ub sig (length sig - 32) 32) as [p| |] eqn:E; cbn [bind]; try discriminate.
    destruct (negb _); [discriminate|]. intros X. assert (p = r) as <- by congruence. unfold sub_ub in E.
    destruct (length sig <? length sig - 32 + 32)%nat eqn:L; [discriminate|]. apply Nat.ltb_ge in L.
    assert (p = firstn 32 (skipn (length sig - 32) sig)) as -> by congruence. rewrite firstn_length, skipn_length. lia.
  - destruct (sub_ub sig (length sig - 32) 32); cbn [bind]; try discriminate. destruct (sub_ub sig 0 (csig_size e)); cbn [bind]; try discriminate.
    destruct (csig_of_bytes e _); cbn [bind]; try discriminate.
    destruct (u <? kd_half (S e)); (destruct (csig_recompute H ed_verify e _ _ m); cbn [bind]; try discriminate);
      intros X; match type of X with Ok ?x = _ => assert (x = r) as <- by congruence end; apply (H_len _ _ _ _ C).
Qed.
Lemma recompute_step e sigma pk q m : (e <= 31)%nat -> length sigma = csig_size e -> length pk = 32%nat -> 0 <= q < 2 ^ Z.of_nat (S e) ->
  csig_recompute H ed_verify (S e) (sigma ++ pk) q m =
  if q <? 2 ^ Z.of_nat e then let* r := csig_recompute H ed_verify e sigma q m in Ok (H (r ++ pk))
  else let* r := csig_recompute H ed_verify e sigma (q - 2 ^ Z.of_nat e) m in Ok (H (pk ++ r)).
Proof.
  intros He Ls Lp Hq. cbn [csig_recompute]. rewrite half_val by lia. rewrite app_length, Ls, Lp.
  replace (sub_ub (sigma ++ pk) (csig_size e + 32 - 32) 32) with (Ok pk).
  2:{ symmetry. replace (sigma ++ pk) with (sigma ++ pk ++ []) by (rewrite app_nil_r; reflexivity). apply sub_ub_mid; lia. }
  cbn [bind]. rewrite (sub_ub_head sigma) by (symmetry; exact Ls). cbn [bind]. unfold csig_of_bytes. rewrite Ls, Nat.eqb_refl. cbn [negb bind].
  pose proof (pow_small e He). pose proof (pow_pos e). rewrite pow_S in Hq.
  destruct (Z.ltb_spec q (2 ^ Z.of_nat e)); [reflexivity|]. rewrite Z.mod_small by lia. reflexivity.
Qed.
Lemma recompute0_bad d : (d <= 31)%nat -> forall s u m, all_siblings_distinct s d -> 0 < u < 2 ^ Z.of_nat d ->
  csig_recompute H ed_verify d (csig0 d s u m) u m = Ok (vk d s) -> breaks_compact s d (csig0 d s u m).
Proof.
  induction d as [|e IH]; intros Hd s u m D Hu R; [change (2 ^ Z.of_nat 0) with 1 in Hu; lia|].
  cbn [csig0] in R. rewrite recompute_step in R by (rewrite ?vkl; try reflexivity; try lia; destruct (u <? _); apply csig0_len).
  pose proof (pow_pos e). rewrite pow_S in Hu.
  destruct (Z.ltb_spec u (2 ^ Z.of_nat e)) as [U|U].
  - destruct (csig_recompute H ed_verify e _ u m) as [r| |] eqn:E; cbn [bind] in R; try discriminate.
    assert (E1 : H (r ++ vk e (rseed s)) = H (vk e (lseed s) ++ vk e (rseed s))) by (cbn [Spec_Kes.vk] in R; congruence).
    pose proof (recompute_len _ _ _ _ _ E) as Lr.
    destruct (list_eq_dec Z.eq_dec r (vk e (lseed s))) as [->|N].
    + cbn [csig0]. rewrite (proj2 (Z.ltb_lt _ _) U). apply (breaks_sub s e false). apply (IH ltac:(lia) (lseed s) u m); [exact (all_siblings_sub s e false D)|lia|exact E].
    + cbn [csig0]. apply (breaks_here s e _ r (vk e (rseed s))); [exact Lr|apply vkl|right; reflexivity|exact E1|].
      intros X. apply N. apply (f_equal (firstn 32)) in X. rewrite !firstn_app_exact in X by (rewrite ?vkl; auto). exact X.
  - destruct (csig_recompute H ed_verify e _ _ m) as [r| |] eqn:E; cbn [bind] in R; try discriminate.
    assert (E1 : H (vk e (rseed s) ++ r) = H (vk e (lseed s) ++ vk e (rseed s))) by (cbn [Spec_Kes.vk] in R; congruence).
    pose proof (recompute_len _ _ _ _ _ E) as Lr.
    cbn [csig0]. apply (breaks_here s e _ (vk e (rseed s)) r); [apply vkl|exact Lr|left; reflexivity|exact E1|].
    intros X. apply (f_equal (firstn 32)) in X. rewrite !firstn_app_exact in X by (rewrite ?vkl; auto).
    apply (D [] e); [cbn; lia|]. cbn [app Spec_Kes.seed_at]. symmetry. exact X.
Qed.
(** The period field of a key: what the last operation left in it. *)
Lemma run_field d s kb k pk sb h : (d <= 31)%nat -> length s = 32%nat -> length kb = (sk_size d + 4)%nat ->
  kes_keygen H ed_pk d kb s = Ok (k, pk, sb) -> ~ In ReloadFile h -> Z.of_nat (updates_in h) < 2 ^ Z.of_nat d ->
  exists k', kes_run H ed_pk d k h = Ok k' /\ like H ed_pk d s (Z.of_nat (updates_in h)) k' /\
    period_ k' = match rev h with Reload :: _ => 0 | _ => Z.of_nat (updates_in h) end.
Proof.
  intros Hd Ls Lk K NF Hlt.
  destruct (run_ok H ed_pk ed_sign ed_verify C d s kb k pk sb h Hd Ls Lk K NF Hlt) as (k' & R & L). exists k'. split; [exact R|]. split; [exact L|].
  destruct h as [|o h _] using rev_ind.
  - cbn in R. rewrite (keygen_spec H ed_pk ed_sign ed_verify C) in K by assumption. cbn. assert (k' = key_at H ed_pk d s 0) as -> by congruence. reflexivity.
  - rewrite rev_unit. rewrite run_app in R. rewrite updates_in_app in *.
    assert (NF1 : no_file h) by (intros I; apply NF; apply in_or_app; left; exact I).
    destruct (run_ok H ed_pk ed_sign ed_verify C d s kb k pk sb h Hd Ls Lk K NF1 ltac:(lia)) as (k1 & R1 & L1). rewrite R1 in R. cbn [bind kes_run] in R.
    destruct o.
    + change (updates_in [Update]) with 1%nat in *. rewrite (like_step H ed_pk ed_sign ed_verify C d s (Z.of_nat (updates_in h)) k1 Hd Ls ltac:(lia) ltac:(lia) L1) in R.
      assert (k' = key_at H ed_pk d s (Z.of_nat (updates_in h) + 1)) as -> by congruence. cbn [Proof_Kes.key_at period_]. lia.
    + rewrite (like_reload H ed_pk ed_sign ed_verify C d s _ k1 Ls L1) in R. cbn [bind] in R. assert (E : k' = {| prv := prv k1; period_ := 0 |}) by congruence. rewrite E. reflexivity.
    + exfalso. apply NF. apply in_or_app. right. left. reflexivity.
Qed.
Lemma compact_exact : forall e kb s k pk sb h m, (S e <= 7)%nat -> length s = 32%nat -> length kb = (sk_size (S e) + 4)%nat ->
  kes_keygen H ed_pk (S e) kb s = Ok (k, pk, sb) -> ~ In ReloadFile h -> Z.of_nat (updates_in h) < 2 ^ Z.of_nat (S e) ->
  let restored := exists h', h = h' ++ [Reload] in
  exists k' sig, kes_run H ed_pk (S e) k h = Ok k' /\ kes_signCompact ed_pk ed_sign (S e) k' m = Ok sig /\
    length sig = (64 + 32 * (S e + 1))%nat /\
    ((~ restored \/ updates_in h = 0%nat) -> csig_verify H ed_verify (S e) sig (Z.of_nat (updates_in h)) pk m = Ok true) /\
    (restored -> updates_in h <> 0%nat -> all_siblings_distinct s (S e) ->
     csig_verify H ed_verify (S e) sig (Z.of_nat (updates_in h)) pk m = Ok true -> breaks_compact s (S e) sig).
Proof.
  intros e kb s k pk sb h m Hd Ls Lk K NF Hlt restored.
  destruct (run_field (S e) s kb k pk sb h ltac:(lia) Ls Lk K NF Hlt) as (k' & R & L & P).
  rewrite (keygen_spec H ed_pk ed_sign ed_verify C) in K by assumption. assert (pk = vk (S e) s) as -> by congruence.
  set (u := Z.of_nat (updates_in h)) in *.
  assert (D : restored \/ ~ restored).
  { unfold restored. destruct h as [|o h0 _] using rev_ind; [right; intros (h' & E); destruct h'; discriminate|].
    destruct o; [right|left; eauto|right]; intros (h' & E); apply app_inj_tail in E as [_ E]; discriminate. }
  assert (P1 : ~ restored \/ updates_in h = 0%nat -> period_ k' = u).
  { intros [N|Z0]; rewrite P; destruct (rev h) as [|[] r] eqn:Er; try reflexivity.
    - exfalso. apply N. exists (rev r). rewrite <- (rev_involutive h), Er. reflexivity.
    - unfold u. rewrite Z0. reflexivity. }
  destruct (Z.eq_dec (period_ k') u) as [E|N].
  - eexists k', _. split; [exact R|]. split; [apply (like_compact H ed_pk ed_sign ed_verify C e s u); auto; lia|].
    split; [rewrite (csig_at_len H ed_pk ed_sign ed_verify C); unfold csig_size; lia|]. split.
    + intros _. unfold csig_verify. rewrite (recompute_ok H ed_pk ed_sign ed_verify C) by lia. cbn [bind]. rewrite zlist_eqb_refl. reflexivity.
    + intros (h' & Eh) Hu. exfalso. rewrite P, Eh, rev_unit in E. unfold u in E. lia.
  - destruct D as [D|D]; [|exfalso; apply N; apply P1; left; exact D].
    assert (Z0 : period_ k' = 0). { rewrite P. destruct D as (h' & Eh). rewrite Eh, rev_unit. reflexivity. }
    eexists k', (csig0 (S e) s u m). split; [exact R|]. split; [unfold kes_signCompact; rewrite Z0, L; apply sign_compact0; auto; lia|].
    split; [rewrite csig0_len; unfold csig_size; lia|]. split.
    + intros X. exfalso. apply N. exact (P1 X).
    + intros _ Hu DS V. unfold csig_verify in V.
      destruct (csig_recompute H ed_verify (S e) (csig0 (S e) s u m) u m) as [r| |] eqn:E; cbn [bind] in V; try discriminate.
      assert (X : zlist_eqb (vk (S e) s) r = true) by congruence. apply zlist_eqb_spec in X. subst r.
      apply (recompute0_bad (S e) ltac:(lia) s u m DS); [unfold u in *; lia|exact E].
Qed.

(** ** Compact signatures at any period *)
Lemma recompute_clamped d : (d <= 31)%nat -> forall sig q m, 2 ^ Z.of_nat d - 1 <= q < 2 ^ 32 ->
  csig_recompute H ed_verify d sig q m = csig_recompute H ed_verify d sig (2 ^ Z.of_nat d - 1) m.
Proof.
  induction d as [|e IH]; intros Hd sig q m Hq; [reflexivity|].
  cbn [csig_recompute]. destruct (sub_ub sig (length sig - 32) 32) as [r| |]; cbn [bind]; try reflexivity.
  destruct (sub_ub sig 0 (csig_size e)) as [u| |]; cbn [bind]; try reflexivity.
  destruct (csig_of_bytes e u) as [v| |]; cbn [bind]; try reflexivity.
  rewrite half_val by lia. rewrite pow_S in *. pose proof (pow_pos e). pose proof (pow_small e ltac:(lia)).
  destruct (Z.ltb_spec q (2 ^ Z.of_nat e)); [lia|]. destruct (Z.ltb_spec (2 * 2 ^ Z.of_nat e - 1) (2 ^ Z.of_nat e)); [lia|].
  rewrite !Z.mod_small by lia. rewrite IH by lia. do 2 f_equal. lia.
Qed.
Lemma recompute_other d : (d <= 31)%nat -> forall s p q m, all_siblings_distinct s d ->
  0 <= p < 2 ^ Z.of_nat d -> 0 <= q < 2 ^ Z.of_nat d -> p <> q ->
  csig_recompute H ed_verify d (csig_at H ed_pk ed_sign d s p m) q m = Ok (vk d s) -> breaks_compact s d (csig_at H ed_pk ed_sign d s p m).
Proof.
  induction d as [|e IH]; intros Hd s p q m D Hp Hq Hne R; [change (2 ^ Z.of_nat 0) with 1 in *; lia|].
  pose proof (pow_pos e). pose proof (csig_at_len H ed_pk ed_sign ed_verify C) as CL. cbn [csig_at] in R.
  assert (NS : vk e (lseed s) <> vk e (rseed s)) by (apply (D [] e); cbn; lia).
  rewrite pow_S in Hp.
  assert (HC : forall sig k a b : list Z, length a = 32%nat -> length b = 32%nat -> a = k \/ b = k -> H (a ++ b) = vk (S e) s -> breaks_compact s (S e) (sig ++ k) \/ (a = vk e (lseed s) /\ b = vk e (rseed s))).
  { intros sig k a b La Lb K E. destruct (list_eq_dec Z.eq_dec (a ++ b) (vk e (lseed s) ++ vk e (rseed s))) as [X|X].
    - right. pose proof (f_equal (firstn 32) X) as X1. pose proof (f_equal (skipn 32) X) as X2.
      rewrite !firstn_app_exact in X1 by (rewrite ?vkl; auto). rewrite !skipn_app_exact in X2 by (rewrite ?vkl; auto). auto.
    - left. exact (breaks_here s e sig a b k La Lb K E X). }
  cbn [csig_at].
  destruct (Z.ltb_spec p (2 ^ Z.of_nat e)) as [P|P]; (rewrite recompute_step in R by (rewrite ?vkl, ?CL; auto; lia)); rewrite pow_S in Hq;
    destruct (Z.ltb_spec q (2 ^ Z.of_nat e)) as [Q|Q];
    (match type of R with bind ?x _ = _ => destruct x as [r| |] eqn:E; cbn [bind] in R; try discriminate end);
    pose proof (recompute_len _ _ _ _ _ E) as Lr;
    match goal with |- breaks_compact _ _ (?sg ++ ?k) => match type of R with Ok (H (?a ++ ?b)) = _ => destruct (HC sg k a b) as [X|[X1 X2]]; [rewrite ?vkl; auto|rewrite ?vkl; auto|auto|congruence|exact X|] end end.
  - subst r. apply (breaks_sub s e false). exact (IH ltac:(lia) (lseed s) p q m (all_siblings_sub s e false D) ltac:(lia) ltac:(lia) ltac:(lia) E).
  - exfalso. apply NS. congruence.
  - exfalso. apply NS. congruence.
  - subst r. apply (breaks_sub s e true). exact (IH ltac:(lia) (rseed s) (p - 2 ^ Z.of_nat e) (q - 2 ^ Z.of_nat e) m (all_siblings_sub s e true D) ltac:(lia) ltac:(lia) ltac:(lia) E).
Qed.
Lemma compact_period_bound : forall e kb s k pk sb h q m, (S e <= 7)%nat -> length s = 32%nat -> length kb = (sk_size (S e) + 4)%nat ->
  kes_keygen H ed_pk (S e) kb s = Ok (k, pk, sb) -> ~ In ReloadFile h ->
  let p := Z.of_nat (updates_in h) in let q' := Z.min q (2 ^ Z.of_nat (S e) - 1) in
  p < 2 ^ Z.of_nat (S e) -> 0 <= q < 2 ^ 32 -> (~ (exists h', h = h' ++ [Reload]) \/ p = 0) ->
  exists k' sig, kes_run H ed_pk (S e) k h = Ok k' /\ kes_signCompact ed_pk ed_sign (S e) k' m = Ok sig /\
    (p = q' -> csig_verify H ed_verify (S e) sig q pk m = Ok true) /\
    (p <> q' -> all_siblings_distinct s (S e) -> csig_verify H ed_verify (S e) sig q pk m = Ok true -> breaks_compact s (S e) sig).
Proof.
  intros e kb s k pk sb h q m Hd Ls Lk K NF p q' Hp Hq NR.
  destruct (run_field (S e) s kb k pk sb h ltac:(lia) Ls Lk K NF Hp) as (k' & R & L & P).
  rewrite (keygen_spec H ed_pk ed_sign ed_verify C) in K by assumption. assert (pk = vk (S e) s) as -> by congruence.
  fold p in L, P. assert (Hp0 : 0 <= p) by (unfold p; lia).
  assert (P1 : period_ k' = p).
  { rewrite P. destruct (rev h) as [|[] r] eqn:Er; try reflexivity. destruct NR as [N|N]; [|congruence].
    exfalso. apply N. exists (rev r). rewrite <- (rev_involutive h), Er. reflexivity. }
  exists k', (csig_at H ed_pk ed_sign (S e) s p m). split; [exact R|].
  split; [apply (like_compact H ed_pk ed_sign ed_verify C e s p); auto; lia|].
  pose proof (pow_pos (S e)).
  assert (E : csig_recompute H ed_verify (S e) (csig_at H ed_pk ed_sign (S e) s p m) q m = csig_recompute H ed_verify (S e) (csig_at H ed_pk ed_sign (S e) s p m) q' m).
  { unfold q'. destruct (Z.min_spec q (2 ^ Z.of_nat (S e) - 1)) as [[A ->]|[A ->]]; [reflexivity|]. apply recompute_clamped; lia. }
  unfold csig_verify. rewrite E. split.
  - intros <-. rewrite (recompute_ok H ed_pk ed_sign ed_verify C) by lia. cbn [bind]. rewrite zlist_eqb_refl. reflexivity.
  - intros Hne D V. destruct (csig_recompute H ed_verify (S e) _ q' m) as [r| |] eqn:Er; cbn [bind] in V; try discriminate.
    assert (X : zlist_eqb (vk (S e) s) r = true) by congruence. apply zlist_eqb_spec in X. subst r.
    apply (recompute_other (S e) ltac:(lia) s p q' m D); auto; unfold q'; lia.
Qed.

(** ** Keys read from files *)
(** A key whose counter is [c] although it is [c] updates past period [u], a multiple of 2^j. *)
Lemma drift_step j d : (d <= 31)%nat -> (j <= d)%nat -> forall s i c extra, length s = 32%nat -> 0 <= i -> 2 ^ Z.of_nat j * i < 2 ^ Z.of_nat d ->
  0 <= c -> c + 1 < 2 ^ Z.of_nat j ->
  update_buffer H ed_pk d (state d s (2 ^ Z.of_nat j * i + c) ++ extra) c = (state d s (2 ^ Z.of_nat j * i + c + 1) ++ extra, Ok tt).
Proof.
  induction d as [|e IH]; intros Hd Hj s i c extra Ls Hi Hu Hc Hlt.
  - assert (j = 0)%nat as -> by lia. change (2 ^ Z.of_nat 0) with 1 in *. lia.
  - pose proof (pow_pos j) as Pj. pose proof (pow_pos e) as Pe.
    destruct (Nat.eq_dec j (S e)) as [->|Nj].
    + assert (i = 0) by nia. subst i. rewrite Z.mul_0_r, Z.add_0_l. apply (update_spec H ed_pk ed_sign ed_verify C); auto; lia.
    + assert (Hje : (j <= e)%nat) by lia. pose proof (pow_small e ltac:(lia)).
      assert (Hle : 2 ^ Z.of_nat j <= 2 ^ Z.of_nat e) by (apply Z.pow_le_mono_r; lia).
      assert (Split : 2 ^ Z.of_nat e = 2 ^ Z.of_nat j * 2 ^ Z.of_nat (e - j)).
      { rewrite <- Z.pow_add_r by lia. f_equal. lia. }
      set (u := 2 ^ Z.of_nat j * i) in *. rewrite pow_S in Hu.
      cbn [update_buffer]. rewrite total_val, half_val by lia. rewrite (Z.mod_small (c + 1)) by lia. rewrite pow_S.
      destruct (Z.eqb_spec (c + 1) (2 * 2 ^ Z.of_nat e)); [lia|]. destruct (Z.ltb_spec (c + 1) (2 ^ Z.of_nat e)); [|lia].
      assert (Cell : u < 2 ^ Z.of_nat e -> u + c + 1 < 2 ^ Z.of_nat e).
      { intros X. unfold u in *. rewrite Split in *. assert (i < 2 ^ Z.of_nat (e - j)) by nia. nia. }
      assert (Cell2 : 2 ^ Z.of_nat e <= u -> exists i', 0 <= i' /\ u - 2 ^ Z.of_nat e = 2 ^ Z.of_nat j * i').
      { intros X. exists (i - 2 ^ Z.of_nat (e - j)). unfold u in *. rewrite Split in *. split; [nia|ring]. }
      cbn [Proof_Kes.state].
      destruct (Z.ltb_spec (u + c) (2 ^ Z.of_nat e)) as [A|A].
      * assert (Hue : u < 2 ^ Z.of_nat e) by lia. specialize (Cell Hue).
        destruct (Z.ltb_spec (u + c + 1) (2 ^ Z.of_nat e)); [|lia].
        rewrite <- !app_assoc. rewrite firstn_app_exact, skipn_app_exact by (rewrite stl; auto).
        rewrite app_length, stl by apply lsl.
        match goal with |- context [(sk_size e + ?n <? sk_size e)%nat] => destruct (Nat.ltb_spec (sk_size e + n) (sk_size e)); [lia|] end.
        specialize (IH ltac:(lia) Hje (lseed s) i c [] (lsl s) Hi Hue Hc Hlt). fold u in IH. rewrite !app_nil_r in IH. rewrite IH. reflexivity.
      * assert (Hue : 2 ^ Z.of_nat e <= u). { destruct (Z_lt_le_dec u (2 ^ Z.of_nat e)) as [X|X]; [specialize (Cell X); lia|exact X]. }
        destruct (Cell2 Hue) as (i' & Hi' & Ei). destruct (Z.ltb_spec (u + c + 1) (2 ^ Z.of_nat e)); [lia|].
        rewrite <- !app_assoc. rewrite firstn_app_exact, skipn_app_exact by (rewrite stl; auto).
        rewrite app_length, stl by apply rsl.
        match goal with |- context [(sk_size e + ?n <? sk_size e)%nat] => destruct (Nat.ltb_spec (sk_size e + n) (sk_size e)); [lia|] end.
        replace (u + c - 2 ^ Z.of_nat e) with (2 ^ Z.of_nat j * i' + c) by lia.
        replace (u + c + 1 - 2 ^ Z.of_nat e) with (2 ^ Z.of_nat j * i' + c + 1) by lia.
        specialize (IH ltac:(lia) Hje (rseed s) i' c [] (rsl s) Hi' ltac:(lia) Hc Hlt). rewrite !app_nil_r in IH. rewrite IH. reflexivity.
Qed.
(** One more update, if [u / 2^j] is odd: the subtree of depth [j] is grown from 32 zero bytes. *)
Lemma drift_end j d : (d <= 31)%nat -> (j < d)%nat -> forall s i extra, length s = 32%nat -> 0 <= i -> 2 ^ Z.of_nat j * (2 * i + 1) < 2 ^ Z.of_nat d ->
  exists buf, update_buffer H ed_pk d (state d s (2 ^ Z.of_nat j * (2 * i + 1) + (2 ^ Z.of_nat j - 1)) ++ extra) (2 ^ Z.of_nat j - 1) = (buf ++ extra, Ok tt) /\
    length buf = sk_size d /\ firstn (sk_size j) buf = state j (zeros 32) 0.
Proof.
  induction d as [|e IH]; intros Hd Hj s i extra Ls Hi Hu; [lia|].
  pose proof (pow_pos j) as Pj. pose proof (pow_pos e) as Pe. pose proof (pow_small e ltac:(lia)) as Ps. pose proof (pow_small j ltac:(lia)) as Psj.
  cbn [update_buffer]. rewrite total_val, half_val by lia. rewrite pow_S in *.
  replace (2 ^ Z.of_nat j - 1 + 1) with (2 ^ Z.of_nat j) by lia. rewrite (Z.mod_small (2 ^ Z.of_nat j)) by lia.
  assert (Hle : 2 ^ Z.of_nat j <= 2 ^ Z.of_nat e) by (apply Z.pow_le_mono_r; lia).
  destruct (Z.eqb_spec (2 ^ Z.of_nat j) (2 * 2 ^ Z.of_nat e)); [lia|].
  destruct (Nat.eq_dec j e) as [->|Nj].
  - destruct (Z.ltb_spec (2 ^ Z.of_nat e) (2 ^ Z.of_nat e)); [lia|]. rewrite Z.eqb_refl.
    assert (i = 0) by nia. subst i. replace (2 * 0 + 1) with 1 in * by lia. rewrite Z.mul_1_r. cbn [Proof_Kes.state].
    destruct (Z.ltb_spec (2 ^ Z.of_nat e + (2 ^ Z.of_nat e - 1)) (2 ^ Z.of_nat e)); [lia|].
    replace (2 ^ Z.of_nat e + (2 ^ Z.of_nat e - 1) - 2 ^ Z.of_nat e) with (2 ^ Z.of_nat e - 1) by lia.
    rewrite <- !app_assoc. set (st := state e (rseed s) (2 ^ Z.of_nat e - 1)). assert (Lst : length st = sk_size e) by (apply stl; apply rsl).
    replace (st ++ zeros 32 ++ vk e (lseed s) ++ vk e (rseed s) ++ extra) with ((st ++ zeros 32) ++ vk e (lseed s) ++ vk e (rseed s) ++ extra) by (rewrite <- app_assoc; reflexivity).
    rewrite firstn_app_exact, skipn_app_exact by (rewrite app_length, Lst, zeros_length; reflexivity).
    rewrite app_length, app_length, Lst, zeros_length.
    match goal with |- context [(?a + ?n <? ?a)%nat] => destruct (Nat.ltb_spec (a + n) a); [lia|] end.
    rewrite (keygen_none H ed_pk ed_sign ed_verify C e st (zeros 32)) by (auto; apply zeros_length).
    exists ((state e (zeros 32) 0 ++ zeros 32) ++ vk e (lseed s) ++ vk e (rseed s)).
    assert (L0 : length (state e (zeros 32) 0) = sk_size e) by (apply stl; apply zeros_length).
    split; [rewrite <- !app_assoc; reflexivity|]. split; [rewrite !app_length, L0, !vkl, zeros_length, sk_size_S; lia|].
    rewrite <- !app_assoc. apply firstn_app_exact. symmetry. exact L0.
  - assert (Hje : (j < e)%nat) by lia.
    assert (Hlt : 2 ^ Z.of_nat j < 2 ^ Z.of_nat e) by (apply Z.pow_lt_mono_r; lia).
    destruct (Z.ltb_spec (2 ^ Z.of_nat j) (2 ^ Z.of_nat e)); [|lia].
    assert (Split : 2 ^ Z.of_nat e = 2 ^ Z.of_nat j * (2 * 2 ^ Z.of_nat (e - j - 1))).
    { rewrite <- pow_S, <- Z.pow_add_r by lia. f_equal. lia. }
    set (u := 2 ^ Z.of_nat j * (2 * i + 1)) in *. set (c := 2 ^ Z.of_nat j - 1) in *.
    assert (K : exists sd v i', length sd = 32%nat /\ 0 <= i' /\ v = 2 ^ Z.of_nat j * (2 * i' + 1) + c /\ 2 ^ Z.of_nat j * (2 * i' + 1) < 2 ^ Z.of_nat e /\
      exists o, length o = 32%nat /\ state (S e) s (u + c) = state e sd v ++ o ++ vk e (lseed s) ++ vk e (rseed s)).
    { pose proof (pow_pos (e - j - 1)) as Pk. cbn [Proof_Kes.state].
      destruct (Z_lt_le_dec u (2 ^ Z.of_nat e)) as [X|X].
      - assert (u + c < 2 ^ Z.of_nat e).
        { unfold u, c in *. rewrite Split in *. assert (i < 2 ^ Z.of_nat (e - j - 1)) by nia. nia. }
        destruct (Z.ltb_spec (u + c) (2 ^ Z.of_nat e)); [|lia].
        exists (lseed s), (u + c), i. repeat split; auto. exists (rseed s). split; [apply rsl|]. rewrite <- !app_assoc. reflexivity.
      - destruct (Z.ltb_spec (u + c) (2 ^ Z.of_nat e)); [unfold c in *; lia|].
        exists (rseed s), (u + c - 2 ^ Z.of_nat e), (i - 2 ^ Z.of_nat (e - j - 1)).
        assert (2 ^ Z.of_nat (e - j - 1) <= i) by (unfold u in *; rewrite Split in *; nia).
        repeat split; auto; [lia|unfold u; rewrite Split; ring|unfold u in *; rewrite Split in *; nia|].
        exists (zeros 32). split; [apply zeros_length|]. rewrite <- !app_assoc. reflexivity. }
    destruct K as (sd & v & i' & Lsd & Hi' & Ev & Hu' & o & Lo & Est). rewrite Est, <- !app_assoc.
    assert (Lst : length (state e sd v) = sk_size e) by (apply stl; exact Lsd).
    rewrite firstn_app_exact, skipn_app_exact by (symmetry; exact Lst). rewrite app_length, Lst.
    match goal with |- context [(?a + ?n <? ?a)%nat] => destruct (Nat.ltb_spec (a + n) a); [lia|] end.
    destruct (IH ltac:(lia) Hje sd i' [] Lsd Hi' Hu') as (buf & U & Lb & F). rewrite !app_nil_r in U. fold c in U. rewrite <- Ev in U. rewrite U.
    exists (buf ++ o ++ vk e (lseed s) ++ vk e (rseed s)). split; [rewrite <- !app_assoc; reflexivity|].
    split; [rewrite !app_length, Lb, Lo, !vkl, sk_size_S; lia|].
    assert (Sz : (sk_size j <= sk_size e)%nat) by (unfold sk_size; lia).
    rewrite firstn_app, Lb. replace (sk_size j - sk_size e)%nat with 0%nat by lia. cbn [firstn]. rewrite app_nil_r. exact F.
Qed.

Definition drifted (d : nat) (s : list Z) (u c : Z) (k : kes_key) : Prop := prv k = state d s (u + c) ++ pack_be 4 c.
Lemma drifted_period e s u c k : length s = 32%nat -> 0 <= c < 2 ^ 32 -> drifted (S e) s u c k -> kes_period (S e) k = Ok c.
Proof.
  intros Ls Hc B. unfold kes_period. rewrite !B. rewrite app_length, pack_be_length.
  replace (state (S e) s (u + c) ++ pack_be 4 c) with (state (S e) s (u + c) ++ pack_be 4 c ++ []) by (rewrite app_nil_r; reflexivity).
  rewrite sub_ub_mid by (rewrite ?pack_be_length; lia). cbn [bind]. f_equal. apply pack_unpack_be. exact Hc.
Qed.
Lemma drifted_run j e s i n : (S e <= 31)%nat -> (j <= S e)%nat -> length s = 32%nat -> 0 <= i -> 2 ^ Z.of_nat j * i < 2 ^ Z.of_nat (S e) ->
  forall c k, 0 <= c -> c + Z.of_nat n < 2 ^ Z.of_nat j -> drifted (S e) s (2 ^ Z.of_nat j * i) c k ->
  exists k', kes_run H ed_pk (S e) k (repeat Update n) = Ok k' /\ drifted (S e) s (2 ^ Z.of_nat j * i) (c + Z.of_nat n) k'.
Proof.
  intros Hd Hj Ls Hi Hu. induction n as [|n IH]; intros c k Hc Hlt B.
  - exists k. rewrite Z.add_0_r. auto.
  - pose proof (pow_small j ltac:(lia)). cbn [repeat kes_run]. unfold kes_update. rewrite (drifted_period e s _ c k Ls ltac:(lia) B).
    rewrite (Z.mod_small c) by lia. rewrite !B. rewrite (drift_step j (S e)) by (auto; lia).
    replace (state (S e) s (2 ^ Z.of_nat j * i + c + 1) ++ pack_be 4 c) with (state (S e) s (2 ^ Z.of_nat j * i + c + 1) ++ pack_be 4 c ++ []) by (rewrite app_nil_r; reflexivity).
    rewrite blit_mid by (rewrite ?stl, ?pack_be_length; auto). rewrite (Z.mod_small (c + 1)) by lia.
    destruct (IH (c + 1) {| prv := state (S e) s (2 ^ Z.of_nat j * i + c + 1) ++ pack_be 4 (c + 1) ++ []; period_ := c + 1 |}) as (k' & R & B'); [lia|lia| |].
    { unfold drifted. cbn [prv]. rewrite app_nil_r. f_equal. f_equal. lia. }
    exists k'. split; [exact R|]. replace (c + Z.of_nat (S n)) with (c + 1 + Z.of_nat n) by lia. exact B'.
Qed.
Lemma odd_part : forall u, 0 < u -> exists j i, 0 <= i /\ u = 2 ^ Z.of_nat j * (2 * i + 1).
Proof.
  intros u Hu. assert (X : exists n, u < Z.of_nat n) by (exists (Z.to_nat (u + 1)); lia). destruct X as (n & Hn). revert u Hu Hn.
  induction n as [|n IH]; intros u Hu Hn; [lia|].
  pose proof (Z.div_mod u 2 ltac:(lia)). pose proof (Z.mod_pos_bound u 2 ltac:(lia)).
  destruct (Z.eq_dec (u mod 2) 0) as [E|E].
  - destruct (IH (u / 2)) as (j & i & Hi & Ej); [lia|lia|]. exists (S j), i. split; [exact Hi|]. rewrite pow_S. rewrite <- Z.mul_assoc, <- Ej. lia.
  - exists 0%nat, (u / 2). split; [apply Z.div_pos; lia|]. change (2 ^ Z.of_nat 0) with 1. lia.
Qed.
Lemma file_zero_seed_any : forall d kb s k pk sb h, (d <= 7)%nat -> length s = 32%nat -> length kb = (sk_size d + 4)%nat ->
  kes_keygen H ed_pk d kb s = Ok (k, pk, sb) -> ~ In ReloadFile h ->
  let u := Z.of_nat (updates_in h) in 0 < u < 2 ^ Z.of_nat d ->
  exists j k', 2 ^ Z.of_nat j <= u /\
    kes_run H ed_pk d k (h ++ [ReloadFile] ++ repeat Update (Z.to_nat (2 ^ Z.of_nat j))) = Ok k' /\
    kes_period d k' = Ok (2 ^ Z.of_nat j) /\
    firstn 32 (prv k') = seed_at H (repeat 0 32) (repeat false j).
Proof.
  intros d kb s k pk sb h Hd Ls Lk K NF u Hu.
  destruct d as [|e]; [change (2 ^ Z.of_nat 0) with 1 in Hu; lia|].
  destruct (odd_part u ltac:(lia)) as (j & i & Hi & Ej). exists j.
  pose proof (pow_pos j) as Pj. assert (Hje : (j < S e)%nat).
  { destruct (Nat.le_gt_cases (S e) j) as [X|X]; [|exact X]. assert (2 ^ Z.of_nat (S e) <= 2 ^ Z.of_nat j) by (apply Z.pow_le_mono_r; lia). nia. }
  destruct (run_ok H ed_pk ed_sign ed_verify C (S e) s kb k pk sb h ltac:(lia) Ls Lk K NF ltac:(lia)) as (k1 & R1 & L1).
  rewrite run_app, R1. cbn [bind kes_run app]. unfold kes_file_bytes. fold u in L1. rewrite !L1.
  rewrite firstn_app_exact by (rewrite stl; auto).
  unfold kes_of_bytes at 1. rewrite stl, Nat.eqb_refl by exact Ls.
  destruct (Nat.eqb_spec (sk_size (S e)) (sk_size (S e) + 4)) as [|_]; [lia|]. cbn [negb andb bind].
  set (k2 := {| prv := _; period_ := 0 |}).
  assert (B : drifted (S e) s (2 ^ Z.of_nat j * (2 * i + 1)) 0 k2).
  { unfold drifted, k2. cbn [prv]. rewrite <- Ej, Z.add_0_r. reflexivity. }
  set (n := Z.to_nat (2 ^ Z.of_nat j - 1)). replace (Z.to_nat (2 ^ Z.of_nat j)) with (n + 1)%nat by (unfold n; lia).
  rewrite repeat_app, run_app.
  destruct (drifted_run j e s (2 * i + 1) n ltac:(lia) ltac:(lia) Ls ltac:(lia) ltac:(lia) 0 k2 ltac:(lia) ltac:(unfold n; lia) B) as (k3 & R3 & B3).
  rewrite R3. change (repeat Update 1) with [Update]. cbn [bind kes_run]. rewrite Z.add_0_l in B3. replace (Z.of_nat n) with (2 ^ Z.of_nat j - 1) in B3 by (unfold n; lia).
  pose proof (pow_small j ltac:(lia)) as Ps.
  unfold kes_update. rewrite (drifted_period e s (2 ^ Z.of_nat j * (2 * i + 1)) (2 ^ Z.of_nat j - 1) k3 Ls ltac:(lia) B3). rewrite (Z.mod_small (2 ^ Z.of_nat j - 1)) by lia. rewrite !B3.
  destruct (drift_end j (S e) ltac:(lia) Hje s i (pack_be 4 (2 ^ Z.of_nat j - 1)) Ls Hi ltac:(lia)) as (buf & U & Lb & F). rewrite U.
  replace (buf ++ pack_be 4 (2 ^ Z.of_nat j - 1)) with (buf ++ pack_be 4 (2 ^ Z.of_nat j - 1) ++ []) by (rewrite app_nil_r; reflexivity).
  rewrite blit_mid by (rewrite ?Lb, ?pack_be_length; auto).
  replace (2 ^ Z.of_nat j - 1 + 1) with (2 ^ Z.of_nat j) by lia. rewrite (Z.mod_small (2 ^ Z.of_nat j)) by lia.
  eexists. split; [nia|]. split; [reflexivity|]. split.
  - unfold kes_period. cbn [prv]. rewrite app_nil_r, app_length, pack_be_length.
    replace (buf ++ pack_be 4 (2 ^ Z.of_nat j)) with (buf ++ pack_be 4 (2 ^ Z.of_nat j) ++ []) by (rewrite app_nil_r; reflexivity).
    rewrite sub_ub_mid by (rewrite ?pack_be_length; lia). cbn [bind]. f_equal. apply pack_unpack_be. change (256 ^ Z.of_nat 4) with (2 ^ 32). pose proof (pow_pos j). lia.
  - cbn [prv].
    assert (S0 : forall j s0, length s0 = 32%nat -> firstn 32 (state j s0 0) = seed_at H s0 (repeat false j)).
    { clear -C. induction j as [|j IH]; intros s0 L0; cbn [Proof_Kes.state repeat Spec_Kes.seed_at]; [apply firstn_all2; lia|].
      pose proof (pow_pos j). destruct (Z.ltb_spec 0 (2 ^ Z.of_nat j)); [|lia]. rewrite <- !app_assoc. rewrite firstn_app.
      pose proof (state_len H ed_pk ed_sign ed_verify C j (lseed s0) 0 (lseed_len H ed_pk ed_sign ed_verify C s0)) as L. rewrite L.
      replace (32 - sk_size j)%nat with 0%nat by (unfold sk_size; lia). cbn [firstn]. rewrite app_nil_r. apply IH. apply (lseed_len H ed_pk ed_sign ed_verify C). }
    assert (Sz : (32 <= sk_size j)%nat) by (unfold sk_size; lia).
    rewrite <- (S0 j (repeat 0 32)) by reflexivity. change (repeat 0 32) with (zeros 32). rewrite <- F, firstn_firstn. replace (Nat.min 32 (sk_size j)) with 32%nat by lia.
    rewrite firstn_app, Lb. replace (32 - sk_size (S e))%nat with 0%nat by (unfold sk_size; lia). cbn [firstn]. apply app_nil_r.
Qed.

(** After reading the file back, the key is the saved one with the period forgotten; it is the saved key exactly at period 0. *)
Lemma file_exact : forall d kb s k pk sb h, (d <= 7)%nat -> length s = 32%nat -> length kb = (sk_size d + 4)%nat ->
  kes_keygen H ed_pk d kb s = Ok (k, pk, sb) -> ~ In ReloadFile h ->
  Z.of_nat (updates_in h) < 2 ^ Z.of_nat d ->
  exists k1 k2, kes_run H ed_pk d k h = Ok k1 /\ kes_run H ed_pk d k (h ++ [ReloadFile]) = Ok k2 /\
    prv k2 = firstn (sk_size d) (prv k1) ++ [0; 0; 0; 0] /\ kes_period d k2 = Ok 0 /\
    (k2 = k1 <-> updates_in h = 0%nat).
Proof.
  intros d kb s k pk sb h Hd Ls Lk K NF Hlt.
  destruct (run_field d s kb k pk sb h ltac:(lia) Ls Lk K NF Hlt) as (k1 & R1 & L1 & P1).
  exists k1. rewrite run_app, R1. cbn [bind kes_run]. unfold kes_file_bytes. unfold like in L1. rewrite L1.
  rewrite firstn_app_exact by (rewrite stl; auto). unfold kes_of_bytes. rewrite stl, Nat.eqb_refl by exact Ls.
  destruct (Nat.eqb_spec (sk_size d) (sk_size d + 4)); [lia|]. cbn [negb andb bind].
  eexists. split; [reflexivity|]. split; [reflexivity|]. cbn [prv]. split; [reflexivity|]. split.
  - destruct d as [|e]; [reflexivity|]. unfold kes_period. cbn [prv]. rewrite app_length, stl by exact Ls.
    set (u := Z.of_nat (updates_in h)).
    replace (state (S e) s u ++ zeros 4) with (state (S e) s u ++ zeros 4 ++ []) by (rewrite app_nil_r; reflexivity).
    rewrite sub_ub_mid by (rewrite ?zeros_length, ?stl by exact Ls; lia). reflexivity.
  - split.
    + intros E. apply (f_equal prv) in E. cbn [prv] in E. rewrite L1 in E. apply app_inv_head in E.
      pose proof (pow_small d ltac:(lia)).
      apply (f_equal (unpack_be 4)) in E. rewrite pack_unpack_be in E by (change (256 ^ Z.of_nat 4) with (2 ^ 32); lia). change (unpack_be 4 (zeros 4)) with 0 in E. lia.
    + intros Z0. rewrite Z0 in L1. destruct k1 as [pv pe]. cbn [prv period_] in *. rewrite L1, Z0. f_equal.
      rewrite P1, Z0. destruct (rev h) as [|[] ?]; reflexivity.
Qed.
End More.
