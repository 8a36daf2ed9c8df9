(** Minimum distance of the Bech32 code: up to 3 errors within 1023 symbols and up to
    4 errors within 89 symbols are detected.  The search space is reduced by GF(32) scaling
    and by inverting the last run of zeros (x has order 1023), then swept by [vm_compute]. *)
From Verif Require Import BaseLemmas Model_Bech32 Proof_Polymod.
From Coq Require Import FMapPositive.
Ltac Zify.zify_post_hook ::= idtac.

Definition weight (e : list Z) : nat := List.length (filter (fun x => negb (x =? 0)) e).

(** ** Iterated steps *)
Fixpoint steps (k : nat) (c : Z) : Z := match k with O => c | S k => step0 (steps k c) end.
Fixpoint powA_ (f : Z -> Z) (k : nat) (c : Z) : Z := match k with O => c | S k => f (powA_ f k c) end.

Lemma steps_S k c : steps (S k) c = steps k (step0 c).
Proof. induction k as [|k IH]; [reflexivity|]. cbn [steps] in *. rewrite IH. reflexivity. Qed.

Lemma steps_add a b c : steps (a + b) c = steps a (steps b c).
Proof. induction a as [|a IH]; [reflexivity|]. cbn [plus steps]. rewrite IH. reflexivity. Qed.

Lemma steps_inb k c : inb 30 c -> inb 30 (steps k c).
Proof. intros H. induction k as [|k IH]; [exact H|]. apply step0_inb. exact IH. Qed.

Lemma steps_linear k : linear 30 (steps k).
Proof.
  induction k as [|k IH]; intros a b Ha Hb; [reflexivity|].
  change (step0 (steps k (Z.lxor a b)) = Z.lxor (step0 (steps k a)) (step0 (steps k b))).
  rewrite IH by auto. apply step0_linear; apply steps_inb; auto.
Qed.

Lemma run_zeros k c : run c (repeat 0 k) = steps k c.
Proof.
  revert c; induction k as [|k IH]; intros c; [reflexivity|].
  rewrite steps_S, <- IH. reflexivity.
Qed.

Lemma id_linear n : linear n (fun x => x).
Proof. intros a b _ _. reflexivity. Qed.

Lemma order_1023 c : inb 30 c -> steps 1023 c = c.
Proof.
  apply (linear_ext 30 (steps 1023) (fun x => x)).
  - apply steps_linear.
  - apply id_linear.
  - vm_compute. reflexivity.
Qed.

(** ** Multiplication by the generator of GF(32) = GF(2)[a]/(a^5+a^3+1), symbol-wise *)
Definition mulA (c : Z) : Z :=
  let hi := Z.shiftr (Z.land c 0x21084210) 4 in
  Z.land (Z.lxor (Z.shiftl (Z.land c 0x1ef7bdef) 1) (Z.lxor hi (Z.shiftl hi 3))) (Z.ones 30).

Lemma mulA_linear : linear 30 mulA.
Proof.
  intros a b _ _. unfold mulA. cbv zeta.
  rewrite !land_lxor_r, !Z.shiftr_lxor, !Z.shiftl_lxor, !land_lxor_r.
  apply Z.bits_inj'. intros i _. rewrite !Z.lxor_spec.
  repeat match goal with |- context [Z.testbit ?x i] => destruct (Z.testbit x i) end; reflexivity.
Qed.

Lemma mulA_inb c : inb 30 (mulA c).
Proof. unfold mulA. cbv zeta. rewrite Z.land_ones by lia. apply Z.mod_pos_bound. lia. Qed.

Lemma mulA_step0 c : inb 30 c -> step0 (mulA c) = mulA (step0 c).
Proof.
  apply (linear_ext 30 (fun x => step0 (mulA x)) (fun x => mulA (step0 x))).
  - apply linear_comp; [exact mulA_linear|intros; apply mulA_inb|exact step0_linear].
  - apply linear_comp; [exact step0_linear|intros; apply step0_inb; assumption|exact mulA_linear].
  - vm_compute. reflexivity.
Qed.

Lemma sym_sweep (P : Z -> bool) : forallb P (map Z.of_nat (seq 0 32)) = true -> forall v, sym v -> P v = true.
Proof. intros H v Hv. apply (forallb_range P 32 H). exact Hv. Qed.

Lemma mulA_sym v : sym v -> sym (mulA v) /\ (mulA v =? 0) = (v =? 0).
Proof.
  intros H. assert ((0 <=? mulA v) && (mulA v <? 32) && Bool.eqb (mulA v =? 0) (v =? 0) = true) as E.
  { revert v H. apply (sym_sweep (fun v => _ && Bool.eqb _ _)). vm_compute. reflexivity. }
  rewrite !andb_true_iff in E. destruct E as [[E1 E2] E3]. apply eqb_prop in E3. split; [|exact E3].
  split; [lia|]. change (2 ^ 5) with 32. lia.
Qed.

Lemma run_mulA e : word e -> forall c, inb 30 c -> run (mulA c) (map mulA e) = mulA (run c e).
Proof.
  induction 1 as [|v e Hv He IH]; intros c Hc; [reflexivity|].
  cbn [map run fold_left].
  change (run (polymod_step (mulA c) (mulA v)) (map mulA e) = mulA (run (polymod_step c v) e)).
  rewrite <- IH by (apply step_inb; auto). f_equal.
  rewrite !step_split. rewrite mulA_step0 by auto. symmetry. apply mulA_linear; [apply step0_inb; auto|].
  eapply inb_mono; [|exact Hv]; lia.
Qed.

Lemma word_mulA e : word e -> word (map mulA e) /\ weight (map mulA e) = weight e.
Proof.
  unfold weight. induction 1 as [|v e Hv He [IH1 IH2]]; [split; constructor|].
  cbn [map filter]. rewrite (proj2 (mulA_sym v Hv)). split.
  - constructor; auto. apply mulA_sym; auto.
  - destruct (v =? 0); cbn [negb List.length]; rewrite IH2; reflexivity.
Qed.

Lemma scale_to_one k : forall x e, sym x -> word e -> powA_ mulA k x = 1 -> run x e = 0 ->
  exists e', word e' /\ length e' = length e /\ weight e' = weight e /\ run 1 e' = 0.
Proof.
  induction k as [|k IH]; intros x e Hx He Hk Hr.
  - cbn in Hk. subst x. exists e; auto.
  - destruct (word_mulA e He) as [H1 H2].
    assert (Hx30 : inb 30 x) by (eapply inb_mono; [|exact Hx]; lia).
    destruct (IH (mulA x) (map mulA e)) as (e' & F1 & F2 & F3 & F4); auto.
    + apply mulA_sym; auto.
    + rewrite <- Hk. clear. induction k as [|k IH]; [reflexivity|]. cbn [powA_] in *. rewrite IH. reflexivity.
    + rewrite run_mulA, Hr by auto. reflexivity.
    + exists e'. rewrite map_length in F2. repeat split; auto. congruence.
Qed.

Lemma log_exists x : sym x -> x <> 0 -> exists k, powA_ mulA k x = 1.
Proof.
  intros H Hn.
  assert ((x =? 0) || existsb (fun k => powA_ mulA k x =? 1) (seq 0 31) = true) as E.
  { clear Hn. revert x H. apply (sym_sweep (fun x => _ || existsb _ _)). vm_compute. reflexivity. }
  apply orb_true_iff in E as [E|E]; [lia|].
  apply existsb_exists in E as (k & _ & E). exists k. lia.
Qed.

(** ** Splitting a word at its first non-zero symbol *)
Lemma weight_zero e : weight e = 0%nat -> e = repeat 0 (length e).
Proof.
  unfold weight. induction e as [|x e IH]; [reflexivity|]. cbn [filter List.length repeat].
  destruct (x =? 0) eqn:E; cbn [negb]; [|discriminate]. intros H. f_equal; [lia|auto].
Qed.

Lemma first_nonzero e : word e -> weight e <> 0%nat ->
  exists a s e', e = repeat 0 a ++ s :: e' /\ sym s /\ s <> 0 /\ word e' /\ weight e = S (weight e').
Proof.
  unfold weight. induction 1 as [|x e Hx He IH]; [intros H; destruct H; reflexivity|].
  cbn [filter]. destruct (x =? 0) eqn:E; cbn [negb].
  - intros Hw. destruct (IH Hw) as (a & s & e' & H1 & H2 & H3 & H4 & H5).
    exists (S a), s, e'. assert (x = 0) as -> by lia. rewrite H1 at 1. auto.
  - intros _. exists 0%nat, x, e. repeat split; auto. all: try apply Hx. lia.
Qed.

Lemma run_first a s e' c : run c (repeat 0 a ++ s :: e') = run (Z.lxor (steps (S a) c) s) e'.
Proof.
  rewrite run_app, run_zeros. cbn [run fold_left].
  change (run (polymod_step (steps a c) s) e' = run (Z.lxor (steps (S a) c) s) e').
  f_equal. rewrite step_split. reflexivity.
Qed.

(** ** The table of states that reach a single symbol *)
Definition syms : list Z := map Z.of_nat (seq 1 31).

Lemma in_syms s : sym s -> s <> 0 -> In s syms.
Proof.
  intros [H1 H2] Hn. change (2 ^ 5) with 32 in H2. unfold syms. apply in_map_iff.
  exists (Z.to_nat s). split; [lia|]. apply in_seq. lia.
Qed.

(** all states [x^j s], paired with [1023 - j] *)
Fixpoint fill (j : nat) (s : Z) (tab : PositiveMap.t Z) : PositiveMap.t Z :=
  match j with
  | O => tab
  | S j' => let s' := step0 s in fill j' s' (PositiveMap.add (Z.to_pos s') (Z.of_nat j) tab)
  end.
Definition table : PositiveMap.t Z :=
  fold_right (fun s t => fill 1022 s t) (PositiveMap.empty Z) syms.
(* [fill 1022 s]: the state after one step is x s = x^-1022 s: distance 1022. *)


Definition reach (d : Z) : option Z := PositiveMap.find (Z.to_pos d) table.

Fixpoint chk_reach (j : nat) (s : Z) : bool :=
  match j with
  | O => true
  | S j' =>
      let s' := step0 s in
      match reach s' with Some k => k <=? Z.of_nat j | None => false end && chk_reach j' s'
  end.

Lemma chk_reach_ok : forallb (chk_reach 1022) syms = true.
Proof. vm_compute. reflexivity. Qed.

Lemma chk_reach_spec n : forall s, chk_reach n s = true -> forall j, (1 <= j <= n)%nat ->
  exists k, reach (steps (n + 1 - j) s) = Some k /\ k <= Z.of_nat j.
Proof.
  induction n as [|n IH]; intros s H j Hj; [lia|].
  cbn [chk_reach] in H. apply andb_true_iff in H as [H1 H2].
  destruct (Nat.eq_dec j (S n)) as [->|Hne].
  - replace (S n + 1 - S n)%nat with 1%nat by lia. change (steps 1 s) with (step0 s).
    destruct (reach (step0 s)) as [k|]; [|discriminate]. exists k. split; [reflexivity|lia].
  - destruct (IH _ H2 j ltac:(lia)) as (k & K1 & K2). exists k. split; [|exact K2].
    rewrite <- K1. f_equal. rewrite <- steps_S. f_equal. lia.
Qed.

Lemma reach_complete d s j : inb 30 d -> sym s -> s <> 0 -> (1 <= j <= 1022)%nat -> steps j d = s ->
  exists k, reach d = Some k /\ k <= Z.of_nat j.
Proof.
  intros Hd Hs Hn Hj E.
  pose proof chk_reach_ok as HC. rewrite forallb_forall in HC.
  destruct (chk_reach_spec 1022 s (HC s (in_syms s Hs Hn)) j Hj) as (k & K1 & K2).
  exists k. split; [|exact K2]. rewrite <- K1. f_equal.
  rewrite <- E, <- steps_add. replace (1022 + 1 - j + j)%nat with 1023%nat by lia.
  symmetry. apply order_1023; auto.
Qed.

(** ** The search *)
(** At most one more error within [m] symbols cannot bring state [d] to zero. *)
Definition T1 (m : nat) (d : Z) : bool :=
  negb (d =? 0) && match reach d with None => true | Some k => Z.of_nat m <? k end.

Fixpoint scan (n : nat) (c : Z) (test : nat -> Z -> bool) : bool :=
  match n with
  | O => true
  | S m => let c' := step0 c in forallb (fun s => test m (Z.lxor c' s)) syms && scan m c' test
  end.

Definition safe (n w : nat) (c : Z) : Prop :=
  forall e, word e -> (length e <= n)%nat -> (weight e <= w)%nat -> run c e <> 0.

Lemma T1_sound m d : (m <= 1022)%nat -> inb 30 d -> T1 m d = true -> safe m 1 d.
Proof.
  intros Hm Hd H e He Hl Hw E. unfold T1 in H. apply andb_true_iff in H as [H1 H2].
  assert (Hd0 : d <> 0) by lia.
  destruct (Nat.eq_dec (weight e) 0) as [Hz|Hz].
  - rewrite (weight_zero e Hz) in E. revert E. apply run_nonzero_zeros; auto.
  - destruct (first_nonzero e He Hz) as (a & s & e' & E1 & E2 & E3 & E4 & E5).
    assert (Hw' : weight e' = 0%nat) by lia. rewrite E1, run_first, (weight_zero e' Hw') in E.
    assert (Hs30 : inb 30 s) by (eapply inb_mono; [|exact E2]; lia).
    assert (Z.lxor (steps (S a) d) s = 0) as E0.
    { destruct (Z.eq_dec (Z.lxor (steps (S a) d) s) 0) as [|Hx]; [auto|]. exfalso. revert E.
      apply run_nonzero_zeros; auto. apply lxor_inb; auto using steps_inb; lia. }
    apply Z.lxor_eq in E0.
    assert (Hla : (S a + length e' = length e)%nat) by (rewrite E1, app_length, repeat_length; cbn; lia).
    destruct (reach_complete d s (S a)) as (k & K1 & K2); auto; [lia|].
    rewrite K1 in H2. lia.
Qed.

Lemma scan_spec test n : forall c, scan n c test = true -> forall a s, (a < n)%nat -> In s syms ->
  test (n - S a)%nat (Z.lxor (steps (S a) c) s) = true.
Proof.
  induction n as [|n IH]; intros c H a s Ha Hs; [lia|].
  cbn [scan] in H. apply andb_true_iff in H as [H1 H2]. rewrite forallb_forall in H1.
  destruct a as [|a].
  - replace (S n - 1)%nat with n by lia. apply H1; auto.
  - rewrite steps_S. replace (S n - S (S a))%nat with (n - S a)%nat by lia. apply IH; auto. lia.
Qed.

Lemma scan_sound test n w c : inb 30 c -> c <> 0 ->
  (forall m d, (m <= n)%nat -> inb 30 d -> test m d = true -> safe m w d) ->
  scan n c test = true -> safe n (S w) c.
Proof.
  intros Hc Hc0 HT HS e He Hl Hw E.
  destruct (Nat.eq_dec (weight e) 0) as [Hz|Hz].
  - rewrite (weight_zero e Hz) in E. revert E. apply run_nonzero_zeros; auto.
  - destruct (first_nonzero e He Hz) as (a & s & e' & E1 & E2 & E3 & E4 & E5).
    assert (Hla : (S a + length e' = length e)%nat) by (rewrite E1, app_length, repeat_length; cbn; lia).
    assert (Hs30 : inb 30 s) by (eapply inb_mono; [|exact E2]; lia).
    rewrite E1, run_first in E.
    assert (HQ : test (n - S a)%nat (Z.lxor (steps (S a) c) s) = true).
    { apply scan_spec; [exact HS|lia|apply in_syms; auto]. }
    apply (HT (n - S a)%nat (Z.lxor (steps (S a) c) s)) in HQ;
      [|lia|apply lxor_inb; auto using steps_inb; lia].
    apply (HQ e'); auto; lia.
Qed.

Definition T2 (m : nat) (d : Z) : bool := negb (d =? 0) && scan m d T1.

Lemma chk3_ok : scan 1022 1 T1 = true.
Proof. vm_compute. reflexivity. Qed.
Lemma chk4_ok : scan 88 1 T2 = true.
Proof. vm_compute. reflexivity. Qed.

Lemma safe3 : safe 1022 2 1.
Proof.
  apply (scan_sound T1 1022 1 1); [exact one_inb|lia| |exact chk3_ok].
  intros. apply T1_sound; auto.
Qed.

Lemma safe4 : safe 88 3 1.
Proof.
  apply (scan_sound T2 88 2 1); [exact one_inb|lia| |exact chk4_ok].
  intros m d Hm Hd H. unfold T2 in H. apply andb_true_iff in H as [H1 H2].
  apply (scan_sound T1 m 1 d); [exact Hd|lia| |exact H2]. intros m' d' Hm' Hd' HT. apply T1_sound; auto. lia.
Qed.

Lemma distance n w : safe n w 1 -> forall e, word e -> (length e <= S n)%nat ->
  (1 <= weight e <= S w)%nat -> run 0 e <> 0.
Proof.
  intros HS e He Hl Hw E.
  destruct (first_nonzero e He ltac:(lia)) as (a & s & e' & E1 & E2 & E3 & E4 & E5).
  assert (Hla : (S a + length e' = length e)%nat) by (rewrite E1, app_length, repeat_length; cbn; lia).
  rewrite E1, run_first in E.
  assert (Hz : steps (S a) 0 = 0).
  { rewrite <- run_zeros. clear. induction (S a) as [|k IH]; [reflexivity|]. exact IH. }
  rewrite Hz, Z.lxor_0_l in E.
  destruct (log_exists s E2 E3) as (k & Hk).
  destruct (scale_to_one k s e' E2 E4 Hk E) as (e2 & F1 & F2 & F3 & F4).
  apply (HS e2); [exact F1|lia|lia|exact F4].
Qed.

Lemma distance3 e : word e -> (length e <= 1023)%nat -> (1 <= weight e <= 3)%nat -> run 0 e <> 0.
Proof. apply (distance 1022 2 safe3). Qed.
Lemma distance4 e : word e -> (length e <= 89)%nat -> (1 <= weight e <= 4)%nat -> run 0 e <> 0.
Proof. apply (distance 88 3 safe4). Qed.
