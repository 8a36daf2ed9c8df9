(** Proofs about Model_Keygen.v: a sequence of saves, seen at every moment. *)
From Verif Require Import Base BaseLemmas Spec_Hex Model_Hex Proof_Hex Spec_Cbor Model_Cbor Proof_Cbor Spec_Files Model_Files Proof_Files Model_Keygen.
Ltac Zify.zify_post_hook ::= idtac.

Lemma put_same fs p c : put fs p c p = c.
Proof. unfold put. rewrite zlist_eqb_refl. reflexivity. Qed.
Lemma put_other fs p c q : q <> p -> put fs p c q = fs q.
Proof. intros N. unfold put. destruct (zlist_eqb q p) eqn:E; [apply zlist_eqb_spec in E; contradiction|reflexivity]. Qed.

Lemma then_ok {A B} (x : A) (q : A -> io B) w : then_ (pure (Ok x)) q w = q x w.
Proof. unfold then_, pure. destruct (q x w) as [[tr w'] o]. reflexivity. Qed.
Lemma then_ext {A B} (p : io A) (q q' : A -> io B) w : (forall x w, q x w = q' x w) -> then_ p q w = then_ p q' w.
Proof. intros E. unfold then_. destruct (p w) as [[tr w'] [x| |]]; try reflexivity. rewrite E. reflexivity. Qed.
Lemma then_pure {A B} (o : outcome A) (x : A) (q : A -> io B) w : o = Ok x -> then_ (pure o) q w = q x w.
Proof. intros ->. apply then_ok. Qed.

Record job := { j_path : string; j_type : list Z; j_desc : list Z; j_hex : list Z }.
Definition j_text (j : job) : list Z := envelope_text (j_type j) (j_desc j) (j_hex j).

Section Plan.
Variables (direct : nat -> nat -> bool) (opens : nat -> bool) (room : nat -> nat).
Definition do_job (j : job) : io unit := save direct opens room (j_path j) (j_type j) (j_desc j) (j_hex j).
Fixpoint run_plan {A} (l : list job) (k : io A) : io A := match l with [] => k | j :: r => then_ (do_job j) (fun _ => run_plan r k) end.

Lemma do_job_spec j w tr w' o : do_job j w = (tr, w', o) ->
  printed w' = printed w /\ saves w' = S (saves w) /\ (o = Ok tt \/ o = Throw) /\
  (opens (saves w) = true -> files_of w' (str (j_path j)) = Some (firstn (room (saves w)) (j_text j)) /\ ((length (j_text j) <= room (saves w))%nat -> o = Ok tt)) /\
  (opens (saves w) = false -> files_of w' (str (j_path j)) = files_of w (str (j_path j)) /\ o = Throw) /\
  forall fs, In fs (files_of w' :: tr) -> (forall p, p <> str (j_path j) -> fs p = files_of w p) /\
    (fs (str (j_path j)) = files_of w (str (j_path j)) \/ exists n, fs (str (j_path j)) = Some (firstn n (j_text j))).
Proof.
  unfold do_job, save. cbv zeta. set (p := str (j_path j)).
  destruct (write_file _ _ _ _ _) as [[t fin] o0] eqn:W. intros E. injection E as <- <- <-. cbn [files_of printed saves]. split; [reflexivity|]. split; [reflexivity|].
  unfold write_file in W. destruct (opens (saves w)) eqn:OP.
  - destruct (stream_run _ _ _ _) as [[tr0 dk] o1] eqn:G. apply stream_spec in G as (A & B & C & D). cbn [d_content d_room app] in *. fold (envelope_text (j_type j) (j_desc j) (j_hex j)) in *. fold (j_text j) in *.
    assert (fin = Some (d_content dk)) by congruence. assert (t = files_of w p :: map Some ([] :: tr0)) by congruence. assert (o0 = o1) by congruence. subst fin t o1. rewrite A.
    split; [exact D|]. split; [intros _; rewrite put_same; split; [reflexivity|exact C]|]. split; [discriminate|]. intros fs I.
    assert (G : exists c, fs = put (files_of w) p c /\ (c = files_of w p \/ exists n, c = Some (firstn n (j_text j)))).
    { destruct I as [<-|I]; [eexists; split; [reflexivity|right; eexists; reflexivity]|]. apply in_map_iff in I as (c & <- & I). exists c. split; [reflexivity|].
      destruct I as [<-|I]; [left; reflexivity|]. right. apply in_map_iff in I as (x & <- & [<-|I]); [exists 0%nat; reflexivity|]. destruct (B x I) as (k & _ & ->). exists k. reflexivity. }
    destruct G as (c & -> & G). split; [intros q N; apply put_other, N|rewrite put_same; exact G].
  - assert (fin = files_of w p) by congruence. assert (t = [files_of w p]) by congruence. assert (o0 = Throw) by congruence. subst. split; [right; reflexivity|]. split; [discriminate|].
    split; [intros _; rewrite put_same; split; reflexivity|]. intros fs I.
    assert (fs = put (files_of w) p (files_of w p)) by (destruct I as [<-|[<-|[]]]; reflexivity). subst fs. split; [intros q N; apply put_other, N|left; apply put_same].
Qed.

(** The files [fs] of some moment after [i] of the jobs [l] were done (begun when the number of saves was [n] and the files were [old]), during the next one. *)
Definition moment (old : files) (n : nat) (l : list job) (i : nat) (fs : files) : Prop :=
  (forall a j b, l = a ++ j :: b -> (length a < i)%nat -> opens (n + length a) = true /\ fs (str (j_path j)) = Some (firstn (room (n + length a)) (j_text j))) /\
  (forall a j b, l = a ++ j :: b -> length a = i -> fs (str (j_path j)) = old (str (j_path j)) \/ exists m, fs (str (j_path j)) = Some (firstn m (j_text j))) /\
  (forall p, ~ In p (map (fun j => str (j_path j)) (firstn (S i) l)) -> fs p = old p).

Lemma plan_moments {A} (k : io A) l : NoDup (map (fun j => str (j_path j)) l) ->
  forall w tr w' o, run_plan l k w = (tr, w', o) ->
  (exists tr1 w1 tr2, tr = tr1 ++ tr2 /\ k w1 = (tr2, w', o) /\ saves w1 = (saves w + length l)%nat /\ printed w1 = printed w /\ moment (files_of w) (saves w) l (length l) (files_of w1) /\
     forall fs, In fs tr1 -> exists i, (i <= length l)%nat /\ moment (files_of w) (saves w) l i fs) \/
  (o = Throw /\ printed w' = printed w /\ forall fs, In fs (files_of w' :: tr) -> exists i, (i < length l)%nat /\ moment (files_of w) (saves w) l i fs).
Proof.
  intros ND. induction l as [|j l IH]; intros w tr w' o E.
  - left. exists [], w, tr. cbn [run_plan] in E. split; [reflexivity|]. split; [exact E|]. split; [cbn [length]; lia|]. split; [reflexivity|]. split; [|intros fs []].
    split; [intros a j b X; destruct a; discriminate|]. split; [intros a j b X; destruct a; discriminate|]. reflexivity.
  - cbn [map] in ND. apply NoDup_cons_iff in ND as [NI ND]. cbn [run_plan] in E. unfold then_ in E. destruct (do_job j w) as [[t1 w1] o1] eqn:J. apply do_job_spec in J as (PR & SV & OO & OT & OF & M).
    (* the moments of the first job *)
    assert (M1 : forall fs, In fs (files_of w1 :: t1) -> moment (files_of w) (saves w) (j :: l) 0 fs).
    { intros fs I. destruct (M fs I) as [MO MS]. split; [intros; lia|]. split.
      - intros a x b X L. destruct a; [|discriminate]. injection X as <- <-. exact MS.
      - intros p NP. apply MO. intros ->. apply NP. cbn [firstn map]. left. reflexivity. }
    destruct OO as [->| ->].
    + destruct (run_plan l k w1) as [[t2 w2] o2] eqn:R. assert (tr = t1 ++ t2) by congruence. assert (w2 = w') by congruence. assert (o2 = o) by congruence. subst tr w2 o2.
      assert (OP : opens (saves w) = true). { destruct (opens (saves w)); [reflexivity|]. destruct (OF eq_refl) as [_ X]. discriminate X. }
      destruct (OT OP) as [F1 _]. destruct (M (files_of w1) (or_introl eq_refl)) as [MO1 _].
      assert (SH : forall i fs, moment (files_of w1) (saves w1) l i fs -> moment (files_of w) (saves w) (j :: l) (S i) fs).
      { intros i fs (B1 & B2 & B3). split; [|split].
        - intros a x b X L. destruct a as [|y a].
          + injection X as <- <-. cbn [length]. rewrite Nat.add_0_r. split; [exact OP|]. rewrite B3; [exact F1|]. intros I. apply NI. apply in_map_iff in I as (z & EZ & I). apply in_map_iff. exists z. split; [exact EZ|]. rewrite <- (firstn_skipn (S i) l). apply in_or_app. left. exact I.
          + injection X as <- ->. cbn [length] in L |- *. destruct (B1 a x b eq_refl ltac:(lia)) as [C1 C2]. rewrite SV in C1, C2. replace (saves w + S (length a))%nat with (S (saves w) + length a)%nat by lia. split; assumption.
        - intros a x b X L. destruct a as [|y a]; [discriminate|]. injection X as <- ->. cbn [length] in L. destruct (B2 a x b eq_refl ltac:(lia)) as [C|C]; [left|right; exact C]. rewrite C. apply MO1.
          intros EX. apply NI. rewrite <- EX. apply (in_map (fun j => str (j_path j)) (a ++ x :: b) x). apply in_or_app. right. left. reflexivity.
        - intros p NP. rewrite B3; [apply MO1|]; intros X; apply NP; change (firstn (S (S i)) (j :: l)) with (j :: firstn (S i) l); cbn [map]; [left; symmetry; exact X|right; exact X]. }
      destruct (IH ND w1 t2 w' o R) as [(ta & wa & tb & -> & K & SA & PA & MA & IA)|(-> & PB & IB)].
      * left. exists (t1 ++ ta), wa, tb. split; [apply app_assoc|]. split; [exact K|]. split; [cbn [length]; lia|]. split; [congruence|]. split; [apply SH, MA|].
        intros fs I. apply in_app_or in I as [I|I]; [exists 0%nat; split; [lia|apply M1; right; exact I]|]. destruct (IA fs I) as (i & L & MI). exists (S i). split; [cbn [length]; lia|apply SH, MI].
      * right. split; [reflexivity|]. split; [congruence|]. intros fs I. assert (I' : In fs t1 \/ In fs (files_of w' :: t2)) by (destruct I as [<-|I]; [right; left; reflexivity|apply in_app_or in I as [I|I]; [left|right; right]; exact I]).
        destruct I' as [I'|I']; [exists 0%nat; split; [cbn [length]; lia|apply M1; right; exact I']|]. destruct (IB fs I') as (i & L & MI). exists (S i). split; [cbn [length]; lia|apply SH, MI].
    + right. assert (tr = t1) by congruence. assert (w1 = w') by congruence. assert (o = Throw) by congruence. subst. split; [reflexivity|]. split; [exact PR|]. intros fs I. exists 0%nat. split; [cbn [length]; lia|apply M1, I].
Qed.
(** With room for every text, every job succeeds. *)
Lemma plan_room {A} (k : io A) l : forall w, (forall a j b, l = a ++ j :: b -> opens (saves w + length a) = true /\ (length (j_text j) <= room (saves w + length a))%nat) ->
  exists w1 tr1, saves w1 = (saves w + length l)%nat /\ printed w1 = printed w /\ forall tr2 w' o, k w1 = (tr2, w', o) -> run_plan l k w = (tr1 ++ tr2, w', o).
Proof.
  induction l as [|j l IH]; intros w R.
  - exists w, []. split; [cbn [length]; lia|]. split; [reflexivity|]. intros tr2 w' o E. exact E.
  - destruct (do_job j w) as [[t1 w1] o1] eqn:J. pose proof J as JJ. apply do_job_spec in J as (PR & SV & _ & OT & _). destruct (R [] j l eq_refl) as [R1 R2]. cbn [length] in R1, R2. rewrite Nat.add_0_r in R1, R2.
    destruct (OT R1) as [_ O1]. rewrite (O1 R2) in JJ. destruct (IH w1) as (w2 & t2 & S2 & P2 & K2).
    { intros a x b ->. rewrite SV. destruct (R (j :: a) x b eq_refl) as [X Y]. cbn [length] in X, Y. replace (S (saves w) + length a)%nat with (saves w + S (length a))%nat by lia. split; assumption. }
    exists w2, (t1 ++ t2). split; [cbn [length]; lia|]. split; [congruence|]. intros tr2 w' o E. cbn [run_plan]. unfold then_. rewrite JJ, (K2 _ _ _ E), app_assoc. reflexivity.
Qed.
End Plan.
