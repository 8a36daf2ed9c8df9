(** Property C39, exactly: when the builder's running total is the value of what it will serialise. *)
From Verif Require Import Base BaseLemmas Model_Address Model_Ledger Model_Tx Spec_Tx Props_Tx Props_History.
From Coq Require Import Permutation.
Ltac Zify.zify_post_hook ::= idtac.

(** The value of the inputs and withdrawals a body spends, for a chain on which each output reference has a value. *)
Definition spends (value : list Z * Z -> Z) (t : txbody) : Z :=
  total (map (fun i => value (ti_id i, ti_index i)) (tb_inputs t)) + total (map snd (tb_withdrawals t)).

Lemma total_perm l l' : Permutation l l' -> total l = total l'.
Proof. induction 1; cbn [total fold_right] in *; unfold total in *; lia. Qed.
Lemma total_app a b : total (a ++ b) = total a + total b.
Proof. induction a as [|x a IH]; cbn [app total fold_right] in *; unfold total in *; lia. Qed.
Lemma incl_rest {A} (s : list A) : forall l, NoDup s -> incl s l -> exists r, Permutation l (s ++ r).
Proof.
  induction s as [|x s IH]; intros l N I; [exists l; reflexivity|].
  destruct (in_split x l (I x (or_introl eq_refl))) as (l1 & l2 & ->). inversion N as [|? ? Nx Ns]; subst.
  destruct (IH (l1 ++ l2) Ns) as [r P].
  - intros y Iy. specialize (I y (or_intror Iy)). rewrite in_app_iff in *. cbn [In] in I. destruct I as [I|[<-|I]]; auto. contradiction.
  - exists r. cbn [app]. transitivity (x :: l1 ++ l2); [symmetry; apply Permutation_middle|]. constructor. exact P.
Qed.
Lemma total_pos l : Forall (fun x => 0 < x) l -> 0 <= total l /\ (total l = 0 -> l = []).
Proof. induction 1 as [|x l P _ [IH _]]; cbn [total fold_right] in *; unfold total in *; [split; [lia|reflexivity]|]. split; [lia|intros; lia]. Qed.

(** For histories that describe their inputs truthfully, with positive amounts: the running total is never below
    the value spent, and is that value if and only if no input and no account was handed in twice. *)
Theorem C39_totals_exact : forall key H (pub : key -> list Z) sgn fuel l b value, do_calls H pub sgn fuel new_builder l = Some (Ok b) ->
  (forall u, In u (inputs_in l) -> 0 < u_value u /\ u_value u = value (u_id u, u_index u)) ->
  (forall w, In w (withdrawals_in l) -> 0 < snd w) ->
  lovelace (total (map u_value (inputs_in l)) + total (map snd (withdrawals_in l))) -> lovelace (total (deposits_in l)) ->
  spends value (tx_body (b_tx b)) <= b_input_total b /\
  (spends value (tx_body (b_tx b)) = b_input_total b <->
   NoDup (map (fun u => (u_id u, u_index u)) (inputs_in l)) /\ NoDup (map (fun w => RewardsAddress_toBytes (fst w)) (withdrawals_in l))).
Proof.
  intros key H pub sgn fuel l b value R VU VW LI LD.
  destruct (C39_running_totals key H pub sgn fuel l b R LI LD) as [-> _].
  pose proof (C39_totals_of_body key H pub sgn fuel l b R) as TB.
  destruct (C64_what_was_asked key H pub sgn fuel l b R) as (I & NI & W & NW & _). set (t := tx_body (b_tx b)) in *.
  set (refs := map (fun u => (u_id u, u_index u)) (inputs_in l)) in *. set (body := map (fun i => (ti_id i, ti_index i)) (tb_inputs t)) in *.
  set (accts := map (fun w => (RewardsAddress_toBytes (fst w), snd w)) (withdrawals_in l)) in *.
  assert (ND : NoDup body).
  { unfold body. clear - NI. induction NI as [|i s N _ IH]; cbn [map]; constructor; [|exact IH]. intros X. apply in_map_iff in X as (j & E & J). apply N.
    destruct i, j. cbn in E. injection E as -> ->. exact J. }
  assert (INC : incl body refs).
  { intros p X. apply in_map_iff in X as (i & <- & X). apply I in X as (u & X & ->). cbn [ti_id ti_index]. apply in_map_iff. exists u. split; [reflexivity|].
    unfold inputs_in. apply in_concat. exists [u]. split; [|left; reflexivity]. apply in_map_iff. exists (AddInput u). auto. }
  destruct (incl_rest body refs ND INC) as [r1 P1].
  assert (NDW : NoDup (tb_withdrawals t)) by (apply (NoDup_map_inv fst); exact NW).
  assert (INCW : incl (tb_withdrawals t) accts).
  { intros [k n] X. apply W in X as (l1 & a & l2 & E & <- & _). apply in_map_iff. exists (a, n). split; [reflexivity|]. rewrite E. apply in_app_iff. right. left. reflexivity. }
  destruct (incl_rest (tb_withdrawals t) accts NDW INCW) as [r2 P2].
  assert (E1 : total (map u_value (inputs_in l)) = total (map value refs)).
  { f_equal. unfold refs. rewrite map_map. apply map_ext_in. intros u X. apply VU. exact X. }
  assert (E2 : total (map snd (withdrawals_in l)) = total (map snd accts)) by (unfold accts; rewrite map_map; reflexivity).
  assert (S1 : total (map u_value (inputs_in l)) = total (map value body) + total (map value r1)).
  { rewrite E1, (total_perm _ _ (Permutation_map value P1)), map_app, total_app. reflexivity. }
  assert (S2 : total (map snd (withdrawals_in l)) = total (map snd (tb_withdrawals t)) + total (map snd r2)).
  { rewrite E2, (total_perm _ _ (Permutation_map snd P2)), map_app, total_app. reflexivity. }
  assert (SP : spends value t = total (map value body) + total (map snd (tb_withdrawals t))) by (unfold spends, body; rewrite map_map; reflexivity).
  assert (Pos1 : Forall (fun x => 0 < x) (map value r1)).
  { apply Forall_forall. intros x X. apply in_map_iff in X as (p & <- & X). assert (Y : In p refs) by (eapply Permutation_in; [symmetry; exact P1|apply in_app_iff; right; exact X]).
    apply in_map_iff in Y as (u & <- & Y). destruct (VU u Y) as [A B]. rewrite <- B. exact A. }
  assert (Pos2 : Forall (fun x => 0 < x) (map snd r2)).
  { apply Forall_forall. intros x X. apply in_map_iff in X as (p & <- & X). assert (Y : In p accts) by (eapply Permutation_in; [symmetry; exact P2|apply in_app_iff; right; exact X]).
    apply in_map_iff in Y as (w & <- & Y). exact (VW w Y). }
  destruct (total_pos _ Pos1) as [G1 Z1]. destruct (total_pos _ Pos2) as [G2 Z2]. rewrite SP, S1, S2. split; [lia|]. split.
  - intros E. assert (X1 : map value r1 = []) by (apply Z1; lia). assert (X2 : map snd r2 = []) by (apply Z2; lia).
    apply map_eq_nil in X1, X2. subst r1 r2. rewrite app_nil_r in P1, P2. split; [exact (Permutation_NoDup (Permutation_sym P1) ND)|].
    replace (map (fun w => RewardsAddress_toBytes (fst w)) (withdrawals_in l)) with (map fst accts) by (unfold accts; rewrite map_map; reflexivity).
    exact (Permutation_NoDup (Permutation_sym (Permutation_map fst P2)) NW).
  - intros [N1 N2]. destruct (TB N1 N2) as [Q1 Q2]. pose proof (total_perm _ _ (Permutation_map value Q1)) as A1. pose proof (total_perm _ _ (Permutation_map snd Q2)) as A2.
    fold refs body in A1. fold t accts in A2. lia.
Qed.
Print Assumptions C39_totals_exact.
(** A history that meets the hypotheses, with a duplicated input: the total counts it twice. *)
Definition ex_u (n : Z) : utxo := {| u_id := repeat n 32; u_index := n; u_value := 5 + n |}.
Definition ex_hist (l : list Z) : list (@call Z) := map (fun n => AddInput (ex_u n)) l.
Definition ex_books (l : list Z) : option (outcome (Z * Z)) :=
  match do_calls (fun x => x) (fun _ => []) (fun _ x => x) 10 new_builder (ex_hist l) with
  | Some (Ok b) => Some (Ok (spends (fun p => 5 + snd p) (tx_body (b_tx b)), b_input_total b)) | _ => None end.
Example C39_totals_nontrivial : ex_books [1; 2; 1] = Some (Ok (13, 19)) /\ ex_books [1; 2; 3] = Some (Ok (21, 21)).
Proof. vm_compute. auto. Qed.
