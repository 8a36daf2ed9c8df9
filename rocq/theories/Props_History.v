(** Property C64: the transaction says what was asked.  After any history of calls on an empty builder, the body holds exactly what the calls put in. *)
From Verif Require Import Base BaseLemmas Spec_Cbor Model_Cbor Model_Address Spec_Ledger Model_Ledger Proof_Ledger Proof_Ledger2 Model_Tx Spec_Tx Proof_Tx Proof_Tx2 Proof_Tx3 Props_Ledger Props_Wire.
From Coq Require Import Sorted.
Ltac Zify.zify_post_hook ::= idtac.

(** ** Specification: what a history asked for *)
Section Asked.
Context {key : Type}.
Notation call := (@call key).
Notation bcall := (@bcall key).
Definition outputs_in (l : list call) : list txout := concat (map (fun c => match c with AddOutput a n => [{| to_addr := a; to_amount := n |}] | _ => [] end) l).
(** an account is written as the hash of its key: its address without the header byte *)
Definition account (a : rewards_address) : stake_cred := {| sc_type := AddrKeyhash; sc_hash := skipn 1 (RewardsAddress_toBytes a) |}.
Definition certs_in (l : list call) : list cert :=
  concat (map (fun c => match c with
    | AddPoolReg p _ => [PoolReg p] | AddPoolRetire p e => [PoolRetire p e] | AddStakeReg a _ => [StakeReg (account a)]
    | AddStakeDereg a => [StakeDereg (account a)] | AddStakeDeleg a p => [StakeDeleg (account a) p] | _ => [] end) l).
Definition ttls_in (l : list call) : list Z := concat (map (fun c => match c with SetTtl t => [t] | _ => [] end) l).
Definition fees_in (l : list call) : list Z := concat (map (fun c => match c with SetFee t => [t] | _ => [] end) l).
Definition changes_outputs (c : call) : bool := match c with Balance _ _ => true | _ => false end.
Definition computes_fee (c : call) : bool := match c with UpdateFee _ | Balance _ _ => true | _ => false end.
Definition last_withdrawal (l : list (rewards_address * Z)) (addr : list Z) (n : Z) : Prop :=
  exists l1 a l2, l = l1 ++ (a, n) :: l2 /\ RewardsAddress_toBytes a = addr /\ forall p, In p l2 -> RewardsAddress_toBytes (fst p) <> addr.
(** Babbage *)
Definition binputs_in (l : list bcall) : list txin := concat (map (fun c => match c with BAddInput id i => [{| ti_id := firstn 32 id; ti_index := i |}] | _ => [] end) l).
Definition boutputs_in (l : list bcall) : list btxout :=
  concat (map (fun c => match c with
    | BAddOutput a n true => [BPre {| ao_addr := a; ao_amount := n; ao_datum := None |}]
    | BAddOutput a n false => [BPost {| po_addr := a; po_amount := n; po_script_ref := None |}] | _ => [] end) l).
Definition bwithdrawals_in (l : list bcall) : list (rewards_address * Z) := concat (map (fun c => match c with BAddWithdrawal a n => [(a, n)] | _ => [] end) l).
Definition bttls_in (l : list bcall) : list Z := concat (map (fun c => match c with BSetTtl t => [t] | _ => [] end) l).
Definition bfees_in (l : list bcall) : list Z := concat (map (fun c => match c with BSetFee t => [t] | _ => [] end) l).
Definition bcomputes_fee (c : bcall) : bool := match c with BCalculateFee _ => true | _ => false end.
End Asked.

(** ** Lemmas *)
Lemma last_app_cons {A} (l : list A) x d : last (l ++ [x]) d = x. Proof. apply last_last. Qed.
Lemma last_cons {A} (x : A) l d : last (x :: l) d = last l x.
Proof. revert x d. induction l as [|y l IH]; intros x d; [reflexivity|]. change (last (x :: y :: l) d) with (last (y :: l) d). rewrite IH. symmetry. apply IH. Qed.
Definition sortedw (l : list (list Z * Z)) : Prop := StronglySorted (fun a b => lex_lt (fst a) (fst b) = true) l.
Definition fold_w (l : list (rewards_address * Z)) (acc : list (list Z * Z)) : list (list Z * Z) :=
  fold_left (fun s p => map_assign (RewardsAddress_toBytes (fst p)) (snd p) s) l acc.
Lemma fold_w_sorted l : forall acc, sortedw acc -> sortedw (fold_w l acc).
Proof. induction l as [|p l IH]; intros acc S; [exact S|]. apply IH. apply assign_sorted, S. Qed.
Lemma fold_w_spec l : forall k n, In (k, n) (fold_w l []) <-> last_withdrawal l k n.
Proof.
  induction l as [|[a m] l IH] using rev_ind; intros k n.
  - split; [intros []|]. intros (l1 & a & l2 & E & _). destruct l1; discriminate.
  - unfold fold_w. rewrite fold_left_app. cbn [fold_left fst snd]. fold (fold_w l []). rewrite (assign_get (V := Z)) by (apply fold_w_sorted; constructor). rewrite IH. split.
    + intros [[-> ->]|[N (l1 & a' & l2 & -> & E & F)]].
      * exists l, a, []. split; [reflexivity|]. split; [reflexivity|]. intros p [].
      * exists l1, a', (l2 ++ [(a, m)]). split; [rewrite <- app_assoc; reflexivity|]. split; [exact E|]. intros p I. apply in_app_iff in I as [I|[<-|[]]]; [apply F, I|]. cbn [fst]. congruence.
    + intros (l1 & a' & l2 & E & EA & F). destruct l2 as [|q l2] using rev_ind.
      * apply app_inj_tail in E as [-> E]. injection E as -> ->. left. auto.
      * clear IHl2. rewrite app_comm_cons, app_assoc in E. apply app_inj_tail in E as [-> E]. subst q. right. split; [intros ->; refine (F (a, m) _ eq_refl); apply in_or_app; right; left; reflexivity|].
        exists l1, a', l2. split; [reflexivity|]. split; [exact EA|]. intros p I. apply F. apply in_or_app. left. exact I.
Qed.
Definition fold_i (l : list txin) (acc : list txin) : list txin := fold_left (fun s x => set_insert txin_lt x s) l acc.
Definition body_step {key} (c : @call key) (x y : txbody) : Prop :=
  tb_inputs y = fold_i (map (fun u => {| ti_id := u_id u; ti_index := u_index u |}) (inputs_in [c])) (tb_inputs x) /\
  (changes_outputs c = false -> tb_outputs y = tb_outputs x ++ outputs_in [c]) /\
  (computes_fee c = false -> tb_fee y = last (fees_in [c]) (tb_fee x)) /\
  tb_ttl y = last (ttls_in [c]) (tb_ttl x) /\
  tb_certs y = tb_certs x ++ certs_in [c] /\
  tb_withdrawals y = fold_w (withdrawals_in [c]) (tb_withdrawals x) /\ tb_metadata_hash y = tb_metadata_hash x.
Definition rest_same (b b' : builder) : Prop :=
  ws_scripts (tx_wits (b_tx b')) = ws_scripts (tx_wits (b_tx b)) /\ ws_bootstrap (tx_wits (b_tx b')) = ws_bootstrap (tx_wits (b_tx b)) /\ tx_meta (b_tx b') = tx_meta (b_tx b).
Lemma call_step {key} H (pub : key -> list Z) sgn fuel b c b' : do_call H pub sgn fuel b c = Some (Ok b') -> body_step c (tx_body (b_tx b)) (tx_body (b_tx b')) /\ rest_same b b'.
Proof.
  unfold body_step, rest_same. intros S. destruct c; cbn [do_call] in S; unfold lift in S;
    cbn [inputs_in outputs_in fees_in ttls_in certs_in withdrawals_in changes_outputs computes_fee map concat app last fold_i fold_w fold_left fst snd];
    try (assert (E : b' = _) by (symmetry; exact (ok_inj _ _ (f_equal (fun o => match o with Some x => x | None => Throw end) S))); subst b'; clear S;
         cbn; rewrite ?app_nil_r; repeat split; reflexivity).
  - apply update_inv in S as (f & -> & _). cbn. rewrite ?app_nil_r. repeat split; intros; congruence.
  - apply balance_shape in S as (f & o & ->). cbn. rewrite ?app_nil_r. repeat split; intros; congruence.
  - assert (S' : sign H pub sgn b k = Ok b') by congruence. unfold sign in S'. apply bind_ok in S' as (w & _ & S'). apply ok_inj in S'. subst b'. cbn. rewrite ?app_nil_r. repeat split; reflexivity.
Qed.
Lemma concat_cons {A B} (f : A -> list B) c l : concat (map f (c :: l)) = concat (map f [c]) ++ concat (map f l).
Proof. cbn [map concat]. rewrite app_nil_r. reflexivity. Qed.
Lemma last_join {A} (a b : list A) d : last (a ++ b) d = last b (last a d).
Proof. revert d. induction a as [|x a IH]; intros d; [reflexivity|]. cbn [app]. rewrite !last_cons. apply IH. Qed.
Definition history {key} (l : list (@call key)) (x y : txbody) : Prop :=
  tb_inputs y = fold_i (map (fun u => {| ti_id := u_id u; ti_index := u_index u |}) (inputs_in l)) (tb_inputs x) /\
  (existsb changes_outputs l = false -> tb_outputs y = tb_outputs x ++ outputs_in l) /\
  (existsb computes_fee l = false -> tb_fee y = last (fees_in l) (tb_fee x)) /\
  tb_ttl y = last (ttls_in l) (tb_ttl x) /\
  tb_certs y = tb_certs x ++ certs_in l /\
  tb_withdrawals y = fold_w (withdrawals_in l) (tb_withdrawals x) /\ tb_metadata_hash y = tb_metadata_hash x.
Lemma calls_history {key} H (pub : key -> list Z) sgn fuel l : forall b b', do_calls H pub sgn fuel b l = Some (Ok b') -> history l (tx_body (b_tx b)) (tx_body (b_tx b')) /\ rest_same b b'.
Proof.
  induction l as [|c l IH]; intros b b' R; cbn [do_calls] in R.
  - injection R as <-. unfold history, rest_same. cbn. rewrite ?app_nil_r. repeat split; reflexivity.
  - apply rbind_ok in R as (b1 & S & R). destruct (call_step _ _ _ _ _ _ _ S) as [(I1 & O1 & F1 & T1 & C1 & W1 & M1) (A1 & A2 & A3)]. destruct (IH _ _ R) as [(I2 & O2 & F2 & T2 & C2 & W2 & M2) (B1 & B2 & B3)].
    unfold history, rest_same. cbn [existsb]. split; [|repeat split; congruence].
    split; [rewrite I2, I1; unfold inputs_in at 3; rewrite concat_cons, map_app; unfold fold_i; rewrite fold_left_app; reflexivity|].
    split; [intros Q; apply Bool.orb_false_iff in Q as [Q1 Q2]; rewrite (O2 Q2), (O1 Q1); unfold outputs_in at 3; rewrite concat_cons, app_assoc; reflexivity|].
    split; [intros Q; apply Bool.orb_false_iff in Q as [Q1 Q2]; rewrite (F2 Q2), (F1 Q1); unfold fees_in at 3; rewrite concat_cons, last_join; reflexivity|].
    split; [rewrite T2, T1; unfold ttls_in at 3; rewrite concat_cons, last_join; reflexivity|].
    split; [rewrite C2, C1; unfold certs_in at 3; rewrite concat_cons, app_assoc; reflexivity|].
    split; [rewrite W2, W1; unfold withdrawals_in at 3; rewrite concat_cons; unfold fold_w; rewrite fold_left_app; reflexivity|congruence].
Qed.
Lemma sorted_nodup {A} (lt : A -> A -> bool) l : (forall x, lt x x = false) -> StronglySorted (fun a b => lt a b = true) l -> NoDup l.
Proof.
  intros IR. induction 1 as [|x l S IH F]; constructor; [|exact IH]. intros I. rewrite Forall_forall in F. specialize (F x I). rewrite IR in F. discriminate.
Qed.
Lemma sortedw_nodup l : sortedw l -> NoDup (map fst l).
Proof.
  induction 1 as [|x l S IH F]; cbn [map]; constructor; [|exact IH]. intros I. apply in_map_iff in I as (y & E & I). rewrite Forall_forall in F. specialize (F y I). rewrite E, (st_irr _ lex_st) in F. discriminate.
Qed.

(** ** Shelley builder *)
Theorem C64_what_was_asked : forall key H (pub : key -> list Z) sgn fuel l b, do_calls H pub sgn fuel new_builder l = Some (Ok b) ->
  let t := tx_body (b_tx b) in
  (forall i, In i (tb_inputs t) <-> exists u, In (AddInput u) l /\ i = {| ti_id := u_id u; ti_index := u_index u |}) /\ NoDup (tb_inputs t) /\
  (forall addr n, In (addr, n) (tb_withdrawals t) <-> last_withdrawal (withdrawals_in l) addr n) /\ NoDup (map fst (tb_withdrawals t)) /\
  tb_certs t = certs_in l /\ tb_ttl t = last (ttls_in l) 0 /\
  ((forall d f, ~ In (Balance d f) l) -> tb_outputs t = outputs_in l) /\
  ((forall d f, ~ In (Balance d f) l) -> (forall d, ~ In (UpdateFee d) l) -> tb_fee t = last (fees_in l) 0) /\
  tb_metadata_hash t = None /\ tx_meta (b_tx b) = false /\ ws_scripts (tx_wits (b_tx b)) = [] /\ ws_bootstrap (tx_wits (b_tx b)) = 0.
Proof.
  intros key H pub sgn fuel l b R. cbv zeta. destruct (calls_history _ _ _ _ _ _ _ R) as [(I & O & F & T & C & W & M) (A1 & A2 & A3)].
  cbn [new_builder b_tx tx_body tx_wits tx_meta empty_body empty_wits tb_inputs tb_outputs tb_fee tb_ttl tb_certs tb_withdrawals tb_metadata_hash ws_scripts ws_bootstrap] in *.
  destruct (set_fold txin_lt txin_st (map (fun u => {| ti_id := u_id u; ti_index := u_index u |}) (inputs_in l)) [] (SSorted_nil _)) as [SS SI]. fold (fold_i (map (fun u => {| ti_id := u_id u; ti_index := u_index u |}) (inputs_in l)) []) in SS, SI. rewrite <- I in SS, SI.
  split; [|split; [apply (sorted_nodup txin_lt); [apply (st_irr _ txin_st)|exact SS]|]].
  { intros i. rewrite SI, in_map_iff. unfold inputs_in. split.
    - intros [[]|(u & <- & J)]. apply in_concat in J as (x & J & K). apply in_map_iff in J as (c & <- & J). exists u. destruct c; try (destruct K; fail). destruct K as [->|[]]. auto.
    - intros (u & J & ->). right. exists u. split; [reflexivity|]. apply in_concat. exists [u]. split; [|left; reflexivity]. apply in_map_iff. exists (AddInput u). auto. }
  split; [intros addr n; rewrite W; apply fold_w_spec|]. split; [rewrite W; apply sortedw_nodup, fold_w_sorted; constructor|].
  split; [exact C|]. split; [exact T|].
  assert (NB : forall (p : call -> bool), (forall c, In c l -> p c = false) -> existsb p l = false).
  { intros p Q. destruct (existsb p l) eqn:E; [|reflexivity]. apply existsb_exists in E as (c & J & E). rewrite (Q c J) in E. discriminate. }
  split; [intros NX; apply O, NB; intros c J; destruct c; try reflexivity; destruct (NX _ _ J)|].
  split; [intros NX NU; apply F, NB; intros c J; destruct c; try reflexivity; [destruct (NU _ J)|destruct (NX _ _ J)]|].
  repeat split; assumption.
Qed.
(** ** Babbage builder *)
Definition bempty (a c : Z) : bbuilder :=
  {| bb_body := {| bb_inputs := []; bb_outputs := []; bb_fee := 0; bb_ttl := None; bb_certs := []; bb_withdrawals := [] |}; bb_vkeys := []; bb_flag := true; bb_a := a; bb_b := c |}.
Definition bhistory {key} (l : list (@bcall key)) (x y : btxbody) : Prop :=
  bb_inputs y = fold_i (binputs_in l) (bb_inputs x) /\ bb_outputs y = bb_outputs x ++ boutputs_in l /\
  (existsb bcomputes_fee l = false -> bb_fee y = last (bfees_in l) (bb_fee x)) /\
  bb_ttl y = last (map Some (bttls_in l)) (bb_ttl x) /\ bb_certs y = bb_certs x /\ bb_withdrawals y = fold_w (bwithdrawals_in l) (bb_withdrawals x).
Lemma bfee_loop_shape fuel : forall b c b', bb_fee_loop fuel b c = Some (Ok b') -> exists f, b' = bb_upd b (bb_set_fee_only (bb_body b) f) (bb_vkeys b).
Proof.
  induction fuel as [|k IH]; intros b c b'; cbn [bb_fee_loop]; destruct (c =? bb_fee (bb_body b)); intros R; try discriminate; try (injection R as <-; exists (bb_fee (bb_body b)); destruct b as [[] v f a1 b1]; reflexivity).
  apply IH in R as (f & ->). exists f. reflexivity.
Qed.
Lemma bcall_step {key} H (pub : key -> list Z) sgn fuel b c b' : do_bcall H pub sgn fuel b c = Some (Ok b') -> bhistory [c] (bb_body b) (bb_body b') /\ (forall id i, c = BAddInput id i -> 32 <= zlen id) /\ bb_flag b' = bb_flag b.
Proof.
  unfold bhistory. intros S. destruct c; cbn [do_bcall] in S; unfold lift in S;
    cbn [existsb binputs_in boutputs_in bwithdrawals_in bttls_in bfees_in bcomputes_fee map concat app last fold_i fold_w fold_left fst snd orb].
  - unfold bb_add_input in S. destruct (Z.ltb_spec (zlen id) 32); [discriminate|]. injection S as <-. cbn. rewrite app_nil_r. repeat split; try reflexivity. intros id' i E. injection E as <- <-. exact H0.
  - injection S as <-. destruct prebabbage; cbn; repeat split; try reflexivity; discriminate.
  - injection S as <-. cbn. rewrite app_nil_r. repeat split; try reflexivity; discriminate.
  - injection S as <-. cbn. rewrite app_nil_r. repeat split; try reflexivity; discriminate.
  - injection S as <-. cbn. rewrite app_nil_r. repeat split; try reflexivity; discriminate.
  - apply rbind_ok in S as (r & S & S2). injection S2 as <-. unfold bb_calculate_fee in S. cbv zeta in S. apply rbind_ok in S as (b1 & S & S2). unfold lift in S2. injection S2 as <-. apply bfee_loop_shape in S as (f & ->). cbn. rewrite app_nil_r. repeat split; try reflexivity; discriminate.
  - injection S as <-. cbn. rewrite app_nil_r. repeat split; try reflexivity; discriminate.
  - injection S as <-. cbn. rewrite app_nil_r. repeat split; try reflexivity; discriminate.
  - injection S as <-. cbn. rewrite app_nil_r. repeat split; try reflexivity; discriminate.
  - injection S as <-. cbn. rewrite app_nil_r. repeat split; try reflexivity; discriminate.
  - injection S as <-. cbn. rewrite app_nil_r. repeat split; try reflexivity; discriminate.
  - discriminate.
Qed.
Lemma bcalls_history {key} H (pub : key -> list Z) sgn fuel l : forall b b', do_bcalls H pub sgn fuel b l = Some (Ok b') ->
  bhistory l (bb_body b) (bb_body b') /\ (forall id i, In (BAddInput id i) l -> 32 <= zlen id) /\ bb_flag b' = bb_flag b.
Proof.
  induction l as [|c l IH]; intros b b' R; cbn [do_bcalls] in R.
  - injection R as <-. unfold bhistory. cbn. rewrite ?app_nil_r. repeat split; try reflexivity. intros ? ? [].
  - apply rbind_ok in R as (b1 & S & R). destruct (bcall_step _ _ _ _ _ _ _ S) as [(I1 & O1 & F1 & T1 & C1 & W1) [N1 G1]]. destruct (IH _ _ R) as [(I2 & O2 & F2 & T2 & C2 & W2) [N2 G2]].
    unfold bhistory. cbn [existsb] in *. split; [|split; [|congruence]].
    + split; [rewrite I2, I1; unfold binputs_in at 3; rewrite concat_cons; unfold fold_i; rewrite fold_left_app; reflexivity|].
      split; [rewrite O2, O1; unfold boutputs_in at 3; rewrite concat_cons, app_assoc; reflexivity|].
      split; [intros Q; apply Bool.orb_false_iff in Q as [Q1 Q2]; rewrite (F2 Q2), F1 by (rewrite Q1; reflexivity); unfold bfees_in at 3; rewrite concat_cons, last_join; reflexivity|].
      split; [rewrite T2, T1; unfold bttls_in at 3; rewrite concat_cons, map_app, last_join; reflexivity|].
      split; [congruence|rewrite W2, W1; unfold bwithdrawals_in at 3; rewrite concat_cons; unfold fold_w; rewrite fold_left_app; reflexivity].
    + intros id i [E|J]; [exact (N1 _ _ E)|exact (N2 _ _ J)].
Qed.
Theorem C64_babbage_what_was_asked : forall key H (pub : key -> list Z) sgn fuel l a c b, do_bcalls H pub sgn fuel (bempty a c) l = Some (Ok b) ->
  let t := bb_body b in
  (forall i, In i (bb_inputs t) <-> exists id n, In (BAddInput id n) l /\ 32 <= zlen id /\ i = {| ti_id := firstn 32 id; ti_index := n |}) /\ NoDup (bb_inputs t) /\
  (forall addr n, In (addr, n) (bb_withdrawals t) <-> last_withdrawal (bwithdrawals_in l) addr n) /\ NoDup (map fst (bb_withdrawals t)) /\
  bb_outputs t = boutputs_in l /\ bb_certs t = [] /\ bb_ttl t = last (map Some (bttls_in l)) None /\ bb_flag b = true /\
  ((forall d, ~ In (BCalculateFee d) l) -> bb_fee t = last (bfees_in l) 0).
Proof.
  intros key H pub sgn fuel l a c b R. cbv zeta. destruct (bcalls_history _ _ _ _ _ _ _ R) as [(I & O & F & T & C & W) [N G]].
  cbn [bempty bb_body bb_inputs bb_outputs bb_fee bb_ttl bb_certs bb_withdrawals bb_flag] in *.
  destruct (set_fold txin_lt txin_st (binputs_in l) [] (SSorted_nil _)) as [SS SI]. fold (fold_i (binputs_in l) []) in SS, SI. rewrite <- I in SS, SI.
  split; [|split; [apply (sorted_nodup txin_lt); [apply (st_irr _ txin_st)|exact SS]|]].
  { intros i. rewrite SI. unfold binputs_in. split.
    - intros [[]|J]. apply in_concat in J as (x & J & K). apply in_map_iff in J as (c' & <- & J). destruct c'; try (destruct K; fail). destruct K as [<-|[]]. exists id, index. split; [exact J|]. split; [exact (N _ _ J)|reflexivity].
    - intros (id & n & J & _ & ->). right. apply in_concat. eexists. split; [apply in_map_iff; exists (BAddInput id n); split; [reflexivity|exact J]|left; reflexivity]. }
  split; [intros addr n; rewrite W; apply fold_w_spec|]. split; [rewrite W; apply sortedw_nodup, fold_w_sorted; constructor|].
  split; [exact O|]. split; [exact C|]. split; [exact T|]. split; [exact G|]. intros NX. apply F.
  destruct (existsb bcomputes_fee l) eqn:E; [|reflexivity]. apply existsb_exists in E as (c' & J & E). destruct c'; try discriminate. destruct (NX _ J).
Qed.

(** ** Non-vacuity *)
Example C64_ex : exists b, do_calls (fun x => x) (fun k : list Z => k) (fun k m => k ++ m) 5 new_builder
    [AddInput {| u_id := ex_hash 1 32; u_index := 1; u_value := 9 |}; AddOutput (ex_hash 8 29) 5; SetTtl 3; AddWithdrawal {| ra_header := 225; ra_hash := ex_hash 2 28 |} 3;
     Sign [7]; AddStakeDeleg {| ra_header := 225; ra_hash := ex_hash 2 28 |} (ex_hash 3 28); AddInput {| u_id := ex_hash 1 32; u_index := 0; u_value := 9 |}; SetTtl 4;
     AddWithdrawal {| ra_header := 225; ra_hash := ex_hash 2 28 |} 2; SetFee 17] = Some (Ok b) /\
  tb_withdrawals (tx_body (b_tx b)) = [(225 :: ex_hash 2 28, 2)] /\ tb_ttl (tx_body (b_tx b)) = 4 /\ map ti_index (tb_inputs (tx_body (b_tx b))) = [0; 1].
Proof. eexists. split; [vm_compute; reflexivity|]. split; [|split]; vm_compute; reflexivity. Qed.
Example C64_ex_babbage : exists b, do_bcalls (fun x => x) (fun k : list Z => k) (fun k m => k ++ m) 5 (bempty 44 155381)
    [BAddInput (ex_hash 1 32) 1; BAddOutput (ex_hash 8 29) 5 true; BAddOutput (ex_hash 8 29) 6 false; BSetTtl 3; BSign [7]; BSetTtl 4; BSetFee 17] = Some (Ok b) /\
  bb_ttl (bb_body b) = Some 4 /\ bb_fee (bb_body b) = 17 /\ length (bb_outputs (bb_body b)) = 2%nat.
Proof. eexists. split; [vm_compute; reflexivity|]. split; [|split]; vm_compute; reflexivity. Qed.
Print Assumptions C64_what_was_asked.
Print Assumptions C64_babbage_what_was_asked.
