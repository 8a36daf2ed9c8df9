(** Property C72: from the calls to the node, Babbage.  A transaction built, given its fee and signed with the Babbage builder is accepted if, and only if, the caller's amounts add up. *)
From Verif Require Import Base BaseLemmas Spec_Cbor Model_Cbor Proof_Cbor Model_Address Spec_Ledger Model_Ledger Proof_Ledger Proof_Ledger2 Model_Tx Spec_Tx Proof_Tx Proof_Tx2 Proof_Tx3 Proof_Babbage Props_Ledger Props_Tx Props_Wire Props_History Spec_Node Props_Node Spec_NodeB.
From Coq Require Import Sorted Permutation.
Ltac Zify.zify_post_hook ::= idtac.

(** ** Specification: the histories in question *)
(** the arguments are values of the C++ parameter types *)
Definition bcall_ok {key} (c : @bcall key) : Prop :=
  match c with
  | BAddInput id i => bytes_ok id /\ u64 i
  | BAddOutput a v _ => text_ok a /\ u64 v
  | BAddWithdrawal a v => account_ok a /\ u64 v
  | BSetTtl t => u64 t
  | _ => True
  end.
(** an output as the ledger's CDDL has it: before Babbage an array, since then a map *)
Definition cddl_output (addr : list Z) (v : Z) (prebabbage : bool) : cbor := if prebabbage then CArray [CBytes addr; CUint v] else CMap [(CUint 0, CBytes addr); (CUint 1, CUint v)].
Definition paid {key} (l : list (@bcall key)) : list Z := concat (map (fun c => match c with BAddOutput _ v _ => [v] | _ => [] end) l).
(** what the history asks for: its distinct inputs, and the last amount for each account *)
Definition asks_inputs {key} (l : list (@bcall key)) (ins : list (list Z * Z)) : Prop :=
  NoDup ins /\ forall id i, In (id, i) ins <-> exists id', In (BAddInput id' i) l /\ id = firstn 32 id'.
Definition asks_withdrawals {key} (l : list (@bcall key)) (wds : list (list Z * Z)) : Prop :=
  NoDup (map fst wds) /\ forall a v, In (a, v) wds <-> last_withdrawal (bwithdrawals_in l) a v.
(** the fee parameters set *)
Definition bmin_as {key} (l : list (@bcall key)) : list Z := concat (map (fun c => match c with BSetMinFeeA a => [a] | _ => [] end) l).
Definition bmin_bs {key} (l : list (@bcall key)) : list Z := concat (map (fun c => match c with BSetMinFeeB a => [a] | _ => [] end) l).
(** whose signatures are needed *)
Definition bmust_sign (n : bnode) (ins wds : list (list Z * Z)) (h : list Z) : Prop :=
  (exists id i v, In (id, i) ins /\ bn_utxo n id i = Some (v, h)) \/ (exists a v, In (a, v) wds /\ h = skipn 1 a).

(** ** Lemmas *)
Lemma do_bcalls_app {key} H (pub : key -> list Z) sgn fuel l1 l2 : forall b b', do_bcalls H pub sgn fuel b (l1 ++ l2) = Some (Ok b') ->
  exists b1, do_bcalls H pub sgn fuel b l1 = Some (Ok b1) /\ do_bcalls H pub sgn fuel b1 l2 = Some (Ok b').
Proof.
  induction l1 as [|c l1 IH]; intros b b' R; [exists b; split; [reflexivity|exact R]|]. cbn [app do_bcalls] in R |- *.
  apply rbind_ok in R as (b1 & S & R). rewrite S. cbn [rbind]. exact (IH b1 b' R).
Qed.
Lemma bcall_params {key} H (pub : key -> list Z) sgn fuel b c b' : do_bcall H pub sgn fuel b c = Some (Ok b') -> bb_a b' = last (bmin_as [c]) (bb_a b) /\ bb_b b' = last (bmin_bs [c]) (bb_b b).
Proof.
  intros S. destruct c; cbn [do_bcall] in S; unfold lift in S; cbn [bmin_as bmin_bs map concat app last].
  - unfold bb_add_input in S. destruct (zlen id <? 32); [discriminate|]. injection S as <-. split; reflexivity.
  - injection S as <-. split; reflexivity.
  - injection S as <-. split; reflexivity.
  - injection S as <-. split; reflexivity.
  - injection S as <-. split; reflexivity.
  - apply rbind_ok in S as ([f b2] & S & E). cbn [snd] in E. assert (b2 = b') by congruence. subst b2. apply C37_babbage_fee_exact in S as [-> _]. split; reflexivity.
  - injection S as <-. split; reflexivity.
  - injection S as <-. split; reflexivity.
  - injection S as <-. split; reflexivity.
  - injection S as <-. split; reflexivity.
  - injection S as <-. split; reflexivity.
  - discriminate.
Qed.
Lemma bcalls_params {key} H (pub : key -> list Z) sgn fuel l : forall b b', do_bcalls H pub sgn fuel b l = Some (Ok b') -> bb_a b' = last (bmin_as l) (bb_a b) /\ bb_b b' = last (bmin_bs l) (bb_b b).
Proof.
  induction l as [|c l IH]; intros b b' R; cbn [do_bcalls] in R; [injection R as <-; split; reflexivity|]. apply rbind_ok in R as (b1 & S & R).
  destruct (bcall_params _ _ _ _ _ _ _ S) as [A B]. destruct (IH _ _ R) as [A' B']. rewrite A', B', A, B. split; [unfold bmin_as at 3|unfold bmin_bs at 3]; rewrite concat_cons, last_join; reflexivity.
Qed.
(** signing: one witness per key *)
Lemma babbage_sign_many {key} H (pub : key -> list Z) sgn fuel ks : forall b b', NoDup (map fst (bb_vkeys b)) -> do_bcalls H pub sgn fuel b (map BSign ks) = Some (Ok b') ->
  NoDup (map fst (bb_vkeys b')) /\ (forall v, In v (map fst (bb_vkeys b')) <-> In v (map fst (bb_vkeys b)) \/ In v (map pub ks)) /\ b' = bb_upd b (bb_body b) (bb_vkeys b').
Proof.
  induction ks as [|k ks IH]; intros b b' ND R; cbn [map do_bcalls] in R.
  - injection R as <-. split; [exact ND|]. split; [intros v; cbn; tauto|]. destruct b; reflexivity.
  - apply rbind_ok in R as (b1 & S & R). cbn [do_bcall] in S. unfold lift in S. assert (E : b1 = bb_sign H pub sgn b k) by congruence. clear S.
    assert (W1 : bb_vkeys b1 = filter (fun e => negb (zlist_eqb (fst e) (pub k))) (bb_vkeys b) ++ [(pub k, sgn k (bb_get_id H b))]) by (rewrite E; reflexivity).
    assert (IN : forall v, In v (map fst (filter (fun e => negb (zlist_eqb (fst e) (pub k))) (bb_vkeys b))) <-> In v (map fst (bb_vkeys b)) /\ v <> pub k).
    { intros v. rewrite !in_map_iff. split.
      - intros (x & E' & I). apply filter_In in I as [I J]. split; [exists x; auto|]. intros ->. rewrite E', zlist_eqb_refl in J. discriminate.
      - intros [(x & E' & I) N]. exists x. split; [exact E'|]. apply filter_In. split; [exact I|]. destruct (zlist_eqb (fst x) (pub k)) eqn:Q; [apply zlist_eqb_spec in Q; congruence|reflexivity]. }
    assert (ND1 : NoDup (map fst (bb_vkeys b1))).
    { rewrite W1, map_app. cbn [map fst]. apply (Permutation_NoDup (Permutation_app_comm [pub k] _)). cbn [app]. constructor; [intros I; apply IN in I as [_ N]; contradiction|]. clear -ND. induction (bb_vkeys b) as [|x l IHl]; [constructor|]. cbn [map filter] in *. inversion ND as [|? ? N1 N2]; subst.
      destruct (negb _); [|apply IHl, N2]. cbn [map]. constructor; [|apply IHl, N2]. intros I. apply N1. apply in_map_iff in I as (y & E & I). apply filter_In in I as [I _]. rewrite <- E. apply in_map, I. }
    destruct (IH b1 b' ND1 R) as (G1 & G2 & G3). split; [exact G1|]. split.
    + intros v. rewrite G2, W1, map_app, in_app_iff, IN. cbn [map fst In]. destruct (list_eq_dec Z.eq_dec v (pub k)) as [->|NE]; intuition congruence.
    + rewrite G3, E. reflexivity.
Qed.
Lemma bbody_ok b : bbody_wf b -> cbor_ok (btxbody_ser b).
Proof.
  intros (WI & WO & WF & WT & WW).
  pose proof (ok_many _ txin_ser _ WI txin_ok) as K0. pose proof (ok_many _ btxout_ser _ WO btxout_ok) as K1. pose proof (wd_ok _ WW) as K5.
  assert (S : forall k, 0 <= k < 10 -> cbor_ok (CUint k)) by (intros k B; cbn [cbor_ok]; lia).
  unfold btxbody_ser. apply ok_cmap. split; [destruct (bb_ttl b), (bb_withdrawals b); unfold zlen; cbn [length app]; lia|].
  apply Forall_app. split; [|apply Forall_app; split].
  - constructor; [split; [apply S; lia|exact K0]|]. constructor; [split; [apply S; lia|exact K1]|]. constructor; [split; [apply S; lia|exact WF]|constructor].
  - destruct (bb_ttl b); constructor; [split; [apply S; lia|exact WT]|constructor].
  - destruct (bb_withdrawals b) as [|p w]; constructor; [split; [apply S; lia|exact K5]|constructor].
Qed.
Lemma bwits_ok v : many vkey_wf v -> cbor_ok (bwitset_ser v).
Proof.
  intros WV. pose proof (ok_many _ vkey_ser _ WV vkey_ok) as KV. unfold bwitset_ser. apply ok_cmap. destruct v; (split; [reflexivity|]); [apply Forall_nil|apply Forall_cons; [split; [cbn [cbor_ok fst]; lia|exact KV]|apply Forall_nil]].
Qed.
Lemma btx_wire b : bbody_wf (bb_body b) -> many vkey_wf (bb_vkeys b) -> bb_flag b = true ->
  is_btx (cbor_encode (btx_ser (bb_body b) (bb_vkeys b) (bb_flag b))) (cbor_encode (btxbody_ser (bb_body b)))
    {| bw_ins := map (fun i => (ti_id i, ti_index i)) (bb_inputs (bb_body b)); bw_outs := map wire_btxout (bb_outputs (bb_body b)); bw_fee := bb_fee (bb_body b); bw_ttl := bb_ttl (bb_body b);
       bw_wds := bb_withdrawals (bb_body b); bw_sigs := bb_vkeys b |}.
Proof.
  intros W WV FL. rewrite FL. destruct (C63_babbage_transaction _ _ true W WV) as (body & wits & D & DB & ND & K & KW & EN & EW). unfold denotes in D, DB. exists body, wits.
  eexists. split; [exact D|]. split; [unfold btx_ser; cbn [cbor_encode map concat app]; change (cbor_head 4 (zlen [btxbody_ser (bb_body b); bwitset_ser (bb_vkeys b); CBool true; CNull])) with [132]; cbn [app]; reflexivity|]. split; [exact DB|].
  cbn [bw_ins bw_outs bw_fee bw_ttl bw_wds bw_sigs]. rewrite map_map.
  assert (OK : forall c ks, (forall k, In k (keys c) <-> exists n, k = CUint n /\ exists v, entry c n v) -> (exists m, c = CMap m) -> (forall n v, entry c n v -> In n ks) -> only_keys c ks).
  { intros c ks KC (m & ->) Q. cbn [only_keys keys] in *. intros k I. apply KC in I as (z & -> & v & I). exists z. split; [exact (Q z v I)|reflexivity]. }
  assert (E0 : entry body 0 (CArray (map wire_txin (bb_inputs (bb_body b))))) by (apply EN; left; split; reflexivity).
  assert (BM : exists m, body = CMap m) by (destruct body; try contradiction; eauto).
  assert (WM : exists m, wits = CMap m /\ NoDup (map fst m)).
  { assert (CO : cbor_ok (bwitset_ser (bb_vkeys b))) by exact (bwits_ok _ WV). pose proof (encode_denotes _ CO) as Q. unfold denotes in Q.
    assert (CB : cbor_ok (btxbody_ser (bb_body b))) by exact (bbody_ok _ W). assert (CT : cbor_ok (btx_ser (bb_body b) (bb_vkeys b) true)) by (apply ok_array; split; [reflexivity|]; constructor; [exact CB|]; constructor; [exact CO|]; repeat constructor).
    pose proof (encode_denotes _ CT) as Q'. unfold denotes in Q'. rewrite D in Q'. unfold btx_ser in Q'. injection Q' as _ ->. unfold bwitset_ser. eexists. split; [reflexivity|]. destruct (bb_vkeys b); cbn; repeat constructor. intros []. }
  split. { apply OK; [exact K|exact BM|]. intros n v I. apply EN in I. cbn [In]. destruct I as [[-> _]|[[-> _]|[[-> _]|[[-> _]|[-> _]]]]]; tauto. }
  split; [apply at_key_entry; [exact ND|exact E0]|].
  split; [apply at_key_entry; [exact ND|]; apply EN; right; left; split; reflexivity|].
  split; [apply at_key_entry; [exact ND|]; apply EN; tauto|].
  split. { destruct (bb_ttl (bb_body b)) as [t|] eqn:T.
    - apply at_key_entry; [exact ND|]. apply EN. right. right. right. left. split; [reflexivity|]. exists t. auto.
    - intros x Q. apply at_key_entry in Q; [|exact ND]. apply EN in Q. destruct Q as [[Q _]|[[Q _]|[[Q _]|[(_ & t & Q & _)|[Q _]]]]]; discriminate. }
  split. { unfold at_key_opt. destruct (bb_withdrawals (bb_body b)) as [|x l].
    - left. split; [reflexivity|]. intros v Q. apply at_key_entry in Q; [|exact ND]. apply EN in Q. destruct Q as [[Q _]|[[Q _]|[[Q _]|[[Q _]|(_ & Q & _)]]]]; try discriminate. apply Q. reflexivity.
    - right. split; [discriminate|]. apply at_key_entry; [exact ND|]. apply EN. right. right. right. right. split; [reflexivity|]. split; [discriminate|reflexivity]. }
  destruct WM as (m & WM & NW). assert (NW' : NoDup (keys wits)) by (rewrite WM; exact NW).
  split. { apply OK; [exact KW|eauto|]. intros n v I. apply EW in I. destruct I as [-> _]. left. reflexivity. }
  unfold at_key_opt. destruct (bb_vkeys b) as [|x l].
  - left. split; [reflexivity|]. intros v Q. apply at_key_entry in Q; [|exact NW']. apply EW in Q. destruct Q as (_ & Q & _). congruence.
  - right. split; [discriminate|]. apply at_key_entry; [exact NW'|]. apply EW. split; [reflexivity|]. split; [discriminate|reflexivity].
Qed.

Lemma is_btx_fun s sb sb' t t' : is_btx s sb t -> is_btx s sb' t' -> t = t'.
Proof.
  intros (body & wits & rest & R & _ & _ & _ & A0 & A1 & A2 & A3 & A5 & _ & W) (body' & wits' & rest' & R' & _ & _ & _ & A0' & A1' & A2' & A3' & A5' & _ & W'). rewrite R in R'. injection R' as <- <-. clear R.
  assert (J1 : forall x y : list Z * Z, bytes_uint x = bytes_uint y -> x = y) by (intros [? ?] [? ?] E; unfold bytes_uint in E; cbn [fst snd] in E; injection E as -> ->; reflexivity). assert (J2 : forall x y : list Z * list Z, two_bytes x = two_bytes y -> x = y) by (intros [? ?] [? ?] E; unfold two_bytes in E; cbn [fst snd] in E; injection E as -> ->; reflexivity).
  pose proof (at_key_fun _ _ _ _ A0 A0') as E0. pose proof (at_key_fun _ _ _ _ A1 A1') as E1. pose proof (at_key_fun _ _ _ _ A2 A2') as E2.
  assert (E0' : bw_ins t = bw_ins t') by (apply (map_inj bytes_uint); [exact J1|congruence]). assert (E1' : bw_outs t = bw_outs t') by congruence. assert (E2' : bw_fee t = bw_fee t') by congruence.
  assert (E3 : bw_ttl t = bw_ttl t').
  { destruct (bw_ttl t) as [x|], (bw_ttl t') as [y|]; [|destruct (A3' _ A3)|destruct (A3 _ A3')|reflexivity]. pose proof (at_key_fun _ _ _ _ A3 A3'). congruence. }
  assert (E5 : bw_wds t = bw_wds t').
  { refine (at_key_opt_fun _ _ _ _ (fun l => CMap (map (fun p => (CBytes (fst p), CUint (snd p))) l)) _ A5 A5'). intros x y E. apply (map_inj (fun p : list Z * Z => (CBytes (fst p), CUint (snd p)))); [|congruence]. intros [? ?] [? ?] Q. cbn [fst snd] in Q. congruence. }
  assert (E6 : bw_sigs t = bw_sigs t') by (refine (at_key_opt_fun _ _ _ _ (fun l => CArray (map two_bytes l)) _ W W'); intros x y E; apply (map_inj two_bytes); [exact J2|congruence]).
  destruct t, t'. cbn in *. congruence.
Qed.
Lemma in_binputs {key} (l : list (@bcall key)) x : In x (binputs_in l) <-> exists id i, In (BAddInput id i) l /\ x = {| ti_id := firstn 32 id; ti_index := i |}.
Proof.
  unfold binputs_in. rewrite in_concat. split.
  - intros (y & J & K). apply in_map_iff in J as (c & <- & J). destruct c; try (destruct K; fail). destruct K as [<-|[]]. eauto.
  - intros (id & i & J & ->). eexists. split; [apply in_map_iff; exists (BAddInput id i); split; [reflexivity|exact J]|left; reflexivity].
Qed.
Lemma in_bouts {key} (l : list (@bcall key)) o : In o (boutputs_in l) -> exists a v p, In (BAddOutput a v p) l /\ wire_btxout o = cddl_output a v p /\ (bcall_ok (@BAddOutput key a v p) -> btxout_wf o).
Proof.
  unfold boutputs_in. rewrite in_concat. intros (y & J & K). apply in_map_iff in J as (c & <- & J). destruct c; try (destruct K; fail). destruct prebabbage; destruct K as [<-|[]]; exists addr, amount; eexists; (split; [exact J|]); (split; [reflexivity|]); intros [Q1 Q2].
  - split; [exact Q1|]. split; [exact Q2|exact I].
  - split; [exact Q1|exact Q2].
Qed.
Lemma sum_paid {key} (l : list (@bcall key)) : map coins (map wire_btxout (boutputs_in l)) = paid l.
Proof.
  unfold boutputs_in, paid. induction l as [|c l IH]; [reflexivity|]. cbn [map concat]. rewrite !map_app, IH. f_equal. destruct c; try reflexivity. destruct prebabbage; reflexivity.
Qed.
Lemma firstn32 (id : list Z) : bytes_ok id -> 32 <= zlen id -> bytesN 32 (firstn 32 id).
Proof. intros B L. split; [unfold bytes_ok in *; rewrite <- (firstn_skipn 32 id) in B; apply Forall_app in B; apply B|]. unfold zlen in *. rewrite firstn_length. lia. Qed.
Lemma len_fold_i l : forall acc, zlen (fold_i l acc) <= zlen l + zlen acc.
Proof.
  induction l as [|x l IH]; intros acc; [unfold zlen; cbn; lia|]. cbn [fold_i fold_left]. fold (fold_i l (set_insert txin_lt x acc)). specialize (IH (set_insert txin_lt x acc)).
  assert (zlen (set_insert txin_lt x acc) <= zlen acc + 1). { clear. induction acc as [|y r IH]; [unfold zlen; cbn; lia|]. cbn [set_insert]. destruct (txin_lt x y); [unfold zlen; cbn [length]; lia|]. destruct (txin_lt y x); unfold zlen in *; cbn [length]; lia. }
  unfold zlen in *. cbn [length]. lia.
Qed.
Lemma len_fold_w l : forall acc, zlen (fold_w l acc) <= zlen l + zlen acc.
Proof.
  induction l as [|x l IH]; intros acc; [unfold zlen; cbn; lia|]. cbn [fold_w fold_left]. fold (fold_w l (map_assign (RewardsAddress_toBytes (fst x)) (snd x) acc)). specialize (IH (map_assign (RewardsAddress_toBytes (fst x)) (snd x) acc)).
  assert (zlen (map_assign (RewardsAddress_toBytes (fst x)) (snd x) acc) <= zlen acc + 1). { clear. induction acc as [|y r IH]; [unfold zlen; cbn; lia|]. cbn [map_assign]. destruct y as [k v]. destruct (lex_lt _ k); [unfold zlen; cbn [length]; lia|]. destruct (lex_lt k _); unfold zlen in *; cbn [length]; lia. }
  unfold zlen in *. cbn [length]. lia.
Qed.

(** what a history leaves in the body *)
Lemma bhistory_wf {key} H (pub : key -> list Z) sgn fuel a c l b : do_bcalls H pub sgn fuel (bempty a c) l = Some (Ok b) -> Forall bcall_ok l -> zlen l < 2 ^ 60 -> u64 (bb_fee (bb_body b)) -> bbody_wf (bb_body b).
Proof.
  intros R OK LL FU. destruct (bcalls_history _ _ _ _ _ _ _ R) as [(I & O & _ & T & _ & W) [N _]]. cbn [bempty bb_body bb_inputs bb_outputs bb_ttl bb_withdrawals app] in I, O, T, W.
  rewrite Forall_forall in OK. assert (PP : (2:Z) ^ 60 < 2 ^ 64) by reflexivity.
  destruct (C64_babbage_what_was_asked _ _ _ _ _ _ _ _ _ R) as (QI & _ & QW & _).
  assert (LI : zlen (binputs_in l) <= zlen l) by (apply len_concat; intros []; cbn; lia). assert (LO : zlen (boutputs_in l) <= zlen l) by (apply len_concat; intros c0; destruct c0 as [ |? ? []| | | | | | | | | | ]; cbn; lia). assert (LW : zlen (bwithdrawals_in l) <= zlen l) by (apply len_concat; intros []; cbn; lia).
  split; [|split; [|split; [exact FU|split]]].
  - split; [|rewrite I; pose proof (len_fold_i (binputs_in l) []) as X; unfold zlen in *; cbn [length] in *; lia]. apply Forall_forall. intros i J. apply QI in J as (id & n & J & L & ->). destruct (OK _ J) as [B U]. split; [apply firstn32; assumption|exact U].
  - split; [|rewrite O; unfold zlen in *; lia]. rewrite O. apply Forall_forall. intros o J. apply in_bouts in J as (ad & v & p & J & _ & K). exact (K (OK _ J)).
  - rewrite T. destruct (last_in_or (map Some (bttls_in l)) None) as [J|J]; [|rewrite J; exact Logic.I]. apply in_map_iff in J as (t & E & J). rewrite <- E. cbn [opt]. unfold bttls_in in J. apply in_concat in J as (x & J1 & J2). apply in_map_iff in J1 as (c' & <- & J1). specialize (OK _ J1).
    destruct c'; try (destruct J2; fail). destruct J2 as [<-|[]]. exact OK.
  - split; [|rewrite W; pose proof (len_fold_w (bwithdrawals_in l) []) as X; unfold zlen in *; cbn [length] in *; lia]. apply Forall_forall. intros [ad v] J. apply QW in J as (l1 & a1 & l2 & E & <- & _). cbn [fst snd].
    assert (J : In (a1, v) (bwithdrawals_in l)) by (rewrite E; apply in_or_app; right; left; reflexivity). unfold bwithdrawals_in in J. apply in_concat in J as (x & J1 & J2). apply in_map_iff in J1 as (c' & <- & J1). specialize (OK _ J1).
    destruct c'; try (destruct J2; fail). destruct J2 as [E2|[]]. assert (a0 = a1) by congruence. assert (amount = v) by congruence. subst. destruct OK as [[A1 [A2 A3]] A4]. split; [|exact A4]. split; [constructor; [exact A1|exact A2]|]. unfold RewardsAddress_toBytes, zlen in *. cbn [length]. lia.
Qed.
Lemma perm_of {A} (l m : list A) : NoDup l -> NoDup m -> (forall x, In x l <-> In x m) -> Permutation l m.
Proof. intros. apply NoDup_Permutation; assumption. Qed.

Lemma no_signs {key A} (f : @bcall key -> list A) l d (ks : list key) : f (BCalculateFee d) = [] -> (forall k, f (BSign k) = []) -> concat (map f (l ++ [BCalculateFee d] ++ map BSign ks)) = concat (map f l).
Proof.
  intros E F. rewrite !map_app, !concat_app. cbn [map concat]. rewrite E. cbn [app]. assert (concat (map f (map BSign ks)) = []) as -> by (induction ks as [|k r IH]; [reflexivity|]; cbn [map concat]; rewrite F; exact IH). apply app_nil_r.
Qed.

(** ** C72: accepted if and only if the amounts add up *)
Theorem C72_accepted_iff : forall key H256 H224 verifies (pub : key -> list Z) sgn fuel l dummies ks b n ins wds,
  (forall k m, verifies (pub k) m (sgn k m) = true) -> (forall k, bytesN 32 (pub k)) -> (forall k m, bytesN 64 (sgn k m)) ->
  (* built, given its fee for as many signatures as are then made, and signed *)
  do_bcalls H256 pub sgn fuel new_bbuilder (l ++ [BCalculateFee dummies] ++ map BSign ks) = Some (Ok b) -> last (bmin_as l) 44 = bn_fee_a n -> last (bmin_bs l) 155381 = bn_fee_b n ->
  length dummies = length ks -> Forall vkey_wf dummies -> NoDup (map pub ks) ->
  Forall bcall_ok l -> zlen l + zlen ks < 2 ^ 59 -> asks_inputs l ins -> asks_withdrawals l wds ->
  (* spending what exists, paying enough to every output, in time *)
  ins <> [] -> (forall id i, In (id, i) ins -> bn_utxo n id i <> None) -> (forall a v, In (a, v) wds -> bn_rewards n a = Some v) ->
  (forall a v p, In (BAddOutput a v p) l -> bn_min n (cddl_output a v p) <= v) -> (forall t, last (map Some (bttls_in l)) None = Some t -> bn_slot n < t) ->
  (* signed by everyone who must *)
  (forall h, bmust_sign n ins wds h -> exists k, In k ks /\ H224 (pub k) = h) ->
  let s := cbor_encode (btx_ser (bb_body b) (bb_vkeys b) (bb_flag b)) in
  zlen s <= bn_max_size n -> 0 <= bn_fee_a n -> 0 <= bn_fee_b n -> bn_fee_a n * bn_max_size n + bn_fee_b n < 2 ^ 64 ->
  bb_fee (bb_body b) = bn_fee_a n * zlen s + bn_fee_b n /\
  (baccepts H256 H224 verifies n s <-> sum (map (bvalue_of n) ins) + sum (map snd wds) = sum (paid l) + bb_fee (bb_body b)).
Proof.
  intros key H256 H224 verifies pub sgn fuel l d ks b n ins wds VF PB SG R MA MB LD WD NK OK LL [NI AI] [NW AW] NE UT RW MU TT MS s SZ FA FB MX.
  change new_bbuilder with (bempty 44 155381) in R. pose proof (C64_babbage_what_was_asked _ _ _ _ _ _ _ _ _ R) as (QI & QN & QW & QWN & QO & _ & QT & QF & _). cbv zeta in *.
  unfold boutputs_in in QO. unfold bwithdrawals_in in QW. unfold bttls_in in QT. rewrite no_signs in QO by (intros; reflexivity). rewrite no_signs in QT by (intros; reflexivity).
  assert (QW' : forall a v, In (a, v) (bb_withdrawals (bb_body b)) <-> last_withdrawal (bwithdrawals_in l) a v) by (intros a v; rewrite QW, no_signs by (intros; reflexivity); reflexivity). clear QW. fold (boutputs_in l) in QO. fold (bttls_in l) in QT.
  assert (IA : forall id i, In (BAddInput id i) (l ++ [BCalculateFee d] ++ map BSign ks) <-> In (BAddInput id i) l).
  { intros id i. rewrite !in_app_iff. split; [|tauto]. intros [J|[[J|[]]|J]]; [exact J|discriminate|]. apply in_map_iff in J as (k & J & _). discriminate. }
  assert (PI : Permutation (map (fun i => (ti_id i, ti_index i)) (bb_inputs (bb_body b))) ins).
  { apply NoDup_Permutation; [|exact NI|].
    - apply FinFun.Injective_map_NoDup; [|exact QN]. intros [] [] E. cbn in E. congruence.
    - intros [id i]. rewrite AI, in_map_iff. split.
      + intros (x & E & J). apply QI in J as (id' & m & J & _ & ->). cbn in E. injection E as <- <-. exists id'. split; [apply IA, J|reflexivity].
      + intros (id' & J & ->). exists {| ti_id := firstn 32 id'; ti_index := i |}. split; [reflexivity|]. apply QI. exists id', i. apply IA in J. split; [exact J|]. split; [|reflexivity]. exact (proj1 (proj2 (bcalls_history _ _ _ _ _ _ _ R)) _ _ J). }
  assert (PW : Permutation (bb_withdrawals (bb_body b)) wds).
  { apply NoDup_Permutation; [exact (NoDup_map_inv _ _ QWN)|exact (NoDup_map_inv _ _ NW)|]. intros [a v]. rewrite QW', AW. reflexivity. }
  pose proof R as R'. rewrite app_assoc in R'. apply do_bcalls_app in R' as (b1 & R1 & R2). pose proof R1 as R1'. apply do_bcalls_app in R1' as (b0 & R0 & RC). cbn [do_bcalls] in RC. apply rbind_ok in RC as (b1' & RC & E). assert (b1' = b1) by (unfold lift in E; congruence). subst b1'. clear E.
  cbn [do_bcall] in RC. apply rbind_ok in RC as ([fee b1'] & RC & E). cbn [snd] in E. assert (b1' = b1) by (unfold lift in E; congruence). subst b1'. clear E.
  pose proof (C37_babbage_fee_exact _ _ _ _ _ RC) as [EB1 _]. assert (V1 : bb_vkeys b1 = []) by (rewrite EB1; reflexivity).
  destruct (babbage_sign_many _ _ _ _ _ _ _ ltac:(rewrite V1; constructor) R2) as (WN & WI & EB). rewrite V1 in WI. cbn [map In] in WI.
  assert (EB' : b = bcarrying b0 fee (bb_vkeys b)) by (rewrite EB at 1; rewrite EB1; reflexivity).
  pose proof (C38_babbage_witnesses_current _ _ _ _ _ _ (bempty 44 155381) b eq_refl R) as CU.
  assert (VW : Forall vkey_wf (bb_vkeys b)) by (apply Forall_forall; intros w I; destruct (CU w I) as (k & ->); split; [apply PB|apply SG]).
  assert (WL : length (bb_vkeys b) = length ks).
  { rewrite <- (map_length fst), <- (map_length pub ks). apply Nat.le_antisymm; apply NoDup_incl_length; try assumption; intros x I; [destruct (proj1 (WI x) I) as [[]|Q]; exact Q|apply WI; right; exact I]. }
  destruct (bcalls_params _ _ _ _ _ _ _ R0) as [PA PB']. cbn [bempty bb_a bb_b] in PA, PB'. rewrite MA in PA. rewrite MB in PB'.
  assert (FE : bb_fee (bb_body b) = bn_fee_a n * zlen s + bn_fee_b n).
  { pose proof (C37_babbage_fee_of_signed _ _ _ _ _ _ RC WD VW ltac:(congruence)) as F. rewrite <- EB', PA, PB' in F. unfold bsize in F. fold s in F. assert (bb_fee (bb_body b) = fee) as -> by (rewrite EB'; reflexivity).
    rewrite F. apply Z.mod_small. assert (0 <= zlen s) by (unfold zlen; lia). nia. }
  split; [exact FE|].
  assert (FU : u64 (bb_fee (bb_body b))) by (rewrite FE; unfold u64; assert (0 <= zlen s) by (unfold zlen; lia); nia).
  assert (OKL : Forall bcall_ok (l ++ [BCalculateFee d] ++ map BSign ks)).
  { apply Forall_app. split; [exact OK|]. apply Forall_forall. intros c J. apply in_app_iff in J as [[<-|[]]|J]; [exact I|]. apply in_map_iff in J as (k & <- & _). exact I. }
  assert (BW : bbody_wf (bb_body b)) by (refine (bhistory_wf _ _ _ _ _ _ _ _ R OKL _ FU); rewrite !zlen_app; unfold zlen in *; rewrite map_length; cbn [length]; lia).
  assert (MW : many vkey_wf (bb_vkeys b)) by (split; [exact VW|unfold zlen in *; lia]).
  pose proof (btx_wire b BW MW QF) as IT. fold s in IT. set (t := {| bw_ins := _ |}) in IT.
  assert (SV : sum (map (bvalue_of n) (bw_ins t)) + sum (map snd (bw_wds t)) = sum (map (bvalue_of n) ins) + sum (map snd wds)).
  { unfold t. cbn [bw_ins bw_wds]. rewrite (sum_perm _ _ (Permutation_map (bvalue_of n) PI)), (sum_perm _ _ (Permutation_map snd PW)). reflexivity. }
  assert (SO : sum (map coins (bw_outs t)) = sum (paid l)) by (unfold t; cbn [bw_outs]; rewrite QO, sum_paid; reflexivity).
  split.
  - intros (sb' & t' & IT' & V). assert (t' = t) by exact (is_btx_fun _ _ _ _ _ IT' IT). subst t'. destruct V as (_ & _ & _ & _ & _ & _ & _ & V & _). rewrite SV, SO in V. exact V.
  - intros V. eexists. exists t. split; [exact IT|]. split; [unfold t; cbn [bw_ttl]; rewrite QT; exact TT|].
    split. { unfold t. cbn [bw_ins]. intros Q. rewrite Q in PI. apply Permutation_nil in PI. congruence. }
    split; [apply (Permutation_NoDup (Permutation_sym PI)), NI|].
    split. { intros id i J. apply (Permutation_in _ PI) in J. exact (UT _ _ J). }
    split. { intros a v J. apply (Permutation_in _ PW) in J. exact (RW _ _ J). }
    split; [exact QWN|]. split; [unfold t; cbn [bw_fee]; lia|]. split; [rewrite SV, SO; exact V|].
    split. { unfold t. cbn [bw_outs]. rewrite QO. intros o J. apply in_map_iff in J as (x & <- & J). apply in_bouts in J as (a & v & p & J & -> & _). exists v. split; [destruct p; reflexivity|exact (MU _ _ _ J)]. }
    split; [exact SZ|]. split.
    { intros k g J. destruct (CU _ J) as (k' & E). injection E as -> ->. apply VF. }
    intros h SH. assert (M : bmust_sign n ins wds h).
    { destruct SH as [(id & i & v & J & U)|(a & J & ->)].
      - left. exists id, i, v. split; [exact (Permutation_in _ PI J)|exact U].
      - right. apply in_map_iff in J as ([a' v] & E & J). cbn [fst] in E. subst a'. exists a, v. split; [exact (Permutation_in _ PW J)|reflexivity]. }
    destruct (MS h M) as (k & IK & <-). assert (J : In (pub k) (map fst (bb_vkeys b))) by (apply WI; right; apply in_map, IK). apply in_map_iff in J as ([k' g] & E & J). cbn [fst] in E. subst k'. exists (pub k), g. split; [exact J|reflexivity].
Qed.
Print Assumptions C72_accepted_iff.

(** ** C72: the fee depends on the amounts only through the width of their encoding, so a second pass with the right change gets the same fee *)
Definition width (v : Z) : Z := zlen (cbor_encode (CUint v)).
Definition same_width {key} (c c' : @bcall key) : Prop := c = c' \/ exists a p v v', c = BAddOutput a v p /\ c' = BAddOutput a v' p /\ width v = width v'.
Record balike (b b' : bbuilder) : Prop := {
  al_in : bb_inputs (bb_body b) = bb_inputs (bb_body b'); al_fee : bb_fee (bb_body b) = bb_fee (bb_body b'); al_ttl : bb_ttl (bb_body b) = bb_ttl (bb_body b');
  al_wd : bb_withdrawals (bb_body b) = bb_withdrawals (bb_body b'); al_a : bb_a b = bb_a b'; al_b : bb_b b = bb_b b';
  al_out : map esz (map btxout_ser (bb_outputs (bb_body b))) = map esz (map btxout_ser (bb_outputs (bb_body b'))) }.
Lemma alike_base b b' w : balike b b' -> bbase b w = bbase b' w.
Proof.
  intros [I F T W _ _ O]. unfold bbase. cbv zeta. unfold btail. rewrite I, T, W, !esz_array, O. f_equal. f_equal. f_equal. f_equal. f_equal. f_equal. f_equal. f_equal.
  apply (f_equal (@length Z)) in O. rewrite !map_length in O. unfold zlen. rewrite !map_length, O. reflexivity.
Qed.
Lemma alike_loop b b' w : balike b b' -> forall fuel f calc r, bb_fee_loop fuel (bwith b f w) calc = Some (Ok r) -> exists g, r = bwith b g w /\ bb_fee_loop fuel (bwith b' f w) calc = Some (Ok (bwith b' g w)).
Proof.
  intros AL. induction fuel as [|k IH]; intros f calc r E; cbn [bb_fee_loop] in E |- *; change (bb_fee (bb_body (bwith b f w))) with f in E; change (bb_fee (bb_body (bwith b' f w))) with f;
    destruct (calc =? f); try discriminate; try (exists f; split; [unfold lift in E; congruence|reflexivity]).
  change (bb_upd (bwith b f w) (bb_set_fee_only (bb_body (bwith b f w)) calc) (bb_vkeys (bwith b f w))) with (bwith b calc w) in E.
  change (bb_upd (bwith b' f w) (bb_set_fee_only (bb_body (bwith b' f w)) calc) (bb_vkeys (bwith b' f w))) with (bwith b' calc w).
  cbv zeta in *. rewrite bsize_eq in E. rewrite bsize_eq. change (bb_a (bwith b calc w)) with (bb_a b) in E. change (bb_b (bwith b calc w)) with (bb_b b) in E. change (bb_a (bwith b' calc w)) with (bb_a b'). change (bb_b (bwith b' calc w)) with (bb_b b').
  rewrite <- (al_a _ _ AL), <- (al_b _ _ AL), <- (alike_base b b' w AL). exact (IH _ _ _ E).
Qed.
Lemma alike_calc fuel b b' d f r : balike b b' -> bb_calculate_fee fuel b d = Some (Ok (f, r)) -> bb_calculate_fee fuel b' d = Some (Ok (f, bcarrying b' f [])) /\ r = bcarrying b f [].
Proof.
  intros AL E. split; [|exact (proj1 (C37_babbage_fee_exact _ _ _ _ _ E))]. unfold bb_calculate_fee in E |- *. cbv zeta in *.
  assert (X : forall x, bb_upd x (bb_body x) d = bwith x (bb_fee (bb_body x)) d) by (intros [[] ? ? ? ?]; reflexivity). rewrite !X in *. apply rbind_ok in E as (b1 & L & E).
  rewrite !bsize_eq in *. change (bb_a (bwith b (bb_fee (bb_body b)) d)) with (bb_a b) in L. change (bb_b (bwith b (bb_fee (bb_body b)) d)) with (bb_b b) in L. change (bb_a (bwith b' (bb_fee (bb_body b')) d)) with (bb_a b'). change (bb_b (bwith b' (bb_fee (bb_body b')) d)) with (bb_b b').
  destruct (alike_loop b b' d AL _ _ _ _ L) as (g & -> & L'). rewrite <- (al_a _ _ AL), <- (al_b _ _ AL), <- (alike_base b b' d AL), <- (al_fee _ _ AL), L'. cbn [rbind]. cbn in E. injection E as E1 _. cbn in E1. subst g. reflexivity.
Qed.
Lemma alike_call {key} H (pub : key -> list Z) sgn fuel b b' c c' r : balike b b' -> same_width c c' -> do_bcall H pub sgn fuel b c = Some (Ok r) -> exists r', do_bcall H pub sgn fuel b' c' = Some (Ok r') /\ balike r r'.
Proof.
  intros AL SW E. pose proof AL as [I F T W A B O]. destruct SW as [<-|(a & p & v & v' & -> & -> & WE)].
  - destruct c; cbn [do_bcall] in *; unfold lift in *.
    + unfold bb_add_input in *. destruct (zlen id <? 32); [discriminate|]. eexists. split; [reflexivity|]. injection E as <-. constructor; cbn; try assumption. rewrite I. reflexivity.
    + eexists. split; [reflexivity|]. injection E as <-. constructor; cbn; try assumption. rewrite !map_app, O. reflexivity.
    + eexists. split; [reflexivity|]. injection E as <-. constructor; cbn; try assumption. rewrite W. reflexivity.
    + eexists. split; [reflexivity|]. injection E as <-. constructor; cbn; try assumption. reflexivity.
    + eexists. split; [reflexivity|]. injection E as <-. constructor; cbn; try assumption. reflexivity.
    + apply rbind_ok in E as ([f r1] & C & E). cbn [snd] in E. assert (r1 = r) by (unfold lift in E; congruence). subst r1. destruct (alike_calc _ _ _ _ _ _ AL C) as [C' ->]. rewrite C'. cbn [rbind snd]. eexists. split; [reflexivity|]. constructor; cbn; try assumption. reflexivity.
    + eexists. split; [reflexivity|]. injection E as <-. constructor; cbn; assumption.
    + eexists. split; [reflexivity|]. injection E as <-. exact AL.
    + eexists. split; [reflexivity|]. injection E as <-. constructor; cbn; try assumption; reflexivity.
    + eexists. split; [reflexivity|]. injection E as <-. constructor; cbn; try assumption; reflexivity.
    + eexists. split; [reflexivity|]. injection E as <-. constructor; cbn; try assumption; reflexivity.
    + discriminate.
  - cbn [do_bcall] in *. unfold lift in *. eexists. split; [reflexivity|]. injection E as <-. unfold width in WE. change (zlen (cbor_encode ?x)) with (esz x) in WE. rewrite !esz_uint in WE. constructor; cbn [bb_add_output bb_upd bb_body bb_inputs bb_outputs bb_fee bb_ttl bb_withdrawals bb_a bb_b]; try assumption. rewrite !map_app, O. f_equal. cbn [map]. f_equal.
    destruct p; cbn [btxout_ser atxout_ser ptxout_ser]; unfold atxout_ser, ptxout_ser; cbn [ao_addr ao_amount ao_datum po_addr po_amount po_script_ref].
    + rewrite !esz_array. cbn [map zsum fold_right app]. rewrite !esz_uint, WE. reflexivity.
    + rewrite !esz_map. cbn [map zsum fold_right app]. unfold psz. cbn [fst snd]. rewrite !esz_uint, WE. reflexivity.
Qed.
Theorem C72_fee_by_width : forall key H (pub : key -> list Z) sgn fuel l l' b, Forall2 same_width l l' -> do_bcalls H pub sgn fuel new_bbuilder l = Some (Ok b) ->
  exists b', do_bcalls H pub sgn fuel new_bbuilder l' = Some (Ok b') /\ bb_fee (bb_body b') = bb_fee (bb_body b).
Proof.
  intros key H pub sgn fuel l l' b F R. assert (G : forall x y, balike x y -> do_bcalls H pub sgn fuel x l = Some (Ok b) -> exists b', do_bcalls H pub sgn fuel y l' = Some (Ok b') /\ bb_fee (bb_body b') = bb_fee (bb_body b)).
  { clear R. induction F as [|c1 c2 l l' S F IH]; intros x y AL R; cbn [do_bcalls] in R |- *; [injection R as <-; exists y; split; [reflexivity|symmetry; apply (al_fee _ _ AL)]|].
    apply rbind_ok in R as (x1 & S1 & R). destruct (alike_call _ _ _ _ _ _ _ _ _ AL S S1) as (y1 & S2 & AL1). rewrite S2. cbn [rbind]. exact (IH _ _ AL1 R). }
  apply (G new_bbuilder); [|exact R]. constructor; reflexivity.
Qed.
Print Assumptions C72_fee_by_width.
(** The calls cannot fail, when the transaction ids are whole and no fee overflows 64 bits. *)
Theorem C72_can_be_built : forall key H (pub : key -> list Z) sgn fuel l d ks, (6 <= fuel)%nat -> (forall id i, In (BAddInput id i) l -> 32 <= zlen id) -> (forall d', ~ In (BCalculateFee d') l) -> (forall w, ~ In (BBalance w) l) ->
  let a := last (bmin_as l) 44 in let c := last (bmin_bs l) 155381 in 0 <= a -> 0 <= c ->
  (forall b, do_bcalls H pub sgn fuel new_bbuilder l = Some (Ok b) -> a * (bsize (bcarrying b (bb_fee (bb_body b)) d) + 8) + c < 2 ^ 64) ->
  exists b, do_bcalls H pub sgn fuel new_bbuilder (l ++ [BCalculateFee d] ++ map BSign ks) = Some (Ok b).
Proof.
  intros key H pub sgn fuel l d ks FU ID NC NB a c A C M. unfold a, c in *. clear a c.
  assert (J : forall l1 l2 x y, do_bcalls H pub sgn fuel x l1 = Some (Ok y) -> do_bcalls H pub sgn fuel x (l1 ++ l2) = do_bcalls H pub sgn fuel y l2).
  { intros l1 l2. induction l1 as [|z l1 IH]; intros x y E; cbn [do_bcalls app] in *; [unfold lift in E; congruence|]. apply rbind_ok in E as (x1 & S & E). rewrite S. cbn [rbind]. exact (IH _ _ E). }
  assert (E0 : forall x, exists b0, do_bcalls H pub sgn fuel x l = Some (Ok b0)).
  { clear M A C. induction l as [|z l IH]; intros x; [exists x; reflexivity|]. cbn [do_bcalls]. assert (S : exists y, do_bcall H pub sgn fuel x z = Some (Ok y)).
    { destruct z; cbn [do_bcall]; unfold lift; try (eexists; reflexivity).
      - unfold bb_add_input. pose proof (ID id index (or_introl eq_refl)). destruct (Z.ltb_spec (zlen id) 32); [lia|]. eexists. reflexivity.
      - destruct (NC dummies (or_introl eq_refl)).
      - destruct (NB witnesses (or_introl eq_refl)). }
    destruct S as (y & ->). cbn [rbind]. apply IH; [intros id i I; exact (ID id i (or_intror I))|intros d' I; exact (NC d' (or_intror I))|intros w I; exact (NB w (or_intror I))]. }
  destruct (E0 new_bbuilder) as (b0 & R0). destruct (bcalls_params _ _ _ _ _ _ _ R0) as [PA PB]. cbn [new_bbuilder bb_a bb_b] in PA, PB. specialize (M b0 R0).
  destruct (C37_babbage_terminates b0 d ltac:(lia) ltac:(lia) ltac:(rewrite PA, PB; exact M) fuel FU) as (fee & E & _).
  rewrite (J _ _ _ _ R0). cbn [app do_bcalls do_bcall]. rewrite E. cbn [rbind snd]. unfold lift. cbn [rbind].
  assert (ES : forall k x, exists b, do_bcalls H pub sgn fuel x (map BSign k) = Some (Ok b)) by (induction k as [|z k IH]; intros x; [exists x; reflexivity|]; cbn [map do_bcalls do_bcall]; unfold lift; cbn [rbind]; apply IH).
  apply ES.
Qed.
Print Assumptions C72_can_be_built.

(** ** The hypotheses are met: a payment with change and a withdrawal, in two passes *)
Definition ex_bnode : bnode :=
  {| bn_slot := 999999; bn_fee_a := 44; bn_fee_b := 155381; bn_max_size := 16384; bn_min := fun o => 4310 * (160 + zlen (cbor_encode o));
     bn_utxo := fun id i => if zlist_eqb id (ex_hash 1 32) && (i =? 0) then Some (10000000, repeat 1 28) else None;
     bn_rewards := fun a => if zlist_eqb a (224 :: repeat 9 28) then Some 500000 else None |}.
Definition ex_bl (change : Z) : list (@bcall Z) :=
  [BAddInput (ex_hash 1 32) 0; BAddOutput ex_addr 3000000 false; BAddOutput ex_addr change true; BAddWithdrawal ex_account9 500000; BSetTtl 1000000].
Definition ex_all (change : Z) : list (@bcall Z) := ex_bl change ++ [BCalculateFee (ex_dummies 2)] ++ map BSign [1; 9].
Definition ex_fee : Z := 171881.
Example C72_ex_first_pass : exists b, do_bcalls ex_H ex_pub1 ex_sgn1 10 new_bbuilder (ex_all 1000000) = Some (Ok b) /\ bb_fee (bb_body b) = ex_fee.
Proof.
  destruct (do_bcalls _ _ _ _ _ _) as [[b| |]|] eqn:E; try (exfalso; vm_compute in E; discriminate E). exists b. split; [reflexivity|]. vm_compute in E. injection E as <-. vm_compute. reflexivity.
Qed.
Lemma ex_second change : width change = width 1000000 -> exists b, do_bcalls ex_H ex_pub1 ex_sgn1 10 new_bbuilder (ex_all change) = Some (Ok b) /\ bb_fee (bb_body b) = ex_fee.
Proof.
  intros W. destruct C72_ex_first_pass as (b & R & F). rewrite <- F. refine (C72_fee_by_width Z ex_H ex_pub1 ex_sgn1 10%nat (ex_all 1000000) (ex_all change) b _ R).
  assert (RF : forall l : list (@bcall Z), Forall2 same_width l l) by (induction l; constructor; [left; reflexivity|assumption]).
  unfold ex_all, ex_bl. constructor; [left; reflexivity|]. constructor; [left; reflexivity|]. constructor; [|apply RF]. right. exists ex_addr, true, 1000000, change. split; [reflexivity|]. split; [reflexivity|]. symmetry. exact W.
Qed.
Lemma ex_asks change : asks_inputs (ex_bl change) [(ex_hash 1 32, 0)] /\ asks_withdrawals (ex_bl change) [(224 :: repeat 9 28, 500000)].
Proof.
  split.
  - split; [repeat constructor; intros []|]. intros id i. split.
    + intros [E|[]]. injection E as <- <-. exists (ex_hash 1 32). split; [left; reflexivity|reflexivity].
    + intros (id' & I & ->). destruct I as [I|I]; [injection I as <- <-; left; reflexivity|]. repeat (destruct I as [I|I]; [discriminate I|]). destruct I.
  - split; [repeat constructor; intros []|]. intros a v. cbn [bwithdrawals_in ex_bl map concat app]. split.
    + intros [E|[]]. injection E as <- <-. exists [], ex_account9, []. split; [reflexivity|]. split; [reflexivity|]. intros ? [].
    + intros (l1 & x & l2 & E & <- & _). destruct l1 as [|y l1]; [injection E as <- <- _; left; reflexivity|]. cbn [app] in E. injection E as _ E. destruct l1; discriminate.
Qed.
(** a second pass with the change that adds up has the same fee and is accepted; with one lovelace more or less it is refused *)
Lemma ex_run (change : Z) (b : bbuilder) : In change [7500000 - ex_fee - 1; 7500000 - ex_fee; 7500000 - ex_fee + 1] -> do_bcalls ex_H ex_pub1 ex_sgn1 10 new_bbuilder (ex_all change) = Some (Ok b) ->
  zlen (cbor_encode (btx_ser (bb_body b) (bb_vkeys b) (bb_flag b))) = 375 /\ forall a v p, In (BAddOutput a v p) (ex_bl change) -> bn_min ex_bnode (cddl_output a v p) <= v.
Proof.
  intros I R. cbn [In] in I. destruct I as [<-|[<-|[<-|[]]]]; vm_compute in R; injection R as <-; (split; [vm_compute; reflexivity|]); intros a v p I; unfold ex_bl in I; cbn [In] in I;
    (destruct I as [I|[I|[I|[I|[I|[]]]]]]; try discriminate I; injection I as <- <- <-; vm_compute; discriminate).
Qed.
Example C72_ex : forall change, In change [7500000 - ex_fee - 1; 7500000 - ex_fee; 7500000 - ex_fee + 1] -> exists b s, do_bcalls ex_H ex_pub1 ex_sgn1 10 new_bbuilder (ex_all change) = Some (Ok b) /\ s = cbor_encode (btx_ser (bb_body b) (bb_vkeys b) (bb_flag b)) /\
  (baccepts ex_H ex_H224 ex_verifies ex_bnode s <-> change = 10000000 + 500000 - 3000000 - ex_fee).
Proof.
  intros change B. destruct (ex_second change) as (b & R & F); [cbn [In] in B; destruct B as [<-|[<-|[<-|[]]]]; reflexivity|]. exists b. eexists. split; [exact R|]. split; [reflexivity|].
  destruct C70_ex_keys as (K1 & K2 & K3). destruct (ex_asks change) as [A1 A2]. destruct (ex_run change b B R) as [SZ MU].
  assert (CB : 0 < change < 2 ^ 32) by (cbn [In] in B; unfold ex_fee in B; lia).
  destruct (C72_accepted_iff Z ex_H ex_H224 ex_verifies ex_pub1 ex_sgn1 10%nat (ex_bl change) (ex_dummies 2) [1; 9] b ex_bnode [(ex_hash 1 32, 0)] [(224 :: repeat 9 28, 500000)] K1 K2 K3 R eq_refl eq_refl) as [_ X].
  - reflexivity.
  - do 2 (constructor; [split; apply bytesN_b; reflexivity|]). constructor.
  - repeat (constructor; [cbn [In map]; intros Q; repeat (destruct Q as [Q|Q]; [discriminate Q|]); exact Q|]). constructor.
  - unfold ex_bl. constructor; [split; [apply (proj1 (bytesN_b 32 (ex_hash 1 32) eq_refl))|unfold u64; lia]|]. constructor; [split; [apply text_b; reflexivity|unfold u64; lia]|]. constructor; [split; [apply text_b; reflexivity|unfold u64; lia]|].
    constructor; [split; [split; [unfold byte_ok; cbn; lia|apply bytesN_b; reflexivity]|unfold u64; lia]|]. constructor; [cbn; unfold u64; lia|constructor].
  - reflexivity.
  - exact A1.
  - exact A2.
  - discriminate.
  - intros id i [E|[]]. injection E as <- <-. vm_compute. discriminate.
  - intros a v [E|[]]. injection E as <- <-. vm_compute. reflexivity.
  - exact MU.
  - intros t E. cbn in E. injection E as <-. cbn. lia.
  - intros h [(id & i & v & [E|[]] & U)|(a & v & [E|[]] & ->)]; injection E as <- <-; [vm_compute in U; injection U as _ <-; exists 1; split; [left; reflexivity|reflexivity]|exists 9; split; [right; left; reflexivity|reflexivity]].
  - rewrite SZ. cbn. lia.
  - cbn; lia.
  - cbn; lia.
  - reflexivity.
  - rewrite X, F. cbn [paid ex_bl map concat app sum snd]. assert (bvalue_of ex_bnode (ex_hash 1 32, 0) = 10000000) as -> by (vm_compute; reflexivity). unfold ex_fee. lia.
Qed.
