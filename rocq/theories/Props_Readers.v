(** Property C61: whatever bytes the ledger readers accept, the value they return is within the ranges of its type, and writing and reading it again
    changes nothing. *)
From Coq Require Import Sorted.
From Verif Require Import Base BaseLemmas Model_Hex Proof_Hex Spec_Cbor Model_Cbor Proof_Cbor Spec_Ledger Model_Ledger Proof_Ledger Proof_Ledger2 Props_Ledger.
Ltac Zify.zify_post_hook ::= idtac.

(** ** Views *)
Lemma as_uint_ok c n : cbor_ok c -> as_uint c = Some n -> u64 n.
Proof. induction c; cbn; intros O E; try discriminate; [injection E as <-; exact O|apply IHc; [apply O|exact E]]. Qed.
Lemma as_bytes_ok c b : cbor_ok c -> as_bytes c = Some b -> text_ok b.
Proof. induction c; cbn; intros O E; try discriminate; [injection E as <-; exact O|apply IHc; [apply O|exact E]]. Qed.
Lemma as_text_ok c b : cbor_ok c -> as_text c = Some b -> text_ok b.
Proof. induction c; cbn; intros O E; try discriminate; [injection E as <-; exact O|apply IHc; [apply O|exact E]]. Qed.
Lemma as_array_ok c l : cbor_ok c -> as_array c = Some l -> many cbor_ok l.
Proof.
  induction c as [| | | |l0|l0|t c IH| |]; intros O E; cbn [as_array] in E; try discriminate; [|apply IH; [apply O|exact E]]. injection E as <-. apply ok_array in O as [A B]. split; assumption.
Qed.
Lemma as_map_ok c l : cbor_ok c -> as_map c = Some l -> many (fun p => cbor_ok (fst p) /\ cbor_ok (snd p)) l.
Proof.
  induction c as [| | | |l0|l0|t c IH| |]; intros O E; cbn [as_map] in E; try discriminate; [|apply IH; [apply O|exact E]]. injection E as <-. apply ok_cmap in O as [A B]. split; assumption.
Qed.
Lemma want_ok {A} (o : option A) x : want o = Ok x -> o = Some x.
Proof. destruct o; cbn; congruence. Qed.
Lemma deref_ok {A} (o : option A) x : deref o = Ok x -> o = Some x.
Proof. destruct o; cbn; congruence. Qed.
Lemma fixed_inv n b x : fixed n b = Ok x -> x = b /\ zlen b = n.
Proof. unfold fixed. destruct (Z.eqb_spec (zlen b) n); [|discriminate]. intros H. split; congruence. Qed.
Lemma get_ub_in {A} (l : list A) i x : get_ub l i = Ok x -> In x l.
Proof. unfold get_ub. intros H. destruct (nth_error l _) eqn:E; [|try destruct (_ <? _); discriminate]. apply nth_error_In in E. first [congruence|destruct (_ <? _); try discriminate; congruence]. Qed.
Lemma map_get_in m k c : map_get m k = Some c -> exists x, In (x, c) m.
Proof. unfold map_get. destruct (find _ m) as [p|] eqn:F; [|discriminate]. intros E. injection E as <-. apply find_some in F as [I _]. exists (fst p). destruct p; exact I. Qed.
Ltac bnd H x := apply bind_ok in H as (x & ?H & H).

Lemma mapM_len {A B} (f : A -> outcome B) l r : mapM f l = Ok r -> length r = length l.
Proof.
  revert r. induction l as [|x l IH]; cbn [mapM]; intros r H; [injection H as <-; reflexivity|]. apply bind_ok in H as (y & _ & H). apply bind_ok in H as (ys & Hy & H). injection H as <-. cbn [length]. rewrite (IH _ Hy). reflexivity.
Qed.
Lemma mapM_many {A B} (f : A -> outcome B) (P : A -> Prop) (Q : B -> Prop) l r : mapM f l = Ok r -> (forall x y, P x -> f x = Ok y -> Q y) -> many P l -> many Q r.
Proof.
  intros H PQ [F L]. split; [|unfold zlen in *; rewrite (mapM_len _ _ _ H); exact L]. apply Forall_forall. intros y I. destruct (mapM_in _ _ _ H y I) as (x & Ix & E). rewrite Forall_forall in F. exact (PQ x y (F x Ix) E).
Qed.
Section S.
Variables (ins : list cbor) (OI : Forall cbor_ok ins).
Lemma in_ok i x : get_ub ins i = Ok x -> cbor_ok x.
Proof. intros H. apply get_ub_in in H. exact (proj1 (Forall_forall _ _) OI _ H). Qed.
End S.

(** ** Readers *)
Definition all_ok (data : list cbor) : Prop := many cbor_ok data.
Lemma rational_rd tag c r : cbor_ok c -> rational_des tag c = Ok r -> rational_wf r.
Proof.
  unfold rational_des. intros O H. destruct (negb (tag =? 30)); [discriminate|]. bnd H arr. apply want_ok in H0. destruct (as_array_ok _ _ O H0) as [F _]. destruct arr as [|a [|b [|? ?]]]; try discriminate.
  inversion F as [|? ? Oa F']; subst. inversion F' as [|? ? Ob _]; subst. bnd H n. bnd H d. apply want_ok in H1, H2. destruct (Z.eqb_spec d 0); [discriminate|]. injection H as <-.
  split; [exact (as_uint_ok _ _ Oa H1)|]. split; [exact (as_uint_ok _ _ Ob H2)|exact n0].
Qed.
Lemma bytesN_of b n : text_ok b -> zlen b = n -> bytesN n b.
Proof. intros [A _] L. split; assumption. Qed.
Lemma pm_rd data m : all_ok data -> pm_des data = Ok m -> pm_wf m.
Proof.
  intros [F _] H. destruct data as [|u [|h [|? ?]]]; try discriminate. inversion F as [|? ? Ou F']; subst. inversion F' as [|? ? Oh _]; subst. cbn [pm_des] in H. bnd H url. bnd H b. bnd H b2. apply want_ok in H0, H1. apply fixed_inv in H2 as [-> L]. injection H as <-.
  split; [exact (as_text_ok _ _ Ou H0)|]. apply bytesN_of; [exact (as_bytes_ok _ _ Oh H1)|exact L].
Qed.
Lemma port_rd c : opt port_ok (port_des c).
Proof. unfold port_des. destruct (as_uint c); cbn [opt]; [apply Z.mod_pos_bound; lia|exact I]. Qed.
Lemma relay_rd data r : all_ok data -> relay_des data = Ok r -> relay_wf r.
Proof.
  intros [F _] H. unfold relay_des in H. destruct (zlen data <? 2); [discriminate|]. bnd H c0. bnd H tag. destruct (tag =? 0).
  - destruct (negb (zlen data =? 4)); [discriminate|]. bnd H c1. bnd H c2. destruct (as_bytes c2) as [b|] eqn:B; [|injection H as <-; cbn; split; [exact I|split; [exact I|apply port_rd]]].
    pose proof (as_bytes_ok _ _ (in_ok _ F _ _ H3) B) as T. destruct (Z.eqb_spec (zlen b) 4); [|destruct (Z.eqb_spec (zlen b) 16)]; injection H as <-; cbn [relay_wf opt];
      (split; [first [exact I|apply bytesN_of; assumption]|split; [first [exact I|apply bytesN_of; assumption]|apply port_rd]]).
  - destruct (tag =? 1).
    + destruct (negb (zlen data =? 3)); [discriminate|]. bnd H c2. bnd H dns. bnd H c1. apply want_ok in H3. injection H as <-. split; [exact (as_text_ok _ _ (in_ok _ F _ _ H2) H3)|apply port_rd].
    + destruct (tag =? 2); [|injection H as <-; exact I]. destruct (negb (zlen data =? 2)); [discriminate|]. bnd H c1. bnd H dns. apply want_ok in H3. injection H as <-. exact (as_text_ok _ _ (in_ok _ F _ _ H2) H3).
Qed.
Lemma cred_rd data c : all_ok data -> cred_des data = Ok c -> cred_wf c.
Proof.
  intros [F _] H. destruct data as [|t [|h [|? ?]]]; try discriminate. inversion F as [|? ? Ot F']; subst. inversion F' as [|? ? Oh _]; subst. cbn [cred_des] in H. bnd H ty. bnd H b. bnd H ty2. bnd H b2.
  apply want_ok in H1. apply fixed_inv in H3 as [-> L]. injection H as <-. apply bytesN_of; [exact (as_bytes_ok _ _ Oh H1)|exact L].
Qed.
Lemma mir_rd data m : all_ok data -> mir_des [] data = Ok m -> mir_wf m.
Proof.
  intros [F _] H. destruct data as [|s [|q [|? ?]]]; try discriminate. inversion F as [|? ? Os F']; subst. inversion F' as [|? ? Oq _]; subst. cbn [mir_des] in H. bnd H src. bnd H mm. bnd H s2. bnd H creds. apply want_ok in H1. injection H as <-.
  unfold mir_wf. cbn [mir_creds app]. eapply mapM_many; [exact H3| |exact (as_map_ok _ _ Oq H1)]. intros [a b] [c n] [Oa Ob] E. unfold mir_entry in E. cbn [fst snd] in *. apply bind_ok in E as (arr & Ea & E). apply bind_ok in E as (cc & Ec & E). apply bind_ok in E as (k & Ek & E). apply deref_ok in Ea. apply deref_ok in Ek. injection E as <- <-.
  split; [exact (cred_rd _ _ (as_array_ok _ _ Oa Ea) Ec)|exact (as_uint_ok _ _ Ob Ek)].
Qed.
Lemma len_insert {A} lt (x : A) l : (length (set_insert lt x l) <= S (length l))%nat.
Proof. induction l as [|y l IH]; cbn [set_insert length]; [lia|]. destruct (lt x y); cbn [length]; [lia|]. destruct (lt y x); cbn [length]; lia. Qed.
Lemma len_set {A} lt (l : list A) : forall acc, (length (fold_left (fun s x => set_insert lt x s) l acc) <= length acc + length l)%nat.
Proof. induction l as [|x l IH]; intros acc; cbn [fold_left length]; [lia|]. pose proof (IH (set_insert lt x acc)). pose proof (len_insert lt x acc). lia. Qed.
Lemma set_many {A} lt (P : A -> Prop) l : strict_total lt -> many P l ->
  many P (fold_left (fun s x => set_insert lt x s) l []) /\ StronglySorted (fun a b => lt a b = true) (fold_left (fun s x => set_insert lt x s) l []).
Proof.
  intros ST [F L]. split; [|apply (set_of_sorted lt ST)]. split.
  - rewrite Forall_forall in *. intros x I. apply F. apply (proj1 (set_of_in lt ST l x)), I.
  - pose proof (len_set lt l []). cbn [length] in H. unfold zlen in *. lia.
Qed.
Lemma len_assign {A} k (v : A) l : (length (map_assign k v l) <= S (length l))%nat.
Proof. induction l as [|[k' v'] l IH]; cbn [map_assign length]; [lia|]. destruct (lex_lt k k'); cbn [length]; [lia|]. destruct (lex_lt k' k); cbn [length]; lia. Qed.
Lemma in_assign {A} k (v : A) l p : In p (map_assign k v l) -> p = (k, v) \/ In p l \/ exists k', In k' (map fst l) /\ p = (k', v) /\ k' = k.
Proof.
  induction l as [|[k' v'] l IH]; cbn [map_assign]; intros I; [destruct I as [<-|[]]; auto|]. destruct (lex_lt k k') eqn:A1; [destruct I as [<-|I]; auto|].
  destruct (lex_lt k' k) eqn:A2; destruct I as [<-|I]; cbn [In]; auto.
  - destruct (IH I) as [E|[E|(x & Ix & E)]]; auto. right. right. exists x. cbn [map In fst]. auto.
  - assert (k' = k) by (symmetry; apply lex_total; assumption). subst. left. reflexivity.
Qed.
Lemma map_many (P : list Z * Z -> Prop) l : many P l -> forall acc, Forall P acc ->
  Forall P (fold_left (fun s p => map_assign (fst p) (snd p) s) l acc) /\ (length (fold_left (fun s p => map_assign (fst p) (snd p) s) l acc) <= length acc + length l)%nat.
Proof.
  intros [F _]. induction F as [|[k v] l Pk F IH]; intros acc FA; cbn [fold_left length fst snd]; [split; [exact FA|lia]|].
  destruct (IH (map_assign k v acc)) as [A B].
  - apply Forall_forall. intros p I. rewrite Forall_forall in FA. destruct (in_assign _ _ _ _ I) as [->|[J|(k' & _ & -> & ->)]]; [exact Pk|apply FA, J|exact Pk].
  - split; [exact A|]. pose proof (len_assign k v acc). lia.
Qed.
Lemma owners_rd o os : opt (many cbor_ok) o -> owners_des o = Ok os -> many (bytesN 28) os /\ StronglySorted (fun a b => lex_lt a b = true) os.
Proof.
  destruct o as [arr|]; cbn [owners_des opt]; intros O H; [|injection H as <-; split; [split; [constructor|reflexivity]|constructor]]. bnd H l. injection H as <-. apply (set_many lex_lt (bytesN 28) l lex_st).
  eapply mapM_many; [exact H0| |exact O]. intros x y Ox E. unfold owner_des in E. apply bind_ok in E as (b & Eb & E). apply deref_ok in Eb. apply fixed_inv in E as [-> L]. apply bytesN_of; [exact (as_bytes_ok _ _ Ox Eb)|exact L].
Qed.
Lemma as_tag_ok c t : cbor_ok c -> as_tag c = Some t -> cbor_ok (snd t).
Proof. destruct c; cbn [as_tag]; intros O E; try discriminate. injection E as <-. apply O. Qed.
Lemma pool_rd data c : all_ok data -> pool_reg_des data = Ok c -> cert_wf c /\ simple_cert c.
Proof.
  intros [F _] H. unfold pool_reg_des in H. destruct (zlen data <? 7); [discriminate|].
  bnd H c1. bnd H op. bnd H c2. bnd H vrf. bnd H c3. bnd H pledge. bnd H c4. bnd H cost. bnd H c5. bnd H z. bnd H c6. bnd H acct. bnd H op'. bnd H vrf'. bnd H tg. bnd H margin. bnd H owners.
  apply want_ok in H1, H3, H5, H7, H11. apply deref_ok in H14. apply fixed_inv in H12 as [-> L1], H13 as [-> L2]. pose proof (in_ok _ F) as IN.
  assert (OW : many (bytesN 28) owners /\ StronglySorted (fun a b => lex_lt a b = true) owners).
  { destruct (7 <? zlen data); [apply bind_ok in H16 as (c7 & E7 & H16); apply (owners_rd _ _) in H16; [exact H16|]|injection H16 as <-; split; [split; [constructor|reflexivity]|constructor]].
    destruct (as_array c7) as [a|] eqn:A; [|exact I]. exact (as_array_ok _ _ (IN _ _ E7) A). }
  injection H as <-. split; [|split; reflexivity]. cbn [cert_wf]. unfold pool_wf. cbn [pp_operator pp_vrf pp_pledge pp_cost pp_margin pp_account pp_owners pp_relays pp_metadata opt].
  split; [apply bytesN_of; [exact (as_bytes_ok _ _ (IN _ _ H0) H1)|exact L1]|]. split; [apply bytesN_of; [exact (as_bytes_ok _ _ (IN _ _ H2) H3)|exact L2]|].
  split; [exact (as_uint_ok _ _ (IN _ _ H4) H5)|]. split; [exact (as_uint_ok _ _ (IN _ _ H6) H7)|]. split; [exact (rational_rd _ _ _ (as_tag_ok _ _ (IN _ _ H8) H14) H15)|].
  split; [exact (as_bytes_ok _ _ (IN _ _ H10) H11)|]. split; [apply OW|]. split; [apply OW|]. split; [split; [constructor|reflexivity]|exact I].
Qed.
Definition known_cert (c : cert) : Prop := c <> CertNone.
Lemma uint_not_bytes c n : as_uint c = Some n -> as_bytes c = None.
Proof. induction c; cbn; intros E; try discriminate; auto. Qed.
Lemma cert_rd data c : all_ok data -> cert_des data = Ok c -> cert_wf c /\ (known_cert c -> simple_cert c).
Proof.
  intros [F L] H. pose proof (in_ok _ F) as IN. unfold cert_des in H. destruct (zlen data <? 2); [discriminate|]. bnd H c0. bnd H tag. apply want_ok in H1.
  destruct (tag =? 0).
  { destruct (negb _); [discriminate|]. bnd H c1. bnd H a. bnd H cc. apply want_ok in H3. injection H as <-. split; [exact (cred_rd _ _ (as_array_ok _ _ (IN _ _ H2) H3) H4)|intros _; exact I]. }
  destruct (tag =? 1).
  { destruct (negb _); [discriminate|]. bnd H c1. bnd H a. bnd H cc. apply want_ok in H3. injection H as <-. split; [exact (cred_rd _ _ (as_array_ok _ _ (IN _ _ H2) H3) H4)|intros _; exact I]. }
  destruct (tag =? 2).
  { destruct (negb _); [discriminate|]. bnd H c1. bnd H a. bnd H c2. bnd H h. bnd H cc. bnd H h2. apply want_ok in H3, H5. apply fixed_inv in H7 as [-> Lh]. injection H as <-.
    split; [|intros _; exact I]. split; [exact (cred_rd _ _ (as_array_ok _ _ (IN _ _ H2) H3) H6)|apply bytesN_of; [exact (as_bytes_ok _ _ (IN _ _ H4) H5)|exact Lh]]. }
  destruct (tag =? 3); [destruct (pool_rd _ _ (conj F L) H) as [W S]; split; [exact W|intros _; exact S]|].
  destruct (tag =? 4).
  { destruct (negb _); [discriminate|]. bnd H c1. bnd H h. bnd H c2. bnd H e. bnd H h2. apply want_ok in H3, H5. apply fixed_inv in H6 as [-> Lh]. injection H as <-.
    split; [|intros _; exact I]. split; [apply bytesN_of; [exact (as_bytes_ok _ _ (IN _ _ H2) H3)|exact Lh]|exact (as_uint_ok _ _ (IN _ _ H4) H5)]. }
  destruct (tag =? 5); [rewrite (uint_not_bytes _ _ H1) in H; discriminate|].
  destruct (tag =? 6); [|injection H as <-; split; [exact I|intros K; exfalso; apply K; reflexivity]].
  bnd H c1. bnd H a. bnd H m. apply deref_ok in H3. injection H as <-. split; [exact (mir_rd _ _ (as_array_ok _ _ (IN _ _ H2) H3) H4)|intros _; exact I].
Qed.
Lemma txout_rd data o : all_ok data -> txout_des data = Ok o -> txout_wf o.
Proof.
  intros [F _] H. destruct data as [|a [|n [|? ?]]]; try discriminate. inversion F as [|? ? Oa F']; subst. inversion F' as [|? ? On _]; subst. cbn [txout_des] in H. bnd H b. bnd H k. apply want_ok in H0, H1. injection H as <-.
  split; [exact (as_bytes_ok _ _ Oa H0)|exact (as_uint_ok _ _ On H1)].
Qed.
Lemma txin_rd data o : all_ok data -> txin_des data = Ok o -> txin_wf o.
Proof.
  intros [F _] H. destruct data as [|a [|n [|? ?]]]; try discriminate. inversion F as [|? ? Oa F']; subst. inversion F' as [|? ? On _]; subst. cbn [txin_des] in H. bnd H b. bnd H k. bnd H b2. apply want_ok in H0, H1. apply fixed_inv in H2 as [-> L]. injection H as <-.
  split; [apply bytesN_of; [exact (as_bytes_ok _ _ Oa H0)|exact L]|exact (as_uint_ok _ _ On H1)].
Qed.
Definition map_ok (m : list (cbor * cbor)) : Prop := many (fun p => cbor_ok (fst p) /\ cbor_ok (snd p)) m.
Lemma map_get_ok m k c : map_ok m -> map_get m k = Some c -> cbor_ok c.
Proof. intros [F _] H. apply map_get_in in H as (x & I). rewrite Forall_forall in F. apply (F _ I). Qed.
Lemma body_array_ok m k : map_ok m -> many cbor_ok (body_array m k).
Proof.
  intros M. unfold body_array. assert (N : many cbor_ok []) by (split; [constructor|reflexivity]). destruct (map_get m k) as [c|] eqn:G; [|exact N]. destruct (as_array c) as [l|] eqn:A; [|exact N].
  exact (as_array_ok _ _ (map_get_ok _ _ _ M G) A).
Qed.
Lemma body_uint_ok m k : map_ok m -> u64 (body_uint m k).
Proof.
  intros M. unfold body_uint. assert (N : u64 0) by (split; [lia|reflexivity]). destruct (map_get m k) as [c|] eqn:G; [|exact N]. destruct (as_uint c) as [n|] eqn:A; [|exact N]. exact (as_uint_ok _ _ (map_get_ok _ _ _ M G) A).
Qed.
Lemma item_rd {A} (des : list cbor -> outcome A) (P : A -> Prop) : (forall d x, all_ok d -> des d = Ok x -> P x) -> forall c x, cbor_ok c -> item_des des c = Ok x -> P x.
Proof. intros H c x O E. unfold item_des in E. apply bind_ok in E as (a & Ea & E). apply deref_ok in Ea. exact (H _ _ (as_array_ok _ _ O Ea) E). Qed.
Lemma body_rd m b : map_ok m -> txbody_des m = Ok b -> body_wf b /\ (Forall known_cert (tb_certs b) -> Forall simple_cert (tb_certs b)).
Proof.
  intros M H. unfold txbody_des in H. bnd H ins. bnd H outs. bnd H certs. bnd H ws. bnd H mh. injection H as <-.
  pose proof (mapM_many _ _ _ _ _ H0 (item_rd _ _ txin_rd) (body_array_ok m 0 M)) as MI. pose proof (mapM_many _ _ _ _ _ H1 (item_rd _ _ txout_rd) (body_array_ok m 1 M)) as MO.
  pose proof (mapM_many _ _ _ _ _ H2 (item_rd _ _ cert_rd) (body_array_ok m 4 M)) as MC.
  assert (MW : many (fun p => text_ok (fst p) /\ u64 (snd p)) ws).
  { eapply mapM_many; [exact H3| |].
    - instantiate (1 := fun p => cbor_ok (fst p) /\ cbor_ok (snd p)). intros [a c] y [Oa Oc] E. unfold wdrl_entry in E. cbn [fst snd] in *. apply bind_ok in E as (a' & Ea & E). apply bind_ok in E as (n' & En & E). apply deref_ok in Ea, En. injection E as <-. split; [exact (as_bytes_ok _ _ Oa Ea)|exact (as_uint_ok _ _ Oc En)].
    - assert (N : map_ok []) by (split; [constructor|reflexivity]). destruct (map_get m 5) as [c|] eqn:G; [|exact N]. destruct (as_map c) as [l|] eqn:A; [|exact N]. exact (as_map_ok _ _ (map_get_ok _ _ _ M G) A). }
  assert (MH : opt (bytesN 32) mh).
  { destruct (map_get m 7) as [c|] eqn:G; [|injection H4 as <-; exact I]. destruct (as_bytes c) as [h|] eqn:A; [|injection H4 as <-; exact I]. apply bind_ok in H4 as (h2 & Eh & H4). apply fixed_inv in Eh as [-> L]. injection H4 as <-.
    apply bytesN_of; [exact (as_bytes_ok _ _ (map_get_ok _ _ _ M G) A)|exact L]. }
  destruct (set_many txin_lt txin_wf ins txin_st MI) as [SI SS]. destruct (map_many _ ws MW [] (Forall_nil _)) as [WF WL].
  split; [|cbn [tb_certs]; intros K; rewrite Forall_forall in *; intros c I; destruct MC as [FC _]; rewrite Forall_forall in FC; apply (FC c I), (K c I)].
  unfold body_wf. cbn [tb_inputs tb_outputs tb_fee tb_ttl tb_certs tb_withdrawals tb_metadata_hash]. split; [exact SI|]. split; [exact SS|]. split; [exact MO|]. split; [apply body_uint_ok, M|]. split; [apply body_uint_ok, M|].
  split; [destruct MC as [FC LC]; split; [eapply Forall_impl; [|exact FC]; intros c [W _]; exact W|exact LC]|].
  split; [split; [exact WF|destruct MW as [_ LW]; cbn [length] in WL; unfold zlen in *; lia]|]. split; [apply map_of_sorted|exact MH].
Qed.
Lemma make_array_inv n b x : 0 <= n -> text_ok b -> Model_Ledger.make_array n b = Ok x -> bytesN n x.
Proof.
  intros N [O _] H. unfold Model_Ledger.make_array in H. destruct (Z.ltb_spec (zlen b) n); [discriminate|]. injection H as <-. split; [apply bytes_ok_firstn, O|]. unfold zlen in *. rewrite firstn_length. lia.
Qed.
Lemma vkey_rd c v : cbor_ok c -> vkey_des c = Ok v -> opt vkey_wf v.
Proof.
  intros O H. unfold vkey_des in H. destruct (as_array c) as [a|] eqn:A; [|injection H as <-; exact I]. destruct (as_array_ok _ _ O A) as [F _]. pose proof (in_ok _ F) as IN.
  bnd H c0. bnd H k. bnd H k2. bnd H c1. bnd H s. bnd H s2. apply deref_ok in H1, H4. injection H as <-. split; [exact (make_array_inv 32 _ _ ltac:(lia) (as_bytes_ok _ _ (IN _ _ H0) H1) H2)|exact (make_array_inv 64 _ _ ltac:(lia) (as_bytes_ok _ _ (IN _ _ H3) H4) H5)].
Qed.
Lemma keep_some_in {A} (l : list (option A)) x : In x (keep_some l) <-> In (Some x) l.
Proof. unfold keep_some. rewrite in_flat_map. split; [intros ([y|] & I & J); [destruct J as [<-|[]]; exact I|destruct J]|intros I; exists (Some x); split; [exact I|left; reflexivity]]. Qed.
Lemma keep_some_len {A} (l : list (option A)) : (length (keep_some l) <= length l)%nat.
Proof. unfold keep_some. induction l as [|[x|] l IH]; cbn [flat_map app length]; [apply le_n|apply le_n_S, IH|apply le_S, IH]. Qed.
Lemma wits_rd m w : map_ok m -> witset_des m = Ok w -> wits_wf w /\ ws_scripts w = [] /\ ws_bootstrap w = 0.
Proof.
  intros M H. unfold witset_des in H. bnd H vs. injection H as <-. split; [|split; reflexivity]. destruct (mapM_many _ _ _ _ _ H0 vkey_rd (body_array_ok m 0 M)) as [F L].
  split; [|split; [split; [constructor|reflexivity]|cbn; lia]]. cbn [ws_vkeys]. split.
  - apply Forall_forall. intros x I. apply keep_some_in in I. rewrite Forall_forall in F. exact (F _ I).
  - pose proof (keep_some_len vs). unfold zlen in *. lia.
Qed.
Lemma empty_body_wf : body_wf empty_body.
Proof. unfold body_wf, many, u64. cbn. repeat split; try constructor; try lia. Qed.
Lemma empty_wits_wf : wits_wf empty_wits.
Proof. unfold wits_wf, many. cbn. repeat split; try constructor; try lia. Qed.
Lemma nth_ok data i c : all_ok data -> nth_error data i = Some c -> cbor_ok c.
Proof. intros [F _] E. apply nth_error_In in E. rewrite Forall_forall in F. exact (F _ E). Qed.
Lemma tx_rd data t : all_ok data -> tx_des data = Ok t -> body_wf (tx_body t) /\ wits_wf (tx_wits t) /\ (Forall known_cert (tb_certs (tx_body t)) -> Forall simple_cert (tb_certs (tx_body t))) /\
  ws_scripts (tx_wits t) = [] /\ ws_bootstrap (tx_wits t) = 0 /\ tx_meta t = false.
Proof.
  intros O H. unfold tx_des in H. bnd H b. bnd H w. injection H as <-. cbn [tx_body tx_wits tx_meta].
  assert (B : body_wf b /\ (Forall known_cert (tb_certs b) -> Forall simple_cert (tb_certs b))).
  { assert (E : body_wf empty_body /\ (Forall known_cert (tb_certs empty_body) -> Forall simple_cert (tb_certs empty_body))) by (split; [exact empty_body_wf|intros _; constructor]).
    destruct (nth_error data 0) as [c|] eqn:N; [|injection H0 as <-; exact E]. destruct (as_map c) as [m|] eqn:A; [|injection H0 as <-; exact E].
    exact (body_rd _ _ (as_map_ok _ _ (nth_ok _ _ _ O N) A) H0). }
  assert (W : wits_wf w /\ ws_scripts w = [] /\ ws_bootstrap w = 0).
  { assert (E : wits_wf empty_wits /\ ws_scripts empty_wits = [] /\ ws_bootstrap empty_wits = 0) by (split; [exact empty_wits_wf|split; reflexivity]).
    destruct (nth_error data 1) as [c|] eqn:N; [|injection H1 as <-; exact E]. destruct (as_map c) as [m|] eqn:A; [|injection H1 as <-; exact E].
    exact (wits_rd _ _ (as_map_ok _ _ (nth_ok _ _ _ O N) A) H1). }
  repeat split; try apply B; try apply W. 
Qed.
(** Scripts: ranges, below tags and nested arrays *)
Lemma ms_rd c : forall s, cbor_ok c -> ms_item c = Ok s -> ms_wf s.
Proof.
  set (Q := fun c : cbor => cbor_ok c -> forall s, ms_item c = Ok s -> ms_wf s).
  assert (D : forall c, Q c /\ (forall l, as_array c = Some l -> Forall Q l)); [|intros s O; apply (proj1 (D c) O)].
  clear c. intros c. induction c as [n|n|b|b|l IH|l IH|t c IH|b|] using cbor_nested_ind; try (split; [intros _; cbn; discriminate|cbn; discriminate]).
  - assert (FL : Forall Q l) by (eapply Forall_impl; [|exact IH]; intros a [H _]; exact H). split; [|cbn; intros l0 E; injection E as <-; exact FL].
    intros O s H. apply ok_array in O as [LN OL]. destruct l as [|t [|a more]]; [discriminate|discriminate|].
    inversion IH as [|? ? _ IH1]; subst. inversion IH1 as [|? ? (_ & IA) _]; subst. inversion OL as [|? ? _ OL1]; subst. inversion OL1 as [|? ? Oa _]; subst.
    assert (G : forall r,
       (fix strip (a : cbor) : outcome (list mscript) :=
        match a with CTag _ a => strip a | CArray l => (fix go (l : list cbor) : outcome (list mscript) :=
        match l with [] => Ok [] | x :: r => let* y := ms_item x in let* ys := go r in Ok (y :: ys) end) l | _ => Throw end) a = Ok r ->
       zlen r < 2 ^ 64 /\ fold_right (fun x P => ms_wf x /\ P) True r).
    { clear - IA Oa. induction a as [| | | |l|l|t a IHa| |]; intros r E; try discriminate.
      - rewrite ms_go in E. pose proof (IA l eq_refl) as F. apply ok_array in Oa as [LL FO].
        assert (MM : many ms_wf r).
        { apply (mapM_many ms_item (fun c => Q c /\ cbor_ok c) ms_wf l r E); [intros x y [Qx Ox] E'; exact (Qx Ox y E')|]. split; [|exact LL]. rewrite Forall_forall in *. intros x I. split; [apply F, I|apply FO, I]. }
        destruct MM as [M1 M2]. split; [exact M2|]. clear - M1. induction M1; cbn [fold_right]; auto.
      - apply IHa; [exact IA|apply Oa|exact E]. }
    cbn [ms_item] in H. destruct (as_uint t) as [tag|]; [|discriminate].
    destruct (tag =? 0); [destruct more; [|discriminate]; bnd H h; bnd H h2; apply want_ok in H0; apply fixed_inv in H1 as [-> L]; injection H as <-; apply bytesN_of; [exact (as_bytes_ok _ _ Oa H0)|exact L]|].
    destruct (tag =? 1); [destruct more; [|discriminate]; bnd H l; injection H as <-; exact (G l H0)|].
    destruct (tag =? 2); [destruct more; [|discriminate]; bnd H l; injection H as <-; exact (G l H0)|].
    destruct (tag =? 3); [destruct more; [|discriminate]; bnd H l; discriminate|]. injection H as <-. exact I.
  - destruct IH as (I1 & I3). split; [|exact I3]. intros O s E. apply (I1 (proj2 O) s E).
Qed.
Lemma parsed_ok s c : bytes_ok s -> cbor_parse s = Ok c -> cbor_ok c.
Proof. intros O E. unfold cbor_parse in E. destruct (cbor_read s) as [[x r]|] eqn:R; [|discriminate]. destruct (encode_shortest _ _ _ O R) as [X _]. congruence. Qed.
Lemma parsed_array {A} (des : list cbor -> outcome A) s x : bytes_ok s -> deserialize_array des s = Ok x -> exists data, all_ok data /\ des data = Ok x.
Proof. intros O E. unfold deserialize_array in E. apply bind_ok in E as (c & Ec & E). apply bind_ok in E as (a & Ea & E). apply want_ok in Ea. exists a. split; [exact (as_array_ok _ _ (parsed_ok _ _ O Ec) Ea)|exact E]. Qed.
Lemma parsed_map {A} (des : list (cbor * cbor) -> outcome A) s x : bytes_ok s -> deserialize_map des s = Ok x -> exists m, map_ok m /\ des m = Ok x.
Proof. intros O E. unfold deserialize_map in E. apply bind_ok in E as (c & Ec & E). apply bind_ok in E as (a & Ea & E). apply want_ok in Ea. exists a. split; [exact (as_map_ok _ _ (parsed_ok _ _ O Ec) Ea)|exact E]. Qed.

(** ** C61 *)
(** Every value read is within the ranges of its type: hashes of 28 or 32 bytes, keys of 32, signatures of 64, 64-bit integers, 16-bit ports,
    non-zero denominators, sets and maps in order without duplicates. *)
Theorem C61_parts_well_formed : forall s, bytes_ok s ->
  (forall r, deserialize_tag rational_des s = Ok r -> rational_wf r) /\ (forall m, deserialize_array pm_des s = Ok m -> pm_wf m) /\
  (forall r, deserialize_array relay_des s = Ok r -> relay_wf r) /\ (forall c, deserialize_array cred_des s = Ok c -> cred_wf c) /\
  (forall m, deserialize_array (mir_des []) s = Ok m -> mir_wf m) /\ (forall o, deserialize_array txout_des s = Ok o -> txout_wf o) /\
  (forall i, deserialize_array txin_des s = Ok i -> txin_wf i) /\ (forall m, deserialize_array ms_des s = Ok m -> ms_wf m).
Proof.
  intros s O. repeat apply conj; intros v E; try (apply parsed_array in E as (d & D & E); [|exact O]).
  - unfold deserialize_tag in E. apply bind_ok in E as (c & Ec & E). apply bind_ok in E as (t & Et & E). apply want_ok in Et. exact (rational_rd _ _ _ (as_tag_ok _ _ (parsed_ok _ _ O Ec) Et) E).
  - exact (pm_rd _ _ D E).
  - exact (relay_rd _ _ D E).
  - exact (cred_rd _ _ D E).
  - exact (mir_rd _ _ D E).
  - exact (txout_rd _ _ D E).
  - exact (txin_rd _ _ D E).
  - apply (ms_rd (CArray d)); [|exact E]. apply ok_array. destruct D as [F L]. split; assumption.
Qed.
Theorem C61_certificates_well_formed : forall s c, bytes_ok s -> deserialize_array cert_des s = Ok c -> cert_wf c.
Proof. intros s c O E. apply parsed_array in E as (d & D & E); [|exact O]. apply (cert_rd _ _ D E). Qed.
Theorem C61_transactions_well_formed : forall s, bytes_ok s ->
  (forall b, deserialize_map txbody_des s = Ok b -> body_wf b) /\ (forall w, deserialize_map witset_des s = Ok w -> wits_wf w) /\
  (forall t, deserialize_array tx_des s = Ok t -> body_wf (tx_body t) /\ wits_wf (tx_wits t)).
Proof.
  intros s O. split; [|split]; intros v E.
  - apply parsed_map in E as (m & M & E); [|exact O]. apply (body_rd _ _ M E).
  - apply parsed_map in E as (m & M & E); [|exact O]. apply (wits_rd _ _ M E).
  - apply parsed_array in E as (d & D & E); [|exact O]. destruct (tx_rd _ _ D E) as (A & B & _). split; assumption.
Qed.
(** Writing what was read, and reading that, changes nothing (unless a certificate of an unknown kind was read). *)
Theorem C61_reread_certificate : forall s c, bytes_ok s -> deserialize_array cert_des s = Ok c -> c <> CertNone ->
  exists s', serialize (cert_ser c) = Ok s' /\ deserialize_array cert_des s' = Ok c.
Proof. intros s c O E N. apply parsed_array in E as (d & D & E); [|exact O]. destruct (cert_rd _ _ D E) as [W S]. exact (C43_cert_round_trip c W (S N)). Qed.
Theorem C61_reread_transaction : forall s t, bytes_ok s -> deserialize_array tx_des s = Ok t -> ~ In CertNone (tb_certs (tx_body t)) ->
  exists s', serialize (tx_ser t) = Ok s' /\ deserialize_array tx_des s' = Ok t.
Proof.
  intros s t O E N. apply parsed_array in E as (d & D & E); [|exact O]. destruct (tx_rd _ _ D E) as (WB & WW & S & A & B & C).
  apply C54_transaction_round_trip; try assumption. apply S. apply Forall_forall. intros c I ->. exact (N I).
Qed.
Theorem C61_reread_body : forall s b, bytes_ok s -> deserialize_map txbody_des s = Ok b -> ~ In CertNone (tb_certs b) ->
  exists s', serialize (txbody_ser b) = Ok s' /\ deserialize_map txbody_des s' = Ok b.
Proof.
  intros s b O E N. apply parsed_map in E as (m & M & E); [|exact O]. destruct (body_rd _ _ M E) as [W S]. apply C54_body_round_trip; [exact W|]. apply S. apply Forall_forall. intros c I ->. exact (N I).
Qed.
(** Missing: a certificate of an unknown kind is read as an empty one, which is written as an empty array and refused on reading. *)
Theorem C61_unknown_certificate_refuted :
  deserialize_array cert_des [130; 7; 0] = Ok CertNone /\ serialize (cert_ser CertNone) = Ok [128] /\ deserialize_array cert_des [128] = Throw /\
  (exists b s, deserialize_map txbody_des [161; 4; 129; 130; 7; 0] = Ok b /\ serialize (txbody_ser b) = Ok s /\ deserialize_map txbody_des s = Throw).
Proof. split; [vm_compute; reflexivity|]. split; [vm_compute; reflexivity|]. split; [vm_compute; reflexivity|]. do 2 eexists. split; [vm_compute; reflexivity|]. split; vm_compute; reflexivity. Qed.
Example C61_ex : exists s t, bytes_ok s /\ deserialize_array tx_des s = Ok t /\ ~ In CertNone (tb_certs (tx_body t)) /\ length (tb_inputs (tx_body t)) = 3%nat /\ tb_certs (tx_body t) <> [].
Proof.
  destruct C54_ex_body as (W & S). 
  set (t := {| tx_body := ex_body; tx_wits := empty_wits; tx_meta := false |}).
  destruct (C54_transaction_round_trip t W S empty_wits_wf eq_refl eq_refl eq_refl) as (s & E & R). exists s, t.
  split; [|split; [exact R|]].
  - unfold serialize in E. apply bind_ok in E as (x & Hx & E). injection E as <-. destruct (tx_des_ser t W S empty_wits_wf) as (data & E & O & _). rewrite Hx in E. injection E as ->. apply encode_bytes, O.
  - split; [|split; [reflexivity|discriminate]]. intros I. cbn [tx_body t] in I. rewrite Forall_forall in S. exact (S _ I).
Qed.
Print Assumptions C61_parts_well_formed.
Print Assumptions C61_certificates_well_formed.
Print Assumptions C61_transactions_well_formed.
Print Assumptions C61_reread_certificate.
Print Assumptions C61_reread_transaction.
Print Assumptions C61_reread_body.
Print Assumptions C61_unknown_certificate_refuted.
