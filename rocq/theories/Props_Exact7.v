(** C62, completed: for everything a ledger reader returns, exactly what the bytes say, with every loss spelled out. *)
From Coq Require Import ZArith List Lia Bool Sorted.
From Verif Require Import Base BaseLemmas Spec_Cbor Model_Cbor Proof_Cbor Spec_Ledger Model_Ledger Proof_Ledger Proof_Ledger2 Props_Readers Props_Faithful.
Import ListNotations.
Open Scope Z_scope.
Ltac Zify.zify_post_hook ::= idtac.

(** ** Specification: an item (its tags removed) is read as a value *)
Definition port_read (u : cbor) (p : option Z) : Prop := match u with CUint n => p = Some (n mod 2 ^ 16) | _ => p = None end.
(** a relay: ports are cut to 16 bits; of an address relay the third element decides by its length, the fourth is ignored *)
Definition relay_read (u : cbor) (r : relay) : Prop :=
  match r with
  | RMulti d => u = CArray [CUint 2; CText d]
  | RName d p => exists q, u = CArray [CUint 1; q; CText d] /\ port_read q p
  | RAddr v4 v6 p => exists q a x, u = CArray [CUint 0; q; a; x] /\ port_read q p /\
      match a with
      | CBytes b => v4 = (if zlen b =? 4 then Some b else None) /\ v6 = (if zlen b =? 16 then Some b else None)
      | _ => v4 = None /\ v6 = None
      end
  | RNone => exists k x rest, u = CArray (CUint k :: x :: rest) /\ ~ (0 <= k <= 2)
  end.
(** a script: kinds from 4 on are read as the empty script, whatever follows; n-of-k is never read *)
Inductive script_read : cbor -> mscript -> Prop :=
| sr_key h : length h = 28%nat -> script_read (CArray [CUint 0; CBytes h]) (MPub h)
| sr_all us l : Forall2 script_read us l -> script_read (CArray [CUint 1; CArray us]) (MAll l)
| sr_any us l : Forall2 script_read us l -> script_read (CArray [CUint 2; CArray us]) (MAny l)
| sr_other k x rest : ~ (0 <= k <= 3) -> script_read (CArray (CUint k :: x :: rest)) MNone.
(** a certificate: of a pool registration the relays and the metadata are lost, and owners that are no array; after an instantaneous-reward certificate anything may follow;
    unknown kinds are read as the empty certificate; genesis delegations are never read *)
Definition owners_read (rest : list cbor) (owners : list (list Z)) : Prop :=
  match rest with
  | CArray l :: _ => (exists hs, l = map CBytes hs /\ Forall (fun h => length h = 28%nat) hs /\ forall h, In h owners <-> In h hs) /\ StronglySorted (fun a b => lex_lt a b = true) owners
  | _ => owners = []
  end.
Definition cert_read (u : cbor) (c : cert) : Prop :=
  match c with
  | StakeReg k => u = CArray [CUint 0; untag (cred_ser k)] | StakeDereg k => u = CArray [CUint 1; untag (cred_ser k)]
  | StakeDeleg k p => u = CArray [CUint 2; untag (cred_ser k); CBytes p]
  | PoolRetire p e => u = CArray [CUint 4; CBytes p; CUint e]
  | PoolReg p => exists rest, u = CArray (CUint 3 :: CBytes (pp_operator p) :: CBytes (pp_vrf p) :: CUint (pp_pledge p) :: CUint (pp_cost p) :: CArray [CUint (rnum (pp_margin p)); CUint (rden (pp_margin p))] :: CBytes (pp_account p) :: rest) /\
      owners_read rest (pp_owners p) /\ pp_relays p = [] /\ pp_metadata p = None
  | MirCert m => exists rest, u = CArray (CUint 6 :: untag (mir_ser m) :: rest)
  | GenesisDeleg _ _ _ => False
  | CertNone => exists k x rest, u = CArray (CUint k :: x :: rest) /\ ~ (0 <= k <= 6)
  end.
(** the value under a key, its tags removed *)
Definition at_key (m : list (cbor * cbor)) (k : Z) : option cbor := match map_get m k with Some c => Some (untag c) | None => None end.
Definition items_at m k : list cbor := match at_key m k with Some (CArray l) => l | _ => [] end.
(** a body: what is missing or of another type counts as empty or zero; inputs are a set; of several withdrawals from one account the last counts *)
Definition body_read (m : list (cbor * cbor)) (b : txbody) : Prop :=
  (exists ins, items_at m 0 = map (fun i => untag (txin_ser i)) ins /\ (forall i, In i (tb_inputs b) <-> In i ins) /\ StronglySorted (fun a b => txin_lt a b = true) (tb_inputs b)) /\
  items_at m 1 = map (fun o => untag (txout_ser o)) (tb_outputs b) /\
  tb_fee b = (match at_key m 2 with Some (CUint n) => n | _ => 0 end) /\ tb_ttl b = (match at_key m 3 with Some (CUint n) => n | _ => 0 end) /\
  Forall2 cert_read (items_at m 4) (tb_certs b) /\
  (exists ws, match at_key m 5 with Some (CMap l) => l | _ => [] end = map (fun w => (CBytes (fst w), CUint (snd w))) ws /\
     forall a n, In (a, n) (tb_withdrawals b) <-> exists before after, ws = before ++ (a, n) :: after /\ ~ In a (map fst after)) /\
  tb_metadata_hash b = (match at_key m 7 with Some (CBytes h) => Some h | _ => None end).
(** a witness set: only key witnesses are read; keys and signatures are cut to 32 and 64 bytes, further elements and items that are no arrays are ignored *)
Definition vkey_read (u : cbor) (w : list Z * list Z) : Prop := exists k s rest, u = CArray (CBytes (fst w ++ k) :: CBytes (snd w ++ s) :: rest) /\ length (fst w) = 32%nat /\ length (snd w) = 64%nat.
Definition is_array (u : cbor) : bool := match u with CArray _ => true | _ => false end.
Definition witset_read (m : list (cbor * cbor)) (w : witset) : Prop := Forall2 vkey_read (filter is_array (items_at m 0)) (ws_vkeys w) /\ ws_scripts w = [] /\ ws_bootstrap w = 0.

(** ** Proofs *)
Lemma as_uint_none c : as_uint c = None -> forall n, untag c <> CUint n.
Proof. induction c; cbn; intros E n' X; try discriminate; exact (IHc E n' X). Qed.
Lemma as_bytes_none c : as_bytes c = None -> forall n, untag c <> CBytes n.
Proof. induction c; cbn; intros E n' X; try discriminate. exact (IHc E n' X). Qed.
Lemma as_array_none c : as_array c = None -> forall n, untag c <> CArray n.
Proof. induction c; cbn; intros E n' X; try discriminate. exact (IHc E n' X). Qed.
Lemma as_map_none c : as_map c = None -> forall n, untag c <> CMap n.
Proof. induction c; cbn; intros E n' X; try discriminate. exact (IHc E n' X). Qed.
Lemma port_reads c : port_read (untag c) (port_des c).
Proof.
  unfold port_des. destruct (as_uint c) as [n|] eqn:E; [rewrite (uint_untag _ _ E); reflexivity|]. pose proof (as_uint_none _ E) as N. unfold port_read. destruct (untag c); try reflexivity. exfalso. exact (N n eq_refl).
Qed.
Lemma relay_reads data r : relay_des data = Ok r -> relay_read (CArray (map untag data)) r.
Proof.
  intros H. destruct data as [|c0 [|c1 data]]; try discriminate. unfold relay_des in H. assert (L2 : zlen (c0 :: c1 :: data) <? 2 = false) by (unfold zlen; cbn [length]; apply Z.ltb_ge; lia). rewrite L2 in H. cbn [get_ub nth_error bind] in H.
  bnd2 H tag Et. apply want_ok, uint_untag in Et. destruct (Z.eqb_spec tag 0) as [->|N0].
  { destruct (Z.eqb_spec (zlen (c0 :: c1 :: data)) 4) as [L|]; [|discriminate]. destruct data as [|c2 [|c3 [|? ?]]]; unfold zlen in L; cbn [length] in L; try lia. cbn [negb get_ub nth_error bind] in H.
    assert (K : forall v4 v6, r = RAddr v4 v6 (port_des c1) -> match untag c2 with CBytes b => v4 = (if zlen b =? 4 then Some b else None) /\ v6 = (if zlen b =? 16 then Some b else None) | _ => v4 = None /\ v6 = None end -> relay_read (CArray (map untag [c0; c1; c2; c3])) r).
    { intros v4 v6 -> X. exists (untag c1), (untag c2), (untag c3). cbn [map]. rewrite Et. split; [reflexivity|]. split; [apply port_reads|exact X]. }
    destruct (as_bytes c2) as [b|] eqn:E2.
    - destruct (Z.eqb_spec (zlen b) 4) as [E4|N4]; [|destruct (Z.eqb_spec (zlen b) 16) as [E16|N16]]; injection H as <-; eapply K; try reflexivity; rewrite (bytes_untag _ _ E2).
      + rewrite E4. split; reflexivity.
      + rewrite E16. split; reflexivity.
      + destruct (Z.eqb_spec (zlen b) 4), (Z.eqb_spec (zlen b) 16); try lia. split; reflexivity.
    - injection H as <-. eapply K; [reflexivity|]. pose proof (as_bytes_none _ E2) as N. destruct (untag c2); try (split; reflexivity). exfalso. exact (N b eq_refl). }
  destruct (Z.eqb_spec tag 1) as [->|N1].
  { destruct (Z.eqb_spec (zlen (c0 :: c1 :: data)) 3) as [L|]; [|discriminate]. destruct data as [|c2 [|? ?]]; unfold zlen in L; cbn [length] in L; try lia. cbn [negb get_ub nth_error bind] in H. bnd2 H dns Ed. apply want_ok, text_untag in Ed. injection H as <-.
    exists (untag c1). cbn [map]. rewrite Et, Ed. split; [reflexivity|apply port_reads]. }
  destruct (Z.eqb_spec tag 2) as [->|N2].
  { destruct (Z.eqb_spec (zlen (c0 :: c1 :: data)) 2) as [L|]; [|discriminate]. destruct data as [|? ?]; unfold zlen in L; cbn [length] in L; [|lia]. cbn [negb get_ub nth_error bind] in H. bnd2 H dns Ed. apply want_ok, text_untag in Ed. injection H as <-. cbn [relay_read map]. rewrite Et, Ed. reflexivity. }
  injection H as <-. exists tag, (untag c1), (map untag data). cbn [map]. rewrite Et. split; [reflexivity|lia].
Qed.
Lemma mapM_Forall2 {A B} (f : A -> outcome B) (R : A -> B -> Prop) l : (forall x y, In x l -> f x = Ok y -> R x y) -> forall r, mapM f l = Ok r -> Forall2 R l r.
Proof.
  induction l as [|x l IH]; cbn [mapM]; intros K r H; [injection H as <-; constructor|]. bnd2 H y Ey. bnd2 H ys Eys. injection H as <-. constructor; [apply K; [left; reflexivity|exact Ey]|]. apply IH; [|exact Eys]. intros a b I. apply K. right. exact I.
Qed.
Lemma Forall2_map_l {A B C} (R : B -> C -> Prop) (g : A -> B) l r : Forall2 (fun x y => R (g x) y) l r -> Forall2 R (map g l) r.
Proof. induction 1; constructor; assumption. Qed.
Lemma script_reads c : forall s, ms_item c = Ok s -> script_read (untag c) s.
Proof.
  set (Q := fun c : cbor => forall s, ms_item c = Ok s -> script_read (untag c) s).
  assert (D : forall c, Q c /\ (forall l, as_array c = Some l -> Forall Q l)); [|intros s; apply (proj1 (D c))].
  clear c. intros c. induction c as [n|n|b|b|l IH|l IH|t c IH|b|] using cbor_nested_ind; try (split; [intros s; cbn; discriminate|cbn; discriminate]).
  - assert (FL : Forall Q l) by (eapply Forall_impl; [|exact IH]; intros a [H _]; exact H). split; [|cbn; intros l0 E; injection E as <-; exact FL].
    intros s H. destruct l as [|t [|a more]]; [discriminate|discriminate|]. inversion IH as [|? ? _ IH1]; subst. inversion IH1 as [|? ? (_ & IA) _]; subst.
    assert (G : forall r,
       (fix strip (a : cbor) : outcome (list mscript) :=
        match a with CTag _ a => strip a | CArray l => (fix go (l : list cbor) : outcome (list mscript) :=
        match l with [] => Ok [] | x :: r => let* y := ms_item x in let* ys := go r in Ok (y :: ys) end) l | _ => Throw end) a = Ok r ->
       exists us, untag a = CArray us /\ Forall2 script_read us r).
    { clear - IA. induction a as [| | | |l|l|t a IHa| |]; intros r E; try discriminate.
      - rewrite ms_go in E. pose proof (IA l eq_refl) as F. cbn [untag]. exists (map untag l). split; [reflexivity|]. apply Forall2_map_l. apply (mapM_Forall2 ms_item); [|exact E]. rewrite Forall_forall in F. intros x y I. exact (F x I y).
      - cbn [untag]. apply IHa; [exact IA|exact E]. }
    cbn [ms_item] in H. destruct (as_uint t) as [tag|] eqn:Et; [|discriminate]. apply uint_untag in Et. cbn [untag map].
    destruct (Z.eqb_spec tag 0) as [->|N0].
    { destruct more; [|discriminate]. bnd2 H h Eh. bnd2 H h2 Ef. apply want_ok in Eh. apply fixed_inv in Ef as [-> L]. injection H as <-. cbn [map]. rewrite Et, (bytes_untag _ _ Eh). constructor. unfold zlen in L. lia. }
    destruct (Z.eqb_spec tag 1) as [->|N1].
    { destruct more; [|discriminate]. bnd2 H r Er. injection H as <-. destruct (G r Er) as (us & U & F). cbn [map]. rewrite Et, U. constructor. exact F. }
    destruct (Z.eqb_spec tag 2) as [->|N2].
    { destruct more; [|discriminate]. bnd2 H r Er. injection H as <-. destruct (G r Er) as (us & U & F). cbn [map]. rewrite Et, U. constructor. exact F. }
    destruct (Z.eqb_spec tag 3); [destruct more; [|discriminate]; bnd2 H r Er; discriminate|]. injection H as <-. rewrite Et. constructor. lia.
  - destruct IH as (I1 & I3). split; [|exact I3]. intros s E. apply (I1 s E).
Qed.
Lemma owners_reads rest owners os : owners_des (as_array os) = Ok owners -> owners_read (untag os :: rest) owners.
Proof.
  destruct (as_array os) as [arr|] eqn:E; cbn [owners_des]; intros H.
  - rewrite (array_untag _ _ E). bnd2 H l El. apply ok_inj in H. subst owners. assert (MM : map untag arr = map CBytes l /\ Forall (fun h => length h = 28%nat) l).
    { clear E. revert l El. induction arr as [|x arr IH]; cbn [mapM]; intros l El; [injection El as <-; split; constructor|]. bnd2 El y Ey. bnd2 El ys Eys. apply ok_inj in El. subst l. destruct (IH _ Eys) as [I1 I2]. unfold owner_des in Ey. bnd2 Ey b Eb. apply deref_ok, bytes_untag in Eb. apply fixed_inv in Ey as [-> L].
      cbn [map]. rewrite Eb, I1. split; [reflexivity|]. constructor; [unfold zlen in L; lia|exact I2]. }
    destruct MM as [M1 M2]. cbn [owners_read]. split; [|exact (set_of_sorted lex_lt lex_st l)]. exists l. split; [exact M1|]. split; [exact M2|]. intros h. exact (set_of_in lex_lt lex_st l h).
  - injection H as <-. pose proof (as_array_none _ E) as N. cbn [owners_read]. destruct (untag os); try reflexivity. exfalso. exact (N l eq_refl).
Qed.
Lemma cert_reads data c : cert_des data = Ok c -> cert_read (CArray (map untag data)) c.
Proof.
  intros H. pose proof H as H0. destruct data as [|c0 [|c1 data]]; try discriminate. unfold cert_des in H. assert (L2 : zlen (c0 :: c1 :: data) <? 2 = false) by (unfold zlen; cbn [length]; apply Z.ltb_ge; lia). rewrite L2 in H. cbn [get_ub nth_error bind] in H.
  bnd2 H tag Et. apply want_ok in Et. pose proof (uint_untag _ _ Et) as Ut.
  assert (ST : strict_cert c -> cert_read (CArray (map untag (c0 :: c1 :: data))) c).
  { intros S. destruct (cert_say _ _ H0 S) as (i & Ei & U). cbn [untag] in U. rewrite U. destruct c as [|k|k|k p|p|p e|g d v|m]; try contradiction S; cbn [cert_ser] in Ei; injection Ei as <-; reflexivity. }
  destruct (Z.eqb_spec tag 0) as [->|N0]. { destruct (negb _); [discriminate|]. bnd2 H a Ea. bnd2 H k Ek. injection H as <-. apply ST. exact I. }
  destruct (Z.eqb_spec tag 1) as [->|N1]. { destruct (negb _); [discriminate|]. bnd2 H a Ea. bnd2 H k Ek. injection H as <-. apply ST. exact I. }
  destruct (Z.eqb_spec tag 2) as [->|N2]. { destruct (negb _); [discriminate|]. bnd2 H a Ea. bnd2 H c2 E2. bnd2 H k Ek. bnd2 H h Eh. bnd2 H h2 Eh2. injection H as <-. apply ST. exact I. }
  destruct (Z.eqb_spec tag 3) as [->|N3].
  { clear ST H0. unfold pool_reg_des in H. destruct (zlen _ <? 7) eqn:L7; [discriminate|]. destruct data as [|c2 [|c3 [|c4 [|c5 [|c6 data]]]]]; try discriminate L7. cbn [get_ub nth_error bind] in H.
    bnd2 H op E1. bnd2 H vrf E2. bnd2 H pledge E3. bnd2 H cost E4. bnd2 H arr E5. bnd2 H acct E6. bnd2 H op' F1. bnd2 H vrf' F2. bnd2 H tg E7. bnd2 H margin E8. bnd2 H owners E9. apply ok_inj in H. subst c.
    apply want_ok in E1, E2, E3, E4, E6. apply deref_ok in E7. apply fixed_inv in F1 as [-> _]. apply fixed_inv in F2 as [-> _]. cbn [cert_read pp_operator pp_vrf pp_pledge pp_cost pp_margin pp_account pp_owners pp_relays pp_metadata].
    exists (map untag data). cbn [map]. rewrite Ut, (bytes_untag _ _ E1), (bytes_untag _ _ E2), (uint_untag _ _ E3), (uint_untag _ _ E4), (bytes_untag _ _ E6). destruct c5; cbn [as_tag] in E7; try discriminate. injection E7 as <-. cbn [fst snd] in E8.
    destruct (rational_say _ _ _ E8) as [RS _]. cbn [untag]. rewrite RS. split; [reflexivity|]. split; [|split; reflexivity].
    destruct data as [|c7 data].
    - cbn [length map owners_read]. destruct (7 <? _) eqn:X in E9; [unfold zlen in X; cbn [length] in X; discriminate|]. injection E9 as <-. reflexivity.
    - assert (X : 7 <? zlen (c0 :: c1 :: c2 :: c3 :: c4 :: CTag t c5 :: c6 :: c7 :: data) = true) by (unfold zlen; cbn [length]; apply Z.ltb_lt; lia). rewrite X in E9. cbn [get_ub nth_error bind] in E9. cbn [map]. exact (owners_reads _ _ _ E9). }
  destruct (Z.eqb_spec tag 4) as [->|N4]. { destruct (negb _); [discriminate|]. bnd2 H h Eh. bnd2 H c2 E2. bnd2 H e Ee. bnd2 H h2 Eh2. injection H as <-. apply ST. exact I. }
  destruct (Z.eqb_spec tag 5); [rewrite (uint_not_bytes _ _ Et) in H; discriminate|].
  destruct (Z.eqb_spec tag 6) as [->|N6].
  { bnd2 H a Ea. bnd2 H m Em. injection H as <-. apply deref_ok in Ea. exists (map untag data). cbn [map]. rewrite Ut, (array_untag _ _ Ea). do 3 f_equal. exact (mir_say _ _ Em). }
  injection H as <-. exists tag, (untag c1), (map untag data). cbn [map]. rewrite Ut. split; [reflexivity|lia].
Qed.
Lemma items_body m k : items_at m k = map untag (body_array m k).
Proof.
  unfold items_at, at_key, body_array. destruct (map_get m k) as [c|]; [|reflexivity]. destruct (as_array c) as [l|] eqn:E; [rewrite (array_untag _ _ E); reflexivity|]. pose proof (as_array_none _ E) as N. destruct (untag c); try reflexivity. exfalso. exact (N l eq_refl).
Qed.
Lemma uint_body m k : body_uint m k = match at_key m k with Some (CUint n) => n | _ => 0 end.
Proof.
  unfold at_key, body_uint. destruct (map_get m k) as [c|]; [|reflexivity]. destruct (as_uint c) as [l|] eqn:E; [rewrite (uint_untag _ _ E); reflexivity|]. pose proof (as_uint_none _ E) as N. destruct (untag c); try reflexivity. exfalso. exact (N n eq_refl).
Qed.
(** a map filled in order holds for each key the last value given *)
Lemma fill_last (ws : list (list Z * Z)) : forall a n, In (a, n) (fold_left (fun s p => map_assign (fst p) (snd p) s) ws []) <-> exists before after, ws = before ++ (a, n) :: after /\ ~ In a (map fst after).
Proof.
  assert (AS : forall k (v : Z) l a n, StronglySorted (fun a b => lex_lt (fst a) (fst b) = true) l -> (In (a, n) (map_assign k v l) <-> a = k /\ n = v \/ a <> k /\ In (a, n) l)).
  { intros k v. induction l as [|[k' v'] l IH]; intros a n S; cbn [map_assign].
    - cbn [In]. split; [intros [E|[]]; left; split; congruence|intros [[-> ->]|[_ []]]; auto].
    - inversion S as [|? ? S' F]; subst. cbn [fst] in F. destruct (lex_lt k k') eqn:A; [|destruct (lex_lt k' k) eqn:B].
      + cbn [In]. split; [|intros [[-> ->]|[_ X]]; auto]. intros [E|X]; [left; split; congruence|]. right. split; [|exact X]. intros ->. destruct X as [E|X]; [assert (k' = k) by congruence; subst; rewrite (st_irr _ lex_st) in A; discriminate|]. rewrite Forall_forall in F. specialize (F _ X). cbn [fst] in F.
        pose proof (st_trans _ lex_st _ _ _ A F) as T. rewrite (st_irr _ lex_st) in T. discriminate.
      + cbn [In]. rewrite (IH a n S'). split.
        * intros [E|[X|[X Y]]]; [|auto|auto]. right. split; [|auto]. intros ->. assert (k' = k) by congruence. subst. rewrite (st_irr _ lex_st) in B. discriminate.
        * intros [X|[X [Y|Y]]]; auto.
      + assert (k = k') by (apply (st_total _ lex_st); assumption). subst k'. cbn [In]. split.
        * intros [E|X]; [left; split; congruence|]. right. split; [|auto]. intros ->. rewrite Forall_forall in F. specialize (F _ X). cbn [fst] in F. rewrite (st_irr _ lex_st) in F. discriminate.
        * intros [[-> ->]|[X [Y|Y]]]; [auto|assert (a = k) by congruence; contradiction|auto]. }
  intros a n. induction ws as [|[k v] ws IH] using rev_ind.
  - split; [intros []|intros (b & x & E & _); destruct b; discriminate].
  - rewrite fold_left_app. cbn [fold_left fst snd]. assert (SS : forall l, StronglySorted (fun a b => lex_lt (fst a) (fst b) = true) (fold_left (fun (s : list (list Z * Z)) p => map_assign (fst p) (snd p) s) l [])).
    { induction l as [|p l IHl] using rev_ind; [constructor|]. rewrite fold_left_app. cbn [fold_left]. apply assign_sorted, IHl. }
    rewrite (AS _ _ _ _ _ (SS ws)), IH. split.
    + intros [[-> ->]|[N (b & x & -> & NI)]]; [exists ws, []; split; [reflexivity|intros []]|]. exists b, (x ++ [(k, v)]). split; [rewrite <- app_assoc; reflexivity|]. rewrite map_app, in_app_iff. cbn. intros [X|[X|[]]]; [exact (NI X)|congruence].
    + intros (b & x & E & NI). destruct x as [|p x _] using rev_ind.
      * apply app_inj_tail in E as [_ E]. left. split; congruence.
      * change ((a, n) :: x ++ [p]) with (((a, n) :: x) ++ [p]) in E. rewrite app_assoc in E. apply app_inj_tail in E as [E1 E2]. subst p. rewrite map_app, in_app_iff in NI. cbn [map fst In] in NI. right. split; [intros ->; apply NI; auto|]. exists b, x. split; [exact E1|tauto].
Qed.
Lemma body_reads m b : txbody_des m = Ok b -> body_read m b.
Proof.
  intros H. unfold txbody_des in H. bnd2 H ins Ei. bnd2 H outs Eo. bnd2 H certs Ec. bnd2 H ws Ew. bnd2 H mh Em. injection H as <-. unfold body_read. cbn [tb_fee tb_ttl tb_outputs tb_inputs tb_certs tb_withdrawals tb_metadata_hash].
  split; [|split; [|split; [|split; [|split; [|split]]]]].
  - exists ins. rewrite items_body. split; [|split; [intros i; exact (set_of_in txin_lt txin_st ins i)|exact (set_of_sorted txin_lt txin_st ins)]].
    refine (mapM_map _ _ _ _ _ ins Ei). intros x y _ E. unfold item_des in E. bnd2 E a Ea. apply deref_ok in Ea. rewrite (array_untag _ _ Ea). exact (txin_say _ _ E).
  - rewrite items_body. refine (mapM_map _ _ _ _ _ outs Eo). intros x y _ E. unfold item_des in E. bnd2 E a Ea. apply deref_ok in Ea. rewrite (array_untag _ _ Ea). exact (txout_say _ _ E).
  - apply uint_body.
  - apply uint_body.
  - rewrite items_body. apply Forall2_map_l. refine (mapM_Forall2 _ _ _ _ certs Ec). intros x y _ E. unfold item_des in E. bnd2 E a Ea. apply deref_ok in Ea. rewrite (array_untag _ _ Ea). exact (cert_reads _ _ E).
  - exists ws. split; [|apply fill_last]. unfold at_key. destruct (map_get m 5) as [c|]; [|injection Ew as <-; reflexivity]. destruct (as_map c) as [l|] eqn:E.
    + rewrite (map_untag _ _ E). refine (mapM_map _ _ _ _ _ ws Ew). intros [x y] [a n] _ X. unfold wdrl_entry in X. cbn [fst snd] in *. bnd2 X a' Ea. bnd2 X n' En. apply deref_ok in Ea, En. injection X as <- <-. rewrite (bytes_untag _ _ Ea), (uint_untag _ _ En). reflexivity.
    + injection Ew as <-. pose proof (as_map_none _ E) as N. destruct (untag c); try reflexivity. exfalso. exact (N l eq_refl).
  - unfold at_key. destruct (map_get m 7) as [c|]; [|injection Em as <-; reflexivity]. destruct (as_bytes c) as [h|] eqn:E.
    + rewrite (bytes_untag _ _ E). bnd2 Em h2 Ef. apply fixed_inv in Ef as [-> _]. injection Em as <-. reflexivity.
    + injection Em as <-. pose proof (as_bytes_none _ E) as N. destruct (untag c); try reflexivity. exfalso. exact (N b eq_refl).
Qed.
Lemma make_array_inv n b x : make_array n b = Ok x -> 0 <= n -> exists rest, b = x ++ rest /\ zlen x = n.
Proof. unfold make_array. intros H N. destruct (Z.ltb_spec (zlen b) n); [discriminate|]. injection H as <-. exists (skipn (Z.to_nat n) b). split; [symmetry; apply firstn_skipn|]. unfold zlen in *. rewrite firstn_length. lia. Qed.
Lemma witset_reads m w : witset_des m = Ok w -> witset_read m w.
Proof.
  intros H. unfold witset_des in H. bnd2 H vs Ev. injection H as <-. unfold witset_read. cbn [ws_vkeys ws_scripts ws_bootstrap]. split; [|split; reflexivity]. rewrite items_body. revert vs Ev. induction (body_array m 0) as [|c l IH]; cbn [mapM]; intros vs Ev; [injection Ev as <-; constructor|].
  bnd2 Ev v Ec. bnd2 Ev vs' Evs. apply ok_inj in Ev. subst vs. specialize (IH _ Evs). unfold vkey_des in Ec. cbn [map filter]. destruct (as_array c) as [a|] eqn:E.
  - rewrite (array_untag _ _ E). cbn [is_array]. destruct a as [|c0 [|c1 a]]; cbn [get_ub nth_error bind] in Ec; [discriminate| |].
    + bnd2 Ec k Ek. bnd2 Ec k2 Ek2. discriminate.
    + bnd2 Ec k Ek. bnd2 Ec k2 Ek2. bnd2 Ec s Es. bnd2 Ec s2 Es2. apply ok_inj in Ec. subst v. apply deref_ok, bytes_untag in Ek, Es. apply make_array_inv in Ek2 as (rk & -> & Lk); [|lia]. apply make_array_inv in Es2 as (rs & -> & Ls); [|lia].
      cbn [keep_some flat_map app]. constructor; [|exact IH]. exists rk, rs, (map untag a). cbn [fst snd map]. rewrite Ek, Es. split; [reflexivity|]. unfold zlen in *. lia.
  - apply ok_inj in Ec. subst v. pose proof (as_array_none _ E) as N. cbn [keep_some flat_map app]. destruct (untag c); cbn [is_array]; try exact IH. exfalso. exact (N l0 eq_refl).
Qed.

(** ** C62, for every reader and every result *)
Theorem C62_exact : forall s,
  (forall r, deserialize_array relay_des s = Ok r -> exists i, cbor_parse s = Ok i /\ relay_read (untag i) r) /\
  (forall m, deserialize_array ms_des s = Ok m -> exists i, cbor_parse s = Ok i /\ script_read (untag i) m) /\
  (forall c, deserialize_array cert_des s = Ok c -> exists i, cbor_parse s = Ok i /\ cert_read (untag i) c).
Proof.
  intros s. split; [|split]; intros v E; unfold deserialize_array in E; bnd2 E i Ei; bnd2 E a Ea; apply want_ok in Ea; exists i; (split; [exact Ei|]); rewrite (array_untag _ _ Ea).
  - exact (relay_reads _ _ E).
  - exact (script_reads (CArray a) v E).
  - exact (cert_reads _ _ E).
Qed.
Theorem C62_body_exact : forall s b, deserialize_map txbody_des s = Ok b -> exists i m, cbor_parse s = Ok i /\ as_map i = Some m /\ body_read m b.
Proof. intros s b E. unfold deserialize_map in E. bnd2 E i Ei. bnd2 E m Em. apply want_ok in Em. exists i, m. split; [exact Ei|]. split; [exact Em|]. exact (body_reads _ _ E). Qed.
Theorem C62_witness_set_exact : forall s w, deserialize_map witset_des s = Ok w -> exists i m, cbor_parse s = Ok i /\ as_map i = Some m /\ witset_read m w.
Proof. intros s b E. unfold deserialize_map in E. bnd2 E i Ei. bnd2 E m Em. apply want_ok in Em. exists i, m. split; [exact Ei|]. split; [exact Em|]. exact (witset_reads _ _ E). Qed.
(** a transaction: the body and the witness set are the maps in the first two places (nothing, if they are not there); the rest is ignored *)
Theorem C62_transaction_exact : forall s t, deserialize_array tx_des s = Ok t -> exists i l, cbor_parse s = Ok i /\ as_array i = Some l /\
  (match nth_error l 0 with Some c => match as_map c with Some m => body_read m (tx_body t) | None => tx_body t = empty_body end | None => tx_body t = empty_body end) /\
  (match nth_error l 1 with Some c => match as_map c with Some m => witset_read m (tx_wits t) | None => tx_wits t = empty_wits end | None => tx_wits t = empty_wits end) /\ tx_meta t = false.
Proof.
  intros s t E. unfold deserialize_array in E. bnd2 E i Ei. bnd2 E a Ea. apply want_ok in Ea. exists i, a. split; [exact Ei|]. split; [exact Ea|]. unfold tx_des in E. bnd2 E b Eb. bnd2 E w Ew. apply ok_inj in E. subst t. cbn [tx_body tx_wits tx_meta].
  split; [|split; [|reflexivity]].
  - destruct (nth_error a 0) as [c|]; [|congruence]. destruct (as_map c) as [m|]; [|congruence]. exact (body_reads _ _ Eb).
  - destruct (nth_error a 1) as [c|]; [|congruence]. destruct (as_map c) as [m|]; [|congruence]. exact (witset_reads _ _ Ew).
Qed.
(** Not vacuous: a pool registration whose relays and metadata are lost, a certificate with more after it, an unknown kind, a long port, a long witness and a repeated account. *)
Example C62_lost_pool : exists c p, deserialize_array cert_des (cbor_encode (CArray ([CUint 3; CBytes (repeat 1 28); CBytes (repeat 2 32); CUint 5; CUint 6; CTag 30 (CArray [CUint 1; CUint 2]); CBytes [225]] ++
    [CArray [CBytes (repeat 4 28); CBytes (repeat 3 28)]; CArray [CArray [CUint 2; CText [97]]]; CArray [CText [98]; CBytes (repeat 9 32)]]))) = Ok c /\
  c = PoolReg p /\ pp_relays p = [] /\ pp_metadata p = None /\ pp_owners p = [repeat 3 28; repeat 4 28].
Proof. eexists. eexists. split; [vm_compute; reflexivity|]. split; [reflexivity|]. split; [reflexivity|]. split; reflexivity. Qed.
Example C62_other : deserialize_array cert_des (cbor_encode (CArray [CUint 9; CUint 1; CUint 2])) = Ok CertNone /\ deserialize_array relay_des (cbor_encode (CArray [CUint 1; CUint 65537; CText [97]])) = Ok (RName [97] (Some 1)) /\
  deserialize_array ms_des (cbor_encode (CArray [CUint 4; CUint 77])) = Ok MNone.
Proof. split; [vm_compute; reflexivity|]. split; vm_compute; reflexivity. Qed.
Example C62_cut : exists w, deserialize_map witset_des (cbor_encode (CMap [(CUint 0, CArray [CArray [CBytes (repeat 1 33); CBytes (repeat 2 70); CUint 3]; CUint 5])])) = Ok w /\ ws_vkeys w = [(repeat 1 32, repeat 2 64)].
Proof. eexists. split; [vm_compute; reflexivity|reflexivity]. Qed.
Example C62_twice : exists b, deserialize_map txbody_des (cbor_encode (CMap [(CUint 2, CUint 7); (CUint 5, CMap [(CBytes [225; 1], CUint 10); (CBytes [225; 0], CUint 11); (CBytes [225; 1], CUint 12)])])) = Ok b /\
  tb_withdrawals b = [([225; 0], 11); ([225; 1], 12)] /\ tb_inputs b = [] /\ tb_fee b = 7.
Proof. eexists. split; [vm_compute; reflexivity|]. split; [reflexivity|]. split; reflexivity. Qed.
Print Assumptions C62_exact. Print Assumptions C62_body_exact. Print Assumptions C62_witness_set_exact. Print Assumptions C62_transaction_exact.
