From Verif Require Import Base BaseLemmas Model_Hex Spec_Cbor Model_Cbor Proof_Cbor Model_Ledger Spec_Ledger.
From Coq Require Import Sorted Permutation.
Ltac Zify.zify_post_hook ::= idtac.

(** ** Ordered containers *)
Section Order.
Context {A : Type} (lt : A -> A -> bool).
Record strict_total : Prop := {
  st_irr : forall x, lt x x = false;
  st_trans : forall x y z, lt x y = true -> lt y z = true -> lt x z = true;
  st_total : forall x y, lt x y = false -> lt y x = false -> x = y }.
Hypothesis ST : strict_total.
Let R a b := lt a b = true.

Lemma st_asym x y : lt x y = true -> lt y x = false.
Proof. intros H. destruct (lt y x) eqn:E; [|reflexivity]. pose proof (st_trans ST _ _ _ H E). rewrite (st_irr ST) in H0. discriminate. Qed.
Lemma insert_in x l y : In y (set_insert lt x l) <-> y = x \/ In y l.
Proof.
  induction l as [|z l IH]; cbn [set_insert In]; [intuition congruence|].
  destruct (lt x z) eqn:E1; [cbn [In]; intuition congruence|]. destruct (lt z x) eqn:E2; cbn [In].
  - rewrite IH. tauto.
  - rewrite (st_total ST x z E1 E2). intuition congruence.
Qed.
Lemma insert_sorted x l : StronglySorted R l -> StronglySorted R (set_insert lt x l).
Proof.
  induction l as [|z l IH]; intros S; cbn [set_insert]; [repeat constructor|]. inversion S as [|? ? S' F]; subst.
  destruct (lt x z) eqn:E1.
  - constructor; [exact S|]. constructor; [exact E1|]. eapply Forall_impl; [|exact F]. intros y Hy. apply (st_trans ST _ _ _ E1 Hy).
  - destruct (lt z x) eqn:E2; [|exact S]. constructor; [apply IH, S'|]. apply Forall_forall. intros y I. apply insert_in in I as [->|I]; [exact E2|].
    rewrite Forall_forall in F. apply F, I.
Qed.
Lemma sorted_unique l r : StronglySorted R l -> StronglySorted R r -> (forall x, In x l <-> In x r) -> l = r.
Proof.
  revert r; induction l as [|a l IH]; intros [|b r] Sl Sr H; auto.
  - destruct (proj2 (H b) (or_introl eq_refl)).
  - destruct (proj1 (H a) (or_introl eq_refl)).
  - inversion Sl as [|? ? Sl' Fl]; subst. inversion Sr as [|? ? Sr' Fr]; subst. rewrite Forall_forall in Fl, Fr.
    assert (E : a = b).
    { destruct (proj1 (H a) (or_introl eq_refl)) as [E|I]; [congruence|]. destruct (proj2 (H b) (or_introl eq_refl)) as [E|J]; [congruence|].
      pose proof (Fr _ I) as X. pose proof (Fl _ J) as Y. pose proof (st_asym _ _ X). unfold R in *. congruence. }
    subst b. f_equal. apply IH; auto. intros x. split; intros I.
    + destruct (proj1 (H x) (or_intror I)) as [->|K]; [|exact K]. pose proof (Fl _ I) as X. unfold R in X. rewrite (st_irr ST) in X. discriminate.
    + destruct (proj2 (H x) (or_intror I)) as [->|K]; [|exact K]. pose proof (Fr _ I) as X. unfold R in X. rewrite (st_irr ST) in X. discriminate.
Qed.
Definition set_of (l : list A) : list A := fold_left (fun s x => set_insert lt x s) l [].
Lemma set_fold l : forall acc, StronglySorted R acc ->
  StronglySorted R (fold_left (fun s x => set_insert lt x s) l acc) /\ forall y, In y (fold_left (fun s x => set_insert lt x s) l acc) <-> In y acc \/ In y l.
Proof.
  induction l as [|x l IH]; intros acc S; cbn [fold_left]; [split; [exact S|intros; cbn; tauto]|].
  destruct (IH _ (insert_sorted x acc S)) as [S' I']. split; [exact S'|]. intros y. rewrite I', insert_in. cbn [In]. intuition congruence.
Qed.
Lemma set_of_sorted l : StronglySorted R (set_of l). Proof. apply set_fold. constructor. Qed.
Lemma set_of_in l y : In y (set_of l) <-> In y l.
Proof. unfold set_of. destruct (set_fold l [] ltac:(constructor)) as [_ H]. rewrite H. cbn. tauto. Qed.
Lemma set_of_same l r : (forall x, In x l <-> In x r) -> set_of l = set_of r.
Proof. intros H. apply sorted_unique; try apply set_of_sorted. intros x. rewrite !set_of_in. apply H. Qed.
Lemma set_of_id l : StronglySorted R l -> set_of l = l.
Proof. intros S. apply sorted_unique; [apply set_of_sorted|exact S|]. intros x. apply set_of_in. Qed.
Lemma sorted_nodup l : StronglySorted R l -> NoDup l.
Proof.
  induction 1 as [|x l S IH F]; constructor; auto. intros I. rewrite Forall_forall in F. pose proof (F _ I) as X. unfold R in X. rewrite (st_irr ST) in X. discriminate.
Qed.
End Order.

Lemma lex_irr a : lex_lt a a = false.
Proof. induction a as [|x a IH]; cbn [lex_lt]; [reflexivity|]. rewrite Z.ltb_irrefl. exact IH. Qed.
Lemma lex_trans a : forall b c, lex_lt a b = true -> lex_lt b c = true -> lex_lt a c = true.
Proof.
  induction a as [|x a IH]; intros [|y b] [|z c]; cbn [lex_lt]; try discriminate; auto.
  destruct (Z.ltb_spec x y), (Z.ltb_spec y x), (Z.ltb_spec y z), (Z.ltb_spec z y), (Z.ltb_spec x z), (Z.ltb_spec z x); try lia; try discriminate; auto.
  apply IH.
Qed.
Lemma lex_total a : forall b, lex_lt a b = false -> lex_lt b a = false -> a = b.
Proof.
  induction a as [|x a IH]; intros [|y b]; cbn [lex_lt]; try discriminate; auto.
  destruct (Z.ltb_spec x y), (Z.ltb_spec y x); try lia; try discriminate. intros. f_equal; [lia|]. apply IH; assumption.
Qed.
Lemma lex_st : strict_total lex_lt.
Proof. constructor; [exact lex_irr|exact lex_trans|exact lex_total]. Qed.
Lemma txin_st : strict_total txin_lt.
Proof.
  constructor.
  - intros x. unfold txin_lt. rewrite zlist_eqb_refl. apply Z.ltb_irrefl.
  - intros [xi xn] [yi yn] [zi zn]. unfold txin_lt. cbn [ti_id ti_index].
    destruct (zlist_eqb xi yi) eqn:E1, (zlist_eqb yi zi) eqn:E2; rewrite ?zlist_eqb_spec, ?zlist_eqb_false in *; intros H1 H2.
    + subst. rewrite zlist_eqb_refl. rewrite Z.ltb_lt in *. lia.
    + subst. apply zlist_eqb_false in E2. rewrite E2. exact H2.
    + subst. apply zlist_eqb_false in E1. rewrite E1. exact H1.
    + pose proof (lex_trans _ _ _ H1 H2) as T. destruct (zlist_eqb xi zi) eqn:E3; [|exact T]. apply zlist_eqb_spec in E3. subst. rewrite lex_irr in T. discriminate.
  - intros [xi xn] [yi yn]. unfold txin_lt. cbn [ti_id ti_index]. destruct (zlist_eqb xi yi) eqn:E1.
    + apply zlist_eqb_spec in E1. subst. rewrite zlist_eqb_refl. rewrite !Z.ltb_ge. intros. f_equal. lia.
    + intros H1. destruct (zlist_eqb yi xi) eqn:E2; [apply zlist_eqb_spec in E2; subst; rewrite zlist_eqb_refl in E1; discriminate|].
      intros H2. apply zlist_eqb_false in E1. destruct E1. apply lex_total; assumption.
Qed.

(** withdrawals *)
Lemma assign_append (k : list Z) (v : Z) l : Forall (fun p => lex_lt (fst p) k = true) l -> map_assign k v l = l ++ [(k, v)].
Proof.
  induction l as [|[k' v'] l IH]; intros F; cbn [map_assign]; [reflexivity|]. inversion F as [|? ? H F']; subst. cbn [fst] in H.
  rewrite (st_asym _ lex_st _ _ H), H, IH by exact F'. reflexivity.
Qed.
Lemma assign_sorted_id l : forall acc, StronglySorted (fun a b => lex_lt (fst a) (fst b) = true) (acc ++ l) ->
  fold_left (fun s p => map_assign (fst p) (snd p) s) l acc = acc ++ (l : list (list Z * Z)).
Proof.
  induction l as [|[k v] l IH]; intros acc S; cbn [fold_left]; [rewrite app_nil_r; reflexivity|].
  cbn [fst snd]. rewrite assign_append.
  - rewrite IH; rewrite <- app_assoc; [reflexivity|exact S].
  - clear IH. induction acc as [|[a b] acc IH]; [constructor|]. cbn [app] in S. inversion S as [|? ? S' F]; subst. constructor.
    + rewrite Forall_forall in F. apply (F (k, v)). apply in_app_iff. right; left; reflexivity.
    + apply IH, S'.
Qed.

(** ** Well-formed output *)
Lemma ok_array l : cbor_ok (CArray l) <-> zlen l < 2 ^ 64 /\ Forall cbor_ok l.
Proof. cbn [cbor_ok]. rewrite ok_list. reflexivity. Qed.
Lemma ok_cmap l : cbor_ok (CMap l) <-> zlen l < 2 ^ 64 /\ Forall (fun p => cbor_ok (fst p) /\ cbor_ok (snd p)) l.
Proof. cbn [cbor_ok]. rewrite ok_map. reflexivity. Qed.
Lemma ok_many {A} (P : A -> Prop) (f : A -> cbor) l : many P l -> (forall x, P x -> cbor_ok (f x)) -> cbor_ok (CArray (map f l)).
Proof.
  intros [F L] H. apply ok_array. unfold zlen in *. rewrite map_length. split; [exact L|]. apply Forall_forall. intros y I. apply in_map_iff in I as (x & <- & I).
  rewrite Forall_forall in F. apply H, F, I.
Qed.
Lemma bytesN_ok n b : n < 2 ^ 64 -> bytesN n b -> cbor_ok (CBytes b).
Proof. intros N [B L]. cbn [cbor_ok]. split; [exact B|lia]. Qed.
Lemma fixed_ok n b : bytesN n b -> fixed n b = Ok b.
Proof. intros [_ L]. unfold fixed. rewrite L, Z.eqb_refl. reflexivity. Qed.
Ltac small_list := unfold zlen; cbn [length]; lia.
Lemma cred_ok c : cred_wf c -> cbor_ok (cred_ser c).
Proof.
  intros W. apply ok_array. split; [small_list|]. constructor; [cbn [cbor_ok]; destruct (sc_type c); lia|]. constructor; [|constructor].
  eapply bytesN_ok; [|exact W]. lia.
Qed.
Lemma cred_rt c : cred_wf c -> as_array (cred_ser c) = Some [CUint (match sc_type c with AddrKeyhash => 0 | Scripthash => 1 end); CBytes (sc_hash c)] /\
  cred_des [CUint (match sc_type c with AddrKeyhash => 0 | Scripthash => 1 end); CBytes (sc_hash c)] = Ok c.
Proof.
  intros W. split; [reflexivity|]. unfold cred_des. cbn [as_uint as_bytes want bind]. 
  destruct c as [ty h]. cbn [sc_type sc_hash] in *. unfold cred_wf in W; cbn [sc_hash] in W. rewrite (fixed_ok 28 h W). destruct ty; reflexivity.
Qed.
Lemma rational_ok r : rational_wf r -> cbor_ok (rational_ser r).
Proof.
  intros (N & D & _). cbn [rational_ser cbor_ok]. split; [lia|]. apply (proj2 (ok_array _)). split; [small_list|]. repeat constructor; cbn [cbor_ok]; apply N || apply D.
Qed.
Lemma rational_rt r : rational_wf r -> rational_des 30 (CArray [CUint (rnum r); CUint (rden r)]) = Ok r.
Proof. intros (N & D & Z0). unfold rational_des. cbn [Z.eqb Pos.eqb negb as_array want bind as_uint]. destruct (Z.eqb_spec (rden r) 0); [contradiction|]. destruct r; reflexivity. Qed.
Lemma pm_ok m : pm_wf m -> cbor_ok (pm_ser m).
Proof. intros [U H]. apply ok_array. split; [small_list|]. constructor; [exact U|]. constructor; [|constructor]. eapply bytesN_ok; [|exact H]. lia. Qed.
Lemma pm_rt m : pm_wf m -> pm_des [CText (pm_url m); CBytes (pm_hash m)] = Ok m.
Proof. intros [U H]. unfold pm_des. cbn [as_text as_bytes want bind]. rewrite (fixed_ok 32 _ H). destruct m; reflexivity. Qed.

Lemma port_ser_ok p : opt port_ok p -> cbor_ok (port_ser p).
Proof. destruct p; cbn [opt port_ser cbor_ok]; [unfold port_ok; lia|auto]. Qed.
Lemma port_rt p : opt port_ok p -> port_des (port_ser p) = p.
Proof. destruct p as [p|]; cbn [opt port_ser]; [|reflexivity]. intros B. unfold port_des. cbn [as_uint]. rewrite Z.mod_small by exact B. reflexivity. Qed.
Lemma relay_ok r c : relay_wf r -> relay_ser r = Ok c -> cbor_ok c.
Proof.
  intros W E. destruct r as [|v4 v6 p|d p|d]; cbn [relay_ser relay_wf] in *.
  - injection E as <-. apply ok_array. split; [small_list|constructor].
  - destruct W as (W4 & W6 & WP). cbv zeta in E. destruct v4 as [a|]; [|destruct v6; [discriminate|]]; injection E as <-; apply ok_array; (split; [small_list|]).
    + cbn [app]. constructor; [cbn [cbor_ok]; lia|]. constructor; [apply port_ser_ok, WP|]. constructor; [eapply bytesN_ok; [|exact W4]; lia|]. repeat constructor.
    + constructor; [cbn [cbor_ok]; lia|]. constructor; [apply port_ser_ok, WP|constructor].
  - destruct W as (WD & WP). injection E as <-. apply ok_array. split; [small_list|]. constructor; [cbn [cbor_ok]; lia|]. constructor; [apply port_ser_ok, WP|]. constructor; [exact WD|constructor].
  - injection E as <-. apply ok_array. split; [small_list|]. constructor; [cbn [cbor_ok]; lia|]. constructor; [exact W|constructor].
Qed.
(** Which relays can be written, and what reading them back gives *)
Lemma relay_rt r : relay_wf r ->
  match r with
  | RNone => relay_ser r = Ok (CArray []) /\ relay_des [] = Throw
  | RAddr (Some a) v6 p => exists data, relay_ser r = Ok (CArray data) /\ relay_des data = Ok (RAddr (Some a) None p)
  | RAddr None (Some _) _ => relay_ser r = Throw
  | RAddr None None p => exists data, relay_ser r = Ok (CArray data) /\ relay_des data = Throw
  | RName _ _ | RMulti _ => exists data, relay_ser r = Ok (CArray data) /\ relay_des data = Ok r
  end.
Proof.
  intros W. destruct r as [|[a|] v6 p|d p|d]; cbn [relay_wf] in W.
  - split; reflexivity.
  - destruct W as ((_ & L4) & _ & WP). eexists. split; [reflexivity|]. unfold relay_des. cbn. rewrite L4. cbn. rewrite port_rt by exact WP. reflexivity.
  - destruct v6; [reflexivity|]. eexists. split; [reflexivity|]. reflexivity.
  - destruct W as (_ & WP). eexists. split; [reflexivity|]. cbn. rewrite port_rt by exact WP. reflexivity.
  - eexists. split; reflexivity.
Qed.

Lemma mapM_in {A B} (f : A -> outcome B) l r : mapM f l = Ok r -> forall y, In y r -> exists x, In x l /\ f x = Ok y.
Proof.
  revert r; induction l as [|x l IH]; intros r H y I; cbn [mapM] in H; [injection H as <-; destruct I|].
  apply bind_ok in H as (z & Hz & H). apply bind_ok in H as (zs & Hzs & H). injection H as <-. destruct I as [<-|I]; [exists x; split; [left; reflexivity|exact Hz]|].
  destruct (IH zs Hzs y I) as (w & Iw & Ew). exists w. split; [right; exact Iw|exact Ew].
Qed.
Lemma mapM_map {A B C} (f : B -> outcome C) (g : A -> B) (h : A -> C) l : (forall x, In x l -> f (g x) = Ok (h x)) -> mapM f (map g l) = Ok (map h l).
Proof.
  induction l as [|x l IH]; intros H; [reflexivity|]. cbn [map mapM]. rewrite H by (left; reflexivity). cbn [bind]. rewrite IH by (intros y I; apply H; right; exact I). reflexivity.
Qed.
Lemma mapM_map_id {A B} (f : B -> outcome A) (g : A -> B) l : (forall x, In x l -> f (g x) = Ok x) -> mapM f (map g l) = Ok l.
Proof. intros H. rewrite (mapM_map f g (fun x => x)) by exact H. rewrite map_id. reflexivity. Qed.

Lemma mir_ok m : mir_wf m -> cbor_ok (mir_ser m).
Proof.
  intros [F L]. apply ok_array. split; [small_list|]. constructor; [cbn [cbor_ok]; destruct (mir_source m); lia|]. constructor; [|constructor].
  apply ok_cmap. unfold zlen in *. rewrite map_length. split; [exact L|]. apply Forall_forall. intros y I. apply in_map_iff in I as (x & <- & I).
  rewrite Forall_forall in F. destruct (F _ I) as [C U]. split; [apply cred_ok, C|exact U].
Qed.
Lemma mir_rt m old : mir_wf m ->
  exists data, mir_ser m = CArray data /\ mir_des old data = Ok {| mir_source := mir_source m; mir_creds := old ++ mir_creds m |}.
Proof.
  intros [F L]. eexists. split; [reflexivity|]. unfold mir_des. cbn [as_uint as_map want bind].
  assert (E : mapM mir_entry (map (fun p => (cred_ser (fst p), CUint (snd p))) (mir_creds m)) = Ok (mir_creds m)).
  { apply mapM_map_id. intros [c n] I. unfold mir_entry. cbn [fst snd]. rewrite Forall_forall in F. destruct (F _ I) as [C _]. cbn [fst] in C.
    destruct (cred_rt c C) as [E1 E2]. rewrite E1. cbn [deref bind]. rewrite E2. reflexivity. }
  rewrite E. destruct (mir_source m); reflexivity.
Qed.

Lemma ok_inj {A} (a b : A) : Ok a = Ok b -> a = b. Proof. congruence. Qed.
Lemma cert_ok c x : cert_wf c -> cert_ser c = Ok x -> cbor_ok x.
Proof.
  intros W E. destruct c as [|c|c|c p|p|p e|g d v|m]; cbn [cert_ser cert_wf] in *.
  - injection E as <-. apply ok_array. split; [small_list|constructor].
  - injection E as <-. apply ok_array. split; [small_list|]. constructor; [cbn [cbor_ok]; lia|]. constructor; [apply cred_ok, W|constructor].
  - injection E as <-. apply ok_array. split; [small_list|]. constructor; [cbn [cbor_ok]; lia|]. constructor; [apply cred_ok, W|constructor].
  - injection E as <-. destruct W as [WC WP]. apply ok_array. split; [small_list|]. constructor; [cbn [cbor_ok]; lia|]. constructor; [apply cred_ok, WC|].
    constructor; [eapply bytesN_ok; [|exact WP]; lia|constructor].
  - apply bind_ok in E as (rs & Hr & E). apply ok_inj in E. subst x. destruct W as (Wo & Wv & Wp & Wc & Wm & Wa & Wow & _ & Wr & Wmd).
    apply ok_array. split.
    { rewrite !zlen_app. destruct (pp_owners p), rs, (pp_metadata p); unfold zlen; cbn [length app]; lia. }
    apply Forall_app. split.
    { constructor; [cbn [cbor_ok]; lia|]. constructor; [eapply bytesN_ok; [|exact Wo]; lia|]. constructor; [eapply bytesN_ok; [|exact Wv]; lia|].
      constructor; [exact Wp|]. constructor; [exact Wc|]. constructor; [apply rational_ok, Wm|]. constructor; [exact Wa|constructor]. }
    apply Forall_app. split.
    { assert (X : cbor_ok (CArray (map CBytes (pp_owners p)))) by (eapply ok_many; [exact Wow|]; intros x Hx; eapply bytesN_ok; [|exact Hx]; lia).
      destruct (pp_owners p); [constructor|]. constructor; [exact X|constructor]. }
    apply Forall_app. split.
    { destruct rs as [|r0 rs]; [constructor|]. constructor; [|constructor]. apply ok_array. split.
      - unfold zlen. rewrite (mapM_ok_length _ _ _ Hr). apply Wr.
      - apply Forall_forall. intros y I. destruct (mapM_in _ _ _ Hr y I) as (r & Ir & Er). destruct Wr as [Fr _]. rewrite Forall_forall in Fr. eapply relay_ok; [apply Fr, Ir|exact Er]. }
    destruct (pp_metadata p) as [m|]; [constructor; [apply pm_ok, Wmd|constructor]|constructor].
  - injection E as <-. destruct W as [WP WE]. apply ok_array. split; [small_list|]. constructor; [cbn [cbor_ok]; lia|]. constructor; [eapply bytesN_ok; [|exact WP]; lia|]. constructor; [exact WE|constructor].
  - injection E as <-. destruct W as (W1 & W2 & W3). apply ok_array. split; [small_list|]. constructor; [cbn [cbor_ok]; lia|].
    constructor; [eapply bytesN_ok; [|exact W1]; lia|]. constructor; [eapply bytesN_ok; [|exact W2]; lia|]. constructor; [eapply bytesN_ok; [|exact W3]; lia|constructor].
  - injection E as <-. apply ok_array. split; [small_list|]. constructor; [cbn [cbor_ok]; lia|]. constructor; [apply mir_ok, W|constructor].
Qed.

Lemma owners_rt os : many (bytesN 28) os -> StronglySorted (fun a b => lex_lt a b = true) os -> owners_des (Some (map CBytes os)) = Ok os.
Proof.
  intros [F _] S. unfold owners_des. rewrite (mapM_map_id owner_des CBytes).
  - cbn [bind]. f_equal. apply (set_of_id lex_lt lex_st). exact S.
  - intros x I. rewrite Forall_forall in F. unfold owner_des. cbn [as_bytes deref bind]. apply fixed_ok, F, I.
Qed.
(** The registration read back has neither relays nor metadata. *)
Definition strip_pool (p : pool_params) : pool_params :=
  {| pp_operator := pp_operator p; pp_vrf := pp_vrf p; pp_pledge := pp_pledge p; pp_cost := pp_cost p; pp_margin := pp_margin p;
     pp_account := pp_account p; pp_owners := pp_owners p; pp_relays := []; pp_metadata := None |}.
Lemma pool_rt p x : pool_wf p -> (pp_owners p <> [] \/ pp_relays p = [] /\ pp_metadata p = None) -> cert_ser (PoolReg p) = Ok x ->
  exists data, x = CArray data /\ cert_des data = Ok (PoolReg (strip_pool p)).
Proof.
  intros (Wo & Wv & Wp & Wc & Wm & Wa & Wow & Sow & Wr & Wmd) NE E. cbn [cert_ser] in E. apply bind_ok in E as (rs & Hr & E). apply ok_inj in E. subst x.
  eexists. split; [reflexivity|].
  set (tail := match pp_owners p with [] => [] | o => [CArray (map CBytes o)] end ++ match rs with [] => [] | r => [CArray r] end ++ match pp_metadata p with None => [] | Some m => [pm_ser m] end).
  set (data := [CUint 3; CBytes (pp_operator p); CBytes (pp_vrf p); CUint (pp_pledge p); CUint (pp_cost p); rational_ser (pp_margin p); CBytes (pp_account p)] ++ tail).
  assert (LD : zlen data = 7 + zlen tail) by (unfold data; rewrite zlen_app; reflexivity).
  pose proof (zlen_nonneg tail) as LT.
  assert (OW : (if 7 <? zlen data then let* c7 := get_ub data 7 in owners_des (as_array c7) else Ok []) = Ok (pp_owners p)).
  { rewrite LD. destruct (pp_owners p) as [|o os] eqn:EO.
    - destruct NE as [NE|[NR NM]]; [congruence|]. rewrite NR in Hr. cbn in Hr. injection Hr as <-. unfold tail. rewrite NM. cbn [app]. rewrite zlen_nil. reflexivity.
    - destruct (Z.ltb_spec 7 (7 + zlen tail)) as [_|X]; [|exfalso; unfold tail in X; rewrite zlen_app in X;
        match type of X with context [zlen ?a + zlen ?b] => pose proof (zlen_nonneg b) end; change (zlen [CArray (map CBytes (o :: os))]) with 1 in X; lia].
      unfold data, tail. cbn [app get_ub nth_error bind as_array]. apply owners_rt; [exact Wow|exact Sow]. }
  unfold cert_des. destruct (Z.ltb_spec (zlen data) 2) as [X|_]; [lia|]. unfold data at 1. cbn [app get_ub nth_error bind as_uint want Z.eqb Pos.eqb].
  unfold pool_reg_des. destruct (Z.ltb_spec (zlen data) 7) as [X|_]; [lia|]. fold data.
  unfold data at 1 2 3 4 5 6. cbn [app get_ub nth_error bind as_bytes as_uint as_array want rational_ser].
  rewrite (fixed_ok 28 _ Wo), (fixed_ok 32 _ Wv). cbn [bind as_tag deref fst snd rational_ser]. rewrite (rational_rt _ Wm). cbn [bind].
  rewrite OW. reflexivity.
Qed.
Lemma cert_rt c x : cert_wf c -> simple_cert c -> cert_ser c = Ok x -> exists data, x = CArray data /\ cert_des data = Ok c.
Proof.
  intros W S E. destruct c as [|c|c|c p|p|p e|g d v|m]; cbn [simple_cert] in S; try contradiction.
  - cbn in E. injection E as <-. eexists. split; [reflexivity|]. destruct (cred_rt c W) as [E1 E2]. cbn -[cred_des]. unfold cred_ser in *. cbn [as_array want bind] in *. rewrite E2. reflexivity.
  - cbn in E. injection E as <-. eexists. split; [reflexivity|]. destruct (cred_rt c W) as [E1 E2]. cbn -[cred_des]. unfold cred_ser in *. cbn [as_array want bind] in *. rewrite E2. reflexivity.
  - destruct W as [WC WP]. cbn in E. injection E as <-. eexists. split; [reflexivity|]. destruct (cred_rt c WC) as [E1 E2]. cbn -[cred_des fixed]. unfold cred_ser in *. cbn [as_array want bind] in *. rewrite E2. cbn [bind].
    rewrite (fixed_ok 28 _ WP). reflexivity.
  - destruct S as [NR NM]. destruct (pool_rt p x W (or_intror (conj NR NM)) E) as (data & -> & D). exists data. split; [reflexivity|]. rewrite D. unfold strip_pool. rewrite <- NR, <- NM at 1. destruct p; cbn in *. subst. reflexivity.
  - destruct W as [WP WE]. cbn in E. injection E as <-. eexists. split; [reflexivity|]. cbn -[fixed]. rewrite (fixed_ok 28 _ WP). reflexivity.
  - cbn in E. injection E as <-. eexists. split; [reflexivity|]. destruct (mir_rt m [] W) as (data & E1 & E2). cbn -[mir_des mir_ser]. rewrite E1. cbn [as_array deref bind]. rewrite E2.
    cbn [bind app]. destruct m; reflexivity.
Qed.
