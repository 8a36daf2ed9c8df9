(** Property C81: what becomes of certificates.  Which of the staking and pool certificates a builder wrote are taken by the ledger, and what the ledger holds afterwards. *)
From Verif Require Import Base BaseLemmas Spec_Cbor Model_Cbor Proof_Cbor Model_Address Spec_Ledger Model_Ledger Proof_Ledger Proof_Ledger2 Model_Tx Spec_Tx Proof_Tx Proof_Tx2 Proof_Tx3 Props_Ledger Props_Tx Props_Wire Props_History Spec_Node Props_Node Props_Fund Props_Fund2 Spec_Stake.
From Coq Require Import Permutation.
Ltac Zify.zify_post_hook ::= idtac.

(** ** Specification: what the calls mean, as a function of the calls made so far *)
Definition endpoints (r : relay) : list endpoint :=
  match r with RNone => [] | RAddr a b p => [At_address a b p] | RName d p => [At_name d p] | RMulti d => [At_service d] end.
Definition told (p : pool_params) : pool :=
  {| po_vrf := pp_vrf p; po_pledge := pp_pledge p; po_cost := pp_cost p; po_margin := (rnum (pp_margin p), rden (pp_margin p)); po_account := pp_account p;
     po_owners := pp_owners p; po_relays := concat (map endpoints (pp_relays p)); po_metadata := match pp_metadata p with Some m => Some (pm_url m, pm_hash m) | None => None end |}.
(** The ledger's limits. *)
Definition short_relay (r : relay) : Prop := match r with RName d _ | RMulti d => zlen d <= 64 | _ => True end.
Definition pool_fits (r : rules) (p : pool_params) : Prop :=
  ru_min_cost r <= pp_cost p /\ rnum (pp_margin p) <= rden (pp_margin p) /\ zlen (pp_account p) = 29 /\ Forall short_relay (pp_relays p) /\ opt (fun m => zlen (pm_url m) <= 64) (pp_metadata p).

Section Meaning.
Context {key : Type}.
Notation call := (@call key).
Definition mine (k h : list Z) {A} (x : A) : list A := if list_eq_dec Z.eq_dec h k then [x] else [].
(** the balance of an account: zero when it was registered last, none when it was deregistered last *)
Definition balances (k : list Z) (l : list call) : list (option Z) :=
  concat (map (fun c => match c with AddStakeReg a _ => mine k (ra_hash a) (Some 0) | AddStakeDereg a => mine k (ra_hash a) None | _ => [] end) l).
Definition delegations (k : list Z) (l : list call) : list (option (list Z)) :=
  concat (map (fun c => match c with AddStakeDeleg a p => mine k (ra_hash a) (Some p) | AddStakeDereg a => mine k (ra_hash a) None | _ => [] end) l).
Definition registrations (id : list Z) (l : list call) : list pool :=
  concat (map (fun c => match c with AddPoolReg p _ => mine id (pp_operator p) (told p) | _ => [] end) l).
Definition retirements (id : list Z) (l : list call) : list (option Z) :=
  concat (map (fun c => match c with AddPoolRetire p e => mine id p (Some e) | AddPoolReg p _ => mine id (pp_operator p) None | _ => [] end) l).
(** the first registration of a pool that is not registered makes it one; the others announce new parameters and revoke a retirement *)
Definition later {A} (st : stake) (id : list Z) (l : list A) : list A := match st_pool st id with Some _ => l | None => tl l end.
Definition balance_after st l k : option Z := last (balances k l) (st_balance st k).
Definition delegated_after st l k : option (list Z) := last (delegations k l) (st_delegated st k).
Definition pool_after st l id : option pool := match st_pool st id with Some q => Some q | None => hd_error (registrations id l) end.
Definition next_after st l id : option pool := last (map Some (later st id (registrations id l))) (st_next st id).
Definition retiring_after st l id : option Z := last (later st id (retirements id l)) (st_retiring st id).
(** [st'] is what [l] makes of [st]. *)
Definition described (st : stake) (l : list call) (st' : stake) : Prop :=
  forall x, st_balance st' x = balance_after st l x /\ st_delegated st' x = delegated_after st l x /\ st_pool st' x = pool_after st l x /\
            st_next st' x = next_after st l x /\ st_retiring st' x = retiring_after st l x.
(** A call that makes sense after the calls [l]. *)
Definition fine (r : rules) (st : stake) (l : list call) (c : call) : Prop :=
  match c with
  | AddStakeReg a _ => balance_after st l (ra_hash a) = None
  | AddStakeDereg a => balance_after st l (ra_hash a) = Some 0
  | AddStakeDeleg a p => balance_after st l (ra_hash a) <> None /\ pool_after st l p <> None
  | AddPoolReg p _ => pool_fits r p
  | AddPoolRetire p e => pool_after st l p <> None /\ ru_epoch r < e <= ru_epoch r + ru_max_ahead r
  | _ => True
  end.
Definition all_fine (r : rules) (st : stake) (l : list call) : Prop := forall l1 c l2, l = l1 ++ c :: l2 -> fine r st l1 c.
End Meaning.

(** ** Reading back one certificate *)
Lemma read_relay r c : relay_wf r -> cddl_relay r = Some c ->
  (short_relay r -> exists e, read_endpoint c = Some e /\ endpoints r = [e]) /\ (read_endpoint c <> None -> short_relay r).
Proof.
  destruct r as [|v4 v6 p|d p|d]; cbn [cddl_relay relay_wf short_relay endpoints]; intros W E; try discriminate; assert (c = _) by (symmetry; injection E; exact (fun x => x)); subst c; clear E; cbn [read_endpoint].
  - split; [|auto]. intros _. destruct W as (W1 & W2 & W3).
    assert (P : nullable port (or_null CUint p) = Some p). { destruct p as [p|]; [|reflexivity]. cbn. unfold port_ok in W3. cbn in W3. unfold limit. destruct (Z.ltb_spec p 65536); [reflexivity|lia]. }
    assert (A : nullable (sized_bytes 4) (or_null CBytes v4) = Some v4). { destruct v4 as [v|]; [|reflexivity]. cbn. destruct W1 as [_ ->]. reflexivity. }
    assert (B : nullable (sized_bytes 16) (or_null CBytes v6) = Some v6). { destruct v6 as [v|]; [|reflexivity]. cbn. destruct W2 as [_ ->]. reflexivity. }
    rewrite P, A, B. eauto.
  - destruct W as (W1 & W3).
    assert (P : nullable port (or_null CUint p) = Some p). { destruct p as [p|]; [|reflexivity]. cbn. unfold port_ok in W3. cbn in W3. unfold limit. destruct (Z.ltb_spec p 65536); [reflexivity|lia]. }
    rewrite P. unfold short_text, limit. destruct (Z.leb_spec (zlen d) 64) as [L|L]; split; intros Q; try lia; eauto. congruence.
  - unfold short_text, limit. destruct (Z.leb_spec (zlen d) 64) as [L|L]; split; intros Q; try lia; eauto. congruence.
Qed.
Lemma read_relays l cs : Forall relay_wf l -> all_some (map cddl_relay l) = Some cs ->
  (Forall short_relay l -> read_each read_endpoint cs = Some (concat (map endpoints l))) /\ (read_each read_endpoint cs <> None -> Forall short_relay l).
Proof.
  revert cs. induction l as [|r l IH]; intros cs W E; cbn [map all_some] in E; [injection E as <-; split; [reflexivity|constructor]|].
  inversion W as [|? ? W1 W2]; subst. destruct (cddl_relay r) as [c|] eqn:C; [|discriminate]. destruct (all_some (map cddl_relay l)) as [cs'|]; [|discriminate]. injection E as <-.
  destruct (read_relay r c W1 C) as [R1 R2]. destruct (IH cs' W2 eq_refl) as [I1 I2]. cbn [read_each map concat]. split.
  - intros S. inversion S as [|? ? S1 S2]; subst. destruct (R1 S1) as (e & -> & ->). rewrite (I1 S2). reflexivity.
  - destruct (read_endpoint c) as [e|]; [|congruence]. destruct (read_each read_endpoint cs') as [y|]; [|congruence]. intros _. constructor; [apply R2; discriminate|apply I2; discriminate].
Qed.
Lemma read_owners l : Forall (bytesN 28) l -> read_each (sized_bytes 28) (map CBytes l) = Some l.
Proof. induction 1 as [|x l [_ X] _ IH]; [reflexivity|]. cbn [map read_each sized_bytes]. rewrite X, IH. reflexivity. Qed.
Lemma enact_pool r st p c : pool_wf p -> cddl_cert (PoolReg p) = Some c ->
  (pool_fits r p -> enact r st c = match st_pool st (pp_operator p) with
     | None => Some {| st_balance := st_balance st; st_delegated := st_delegated st; st_pool := put (st_pool st) (pp_operator p) (Some (told p)); st_next := st_next st; st_retiring := st_retiring st |}
     | Some _ => Some {| st_balance := st_balance st; st_delegated := st_delegated st; st_pool := st_pool st; st_next := put (st_next st) (pp_operator p) (Some (told p)); st_retiring := put (st_retiring st) (pp_operator p) None |} end) /\
  (enact r st c <> None -> pool_fits r p).
Proof.
  intros (W1 & W2 & W3 & W4 & (W5 & W6 & W7) & W8 & (W9 & _) & _ & (W10 & _) & W11) E. cbn [cddl_cert] in E. destruct (all_some (map cddl_relay (pp_relays p))) as [rs|] eqn:RS; [|discriminate]. assert (c = _) by (symmetry; injection E; exact (fun x => x)). subst c. clear E.
  destruct (read_relays _ _ W10 RS) as [R1 R2].
  cbn [enact]. unfold read_pool. cbn [sized_bytes]. destruct W1 as [_ ->]. destruct W2 as [_ ->]. cbn [Z.eqb Pos.eqb limit].
  rewrite (read_owners _ W9).
  assert (M : (opt (fun m => zlen (pm_url m) <= 64) (pp_metadata p) -> nullable read_metadata (or_null (fun m => CArray [CText (pm_url m); CBytes (pm_hash m)]) (pp_metadata p)) = Some (match pp_metadata p with Some m => Some (pm_url m, pm_hash m) | None => None end)) /\
              (nullable read_metadata (or_null (fun m => CArray [CText (pm_url m); CBytes (pm_hash m)]) (pp_metadata p)) <> None -> opt (fun m => zlen (pm_url m) <= 64) (pp_metadata p))).
  { destruct (pp_metadata p) as [m|]; [|split; [reflexivity|exact (fun _ => I)]]. destruct W11 as [_ [_ X]]. cbn. rewrite X. unfold limit. cbn [Z.eqb Pos.eqb]. destruct (Z.leb_spec (zlen (pm_url m)) 64); split; intros; try reflexivity; try lia. congruence. }
  destruct M as [M1 M2]. unfold pool_fits. split.
  - intros (F1 & F2 & F3 & F4 & F5). rewrite F3. cbn [Z.eqb Pos.eqb limit]. rewrite (R1 F4), (M1 F5). unfold u64 in *.
    destruct (Z.ltb_spec 0 (rden (pp_margin p))); [|lia]. destruct (Z.leb_spec (rnum (pp_margin p)) (rden (pp_margin p))); [|lia]. cbn [andb limit po_cost].
    destruct (Z.ltb_spec (pp_cost p) (ru_min_cost r)); [lia|]. reflexivity.
  - destruct (Z.eqb_spec (zlen (pp_account p)) 29) as [A|A]; cbn [limit]; [|congruence].
    destruct (read_each read_endpoint rs) as [es|]; [|congruence]. destruct (nullable read_metadata _) as [md|]; [|congruence].
    destruct (Z.leb_spec (rnum (pp_margin p)) (rden (pp_margin p))) as [L|L]; [|rewrite andb_false_r; cbn [limit]; congruence].
    destruct (0 <? rden (pp_margin p)); cbn [andb limit po_cost]; [|congruence]. destruct (Z.ltb_spec (pp_cost p) (ru_min_cost r)); [congruence|]. intros _.
    split; [assumption|]. split; [exact L|]. split; [exact A|]. split; [apply R2; discriminate|apply M2; discriminate].
Qed.

(** ** A whole list of calls *)
Section Run.
Context {key : Type}.
Notation call := (@call key).
Lemma mine_same {A} k (x : A) : mine k k x = [x]. Proof. unfold mine. destruct (list_eq_dec Z.eq_dec k k); congruence. Qed.
Lemma mine_other {A} k h (x : A) : h <> k -> mine k h x = []. Proof. unfold mine. destruct (list_eq_dec Z.eq_dec h k); congruence. Qed.
Lemma put_same {A} (f : list Z -> option A) k v : put f k v k = v. Proof. unfold put. destruct (list_eq_dec Z.eq_dec k k); congruence. Qed.
Lemma put_other {A} (f : list Z -> option A) k v x : x <> k -> put f k v x = f x. Proof. unfold put. destruct (list_eq_dec Z.eq_dec x k); congruence. Qed.
Lemma later_app {A} st id (a b : list A) : (st_pool st id = None -> a <> []) -> later st id (a ++ b) = later st id a ++ b.
Proof. unfold later. destruct (st_pool st id); [reflexivity|]. intros N. destruct a; [destruct (N eq_refl eq_refl)|reflexivity]. Qed.
(** a pool that was not registered has no retirement announced before its registration *)
Definition orderly (st : stake) (l : list call) : Prop := forall id, st_pool st id = None -> (registrations id l = [] <-> retirements id l = []).
Definition call_fits (c : call) : Prop := match c with AddPoolReg p _ => conforming (PoolReg p) | _ => True end.
Lemma described_nil st : described st ([] : list call) st /\ orderly st [].
Proof.
  split; [|intros id _; split; reflexivity]. intros x. unfold balance_after, delegated_after, pool_after, next_after, retiring_after, later. cbn. destruct (st_pool st x); repeat split; reflexivity.
Qed.
Lemma pool_after_none st (l : list call) id : pool_after st l id = None <-> st_pool st id = None /\ registrations id l = [].
Proof. unfold pool_after. destruct (st_pool st id); [split; [discriminate|intros []; discriminate]|]. destruct (registrations id l); cbn; split; try tauto; try discriminate. intros []; discriminate. Qed.
Lemma hist_app {A B} (f : A -> list B) l c : concat (map f (l ++ [c])) = concat (map f l) ++ f c.
Proof. rewrite map_app, concat_app. cbn. rewrite app_nil_r. reflexivity. Qed.
(** a call that writes no such certificate *)
Lemma quiet st l (c : call) st1 : certs_in [c] = [] -> described st l st1 -> orderly st l -> described st (l ++ [c]) st1 /\ orderly st (l ++ [c]).
Proof.
  intros Q D O. assert (E : forall x, balances x (l ++ [c]) = balances x l /\ delegations x (l ++ [c]) = delegations x l /\ registrations x (l ++ [c]) = registrations x l /\ retirements x (l ++ [c]) = retirements x l).
  { intros x. unfold balances, delegations, registrations, retirements. rewrite !hist_app. destruct c; try discriminate Q; rewrite !app_nil_r; auto. }
  split; intros x; destruct (E x) as (E1 & E2 & E3 & E4); [|rewrite E3, E4; apply O]. unfold balance_after, delegated_after, pool_after, next_after, retiring_after. rewrite E1, E2, E3, E4. apply D.
Qed.
Lemma step r st l (c : call) st1 r1 : Props_Node.call_ok c -> call_fits c -> described st l st1 -> orderly st l -> all_some (map cddl_cert (certs_in [c])) = Some r1 ->
  (enact_all r st1 r1 <> None <-> fine r st l c) /\ (forall st', enact_all r st1 r1 = Some st' -> described st (l ++ [c]) st' /\ orderly st (l ++ [c])).
Proof.
  intros OC CF D O E.
  assert (QC : certs_in [c] = [] -> (enact_all r st1 r1 <> None <-> True) /\ (forall st', enact_all r st1 r1 = Some st' -> described st (l ++ [c]) st' /\ orderly st (l ++ [c]))).
  { intros Q. rewrite Q in E. cbn in E. assert (r1 = []) by congruence. subst r1. cbn [enact_all]. split; [split; [auto|discriminate]|]. intros st' X. assert (st' = st1) by congruence. subst st'. apply quiet; assumption. }
  destruct c; try (apply QC; reflexivity); clear QC; cbn [certs_in map concat app] in E.
  - (* pool registration *) cbn [map all_some] in E. destruct (cddl_cert (PoolReg p)) as [x|] eqn:CX; [|discriminate]. assert (r1 = [x]) by congruence. subst r1. clear E. cbn [enact_all fine].
    destruct (enact_pool r st1 p x OC CX) as [F1 F2].
    assert (IFF : pool_fits r p <-> enact r st1 x <> None). { split; [|exact F2]. intros F. rewrite (F1 F). destruct (st_pool st1 (pp_operator p)); discriminate. }
    split. { rewrite IFF. destruct (enact r st1 x); [split; intros _; discriminate|tauto]. }
    intros st' X. destruct (enact r st1 x) as [st2|] eqn:ST; [|discriminate]. assert (st2 = st') by congruence. subst st2. clear X.
    assert (F : pool_fits r p) by (apply IFF; discriminate). specialize (F1 F). clear F2 IFF.
    assert (HA : forall y, balances y (l ++ [AddPoolReg p deposit]) = balances y l /\ delegations y (l ++ [AddPoolReg p deposit]) = delegations y l /\
              registrations y (l ++ [AddPoolReg p deposit]) = registrations y l ++ mine y (pp_operator p) (told p) /\ retirements y (l ++ [AddPoolReg p deposit]) = retirements y l ++ mine y (pp_operator p) None).
    { intros y. unfold balances, delegations, registrations, retirements. rewrite !hist_app, !app_nil_r. auto. }
    split.
    + intros y. destruct (HA y) as (H1 & H2 & H3 & H4). destruct (D y) as (D1 & D2 & D3 & D4 & D5). unfold balance_after, delegated_after, pool_after, next_after, retiring_after. rewrite H1, H2, H3, H4.
      destruct (D (pp_operator p)) as (_ & _ & D3' & _). destruct (list_eq_dec Z.eq_dec y (pp_operator p)) as [->|NE].
      * rewrite !mine_same. destruct (st_pool st1 (pp_operator p)) as [q|] eqn:SP.
        -- assert (st' = _) by (symmetry; injection F1; exact (fun z => eq_sym z)). subst st'. cbn [st_balance st_delegated st_pool st_next st_retiring]. rewrite !put_same.
           assert (N : st_pool st (pp_operator p) = None -> registrations (pp_operator p) l <> []). { intros N R. assert (pool_after st l (pp_operator p) = None) by (apply pool_after_none; auto). congruence. }
           split; [exact D1|]. split; [exact D2|]. split. { rewrite SP, D3'. unfold pool_after. destruct (st_pool st (pp_operator p)); [reflexivity|]. destruct (registrations (pp_operator p) l); [destruct (N eq_refl eq_refl)|reflexivity]. }
           split; [rewrite later_app by exact N; rewrite map_app, last_join; reflexivity|]. rewrite later_app; [rewrite last_join; reflexivity|]. intros Q R. apply (N Q). apply (O _ Q), R.
        -- assert (st' = _) by (symmetry; injection F1; exact (fun z => eq_sym z)). subst st'. cbn [st_balance st_delegated st_pool st_next st_retiring]. rewrite put_same. symmetry in D3'. apply pool_after_none in D3' as [N R]. pose proof (proj1 (O _ N) R) as RT.
           unfold next_after, retiring_after in D4, D5. rewrite R in *. rewrite RT in *. unfold later in *. rewrite N in *. cbn [app tl hd_error map last] in *. auto.
      * rewrite !mine_other, !app_nil_r by congruence. destruct (st_pool st1 (pp_operator p)) as [q|];
          (assert (st' = _) by (symmetry; injection F1; exact (fun z => eq_sym z)); subst st'; cbn [st_balance st_delegated st_pool st_next st_retiring]; rewrite ?put_other by exact NE; auto 6).
    + intros y N. destruct (HA y) as (_ & _ & -> & ->). destruct (list_eq_dec Z.eq_dec y (pp_operator p)) as [->|NE]; [rewrite !mine_same; split; intros Q; apply app_eq_nil in Q as [_ Q]; discriminate|]. rewrite !mine_other, !app_nil_r by congruence. exact (O y N).
  - (* pool retirement *) cbn [map all_some cddl_cert] in E. assert (r1 = [CArray [CUint 4; CBytes pool; CUint epoch]]) by congruence. subst r1. clear E. cbn [enact_all fine].
    assert (HA : forall y, balances y (l ++ [AddPoolRetire pool epoch]) = balances y l /\ delegations y (l ++ [AddPoolRetire pool epoch]) = delegations y l /\
              registrations y (l ++ [AddPoolRetire pool epoch]) = registrations y l /\ retirements y (l ++ [AddPoolRetire pool epoch]) = retirements y l ++ mine y pool (Some epoch)).
    { intros y. unfold balances, delegations, registrations, retirements. rewrite !hist_app, !app_nil_r. auto. }
    destruct (D pool) as (_ & _ & D3' & _). cbn [enact]. rewrite D3'. destruct (pool_after st l pool) as [q|] eqn:PA; [|split; [split; [congruence|intros []; congruence]|discriminate]].
    unfold limit. destruct (Z.ltb_spec (ru_epoch r) epoch); [|cbn [andb]; split; [split; [congruence|intros []; lia]|discriminate]].
    destruct (Z.leb_spec epoch (ru_epoch r + ru_max_ahead r)); [|cbn [andb]; split; [split; [congruence|intros []; lia]|discriminate]]. cbn [andb].
    split. { split; [intros _; split; [discriminate|lia]|discriminate]. }
    intros st' X. assert (st' = _) by (symmetry; injection X; exact (fun z => z)). subst st'. clear X.
    assert (N : st_pool st pool = None -> registrations pool l <> []). { intros N R. assert (pool_after st l pool = None) by (apply pool_after_none; auto). congruence. }
    split.
    + intros y. destruct (HA y) as (H1 & H2 & H3 & H4). destruct (D y) as (D1 & D2 & D3 & D4 & D5). unfold balance_after, delegated_after, pool_after, next_after, retiring_after. rewrite H1, H2, H3, H4. cbn [st_balance st_delegated st_pool st_next st_retiring].
      split; [exact D1|]. split; [exact D2|]. split; [exact D3|]. split; [exact D4|].
      destruct (list_eq_dec Z.eq_dec y pool) as [->|NE]; [|rewrite mine_other, app_nil_r, put_other by congruence; exact D5].
      rewrite mine_same, put_same, later_app, last_join; [reflexivity|]. intros Q R. apply (N Q). apply (O _ Q), R.
    + intros y NY. destruct (HA y) as (_ & _ & -> & ->). destruct (list_eq_dec Z.eq_dec y pool) as [->|NE]; [|rewrite mine_other, app_nil_r by congruence; exact (O y NY)].
      split; [intros R; destruct (N NY R)|]. rewrite mine_same. intros R. apply app_eq_nil in R as [_ R]. discriminate.
  - (* account registration *) assert (r1 = [CArray [CUint 0; CArray [CUint 0; CBytes (ra_hash a)]]]) by (symmetry; exact (f_equal (fun o => match o with Some z => z | None => [] end) E)). subst r1. clear E. cbn [enact_all enact fine].
    assert (HA : forall y, balances y (l ++ [AddStakeReg a deposit]) = balances y l ++ mine y (ra_hash a) (Some 0) /\ delegations y (l ++ [AddStakeReg a deposit]) = delegations y l /\
              registrations y (l ++ [AddStakeReg a deposit]) = registrations y l /\ retirements y (l ++ [AddStakeReg a deposit]) = retirements y l).
    { intros y. unfold balances, delegations, registrations, retirements. rewrite !hist_app, !app_nil_r. auto. }
    destruct (D (ra_hash a)) as (D1' & _). rewrite D1'. destruct (balance_after st l (ra_hash a)) eqn:BA; [split; [split; congruence|discriminate]|].
    split; [split; congruence|]. intros st' X. assert (st' = _) by (symmetry; injection X; exact (fun z => z)). subst st'. clear X.
    split; [|intros y NY; destruct (HA y) as (_ & _ & -> & ->); exact (O y NY)].
    intros y. destruct (HA y) as (H1 & H2 & H3 & H4). destruct (D y) as (D1 & D2 & D3 & D4 & D5). unfold balance_after, delegated_after, pool_after, next_after, retiring_after. rewrite H1, H2, H3, H4. cbn [st_balance st_delegated st_pool st_next st_retiring].
    split; [|auto]. destruct (list_eq_dec Z.eq_dec y (ra_hash a)) as [->|NE]; [rewrite mine_same, put_same, last_join; reflexivity|rewrite mine_other, app_nil_r, put_other by congruence; exact D1].
  - (* account deregistration *) assert (r1 = [CArray [CUint 1; CArray [CUint 0; CBytes (ra_hash a)]]]) by (symmetry; exact (f_equal (fun o => match o with Some z => z | None => [] end) E)). subst r1. clear E. cbn [enact_all enact fine].
    assert (HA : forall y, balances y (l ++ [AddStakeDereg a]) = balances y l ++ mine y (ra_hash a) None /\ delegations y (l ++ [AddStakeDereg a]) = delegations y l ++ mine y (ra_hash a) None /\
              registrations y (l ++ [AddStakeDereg a]) = registrations y l /\ retirements y (l ++ [AddStakeDereg a]) = retirements y l).
    { intros y. unfold balances, delegations, registrations, retirements. rewrite !hist_app, !app_nil_r. auto. }
    destruct (D (ra_hash a)) as (D1' & _). rewrite D1'. destruct (balance_after st l (ra_hash a)) as [[| |]|] eqn:BA; try (split; [split; congruence|discriminate]).
    split; [split; congruence|]. intros st' X. assert (st' = _) by (symmetry; injection X; exact (fun z => z)). subst st'. clear X.
    split; [|intros y NY; destruct (HA y) as (_ & _ & -> & ->); exact (O y NY)].
    intros y. destruct (HA y) as (H1 & H2 & H3 & H4). destruct (D y) as (D1 & D2 & D3 & D4 & D5). unfold balance_after, delegated_after, pool_after, next_after, retiring_after. rewrite H1, H2, H3, H4. cbn [st_balance st_delegated st_pool st_next st_retiring].
    destruct (list_eq_dec Z.eq_dec y (ra_hash a)) as [->|NE]; [rewrite !mine_same, !put_same, !last_join; auto 6|rewrite !mine_other, !app_nil_r, !put_other by congruence; auto 6].
  - (* delegation *) assert (r1 = [CArray [CUint 2; CArray [CUint 0; CBytes (ra_hash a)]; CBytes pool]]) by (symmetry; exact (f_equal (fun o => match o with Some z => z | None => [] end) E)). subst r1. clear E. cbn [enact_all enact fine].
    assert (HA : forall y, balances y (l ++ [AddStakeDeleg a pool]) = balances y l /\ delegations y (l ++ [AddStakeDeleg a pool]) = delegations y l ++ mine y (ra_hash a) (Some pool) /\
              registrations y (l ++ [AddStakeDeleg a pool]) = registrations y l /\ retirements y (l ++ [AddStakeDeleg a pool]) = retirements y l).
    { intros y. unfold balances, delegations, registrations, retirements. rewrite !hist_app, !app_nil_r. auto. }
    destruct (D (ra_hash a)) as (D1' & _). destruct (D pool) as (_ & _ & D3' & _). rewrite D1', D3'. destruct (balance_after st l (ra_hash a)) eqn:BA; [|split; [split; [congruence|intros []; congruence]|discriminate]].
    destruct (pool_after st l pool) eqn:PA; [|split; [split; [congruence|intros []; congruence]|discriminate]].
    split; [split; [intros _; split; discriminate|discriminate]|]. intros st' X. assert (st' = _) by (symmetry; injection X; exact (fun z => z)). subst st'. clear X.
    split; [|intros y NY; destruct (HA y) as (_ & _ & -> & ->); exact (O y NY)].
    intros y. destruct (HA y) as (H1 & H2 & H3 & H4). destruct (D y) as (D1 & D2 & D3 & D4 & D5). unfold balance_after, delegated_after, pool_after, next_after, retiring_after. rewrite H1, H2, H3, H4. cbn [st_balance st_delegated st_pool st_next st_retiring].
    split; [exact D1|]. split; [|auto]. destruct (list_eq_dec Z.eq_dec y (ra_hash a)) as [->|NE]; [rewrite mine_same, put_same, last_join; reflexivity|rewrite mine_other, app_nil_r, put_other by congruence; exact D2].
Qed.
End Run.
Lemma enact_all_app r a : forall st b, enact_all r st (a ++ b) = match enact_all r st a with Some st' => enact_all r st' b | None => None end.
Proof. induction a as [|c a IH]; intros st b; [reflexivity|]. cbn [app enact_all]. destruct (enact r st c); [apply IH|reflexivity]. Qed.
Lemma all_fine_snoc {key} r st (l : list (@call key)) c : all_fine r st (l ++ [c]) <-> all_fine r st l /\ fine r st l c.
Proof.
  unfold all_fine. split.
  - intros F. split; [intros l1 x l2 ->; apply (F l1 x (l2 ++ [c])); rewrite <- app_assoc; reflexivity|apply (F l c []); reflexivity].
  - intros [F G] l1 x l2 E. destruct l2 as [|y l2] using rev_ind; [apply app_inj_tail in E as [-> ->]; exact G|]. clear IHl2. rewrite app_comm_cons, app_assoc in E. apply app_inj_tail in E as [-> _]. apply (F l1 x l2 eq_refl).
Qed.

(** C81: of a transaction's certificates, as a builder writes them, the ledger takes all exactly if each call made sense after the ones before it and within the
    ledger's limits; and then the ledger holds what the calls said. *)
Theorem C81_certificates_exact : forall key r st (l : list (@call key)) cs, Forall call_ok l -> Forall call_fits l -> all_some (map cddl_cert (certs_in l)) = Some cs ->
  (enact_all r st cs <> None <-> all_fine r st l) /\ (forall st', enact_all r st cs = Some st' -> described st l st').
Proof.
  intros key r st l cs OK CF E.
  assert (X : (enact_all r st cs <> None <-> all_fine r st l) /\ (forall st', enact_all r st cs = Some st' -> described st l st' /\ orderly st l)); [|destruct X as [X Y]; split; [exact X|intros st' Q; apply Y, Q]].
  revert cs E. induction l as [|c l IH] using rev_ind; intros cs E.
  { cbn in E. assert (cs = []) by congruence. subst cs. cbn [enact_all]. split; [split; [intros _ [|] ? ? Q; discriminate|discriminate]|]. intros st' Q. assert (st' = st) by congruence. subst st'. apply described_nil. }
  apply Forall_app in OK as [OK OC], CF as [CF CC]. inversion OC as [|? ? OC' _]; subst. inversion CC as [|? ? CC' _]; subst.
  unfold certs_in in E. rewrite map_app, concat_app, map_app in E. fold (certs_in l) (certs_in [c]) in E. apply all_some_app in E as (r1 & r2 & E1 & E2 & ->).
  destruct (IH OK CF r1 E1) as [I1 I2]. rewrite enact_all_app, all_fine_snoc, <- I1. destruct (enact_all r st r1) as [st1|] eqn:R1.
  - destruct (I2 st1 eq_refl) as [D O]. destruct (step r st l c st1 r2 OC' CC' D O E2) as [S1 S2]. split; [rewrite S1; split; [intros F; split; [discriminate|exact F]|intros [_ F]; exact F]|exact S2].
  - split; [split; [congruence|intros []; congruence]|discriminate].
Qed.
Print Assumptions C81_certificates_exact.

(** Only what the ledger knows about the accounts and pools matters. *)
Definition same_stake (a b : stake) : Prop :=
  forall x, st_balance a x = st_balance b x /\ st_delegated a x = st_delegated b x /\ st_pool a x = st_pool b x /\ st_next a x = st_next b x /\ st_retiring a x = st_retiring b x.
Lemma same_after {key} a b (l : list (@call key)) x : same_stake a b -> balance_after a l x = balance_after b l x /\ delegated_after a l x = delegated_after b l x /\ pool_after a l x = pool_after b l x /\ next_after a l x = next_after b l x /\ retiring_after a l x = retiring_after b l x.
Proof.
  intros S. destruct (S x) as (S1 & S2 & S3 & S4 & S5). unfold balance_after, delegated_after, pool_after, next_after, retiring_after, later. rewrite S1, S2, S3, S4, S5. repeat split; reflexivity.
Qed.
Lemma same_fine {key} r a b (l : list (@call key)) : same_stake a b -> all_fine r a l -> all_fine r b l.
Proof.
  intros S F l1 c l2 E. specialize (F l1 c l2 E). unfold fine in *.
  destruct c; try exact F; repeat match goal with F : context [balance_after a l1 ?x] |- _ => rewrite (proj1 (same_after a b l1 x S)) in F end; repeat match goal with F : context [pool_after a l1 ?x] |- _ => rewrite (proj1 (proj2 (proj2 (same_after a b l1 x S)))) in F end; exact F.
Qed.
Lemma same_described {key} a b (l : list (@call key)) st' : same_stake a b -> described a l st' -> described b l st'.
Proof.
  intros S D x. destruct (D x) as (D1 & D2 & D3 & D4 & D5). destruct (same_after a b l x S) as (S1 & S2 & S3 & S4 & S5). rewrite <- S1, <- S2, <- S3, <- S4, <- S5. auto 6.
Qed.
Lemma same_sym a b : same_stake a b -> same_stake b a.
Proof. intros S x. destruct (S x) as (S1 & S2 & S3 & S4 & S5). auto 6. Qed.
Lemma emptied_perm st u v : (forall a, In a u <-> In a v) -> same_stake (emptied st u) (emptied st v).
Proof.
  intros P x. cbn. repeat split. destruct (st_balance st x); [|reflexivity].
  assert (E : forall u v, (forall a : list Z, In a u -> In a v) -> existsb (fun a => if list_eq_dec Z.eq_dec (skipn 1 a) x then true else false) u = true -> existsb (fun a => if list_eq_dec Z.eq_dec (skipn 1 a) x then true else false) v = true).
  { intros u' v' Q H. apply existsb_exists in H as (a & I & H). apply existsb_exists. exists a. split; [apply Q, I|exact H]. }
  pose proof (E u v (fun a => proj1 (P a))) as E1. pose proof (E v u (fun a => proj2 (P a))) as E2.
  destruct (existsb _ u); destruct (existsb _ v); try reflexivity; [specialize (E1 eq_refl)|specialize (E2 eq_refl)]; discriminate.
Qed.
(** the accounts as the calls of [l] leave them before its certificates are looked at *)
Definition drawn {key} (st : stake) (l : list (@call key)) : stake := emptied st (map (fun w => RewardsAddress_toBytes (fst w)) (withdrawals_in l)).

(** C81: whoever states what is the case, brings enough money, balances with force and signs with every key that must, gets a transaction that takes the ledger to what the
    calls said if the calls made sense, and that is refused otherwise. *)
Theorem C81_admitted_iff : forall key H256 H224 verifies (pub : key -> list Z) sgn fuel l dummies ks n r st,
  (forall k m, verifies (pub k) m (sgn k m) = true) -> (forall k, bytesN 32 (pub k)) -> (forall k m, bytesN 64 (sgn k m)) ->
  (7 <= fuel)%nat -> length dummies = length ks -> Forall vkey_wf dummies -> NoDup (map pub ks) ->
  Forall building l -> Forall call_ok l -> Forall (truthful n) l -> (forall a, ~ In (AddStakeDereg a) l) -> zlen l + zlen ks < 2 ^ 59 ->
  inputs_in l <> [] -> NoDup (map (fun u => (u_id u, u_index u)) (inputs_in l)) -> NoDup (map (fun w => RewardsAddress_toBytes (fst w)) (withdrawals_in l)) ->
  n_slot n <= last (ttls_in l) 0 -> last (min_fees_in l) (44, 155381) = (n_fee_a n, n_fee_b n) -> 0 <= n_fee_a n -> 2 ^ 16 <= n_fee_b n -> 0 <= n_min_utxo n <= 1000000 ->
  (forall h, must_sign n l h -> exists k, In k ks /\ H224 (pub k) = h) ->
  Forall (fun x => 0 <= x) (deposits_in l) -> Forall (fun x => 0 <= x) (map u_value (inputs_in l) ++ map snd (withdrawals_in l)) ->
  let money := total (map u_value (inputs_in l)) + total (map snd (withdrawals_in l)) in money < 2 ^ 62 ->
  exists b0 n0, do_calls H256 pub sgn fuel new_builder l = Some (Ok b0) /\ sized b0 dummies (outputs_in l) n0 /\
  (total (map to_amount (outputs_in l)) + total (deposits_in l) + (n_fee_a n * n0 + n_fee_b n) <= money ->
   1000000 + n_fee_a n * (n0 + zlen (b_change b0) + 40) + n_fee_b n < 2 ^ 32 ->
   exists b s, do_calls H256 pub sgn fuel new_builder (l ++ [Balance dummies true] ++ map Sign ks) = Some (Ok b) /\ serialize (tx_ser (b_tx b)) = Ok s /\
     (zlen s <= n_max_size n -> n_fee_a n * (n_max_size n + 8) + n_fee_b n < 2 ^ 64 ->
        ((exists st', admits H256 H224 verifies r n st s st') <-> all_fine r (drawn st l) l) /\ forall st', admits H256 H224 verifies r n st s st' -> described (drawn st l) l st')).
Proof.
  intros key H256 H224 verifies pub sgn fuel l d ks n r st VF PB SG FU LD WD ND BU OK T NDR LL NI N1 N2 TTL FE A B MU MS DP IP money MO.
  destruct (C75_funded_accepted key H256 H224 verifies pub sgn fuel l d ks n VF PB SG FU LD WD ND BU OK T NDR LL NI N1 N2 TTL FE A B MU MS DP IP MO) as (b0 & n0 & R0 & Z0 & G).
  exists b0, n0. split; [exact R0|]. split; [exact Z0|]. intros PAY SM. destruct (G PAY SM) as (b & s & R & ES & LF & _ & AC). clear G. exists b, s. split; [exact R|]. split; [exact ES|]. intros SZ MX. specialize (AC SZ MX).
  assert (nn : forall q, Forall (fun x => 0 <= x) q -> 0 <= total q) by (induction 1; cbn [total]; lia).
  pose proof (nn _ DP) as DN. apply Forall_app in IP as [IP1 IP2]. pose proof (nn _ IP1) as IN1. pose proof (nn _ IP2) as IN2.
  assert (OS : 0 <= total (map to_amount (outputs_in l))).
  { apply nn. apply Forall_map, Forall_forall. intros o I. unfold outputs_in in I. apply in_concat in I as (q & I & J). apply in_map_iff in I as (c & <- & I). pose proof (proj1 (Forall_forall _ _) OK _ I) as OC. destruct c; cbn [In] in J; try contradiction. destruct J as [<-|[]]. exact (proj1 (proj2 OC)). }
  assert (CN : 0 <= n_fee_a n * n0) by (destruct Z0 as (s0 & _ & <-); pose proof (zlen_nonneg s0); nia).
  assert (L1 : lovelace money) by (unfold lovelace; lia). assert (L2 : lovelace (total (deposits_in l))) by (unfold lovelace; lia).
  destruct (submitted H256 pub sgn fuel n l d true ks b PB SG R OK T LL MU N1 N2 L1 L2 LF) as (b0' & b1 & s' & sb & cs & _ & _ & _ & _ & _ & _ & _ & _ & _ & PW & _ & _ & ES' & _ & ECS & IT & _ & _).
  assert (s' = s) by congruence. subst s'.
  assert (CF : Forall call_fits l). { eapply Forall_impl; [|exact T]. intros c TC. destruct c; try exact I. exact (proj1 TC). }
  destruct (C81_certificates_exact key r (emptied st (map fst (w_wds (wire_of (b_tx b) cs)))) l cs OK CF ECS) as [X1 X2].
  assert (SS : same_stake (emptied st (map fst (w_wds (wire_of (b_tx b) cs)))) (drawn st l)).
  { apply emptied_perm. intros a. cbn [wire_of w_wds]. pose proof (Permutation_map fst PW) as P. rewrite map_map in P. cbn [fst] in P. split; intros I; [exact (Permutation_in _ P I)|exact (Permutation_in _ (Permutation_sym P) I)]. }
  assert (AD : forall st', admits H256 H224 verifies r n st s st' <-> enact_all r (emptied st (map fst (w_wds (wire_of (b_tx b) cs)))) cs = Some st').
  { intros st'. split.
    - intros (sb' & t & IT' & _ & E). pose proof (is_tx_fun _ _ _ _ _ IT IT') as <-. exact E.
    - intros E. destruct AC as (sb' & t & IT' & V). pose proof (is_tx_fun _ _ _ _ _ IT IT') as <-. exists sb', (wire_of (b_tx b) cs). auto. }
  split.
  - split.
    + intros (st' & Q). apply AD in Q. apply (same_fine r _ _ l SS). apply X1. congruence.
    + intros F. apply (same_fine r _ _ l (same_sym _ _ SS)) in F. apply X1 in F. destruct (enact_all r _ cs) as [st'|] eqn:E; [|congruence]. exists st'. apply AD. reflexivity.
  - intros st' Q. apply AD in Q. apply (same_described _ _ l st' SS). apply X2, Q.
Qed.
Print Assumptions C81_admitted_iff.
