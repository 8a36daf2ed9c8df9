(** C40, C42, C43, C52, C54, C55, C61: for which values the ledger structures' properties hold, exactly. *)
From Verif Require Import Base BaseLemmas Model_Hex Spec_Cbor Model_Cbor Proof_Cbor Model_Ledger Spec_Ledger Proof_Ledger Proof_Ledger2 Props_Ledger Model_Tx Spec_Tx Props_Tx Props_Readers Props_Wire.
From Coq Require Import Sorted.
Ltac Zify.zify_post_hook ::= idtac.

(** [r] can be written and is read back unchanged. *)
Definition round_trips {A} (ser : A -> outcome cbor) (des : list Z -> outcome A) (x : A) : Prop := exists s, serialize (ser x) = Ok s /\ des s = Ok x.
(** [x] is written, and in the form the CDDL prescribes. *)
Definition conforms {A} (ser : A -> outcome cbor) (cddl : A -> option cbor) (x : A) : Prop := exists s c, serialize (ser x) = Ok s /\ cddl x = Some c /\ denotes s c.

(** ** C42 *)
Theorem C42_exact : forall r, relay_wf r ->
  (round_trips relay_ser (deserialize_array relay_des) r <-> good_relay r) /\ (conforms relay_ser cddl_relay r <-> good_relay r).
Proof.
  intros r W. destruct (match r as r return {good_relay r} + {~ good_relay r} with RNone => right (fun f => f) | RAddr (Some _) None _ => left I | RAddr _ _ _ => ltac:(cbn; tauto) | RName _ _ => left I | RMulti _ => left I end) as [G|G].
  - destruct (C42_relay_round_trip r W G) as (s & c & E & C & D & R). split; (split; [intros _; exact G|intros _]); [exists s; auto|exists s, c; auto].
  - split; (split; [|intros H; contradiction]); intros H; exfalso.
    + destruct H as (s & E & R). destruct r as [|[a|] [b|] p|d p|d]; try (apply G; exact I).
      * injection E as <-. cbn in R. discriminate.
      * destruct (C42_ipv6_dropped_refuted a b p W) as (s' & c & E' & _ & _ & R'). rewrite E in E'. injection E' as <-. rewrite R in R'. discriminate.
      * rewrite C42_ipv6_only_refuted in E. discriminate.
      * destruct (C42_no_address_refuted p (proj2 (proj2 W))) as (s' & E' & R' & _). rewrite E in E'. injection E' as <-. rewrite R in R'. discriminate.
    + destruct H as (s & c & E & C & D). destruct r as [|[a|] [b|] p|d p|d]; try (apply G; exact I).
      * discriminate C.
      * destruct (C42_ipv6_dropped_refuted a b p W) as (s' & c' & E' & C' & D' & _). rewrite E in E'. injection E' as <-. rewrite C in C'. injection C' as <-. contradiction.
      * rewrite C42_ipv6_only_refuted in E. discriminate.
      * destruct (C42_no_address_refuted p (proj2 (proj2 W))) as (s' & E' & _ & c' & C' & D'). rewrite E in E'. injection E' as <-. rewrite C in C'. injection C' as <-. contradiction.
Qed.

(** ** C43 *)
Lemma cert_read_kind data c : cert_des data = Ok c -> simple_cert c \/ c = CertNone.
Proof.
  unfold cert_des. intros H. destruct (zlen data <? 2); [discriminate|]. apply bind_ok in H as (c0 & G0 & H). apply bind_ok in H as (tag & T & H).
  destruct (tag =? 0). { destruct (negb _); [discriminate|]. do 3 (apply bind_ok in H as (? & ? & H)). injection H as <-. left; exact I. }
  destruct (tag =? 1). { destruct (negb _); [discriminate|]. do 3 (apply bind_ok in H as (? & ? & H)). injection H as <-. left; exact I. }
  destruct (tag =? 2). { destruct (negb _); [discriminate|]. do 6 (apply bind_ok in H as (? & ? & H)). injection H as <-. left; exact I. }
  destruct (tag =? 3). { unfold pool_reg_des in H. destruct (zlen data <? 7); [discriminate|]. do 17 (apply bind_ok in H as (? & ? & H)). injection H as <-. left. split; reflexivity. }
  destruct (tag =? 4). { destruct (negb _); [discriminate|]. do 5 (apply bind_ok in H as (? & ? & H)). injection H as <-. left; exact I. }
  destruct (tag =? 5). { apply bind_ok in H as (g & G & H). exfalso. destruct (as_bytes c0) eqn:B; [|discriminate]. clear - T B. induction c0; try discriminate; auto. }
  destruct (tag =? 6). { do 3 (apply bind_ok in H as (? & ? & H)). injection H as <-. left; exact I. }
  injection H as <-. right; reflexivity.
Qed.
Lemma none_written : serialize (cert_ser CertNone) = Ok [128]. Proof. reflexivity. Qed.
Theorem C43_exact : forall c, cert_wf c -> (round_trips cert_ser (deserialize_array cert_des) c <-> simple_cert c).
Proof.
  intros c W. split; [|exact (C43_cert_round_trip c W)]. intros (s & E & R). assert (R' := R). unfold deserialize_array in R'. apply bind_ok in R' as (x & _ & R'). apply bind_ok in R' as (a & _ & R').
  destruct (cert_read_kind _ _ R') as [S|S]; [exact S|]. subst c. rewrite none_written in E. injection E as <-. discriminate.
Qed.

(** ** C54 *)
Lemma body_read_certs m b : txbody_des m = Ok b -> Forall (fun c => simple_cert c \/ c = CertNone) (tb_certs b).
Proof.
  unfold txbody_des. intros H. apply bind_ok in H as (ins & _ & H). apply bind_ok in H as (outs & _ & H). apply bind_ok in H as (certs & C & H). apply bind_ok in H as (ws & _ & H). apply bind_ok in H as (mh & _ & H).
  injection H as <-. cbn [tb_certs]. revert C. generalize (body_array m 4). intros l C. revert certs C. induction l as [|x l IH]; intros certs C; cbn [mapM] in C; [injection C as <-; constructor|].
  apply bind_ok in C as (y & Y & C). apply bind_ok in C as (ys & YS & C). injection C as <-. constructor; [|exact (IH _ YS)]. unfold item_des in Y. apply bind_ok in Y as (a & _ & Y). exact (cert_read_kind _ _ Y).
Qed.
Lemma none_unreadable l cs : mapM cert_ser l = Ok cs -> In CertNone l -> mapM (item_des cert_des) cs <> Ok l.
Proof.
  revert cs; induction l as [|c l IH]; intros cs E I R; [destruct I|]. cbn [mapM] in E. apply bind_ok in E as (x & X & E). apply bind_ok in E as (xs & XS & E). injection E as <-.
  cbn [mapM] in R. apply bind_ok in R as (y & Y & R). apply bind_ok in R as (ys & YS & R). injection R as -> ->. destruct I as [->|I]; [|exact (IH xs XS I YS)]. cbn in X. injection X as <-. discriminate Y.
Qed.
Lemma certs_rt_iff l cs : Forall cert_wf l -> mapM cert_ser l = Ok cs -> Forall (fun c => simple_cert c \/ c = CertNone) l -> mapM (item_des cert_des) cs = Ok l -> Forall simple_cert l.
Proof.
  intros W E F R. apply Forall_forall. intros c I. rewrite Forall_forall in F. destruct (F c I) as [S|S]; [exact S|]. subst c. exfalso. exact (none_unreadable _ _ E I R).
Qed.
Lemma body_written b s : body_wf b -> serialize (txbody_ser b) = Ok s ->
  exists cs, mapM cert_ser (tb_certs b) = Ok cs /\ s = cbor_encode (CMap (body_map b cs)) /\ cbor_ok (CMap (body_map b cs)).
Proof.
  intros W E. unfold serialize in E. apply bind_ok in E as (x & Hx & E). injection E as <-. pose proof (body_ok _ _ W Hx) as O. unfold txbody_ser in Hx. pose proof Hx as E0. apply bind_ok in E0 as (cs & Hc & _).
  exists cs. split; [exact Hc|]. fold (txbody_ser b) in Hx. rewrite (body_ser b cs Hc) in Hx. apply ok_inj in Hx. subst x. auto.
Qed.
Lemma body_back b cs : body_wf b -> mapM cert_ser (tb_certs b) = Ok cs -> txbody_des (body_map b cs) = Ok b -> Forall simple_cert (tb_certs b).
Proof.
  intros W C D. pose proof (body_read_certs _ _ D) as K. rewrite (body_des b cs W) in D. apply bind_ok in D as (certs & M & D). apply ok_inj in D. apply (f_equal tb_certs) in D. cbn [tb_certs] in D. subst certs.
  pose proof W as (_ & _ & _ & _ & _ & [FC _] & _). exact (certs_rt_iff _ _ FC C K M).
Qed.
Theorem C54_body_exact : forall b, body_wf b -> (round_trips txbody_ser (deserialize_map txbody_des) b <-> Forall simple_cert (tb_certs b)).
Proof.
  intros b W. split; [|exact (C54_body_round_trip b W)]. intros (s & E & R). destruct (body_written _ _ W E) as (cs & C & -> & O). rewrite deser_map in R by exact O. exact (body_back _ _ W C R).
Qed.
Theorem C54_transaction_exact : forall t, body_wf (tx_body t) -> wits_wf (tx_wits t) ->
  (round_trips tx_ser (deserialize_array tx_des) t <->
   Forall simple_cert (tb_certs (tx_body t)) /\ ws_scripts (tx_wits t) = [] /\ ws_bootstrap (tx_wits t) = 0 /\ tx_meta t = false).
Proof.
  intros t WB WW. split; [|intros (S & A & B & M); exact (C54_transaction_round_trip t WB S WW A B M)]. intros (s & E & R).
  unfold serialize in E. apply bind_ok in E as (x & Hx & E). injection E as <-. unfold tx_ser in Hx. apply bind_ok in Hx as (y & Hy & Hx). apply ok_inj in Hx. subst x.
  pose proof Hy as Hs. assert (SB : serialize (txbody_ser (tx_body t)) = Ok (cbor_encode y)) by (unfold serialize; rewrite Hy; reflexivity).
  unfold txbody_ser in Hs. apply bind_ok in Hs as (cs & C & _). rewrite (body_ser _ _ C) in Hy. apply ok_inj in Hy. subst y.
  assert (OB : cbor_ok (CMap (body_map (tx_body t) cs))) by exact (body_ok _ _ WB (body_ser _ _ C)).
  assert (O : cbor_ok (CArray ([CMap (body_map (tx_body t) cs); witset_ser (tx_wits t)] ++ if tx_meta t then [] else [CNull]))).
  { apply ok_array. split; [destruct (tx_meta t); unfold zlen; cbn [length app]; lia|]. cbn [app]. constructor; [exact OB|]. constructor; [exact (wits_ok _ WW)|]. destruct (tx_meta t); repeat constructor. }
  rewrite deser_array in R by exact O. unfold tx_des in R. cbn [app nth_error as_map] in R. apply bind_ok in R as (b & RB & R). change (witset_ser (tx_wits t)) with (CMap (wits_map (tx_wits t))) in R. cbn [as_map] in R.
  rewrite (wits_des _ WW) in R. cbn [bind] in R. apply ok_inj in R. destruct t as [tb [v sc bt] mt]. cbn [tx_body tx_wits tx_meta ws_vkeys ws_scripts ws_bootstrap] in *. injection R as -> <- <- <-.
  split; [exact (body_back _ _ WB C RB)|auto].
Qed.

(** ** C55 *)
Lemma relays_conform l rs : Forall relay_wf l -> mapM relay_ser l = Ok rs -> all_some (map cddl_relay l) = Some rs -> Forall good_relay l.
Proof.
  revert rs; induction l as [|r l IH]; intros rs W E C; [constructor|]. inversion W as [|? ? Wr Wl]; subst. cbn [mapM map all_some] in E, C. apply bind_ok in E as (x & X & E). apply bind_ok in E as (xs & XS & E). injection E as <-.
  destruct (cddl_relay r) as [c|] eqn:EC; [|discriminate]. destruct (all_some (map cddl_relay l)) as [cs|] eqn:ECS; [|discriminate]. injection C as -> ->. constructor; [|exact (IH xs Wl XS eq_refl)].
  apply (proj2 (C42_exact r Wr)). exists (cbor_encode x), x. split; [unfold serialize; rewrite X; reflexivity|]. split; [exact EC|]. apply encode_denotes, (relay_ok _ _ Wr X).
Qed.
Theorem C55_exact : forall c, cert_wf c -> (conforms cert_ser cddl_cert c <-> conforming c).
Proof.
  intros c W. split.
  - intros (s & x & E & C & D). unfold serialize in E. apply bind_ok in E as (y & Y & E). injection E as <-. assert (x = y).
    { pose proof (encode_denotes _ (cert_ok _ _ W Y)) as D'. unfold denotes in *. rewrite D in D'. congruence. }
    subst y. destruct c as [| | | |p| | |]; try exact I; [discriminate|]. cbn [cert_ser cddl_cert conforming] in *. apply bind_ok in Y as (rs & R & Y). apply ok_inj in Y.
    destruct (all_some (map cddl_relay (pp_relays p))) as [rs'|] eqn:A; [|discriminate]. assert (C' := f_equal (fun o => match o with Some z => z | None => CNull end) C). cbv beta iota in C'. rewrite <- Y in C'. clear C Y D x.
    destruct W as (_ & _ & _ & _ & _ & _ & _ & _ & [WR _] & _).
    destruct (pp_owners p), rs as [|r rs], (pp_metadata p); cbn [app] in C'; try discriminate C'.
    assert (rs' = r :: rs) by (injection C'; auto). subst rs'. split; [discriminate|]. split; [|split; [exact (relays_conform _ _ WR R A)|discriminate]].
    destruct (pp_relays p); [discriminate|discriminate].
  - intros N. destruct (cert_conforms c N) as (x & E & C). exists (cbor_encode x), x. split; [unfold serialize; rewrite E; reflexivity|]. split; [exact C|]. apply encode_denotes, (cert_ok _ _ W E).
Qed.

(** ** C61 *)
Theorem C61_reread_exact : forall s, bytes_ok s ->
  (forall c, deserialize_array cert_des s = Ok c -> (round_trips cert_ser (deserialize_array cert_des) c <-> c <> CertNone)) /\
  (forall b, deserialize_map txbody_des s = Ok b -> (round_trips txbody_ser (deserialize_map txbody_des) b <-> ~ In CertNone (tb_certs b))) /\
  (forall t, deserialize_array tx_des s = Ok t -> (round_trips tx_ser (deserialize_array tx_des) t <-> ~ In CertNone (tb_certs (tx_body t)))).
Proof.
  intros s O. split; [|split]; intros x R.
  - split; [|exact (C61_reread_certificate s x O R)]. intros (s' & E & R') ->. rewrite none_written in E. injection E as <-. discriminate.
  - split; [|exact (C61_reread_body s x O R)]. intros T I. pose proof (proj1 (C61_transactions_well_formed s O) x R) as W. apply (C54_body_exact x W) in T. rewrite Forall_forall in T. exact (T _ I).
  - split; [|exact (C61_reread_transaction s x O R)]. intros T I. destruct (proj2 (proj2 (C61_transactions_well_formed s O)) x R) as [WB WW]. apply (C54_transaction_exact x WB WW) in T as (T & _).
    rewrite Forall_forall in T. exact (T _ I).
Qed.

(** ** C40: what the transaction id binds *)
(** A relay without its IPv6 address when it also has an IPv4 one: the only thing the serialised body leaves out. *)
Definition relay_no_v6 (r : relay) : relay := match r with RAddr (Some a) _ p => RAddr (Some a) None p | r => r end.
Definition cert_no_v6 (c : cert) : cert :=
  match c with
  | PoolReg p => PoolReg {| pp_operator := pp_operator p; pp_vrf := pp_vrf p; pp_pledge := pp_pledge p; pp_cost := pp_cost p; pp_margin := pp_margin p; pp_account := pp_account p;
                            pp_owners := pp_owners p; pp_relays := map relay_no_v6 (pp_relays p); pp_metadata := pp_metadata p |}
  | c => c
  end.
Definition body_no_v6 (b : txbody) : txbody :=
  {| tb_inputs := tb_inputs b; tb_outputs := tb_outputs b; tb_fee := tb_fee b; tb_ttl := tb_ttl b; tb_certs := map cert_no_v6 (tb_certs b); tb_withdrawals := tb_withdrawals b; tb_metadata_hash := tb_metadata_hash b |}.
Lemma relay_ser_inj r r' x : relay_ser r = Ok x -> relay_ser r' = Ok x -> relay_no_v6 r = relay_no_v6 r'.
Proof.
  intros E E'. destruct r as [|[a|] [b|] p|d p|d], r' as [|[a'|] [b'|] p'|d' p'|d']; try discriminate E; try discriminate E'; try reflexivity; rewrite <- E in E'; clear E; cbn in E'; try discriminate E';
    cbn [relay_no_v6]; injection E'; intros; subst; try reflexivity; try (assert (p' = p) by (destruct p, p'; cbn in *; congruence); subst); try reflexivity; destruct p; discriminate.
Qed.
Lemma relays_ser_inj l : forall l' rs, mapM relay_ser l = Ok rs -> mapM relay_ser l' = Ok rs -> map relay_no_v6 l = map relay_no_v6 l'.
Proof.
  induction l as [|r l IH]; intros [|r' l'] rs E E'; cbn [mapM] in E, E'; [reflexivity| | |].
  - injection E as <-. apply bind_ok in E' as (x & _ & E'). apply bind_ok in E' as (y & _ & E'). discriminate.
  - injection E' as <-. apply bind_ok in E as (x & _ & E). apply bind_ok in E as (y & _ & E). discriminate.
  - apply bind_ok in E as (x & X & E). apply bind_ok in E as (xs & XS & E). apply bind_ok in E' as (x' & X' & E'). apply bind_ok in E' as (xs' & XS' & E'). injection E as <-. injection E' as -> ->.
    cbn [map]. rewrite (relay_ser_inj _ _ _ X X'), (IH _ _ XS XS'). reflexivity.
Qed.
Lemma relay_ser_same r : relay_ser (relay_no_v6 r) = relay_ser r.
Proof. destruct r as [|[a|] [b|] p|d p|d]; reflexivity. Qed.
Lemma mapM_map_same {A B} (f : A -> outcome B) g l : (forall x, f (g x) = f x) -> mapM f (map g l) = mapM f l.
Proof. intros H. induction l as [|x l IH]; cbn [map mapM]; [reflexivity|]. rewrite H, IH. reflexivity. Qed.
Lemma cert_ser_same c : cert_ser (cert_no_v6 c) = cert_ser c.
Proof. destruct c; try reflexivity. cbn [cert_no_v6 cert_ser pp_relays pp_operator pp_vrf pp_pledge pp_cost pp_margin pp_account pp_owners pp_metadata]. rewrite (mapM_map_same relay_ser relay_no_v6 _ relay_ser_same). reflexivity. Qed.
Lemma map_inj_in {A B} (f : A -> B) : (forall x y, f x = f y -> x = y) -> forall l l', map f l = map f l' -> l = l'.
Proof. intros H. induction l as [|x l IH]; intros [|y l'] E; try discriminate; [reflexivity|]. cbn [map] in E. injection E as E1 E2. f_equal; auto. Qed.
Lemma relay_array l rs : mapM relay_ser l = Ok rs -> Forall (fun c => exists d, c = CArray d) rs.
Proof.
  revert rs; induction l as [|r l IH]; intros rs E; cbn [mapM] in E; [injection E as <-; constructor|]. apply bind_ok in E as (x & X & E). apply bind_ok in E as (xs & XS & E). injection E as <-. constructor; [|exact (IH _ XS)].
  destruct r as [|[a|] [b|] p|d p|d]; cbn in X; try discriminate; injection X as <-; eexists; reflexivity.
Qed.
Lemma cred_ser_inj c c' : cred_ser c = cred_ser c' -> c = c'.
Proof. destruct c as [[] h], c' as [[] h']; cbn; intros E; injection E; intros; try discriminate; congruence. Qed.
Lemma mir_ser_inj m m' : mir_ser m = mir_ser m' -> m = m'.
Proof.
  destruct m as [s l], m' as [s' l']. unfold mir_ser. cbn [mir_source mir_creds]. intros E. injection E as E1 E2. assert (s = s') by (destruct s, s'; congruence). subst s'. f_equal.
  revert E2. apply map_inj_in. intros [a b] [a' b'] E. cbn [fst snd] in E. assert (E3 : cred_ser a = cred_ser a') by congruence. apply cred_ser_inj in E3. congruence.
Qed.
Lemma pm_ser_inj m m' : pm_ser m = pm_ser m' -> m = m'.
Proof. destruct m as [u h], m' as [u' h']. unfold pm_ser. cbn [pm_url pm_hash]. intros E. injection E as -> ->. reflexivity. Qed.
Lemma pool_ser_inj p p' x : cert_ser (PoolReg p) = Ok x -> cert_ser (PoolReg p') = Ok x -> cert_no_v6 (PoolReg p) = cert_no_v6 (PoolReg p').
Proof.
  cbn [cert_ser]. intros E E'. apply bind_ok in E as (rs & R & E). apply bind_ok in E' as (rs' & R' & E'). apply ok_inj in E, E'. subst x.
  injection E' as E1 E2 E3 E4 E5 E6 E7 ET. cbn [app] in *.
  assert (K : pp_owners p = pp_owners p' /\ rs = rs' /\ pp_metadata p = pp_metadata p').
  { pose proof (relay_array _ _ R) as FR. pose proof (relay_array _ _ R') as FR'.
    assert (OI : forall l l', map CBytes l = map CBytes l' -> l = l') by (apply map_inj_in; congruence).
    destruct (pp_owners p) as [|o os], (pp_owners p') as [|o' os'], rs as [|r rs], rs' as [|r' rs'], (pp_metadata p) as [[u h]|], (pp_metadata p') as [[u' h']|]; unfold pm_ser in ET; cbn [app map pm_url pm_hash] in ET;
      repeat match goal with H : Forall _ (_ :: _) |- _ => apply Forall_inv in H; destruct H as [? ?] end;
      try discriminate ET; try (injection ET; intros); subst; try discriminate; try match goal with H : map CBytes _ = map CBytes _ |- _ => apply OI in H end; (split; [|split]); try reflexivity; congruence. }
  destruct K as (K1 & <- & K3). assert (KM : pp_margin p = pp_margin p') by (destruct (pp_margin p), (pp_margin p'); cbn in *; congruence).
  cbn [cert_no_v6]. rewrite (relays_ser_inj _ _ _ R R'). congruence.
Qed.
Lemma cert_ser_inj c c' x : cert_ser c = Ok x -> cert_ser c' = Ok x -> cert_no_v6 c = cert_no_v6 c'.
Proof.
  intros E E'. destruct c as [|c|c|c h|p|h e|g d v|m], c' as [|c'|c'|c' h'|p'|h' e'|g' d' v'|m'];
    try exact (pool_ser_inj _ _ _ E E');
    try (cbn [cert_ser] in E, E'; rewrite <- E in E'; discriminate E');
    try (cbn [cert_ser] in E; apply bind_ok in E as (rs & _ & E); rewrite <- E in E'; discriminate E');
    try (cbn [cert_ser] in E'; apply bind_ok in E' as (rs & _ & E'); rewrite <- E in E'; discriminate E');
    cbn [cert_ser] in E, E'; rewrite <- E in E'; clear E; cbn [cert_no_v6]; try reflexivity.
  - assert (H : cred_ser c' = cred_ser c) by congruence. apply cred_ser_inj in H. congruence.
  - assert (H : cred_ser c' = cred_ser c) by congruence. apply cred_ser_inj in H. congruence.
  - assert (H : cred_ser c' = cred_ser c) by congruence. apply cred_ser_inj in H. congruence.
  - congruence.
  - congruence.
  - assert (H : mir_ser m' = mir_ser m) by congruence. apply mir_ser_inj in H. congruence.
Qed.
Lemma certs_ser_inj l : forall l' cs, mapM cert_ser l = Ok cs -> mapM cert_ser l' = Ok cs -> map cert_no_v6 l = map cert_no_v6 l'.
Proof.
  induction l as [|r l IH]; intros [|r' l'] rs E E'; cbn [mapM] in E, E'; [reflexivity| | |].
  - injection E as <-. apply bind_ok in E' as (x & _ & E'). apply bind_ok in E' as (y & _ & E'). discriminate.
  - injection E' as <-. apply bind_ok in E as (x & _ & E). apply bind_ok in E as (y & _ & E). discriminate.
  - apply bind_ok in E as (x & X & E). apply bind_ok in E as (xs & XS & E). apply bind_ok in E' as (x' & X' & E'). apply bind_ok in E' as (xs' & XS' & E'). injection E as <-. injection E' as -> ->.
    cbn [map]. rewrite (cert_ser_inj _ _ _ X X'), (IH _ _ XS XS'). reflexivity.
Qed.
Lemma body_bytes_exact b b' s : body_wf b -> body_wf b' -> serialize (txbody_ser b) = Ok s -> serialize (txbody_ser b') = Ok s -> body_no_v6 b = body_no_v6 b'.
Proof.
  intros W W' E E'. destruct (body_written _ _ W E) as (cs & C & S & O). destruct (body_written _ _ W' E') as (cs' & C' & S' & O').
  assert (M : body_map b cs = body_map b' cs').
  { pose proof (encode_denotes _ O) as D. pose proof (encode_denotes _ O') as D'. unfold denotes in *. rewrite <- S in D. rewrite <- S', D in D'. congruence. }
  assert (cs = cs') by (rewrite <- (get4 b cs), M; apply get4). subst cs'.
  pose proof (f_equal (fun m => body_array m 0) M) as E0. pose proof (f_equal (fun m => body_array m 1) M) as E1. pose proof (f_equal (fun m => body_uint m 2) M) as E2. pose proof (f_equal (fun m => body_uint m 3) M) as E3.
  pose proof (f_equal (fun m => match map_get m 5 with Some c => match as_map c with Some l => l | None => [] end | None => [] end) M) as E5. pose proof (f_equal (fun m => map_get m 7) M) as E7.
  cbv beta in *. rewrite !get0 in E0. rewrite !get1 in E1. rewrite !get2 in E2. rewrite !get3 in E3. rewrite !get5 in E5. rewrite !get7 in E7. unfold body_no_v6.
  rewrite (certs_ser_inj _ _ _ C C').
  rewrite (map_inj_in txin_ser) with (l := tb_inputs b) (l' := tb_inputs b'); [|intros [a i] [a' i'] H; injection H as -> ->; reflexivity|exact E0].
  rewrite (map_inj_in txout_ser) with (l := tb_outputs b) (l' := tb_outputs b'); [|intros [a i] [a' i'] H; injection H as -> ->; reflexivity|exact E1].
  unfold wd_ser in E5. rewrite (map_inj_in (fun p : list Z * Z => (CBytes (fst p), CUint (snd p)))) with (l := tb_withdrawals b) (l' := tb_withdrawals b'); [|intros [a i] [a' i'] H; injection H as -> ->; reflexivity|exact E5].
  rewrite E2, E3. f_equal. destruct (tb_metadata_hash b), (tb_metadata_hash b'); congruence.
Qed.
Lemma body_ser_same b : txbody_ser (body_no_v6 b) = txbody_ser b.
Proof. unfold txbody_ser. cbn [body_no_v6 tb_certs tb_inputs tb_outputs tb_fee tb_ttl tb_withdrawals tb_metadata_hash]. rewrite (mapM_map_same cert_ser cert_no_v6 _ cert_ser_same). reflexivity. Qed.
(** Two transactions have the same id exactly when their bodies agree up to IPv6 addresses given beside an IPv4 one, or Blake2b collides on the bytes of these two bodies. *)
Theorem C40_id_binds_body : forall H b b' id, body_wf (tx_body (b_tx b)) -> body_wf (tx_body (b_tx b')) -> get_id H b = Ok id ->
  (get_id H b' = Ok id -> body_no_v6 (tx_body (b_tx b)) = body_no_v6 (tx_body (b_tx b')) \/
     exists s s', serialize (txbody_ser (tx_body (b_tx b))) = Ok s /\ serialize (txbody_ser (tx_body (b_tx b'))) = Ok s' /\ s <> s' /\ H s = H s') /\
  (body_no_v6 (tx_body (b_tx b)) = body_no_v6 (tx_body (b_tx b')) -> get_id H b' = Ok id).
Proof.
  intros H b b' id W W' E. unfold get_id, body_id, body_of in *. split.
  - intros E'. apply bind_ok in E as (s & E1 & E2). apply bind_ok in E' as (s' & E1' & E2'). injection E2 as E2. injection E2' as E2'.
    destruct (list_eq_dec Z.eq_dec s s') as [->|N]; [left; exact (body_bytes_exact _ _ s' W W' E1 E1')|right; exists s, s'; split; [exact E1|]; split; [exact E1'|]; split; [exact N|congruence]].
  - intros S. rewrite <- (body_ser_same (tx_body (b_tx b'))), <- S, body_ser_same. exact E.
Qed.
(** The plain claim fails: a relay's IPv6 address given beside an IPv4 one is not bound by the id. *)
Theorem C40_ipv6_unbound_refuted : forall H b p v4 v6 v6' port,
  let with_relay v := {| pp_operator := pp_operator p; pp_vrf := pp_vrf p; pp_pledge := pp_pledge p; pp_cost := pp_cost p; pp_margin := pp_margin p; pp_account := pp_account p;
                         pp_owners := pp_owners p; pp_relays := [RAddr (Some v4) v port]; pp_metadata := pp_metadata p |} in
  let tx_with v := set_tx b {| tx_body := {| tb_inputs := tb_inputs (tx_body (b_tx b)); tb_outputs := tb_outputs (tx_body (b_tx b)); tb_fee := tb_fee (tx_body (b_tx b)); tb_ttl := tb_ttl (tx_body (b_tx b));
                               tb_certs := [PoolReg (with_relay v)]; tb_withdrawals := tb_withdrawals (tx_body (b_tx b)); tb_metadata_hash := tb_metadata_hash (tx_body (b_tx b)) |};
                               tx_wits := tx_wits (b_tx b); tx_meta := tx_meta (b_tx b) |} in
  get_id H (tx_with v6) = get_id H (tx_with v6') /\ (v6 <> v6' -> tx_body (b_tx (tx_with v6)) <> tx_body (b_tx (tx_with v6'))).
Proof. intros H b p v4 v6 v6' port with_relay tx_with. split; [reflexivity|]. intros N E. apply N. unfold tx_with, with_relay in E. cbn in E. injection E. auto. Qed.
(** Babbage: the id binds inputs, outputs (address, amount, datum hash, form), fee, ttl and withdrawals. *)
Definition bout_visible (o : btxout) : btxout := match o with BPre o => BPre o | BPost o => BPost {| po_addr := po_addr o; po_amount := po_amount o; po_script_ref := None |} end.
Definition bbody_visible (b : btxbody) : btxbody :=
  {| bb_inputs := bb_inputs b; bb_outputs := map bout_visible (bb_outputs b); bb_fee := bb_fee b; bb_ttl := bb_ttl b; bb_certs := []; bb_withdrawals := bb_withdrawals b |}.
Lemma bout_inj o o' : btxout_ser o = btxout_ser o' -> bout_visible o = bout_visible o'.
Proof.
  destruct o as [[a n [d|]]|[a n r]], o' as [[a' n' [d'|]]|[a' n' r']]; unfold btxout_ser, atxout_ser, ptxout_ser; cbn [ao_addr ao_amount ao_datum po_addr po_amount app bout_visible]; intros E; try discriminate E; injection E; intros; subst; reflexivity.
Qed.
Lemma bouts_inj l : forall l', map btxout_ser l = map btxout_ser l' -> map bout_visible l = map bout_visible l'.
Proof. induction l as [|o l IH]; intros [|o' l'] E; try discriminate E; [reflexivity|]. cbn [map] in *. injection E as E1 E2. f_equal; [exact (bout_inj _ _ E1)|exact (IH _ E2)]. Qed.
Lemma bbody_cbor_ok b : bbody_wf b -> cbor_ok (btxbody_ser b).
Proof.
  intros (WI & WO & WF & WT & WW). pose proof (ok_many _ txin_ser _ WI txin_ok) as K0. pose proof (ok_many _ btxout_ser _ WO btxout_ok) as K1. pose proof (wd_ok _ WW) as K5.
  assert (S : forall k, 0 <= k < 10 -> cbor_ok (CUint k)) by (intros k B; cbn [cbor_ok]; lia).
  unfold btxbody_ser. apply ok_cmap. split; [destruct (bb_ttl b), (bb_withdrawals b); unfold zlen; cbn [length app]; lia|].
  apply Forall_app. split; [|apply Forall_app; split].
  - constructor; [split; [apply S; lia|exact K0]|]. constructor; [split; [apply S; lia|exact K1]|]. constructor; [split; [apply S; lia|exact WF]|constructor].
  - destruct (bb_ttl b); constructor; [split; [apply S; lia|exact WT]|constructor].
  - destruct (bb_withdrawals b) as [|p w]; constructor; [split; [apply S; lia|exact K5]|constructor].
Qed.
Lemma bbody_ser_inj b b' : btxbody_ser b = btxbody_ser b' -> bbody_visible b = bbody_visible b'.
Proof.
  intros E. unfold btxbody_ser in E. injection E as E0 E1 E2 ET. unfold bbody_visible. rewrite (bouts_inj _ _ E1).
  rewrite (map_inj_in txin_ser) with (l := bb_inputs b) (l' := bb_inputs b'); [|intros [a i] [a' i'] H; injection H as -> ->; reflexivity|exact E0].
  assert (WI : forall l l' : list (list Z * Z), map (fun p => (CBytes (fst p), CUint (snd p))) l = map (fun p => (CBytes (fst p), CUint (snd p))) l' -> l = l')
    by (apply map_inj_in; intros [a i] [a' i'] H; injection H as -> ->; reflexivity).
  rewrite E2. f_equal.
  - destruct (bb_ttl b), (bb_ttl b'); cbn [app] in ET; try congruence; destruct (bb_withdrawals b), (bb_withdrawals b'); cbn [app] in ET; congruence.
  - destruct (bb_ttl b), (bb_ttl b'), (bb_withdrawals b) as [|w l], (bb_withdrawals b') as [|w' l']; cbn [app] in ET; try discriminate ET; try reflexivity; apply WI;
      cbn [map]; injection ET; intros; congruence.
Qed.
Lemma bbody_ser_visible b : btxbody_ser (bbody_visible b) = btxbody_ser b.
Proof.
  unfold btxbody_ser, bbody_visible. cbn [bb_inputs bb_outputs bb_fee bb_ttl bb_withdrawals]. rewrite map_map. rewrite (map_ext (fun x => btxout_ser (bout_visible x)) btxout_ser); [reflexivity|]. intros [o|o]; reflexivity.
Qed.
Theorem C40_babbage_id_binds_body : forall H b b', bbody_wf (bb_body b) -> bbody_wf (bb_body b') ->
  (bb_get_id H b = bb_get_id H b' -> bbody_visible (bb_body b) = bbody_visible (bb_body b') \/
     let s := cbor_encode (btxbody_ser (bb_body b)) in let s' := cbor_encode (btxbody_ser (bb_body b')) in s <> s' /\ H s = H s') /\
  (bbody_visible (bb_body b) = bbody_visible (bb_body b') -> bb_get_id H b = bb_get_id H b').
Proof.
  intros H b b' W W'. unfold bb_get_id. split.
  - intros E. set (x := btxbody_ser (bb_body b)) in *. set (x' := btxbody_ser (bb_body b')) in *. destruct (list_eq_dec Z.eq_dec (cbor_encode x) (cbor_encode x')) as [S|N]; [left|right; cbv zeta; fold x x'; auto].
    apply bbody_ser_inj. pose proof (encode_denotes _ (bbody_cbor_ok _ W)) as D. pose proof (encode_denotes _ (bbody_cbor_ok _ W')) as D'. unfold denotes in *. fold x in D. fold x' in D'. rewrite <- S, D in D'. unfold x, x' in *. congruence.
  - intros E. rewrite <- (bbody_ser_visible (bb_body b)), E, bbody_ser_visible. reflexivity.
Qed.

(** ** C52: which items make a reader go wrong, exactly *)
(** a loop meets [x], everything before having been read *)
Definition reaches {A B} (read : A -> outcome B) (l : list A) (x : A) : Prop := exists before after, l = before ++ x :: after /\ Forall (fun y => exists v, read y = Ok v) before.
Definition sized (n : Z) (c : cbor) : Prop := exists b, as_bytes c = Some b /\ zlen b = n.
Definition is_number (c : cbor) : Prop := exists n, as_uint c = Some n.
(** a pool registration's fields up to the reward account are in order, its margin aside *)
Definition pool_prefix (data : list cbor) (margin : cbor) (rest : list cbor) : Prop :=
  exists kind op vrf pledge cost acct b, data = kind :: op :: vrf :: pledge :: cost :: margin :: acct :: rest /\ sized 28 op /\ sized 32 vrf /\ is_number pledge /\ is_number cost /\ as_bytes acct = Some b.
(** null owner list entries *)
Definition bad_owners (rest : list cbor) : Prop := exists c more owners x, rest = c :: more /\ as_array c = Some owners /\ reaches owner_des owners x /\ as_bytes x = None.
Definition bad_pool (data : list cbor) : Prop :=
  exists margin rest l, pool_prefix data margin rest /\ as_array margin = Some l /\
    (as_tag margin = None \/ (exists t c r, as_tag margin = Some (t, c) /\ rational_des t c = Ok r) /\ bad_owners rest).
Definition bad_mir_entry (e : cbor * cbor) : Prop := as_array (fst e) = None \/ exists a c, as_array (fst e) = Some a /\ cred_des a = Ok c /\ as_uint (snd e) = None.
Definition bad_mir (data : list cbor) : Prop :=
  exists kind c more, data = kind :: c :: more /\
    (as_array c = None \/ exists s m l n e, as_array c = Some [s; m] /\ as_uint s = Some n /\ (n = 0 \/ n = 1) /\ as_map m = Some l /\ reaches mir_entry l e /\ bad_mir_entry e).
Lemma mapM_ub {A B} (f : A -> outcome B) l : mapM f l = UB <-> exists x, reaches f l x /\ f x = UB.
Proof.
  induction l as [|y l IH]; cbn [mapM].
  - split; [discriminate|]. intros (x & (p & q & E & _) & _). destruct p; discriminate.
  - split.
    + destruct (f y) as [v| |] eqn:Y; cbn [bind]; [|discriminate|].
      * destruct (mapM f l) eqn:M; cbn [bind]; try discriminate. intros _. destruct (proj1 IH eq_refl) as (x & (p & q & -> & F) & U). exists x. split; [|exact U]. exists (y :: p), q. split; [reflexivity|]. constructor; [exists v; exact Y|exact F].
      * intros _. exists y. split; [|exact Y]. exists [], l. split; [reflexivity|constructor].
    + intros (x & (p & q & E & F) & U). destruct p as [|z p]; cbn [app] in E; injection E as <- ->; [rewrite U; reflexivity|]. inversion F as [|? ? [v V] F']; subst. rewrite V. cbn [bind].
      rewrite (proj2 IH); [reflexivity|]. exists x. split; [|exact U]. exists p, q. auto.
Qed.
Lemma bind_ub {A B} (o : outcome A) (f : A -> outcome B) : bind o f = UB <-> o = UB \/ exists x, o = Ok x /\ f x = UB.
Proof. destruct o; cbn [bind]; split; try discriminate; try tauto; [intros H; right; eauto|intros [H|(x & H & U)]; [discriminate|congruence]|intros [H|(x & H & U)]; discriminate]. Qed.
Lemma want_ub {A} (o : option A) : want o <> UB. Proof. destruct o; discriminate. Qed.
Lemma owner_ub c : owner_des c = UB <-> as_bytes c = None.
Proof. unfold owner_des. destruct (as_bytes c) as [b|]; cbn [deref bind]; [|tauto]. split; [intros H; exfalso; exact (safe_fixed _ _ H)|discriminate]. Qed.
Lemma owners_ub o : owners_des o = UB <-> exists l x, o = Some l /\ reaches owner_des l x /\ as_bytes x = None.
Proof.
  unfold owners_des. destruct o as [l|]; [|split; [discriminate|intros (l & x & E & _); discriminate]]. rewrite bind_ub. split.
  - intros [H|(x & _ & H)]; [|discriminate]. apply mapM_ub in H as (x & R & U). apply owner_ub in U. eauto.
  - intros (l' & x & E & R & U). injection E as <-. left. apply mapM_ub. exists x. split; [exact R|]. apply owner_ub, U.
Qed.
Lemma rational_safe t c : rational_des t c <> UB. Proof. exact (safe_rational t c). Qed.
Lemma sized_fixed n c b : as_bytes c = Some b -> (sized n c <-> fixed n b = Ok b).
Proof. intros E. unfold sized, fixed. rewrite E. destruct (Z.eqb_spec (zlen b) n); split; intros H; try (exists b; auto; fail); try reflexivity; [destruct H as (b' & X & L); congruence|discriminate]. Qed.
Lemma fixed_case n b : fixed n b = Ok b \/ fixed n b = Throw.
Proof. unfold fixed. destruct (_ =? _); auto. Qed.
Lemma pool_ub data : pool_reg_des data = UB <-> bad_pool data.
Proof.
  unfold pool_reg_des, bad_pool, pool_prefix. destruct (Z.ltb_spec (zlen data) 7) as [L|L].
  { split; [discriminate|]. intros (margin & rest & l & (k & op & vrf & pl & co & ac & b & -> & _) & _). rewrite !zlen_cons in L. pose proof (zlen_nonneg rest). lia. }
  destruct data as [|k [|op [|vrf [|pl [|co [|mg [|ac rest]]]]]]]; try (exfalso; unfold zlen in L; cbn [length] in L; lia).
  cbn [get_ub nth_error bind].
  assert (R1 : forall o, (exists margin rest0 l, (exists kind op0 vrf0 pledge cost acct b, k :: op :: vrf :: pl :: co :: mg :: ac :: rest = kind :: op0 :: vrf0 :: pledge :: cost :: margin :: acct :: rest0 /\
     sized 28 op0 /\ sized 32 vrf0 /\ is_number pledge /\ is_number cost /\ as_bytes acct = Some b) /\ as_array margin = Some l /\
     (as_tag margin = None \/ (exists t c r, as_tag margin = Some (t, c) /\ rational_des t c = Ok r) /\ bad_owners rest0)) <->
     (sized 28 op /\ sized 32 vrf /\ is_number pl /\ is_number co /\ as_bytes ac <> None /\ as_array mg <> None /\
     (as_tag mg = None \/ (exists t c r, as_tag mg = Some (t, c) /\ rational_des t c = Ok r) /\ bad_owners rest)) \/ o /\ False).
  { intros o. split.
    - intros (margin & rest0 & l & (kind & op0 & vrf0 & pledge & cost & acct & b & E & A1 & A2 & A3 & A4 & A5) & A6 & A7). injection E as <- <- <- <- <- <- <- <-. left. repeat (split; [first [assumption|congruence]|]). exact A7.
    - intros [(A1 & A2 & A3 & A4 & A5 & A6 & A7)|[_ []]]. destruct (as_bytes ac) as [b|] eqn:EB; [|congruence]. destruct (as_array mg) as [l|] eqn:EA; [|congruence]. exists mg, rest, l. split; [|auto]. exists k, op, vrf, pl, co, ac, b. auto 8. }
  rewrite (R1 True). clear R1.
  destruct (as_bytes op) as [bop|] eqn:Eop; [|split; [discriminate|intros [((b & X & _) & _)|[_ []]]; congruence]]. cbn [want bind].
  destruct (as_bytes vrf) as [bvrf|] eqn:Evrf; [|split; [discriminate|intros [(_ & (b & X & _) & _)|[_ []]]; congruence]]. cbn [want bind].
  destruct (as_uint pl) as [npl|] eqn:Epl; [|split; [discriminate|intros [(_ & _ & (b & X) & _)|[_ []]]; congruence]]. cbn [want bind].
  destruct (as_uint co) as [nco|] eqn:Eco; [|split; [discriminate|intros [(_ & _ & _ & (b & X) & _)|[_ []]]; congruence]]. cbn [want bind].
  destruct (as_array mg) as [lmg|] eqn:Emg; [|split; [discriminate|intros [(_ & _ & _ & _ & _ & X & _)|[_ []]]; congruence]]. cbn [want bind].
  destruct (as_bytes ac) as [bac|] eqn:Eac; [|split; [discriminate|intros [(_ & _ & _ & _ & X & _)|[_ []]]; congruence]]. cbn [want bind].
  rewrite (sized_fixed 28 op bop Eop), (sized_fixed 32 vrf bvrf Evrf).
  destruct (fixed_case 28 bop) as [F1|F1]; rewrite F1; cbn [bind]; [|split; [discriminate|intros [(X & _)|[_ []]]; discriminate]].
  destruct (fixed_case 32 bvrf) as [F2|F2]; rewrite F2; cbn [bind]; [|split; [discriminate|intros [(_ & X & _)|[_ []]]; discriminate]].
  destruct (as_tag mg) as [[t c]|] eqn:Etg; cbn [deref bind].
  2: { split; [intros _; left|reflexivity]. repeat (split; [first [reflexivity|discriminate|eexists; eassumption]|]). left; reflexivity. }
  cbn [fst snd]. destruct (rational_des t c) as [r| |] eqn:Er; [|split; [discriminate|intros [(_ & _ & _ & _ & _ & _ & [X|[(t' & c' & r & X & Y) _]])|[_ []]]; congruence]|exfalso; exact (rational_safe _ _ Er)].
  cbn [bind]. destruct rest as [|o more].
  - change (7 <? zlen [k; op; vrf; pl; co; mg; ac]) with false. cbn [bind]. split; [discriminate|]. intros [(_ & _ & _ & _ & _ & _ & [X|[_ (c0 & m0 & ow & x & E & _)]])|[_ []]]; [congruence|discriminate].
  - assert (L8 : (7 <? zlen (k :: op :: vrf :: pl :: co :: mg :: ac :: o :: more)) = true) by (apply Z.ltb_lt; rewrite !zlen_cons; pose proof (zlen_nonneg more); lia). rewrite L8.
    cbn [get_ub nth_error bind]. rewrite bind_ub, owners_ub. split.
    + intros [(l & x & A & R & U)|(x & _ & H)]; [|discriminate]. left. repeat (split; [first [reflexivity|discriminate|eexists; eassumption]|]). right. split; [eauto|]. exists o, more, l, x. auto.
    + intros [(_ & _ & _ & _ & _ & _ & [X|[_ (c0 & m0 & ow & x & E & A & R & U)]])|[_ []]]; [congruence|]. injection E as <- <-. left. eauto.
Qed.
Lemma mir_entry_ub e : mir_entry e = UB <-> bad_mir_entry e.
Proof.
  unfold mir_entry, bad_mir_entry. destruct (as_array (fst e)) as [a|]; cbn [deref bind]; [|tauto]. destruct (cred_des a) as [c| |] eqn:C; cbn [bind].
  - destruct (as_uint (snd e)); cbn [deref bind]; split; try discriminate; try (intros [H|(a' & c' & A & C' & U)]; discriminate); [intros _; right; eauto|reflexivity].
  - split; [discriminate|]. intros [H|(a' & c' & A & C' & U)]; [discriminate|congruence].
  - exfalso. exact (safe_cred _ C).
Qed.
Lemma mir_ub c : (let* a := deref (as_array c) in let* m := mir_des [] a in Ok (MirCert m)) = UB <->
  (as_array c = None \/ exists s m l n e, as_array c = Some [s; m] /\ as_uint s = Some n /\ (n = 0 \/ n = 1) /\ as_map m = Some l /\ reaches mir_entry l e /\ bad_mir_entry e).
Proof.
  destruct (as_array c) as [a|]; cbn [deref bind]; [|tauto]. rewrite bind_ub. transitivity (mir_des [] a = UB); [split; [intros [H|(x & _ & H)]; [exact H|discriminate]|auto]|].
  unfold mir_des. destruct a as [|s [|m [|x a]]]; try (split; [discriminate|intros [H|(? & ? & ? & ? & ? & H & _)]; discriminate]).
  destruct (as_uint s) as [n|] eqn:S; cbn [want bind]; [|split; [discriminate|intros [H|(? & ? & ? & ? & ? & H & S' & _)]; [discriminate|injection H as <- <-; congruence]]].
  destruct (as_map m) as [l|] eqn:M; cbn [want bind]; [|split; [discriminate|intros [H|(? & ? & ? & ? & ? & H & _ & _ & M' & _)]; [discriminate|injection H as <- <-; congruence]]].
  assert (K : forall src, (let* src := Ok src in let* creds := mapM mir_entry l in Ok {| mir_source := src; mir_creds := [] ++ creds |}) = UB <-> exists e, reaches mir_entry l e /\ bad_mir_entry e).
  { intros src. cbn [bind]. rewrite bind_ub, mapM_ub. split; [intros [(e & R & U)|(y & _ & H)]; [exists e; split; [exact R|apply mir_entry_ub, U]|discriminate]|intros (e & R & U); left; exists e; split; [exact R|apply mir_entry_ub, U]]. }
  destruct (Z.eqb_spec n 0) as [->|N0]; [|destruct (Z.eqb_spec n 1) as [->|N1]].
  - rewrite K. split; [intros (e & R & B); right; exists s, m, l, 0, e; auto 8|intros [H|(s' & m' & l' & n' & e & H & S' & _ & M' & R & B)]; [discriminate|injection H as <- <-; assert (l' = l) by congruence; subst; eauto]].
  - rewrite K. split; [intros (e & R & B); right; exists s, m, l, 1, e; auto 8|intros [H|(s' & m' & l' & n' & e & H & S' & _ & M' & R & B)]; [discriminate|injection H as <- <-; assert (l' = l) by congruence; subst; eauto]].
  - cbn [bind]. split; [discriminate|]. intros [H|(s' & m' & l' & n' & e & H & S' & N & _)]; [discriminate|]. injection H as <- <-. assert (n' = n) by congruence. subst. destruct N; contradiction.
Qed.
(** Certificates: a pool registration with an untagged margin or an owner that is no byte string, every genesis delegation, and an
    instantaneous reward whose body or entries have the wrong type; nothing else. *)
Theorem C52_certificate_exact : forall data, cert_des data = UB <->
  exists c0 c1 more n, data = c0 :: c1 :: more /\ as_uint c0 = Some n /\ (n = 3 /\ bad_pool data \/ n = 5 \/ n = 6 /\ bad_mir data).
Proof.
  intros data. destruct data as [|c0 [|c1 more]]; try (split; [cbn; discriminate|intros (? & ? & ? & ? & E & _); discriminate]).
  destruct (as_uint c0) as [n|] eqn:T.
  2: { split; [|intros (? & ? & ? & n & E & T' & _); injection E as <- <- <-; congruence]. unfold cert_des. destruct (_ <? 2); [discriminate|]. cbn [get_ub nth_error bind]. rewrite T. discriminate. }
  destruct (Z.eq_dec n 3) as [->|N3]; [|destruct (Z.eq_dec n 5) as [->|N5]; [|destruct (Z.eq_dec n 6) as [->|N6]]].
  - assert (E : cert_des (c0 :: c1 :: more) = pool_reg_des (c0 :: c1 :: more)).
    { unfold cert_des. destruct (Z.ltb_spec (zlen (c0 :: c1 :: more)) 2) as [L|L]; [rewrite !zlen_cons in L; pose proof (zlen_nonneg more); lia|]. cbn [get_ub nth_error bind]. rewrite T. reflexivity. }
    rewrite E, pool_ub. split; [intros B; exists c0, c1, more, 3; auto|]. intros (? & ? & ? & n & E' & T' & H). injection E' as <- <- <-. assert (n = 3) by congruence. subst n. destruct H as [[_ H]|[H|[H _]]]; [exact H|discriminate H|discriminate H].
  - split; [intros _; exists c0, c1, more, 5; auto|intros _]. unfold cert_des. destruct (Z.ltb_spec (zlen (c0 :: c1 :: more)) 2) as [L|L]; [rewrite !zlen_cons in L; pose proof (zlen_nonneg more); lia|]. cbn [get_ub nth_error bind]. rewrite T.
    cbn [want bind Z.eqb Pos.eqb]. assert (B : as_bytes c0 = None) by (clear - T; induction c0; try discriminate; try reflexivity; auto). rewrite B. reflexivity.
  - assert (E : cert_des (c0 :: c1 :: more) = let* a := deref (as_array c1) in let* m := mir_des [] a in Ok (MirCert m)).
    { unfold cert_des. destruct (Z.ltb_spec (zlen (c0 :: c1 :: more)) 2) as [L|L]; [rewrite !zlen_cons in L; pose proof (zlen_nonneg more); lia|]. cbn [get_ub nth_error bind]. rewrite T. reflexivity. }
    rewrite E, mir_ub. split; [intros B; exists c0, c1, more, 6; split; [reflexivity|]; split; [exact T|]; right; right; split; [reflexivity|]; exists c0, c1, more; auto|].
    intros (? & ? & ? & n & E' & T' & H). injection E' as <- <- <-. assert (n = 6) by congruence. subst n. destruct H as [[H _]|[H|[_ (? & ? & ? & E' & B)]]]; [discriminate H|discriminate H|]. injection E' as <- <- <-. exact B.
  - split; [intros H; exfalso; exact (C52_cert_safe n (c1 :: more) N3 N5 N6 c0 T H)|]. intros (? & ? & ? & n' & E' & T' & H). injection E' as <- <- <-. assert (n' = n) by congruence. subst n'. destruct H as [[H _]|[H|[H _]]]; contradiction.
Qed.
(** Scripts: an item that is no array where a script is expected, or an n-of-k written with two elements. *)
Inductive bad_script : cbor -> Prop :=
| bad_script_type c : as_array c = None -> bad_script c
| bad_script_nofk c t n k : as_array c = Some [t; n] -> as_uint t = Some 3 -> as_uint n = Some k -> bad_script c
| bad_script_nested c t a k l x : as_array c = Some [t; a] -> as_uint t = Some k -> (k = 1 \/ k = 2) -> as_array a = Some l -> reaches ms_item l x -> bad_script x -> bad_script c.
Lemma ms_tag t c : ms_item (CTag t c) = ms_item c. Proof. reflexivity. Qed.
Lemma ms_strip a : 
  (fix strip (a : cbor) : outcome (list mscript) :=
     match a with CTag _ a => strip a | CArray l => (fix go (l : list cbor) : outcome (list mscript) := match l with [] => Ok [] | x :: r => let* y := ms_item x in let* ys := go r in Ok (y :: ys) end) l | _ => Throw end) a
  = let* l := want (as_array a) in mapM ms_item l.
Proof. induction a; try reflexivity; [cbn [as_array want bind]; apply ms_go|exact IHa]. Qed.
Lemma ms_array_item d : ms_item (CArray d) =
  match d with
  | t :: a :: more =>
      let* tag := want (as_uint t) in
      if tag =? 0 then match more with [] => let* h := want (as_bytes a) in let* h := fixed 28 h in Ok (MPub h) | _ => Throw end
      else if tag =? 1 then match more with [] => let* l := (let* l := want (as_array a) in mapM ms_item l) in Ok (MAll l) | _ => Throw end
      else if tag =? 2 then match more with [] => let* l := (let* l := want (as_array a) in mapM ms_item l) in Ok (MAny l) | _ => Throw end
      else if tag =? 3 then match more with [] => let* _ := want (as_uint a) in UB | _ => Throw end
      else Ok MNone
  | _ => Throw
  end.
Proof. destruct d as [|t [|a more]]; try reflexivity. cbn [ms_item]. rewrite ms_strip. destruct (as_uint t); reflexivity. Qed.
Lemma ms_as_array c : ms_item c = match as_array c with Some d => ms_item (CArray d) | None => UB end.
Proof. induction c; try reflexivity. exact IHc. Qed.
Lemma bad_script_array c d : as_array c = Some d -> (bad_script c <-> bad_script (CArray d)).
Proof.
  intros A. split; intros B; inversion B as [c' T|c' t n k T1 T2 T3|c' t a k l x T1 T2 T3 T4 T5 T6]; subst.
  - congruence.
  - apply (bad_script_nofk (CArray d) t n k); [cbn; congruence|exact T2|exact T3].
  - apply (bad_script_nested (CArray d) t a k l x); try assumption. cbn. congruence.
  - discriminate T.
  - cbn in T1. apply (bad_script_nofk c t n k); [congruence|exact T2|exact T3].
  - cbn in T1. apply (bad_script_nested c t a k l x); try assumption. congruence.
Qed.
Theorem C52_script_exact : forall data, ms_des data = UB <-> bad_script (CArray data).
Proof.
  set (Q := fun c => ms_item c = UB <-> bad_script c).
  assert (D : forall c, Q c /\ (forall l, as_array c = Some l -> Forall Q l)).
  { intros c. induction c as [n|n|b|b|l IH|l IH|t c IH|b|] using cbor_nested_ind; try (split; [split; [intros _; constructor; reflexivity|reflexivity]|discriminate]).
    - assert (FL : Forall Q l) by (eapply Forall_impl; [|exact IH]; intros a [H _]; exact H). split; [|intros l0 E; injection E as <-; exact FL]. unfold Q. rewrite ms_array_item.
      destruct l as [|t [|a more]]; try (split; [discriminate|intros B; inversion B; subst; cbn in *; congruence]).
      inversion IH as [|? ? _ IH1]; subst. inversion IH1 as [|? ? (_ & IA) _]; subst. clear IH IH1 FL.
      assert (W : forall k (f : list mscript -> mscript), as_uint t = Some k -> k = 1 \/ k = 2 -> ((match more with [] => let* l := (let* l := want (as_array a) in mapM ms_item l) in Ok (f l) | _ => Throw end) = UB <-> bad_script (CArray (t :: a :: more)))).
      { intros k f T K. destruct more as [|z more].
        2: { split; [discriminate|]. intros B; inversion B as [c' T0|c' t' n' k' T1|c' t' a' k' l' x' T1]; subst; cbn in *; discriminate. }
        destruct (as_array a) as [l|] eqn:A; cbn [want bind].
        2: { split; [discriminate|]. intros B; inversion B as [c' T0|c' t' n' k' T1 T2 T3|c' t' a' k' l' x' T1 T2 T3 T4]; subst; cbn in *; try discriminate; injection T1 as <- <-; [|congruence]. assert (k = 3) by congruence. destruct K; subst; discriminate. }
        specialize (IA l eq_refl). rewrite Forall_forall in IA. rewrite bind_ub, mapM_ub. split.
        - intros [(x & R & U)|(x & _ & U)]; [|discriminate]. apply (bad_script_nested (CArray [t; a]) t a k l x); try assumption; [reflexivity|]. apply IA; [|exact U]. destruct R as (p & q & -> & _). apply in_app_iff. right; left; reflexivity.
        - intros B; inversion B as [c' T0|c' t' n' k' T1 T2 T3|c' t' a' k' l' x' T1 T2 T3 T4 T5 T6]; subst; cbn in *; try discriminate; injection T1 as <- <-; [assert (k = 3) by congruence; destruct K; subst; discriminate|].
          assert (l' = l) by congruence. subst l'. left. exists x'. split; [exact T5|]. apply IA; [|exact T6]. destruct T5 as (p & q & -> & _). apply in_app_iff. right; left; reflexivity. }
      assert (NB : as_uint t <> Some 1 -> as_uint t <> Some 2 -> (as_uint t <> Some 3 \/ more <> [] \/ as_uint a = None) -> ~ bad_script (CArray (t :: a :: more))).
      { intros N1 N2 N3 B. inversion B as [c' T0|c' t' n' k' T1 T2 T3|c' t' a' k' l' x' T1 T2 T3 T4 T5 T6]; subst; cbn in *; try discriminate; injection T1 as <- <- ->; [destruct N3 as [N|[N|N]]; congruence|destruct T3; subst; congruence]. }
      destruct (as_uint t) as [n|] eqn:T; cbn [want bind]; [|split; [discriminate|intros B; exfalso; revert B; apply NB; [discriminate|discriminate|left; discriminate]]].
      destruct (Z.eqb_spec n 0) as [->|N0].
      { split; [|intros B; exfalso; revert B; apply NB; [discriminate|discriminate|left; discriminate]]. destruct more; [|discriminate]. intros H. exfalso. destruct (as_bytes a); [|discriminate]. cbn [want bind] in H. destruct (fixed_case 28 l) as [F|F]; rewrite F in H; discriminate. }
      destruct (Z.eqb_spec n 1) as [->|N1]; [apply (W 1 MAll eq_refl); left; reflexivity|]. destruct (Z.eqb_spec n 2) as [->|N2]; [apply (W 2 MAny eq_refl); right; reflexivity|].
      destruct (Z.eqb_spec n 3) as [->|N3].
      + destruct more as [|z more]; [|split; [discriminate|intros B; exfalso; revert B; apply NB; [discriminate|discriminate|right; left; discriminate]]].
        destruct (as_uint a) as [k|] eqn:A; cbn [want bind]; [|split; [discriminate|intros B; exfalso; revert B; apply NB; [discriminate|discriminate|right; right; reflexivity]]].
        split; [intros _|reflexivity]. exact (bad_script_nofk (CArray [t; a]) t a k eq_refl T A).
      + split; [discriminate|intros B; exfalso; revert B; apply NB; [congruence|congruence|left; congruence]].
    - destruct IH as (I1 & I3). split; [|exact I3]. unfold Q in *. rewrite ms_tag, I1. destruct (as_array c) as [d|] eqn:A.
      + rewrite (bad_script_array c d A), (bad_script_array (CTag t c) d A). tauto.
      + split; intros _; apply bad_script_type; exact A. }
  intros data. exact (proj1 (D (CArray data))).
Qed.
(** Key witnesses, witness sets, bodies, transactions *)
Definition shorter (n : Z) (c : cbor) : Prop := exists b, as_bytes c = Some b /\ zlen b < n.
Definition unfit (n : Z) (a : list cbor) (i : nat) : Prop := nth_error a i = None \/ exists c, nth_error a i = Some c /\ (as_bytes c = None \/ shorter n c).
Definition bad_vkey (c : cbor) : Prop := exists a, as_array c = Some a /\ (unfit 32 a 0 \/ unfit 64 a 1).
Lemma make_ub n b : make_array n b = UB <-> zlen b < n.
Proof. unfold make_array. destruct (Z.ltb_spec (zlen b) n); split; intros; try lia; try discriminate; auto. Qed.
Lemma unfit_ub n a i : (let* c := get_ub a i in let* k := deref (as_bytes c) in make_array n k) = UB <-> unfit n a i.
Proof.
  unfold get_ub, unfit, shorter. destruct (nth_error a i) as [c|]; cbn [bind]; [|tauto]. destruct (as_bytes c) as [b|] eqn:B; cbn [deref bind].
  - rewrite make_ub. split; [intros L; right; exists c; split; [reflexivity|]; right; exists b; auto|]. intros [H|(c' & E & H)]; [discriminate|]. injection E as <-. destruct H as [H|(b' & E & L)]; congruence.
  - split; [intros _; right; exists c; auto|reflexivity].
Qed.
Lemma vkey_ub c : vkey_des c = UB <-> bad_vkey c.
Proof.
  unfold vkey_des, bad_vkey. destruct (as_array c) as [a|]; [|split; [discriminate|intros (a & E & _); discriminate]].
  assert (S : (let* c0 := get_ub a 0 in let* k := deref (as_bytes c0) in let* k := make_array 32 k in let* c1 := get_ub a 1 in let* s := deref (as_bytes c1) in let* s := make_array 64 s in Ok (Some (k, s))) =
    let* k := (let* c0 := get_ub a 0 in let* k := deref (as_bytes c0) in make_array 32 k) in let* s := (let* c1 := get_ub a 1 in let* s := deref (as_bytes c1) in make_array 64 s) in Ok (Some (k, s))).
  { destruct (get_ub a 0) as [c0| |]; cbn [bind]; [|reflexivity|reflexivity]. destruct (deref (as_bytes c0)) as [k| |]; cbn [bind]; [|reflexivity|reflexivity]. destruct (make_array 32 k) as [k'| |]; cbn [bind]; [|reflexivity|reflexivity].
    destruct (get_ub a 1) as [c1| |]; cbn [bind]; [|reflexivity|reflexivity]. destruct (deref (as_bytes c1)) as [s| |]; cbn [bind]; reflexivity. }
  rewrite S, bind_ub, unfit_ub. split.
  - intros [H|(k & _ & H)]; [eauto|]. apply bind_ub in H as [H|(s & _ & H)]; [|discriminate]. apply unfit_ub in H. eauto.
  - intros (a' & E & [H|H]); injection E as <-; [auto|]. apply unfit_ub in H.
    destruct (let* c0 := get_ub a 0 in let* k := deref (as_bytes c0) in make_array 32 k) as [k| |] eqn:F; [right; exists k; split; [reflexivity|]; rewrite H; reflexivity| |left; apply unfit_ub, F].
    exfalso. clear - F. unfold get_ub in F. destruct (nth_error a 0); [|discriminate]. cbn [bind] in F. destruct (as_bytes c); [|discriminate]. cbn [deref bind] in F. unfold make_array in F. destruct (_ <? _); discriminate.
Qed.
Theorem C52_witness_set_exact : forall m, witset_des m = UB <-> exists c, reaches vkey_des (body_array m 0) c /\ bad_vkey c.
Proof.
  intros m. unfold witset_des. rewrite bind_ub, mapM_ub. split; [intros [(c & R & U)|(x & _ & U)]; [exists c; split; [exact R|apply vkey_ub, U]|discriminate]|intros (c & R & U); left; exists c; split; [exact R|apply vkey_ub, U]].
Qed.
Definition withdrawal_entries (m : list (cbor * cbor)) : list (cbor * cbor) := match map_get m 5 with Some c => match as_map c with Some l => l | None => [] end | None => [] end.
Definition all_read {A B} (read : A -> outcome B) (l : list A) : Prop := Forall (fun y => exists v, read y = Ok v) l.
Definition bad_body (m : list (cbor * cbor)) : Prop :=
  let inputs := body_array m 0 in let outputs := body_array m 1 in let certs := body_array m 4 in let withdrawals := withdrawal_entries m in
  (exists c, reaches (item_des txin_des) inputs c /\ as_array c = None) \/
  all_read (item_des txin_des) inputs /\
  ((exists c, reaches (item_des txout_des) outputs c /\ as_array c = None) \/
   all_read (item_des txout_des) outputs /\
   ((exists c, reaches (item_des cert_des) certs c /\ (as_array c = None \/ exists d, as_array c = Some d /\ cert_des d = UB)) \/
    all_read (item_des cert_des) certs /\ exists e, reaches wdrl_entry withdrawals e /\ (as_bytes (fst e) = None \/ as_uint (snd e) = None))).
Lemma mapM_all {A B} (f : A -> outcome B) l : all_read f l <-> exists v, mapM f l = Ok v.
Proof.
  unfold all_read. induction l as [|x l IH]; cbn [mapM]; [split; [eauto|constructor]|]. split.
  - intros F. inversion F as [|? ? [v V] F']; subst. apply IH in F' as [vs VS]. rewrite V, VS. cbn [bind]. eauto.
  - intros [v H]. apply bind_ok in H as (y & Y & H). apply bind_ok in H as (ys & YS & H). constructor; [eauto|]. apply IH. eauto.
Qed.
Lemma item_ub {A} (des : list cbor -> outcome A) c : item_des des c = UB <-> as_array c = None \/ exists d, as_array c = Some d /\ des d = UB.
Proof. unfold item_des. destruct (as_array c) as [d|]; cbn [deref bind]; split; try tauto; [intros H; right; eauto|intros [H|(d' & E & H)]; [discriminate|congruence]]. Qed.
Lemma wdrl_ub e : wdrl_entry e = UB <-> as_bytes (fst e) = None \/ as_uint (snd e) = None.
Proof. unfold wdrl_entry. destruct (as_bytes (fst e)), (as_uint (snd e)); cbn [deref bind]; split; try tauto; try discriminate. intros [H|H]; discriminate. Qed.
Lemma seq_ub {A B C} (f : A -> outcome B) l (k : list B -> outcome C) (P : Prop) : (forall v, mapM f l = Ok v -> (k v = UB <-> P)) ->
  (bind (mapM f l) k = UB <-> (exists x, reaches f l x /\ f x = UB) \/ all_read f l /\ P).
Proof.
  intros H. rewrite bind_ub, mapM_ub, mapM_all. split; (intros [X|X]; [left; exact X|right]); [destruct X as (v & V & K); split; [eauto|apply (H v V), K]|destruct X as ((v & V) & X); exists v; split; [exact V|apply (H v V), X]].
Qed.
Theorem C52_body_exact : forall m, txbody_des m = UB <-> bad_body m.
Proof.
  intros m. unfold txbody_des, bad_body. fold (withdrawal_entries m). cbv zeta.
  assert (R : forall {A} (des : list cbor -> outcome A) l, (forall d, des d <> UB) -> ((exists x, reaches (item_des des) l x /\ item_des des x = UB) <-> exists c, reaches (item_des des) l c /\ as_array c = None)).
  { intros A des l S. split; intros (x & X & U); exists x; (split; [exact X|]); [apply item_ub in U as [U|(d & _ & U)]; [exact U|exfalso; exact (S _ U)]|apply item_ub; left; exact U]. }
  rewrite <- (R _ txin_des _ safe_txin), <- (R _ txout_des _ safe_txout). apply seq_ub. intros ins _. apply seq_ub. intros outs _.
  assert (RC : (exists c, reaches (item_des cert_des) (body_array m 4) c /\ (as_array c = None \/ exists d, as_array c = Some d /\ cert_des d = UB)) <-> exists x, reaches (item_des cert_des) (body_array m 4) x /\ item_des cert_des x = UB)
    by (split; intros (x & X & U); exists x; (split; [exact X|]); apply item_ub; exact U).
  rewrite RC. apply seq_ub. intros certs _.
  assert (RW : (exists e, reaches wdrl_entry (withdrawal_entries m) e /\ (as_bytes (fst e) = None \/ as_uint (snd e) = None)) <-> exists x, reaches wdrl_entry (withdrawal_entries m) x /\ wdrl_entry x = UB)
    by (split; intros (x & X & U); exists x; (split; [exact X|]); apply wdrl_ub; exact U).
  rewrite RW, bind_ub, mapM_ub. split; [|auto]. intros [H|(ws & _ & H)]; [exact H|]. exfalso. destruct (map_get m 7) as [c|]; [|discriminate]. destruct (as_bytes c) as [b|]; [|discriminate].
  destruct (fixed_case 32 b) as [F|F]; rewrite F in H; discriminate.
Qed.
(** A transaction: its first element is a body that goes wrong, or its second a witness set that does, the body having been read. *)
Definition elem_map (data : list cbor) (i : nat) : option (list (cbor * cbor)) := match nth_error data i with Some c => as_map c | None => None end.
Theorem C52_transaction_exact : forall data, tx_des data = UB <->
  (exists m, elem_map data 0 = Some m /\ bad_body m) \/
  (forall m, elem_map data 0 = Some m -> exists b, txbody_des m = Ok b) /\ exists w c, elem_map data 1 = Some w /\ reaches vkey_des (body_array w 0) c /\ bad_vkey c.
Proof.
  intros data. unfold tx_des, elem_map.
  assert (B : forall o, (match o with Some c => match as_map c with Some m => txbody_des m | None => Ok empty_body end | None => Ok empty_body end) = match (match o with Some c => as_map c | None => None end) with Some m => txbody_des m | None => Ok empty_body end) by (intros [c|]; reflexivity).
  assert (W : forall o, (match o with Some c => match as_map c with Some m => witset_des m | None => Ok empty_wits end | None => Ok empty_wits end) = match (match o with Some c => as_map c | None => None end) with Some m => witset_des m | None => Ok empty_wits end) by (intros [c|]; reflexivity).
  rewrite B, W. clear B W. set (mb := match nth_error data 0 with Some c => as_map c | None => None end). set (mw := match nth_error data 1 with Some c => as_map c | None => None end). clearbody mb mw.
  assert (WX : forall b, (let* w := match mw with Some m => witset_des m | None => Ok empty_wits end in Ok {| tx_body := b; tx_wits := w; tx_meta := false |}) = UB <-> exists w c, mw = Some w /\ reaches vkey_des (body_array w 0) c /\ bad_vkey c).
  { intros b. rewrite bind_ub. destruct mw as [w|].
    - rewrite C52_witness_set_exact. split; [intros [(c & H)|(x & _ & H)]; [eauto|discriminate]|intros (w' & c & E & H); injection E as <-; eauto].
    - split; [intros [H|(x & _ & H)]; discriminate|intros (w' & c & E & _); discriminate]. }
  rewrite bind_ub. destruct mb as [m|].
  - rewrite C52_body_exact. split.
    + intros [H|(b & E & H)]; [left; eauto|]. apply WX in H. right. split; [|exact H]. intros m' E'. injection E' as <-. eauto.
    + intros [(m' & E & H)|(H & X)]; [injection E as <-; auto|]. destruct (H m eq_refl) as (b & E). right. exists b. split; [exact E|]. apply WX, X.
  - split.
    + intros [H|(b & E & H)]; [discriminate|]. apply WX in H. right. split; [discriminate|exact H].
    + intros [(m' & E & _)|(_ & X)]; [discriminate|]. right. exists empty_body. split; [reflexivity|]. apply WX, X.
Qed.
(** Bytes: a reader goes wrong exactly when they parse to an item whose contents make it go wrong. *)
Theorem C52_bytes_exact : forall A (des : list cbor -> outcome A) s, deserialize_array des s = UB <-> exists c rest d, cbor_read s = Some (c, rest) /\ as_array c = Some d /\ des d = UB.
Proof.
  intros A des s. unfold deserialize_array, cbor_parse. destruct (cbor_read s) as [[c rest]|]; cbn [bind].
  - destruct (as_array c) as [d|] eqn:E; cbn [want bind]; split; try discriminate; [intros H; eauto 8|intros (c' & r' & d' & E1 & E2 & H)|intros (c' & r' & d' & E1 & E2 & H)]; injection E1 as <- <-; congruence.
  - split; [discriminate|]. intros (c' & r' & d' & E1 & _). discriminate.
Qed.

(** Cases meeting the hypotheses, on both sides of the equivalences. *)
Example C42_exact_ex : round_trips relay_ser (deserialize_array relay_des) (RAddr (Some [10; 0; 0; 1]) None (Some 3001)) /\ ~ conforms relay_ser cddl_relay RNone.
Proof. split; [apply (proj1 (C42_exact _ (proj1 C42_ex))); exact I|]. intros H. apply (proj2 (C42_exact RNone I)) in H. exact H. Qed.
Example C54_exact_ex : round_trips txbody_ser (deserialize_map txbody_des) ex_body /\
  ~ round_trips tx_ser (deserialize_array tx_des) {| tx_body := ex_body; tx_wits := {| ws_vkeys := [(ex_hash 1 32, ex_hash 2 64)]; ws_scripts := [ex_script]; ws_bootstrap := 0 |}; tx_meta := false |}.
Proof. destruct C54_ex_body as [W S]. split; [exact (proj2 (C54_body_exact _ W) S)|]. match goal with |- ~ round_trips _ _ ?t => set (tt := t) end. intros H. apply (C54_transaction_exact tt W C54_ex_wits) in H as (_ & H & _). discriminate. Qed.
Example C52_exact_ex : bad_script (CArray [CUint 1; CArray [CArray [CUint 0; CBytes (ex_hash 1 28)]; CTag 5 (CArray [CUint 3; CUint 2])]]) /\
  ~ bad_script (CArray [CUint 1; CArray [CArray [CUint 0; CBytes (ex_hash 1 28)]]]) /\
  bad_body [(CUint 5, CMap [(CBytes [1], CUint 2); (CUint 1, CUint 2)])] /\ ~ bad_body [(CUint 0, CArray [CArray []; CUint 0])].
Proof.
  split; [apply (C52_script_exact [CUint 1; _]); vm_compute; reflexivity|]. split; [intros H; apply (C52_script_exact [CUint 1; _]) in H; vm_compute in H; discriminate|].
  split; [apply C52_body_exact; vm_compute; reflexivity|]. intros H. apply C52_body_exact in H. vm_compute in H. discriminate.
Qed.
Example C52_exact_ex_cert : cert_des [CUint 6; CArray [CUint 1; CMap [(CArray [CUint 0; CBytes (ex_hash 1 28)], CNull)]]] = UB /\ bad_vkey (CArray [CBytes (ex_hash 1 32); CBytes (ex_hash 1 63)]).
Proof. split; [vm_compute; reflexivity|]. apply vkey_ub. vm_compute. reflexivity. Qed.
Print Assumptions C42_exact. Print Assumptions C43_exact. Print Assumptions C54_body_exact. Print Assumptions C54_transaction_exact. Print Assumptions C55_exact. Print Assumptions C61_reread_exact.
Print Assumptions C40_id_binds_body. Print Assumptions C40_ipv6_unbound_refuted. Print Assumptions C40_babbage_id_binds_body.
Print Assumptions C52_certificate_exact. Print Assumptions C52_script_exact. Print Assumptions C52_witness_set_exact. Print Assumptions C52_body_exact. Print Assumptions C52_transaction_exact. Print Assumptions C52_bytes_exact.
