(** C42 to C45, C52, C54, C55: ledger structures.  Well-formedness and the CDDL forms: Spec_Ledger; the RFC 8949
    reader: Spec_Cbor. *)
From Verif Require Import Base BaseLemmas Model_Hex Spec_Cbor Model_Cbor Proof_Cbor Model_Ledger Spec_Ledger Proof_Ledger Proof_Ledger2.
From Coq Require Import Sorted Permutation.
Ltac Zify.zify_post_hook ::= idtac.

(** bytes [s] are, to an RFC 8949 reader, the one item [c] *)
Definition denotes (s : list Z) (c : cbor) : Prop := cbor_read s = Some (c, []).
Lemma encode_denotes c : cbor_ok c -> denotes (cbor_encode c) c.
Proof. intros O. unfold denotes. pose proof (cbor_round_trip c [] O) as E. rewrite app_nil_r in E. exact E. Qed.
Lemma deser_array {A} (des : list cbor -> outcome A) data : cbor_ok (CArray data) -> deserialize_array des (cbor_encode (CArray data)) = des data.
Proof. intros O. unfold deserialize_array. rewrite (parse_encode _ O). reflexivity. Qed.
Lemma deser_map {A} (des : list (cbor * cbor) -> outcome A) data : cbor_ok (CMap data) -> deserialize_map des (cbor_encode (CMap data)) = des data.
Proof. intros O. unfold deserialize_map. rewrite (parse_encode _ O). reflexivity. Qed.

(** ** C42: relays *)
(** Addresses with an IPv4 address only, host names and multi-host names: written in the CDDL form, read back unchanged. *)
Definition good_relay (r : relay) : Prop := match r with RAddr (Some _) None _ | RName _ _ | RMulti _ => True | _ => False end.
Theorem C42_relay_round_trip : forall r, relay_wf r -> good_relay r ->
  exists s c, serialize (relay_ser r) = Ok s /\ cddl_relay r = Some c /\ denotes s c /\ deserialize_array relay_des s = Ok r.
Proof.
  intros r W G. pose proof (relay_rt r W) as RT. assert (X : exists data, relay_ser r = Ok (CArray data) /\ relay_des data = Ok r /\ cddl_relay r = Some (CArray data)).
  { destruct r as [|[a|] [b|] p|d p|d]; cbn [good_relay] in G; try contradiction; destruct RT as (data & E1 & E2); exists data; (split; [exact E1|]); (split; [exact E2|]);
      cbn in E1; injection E1 as <-; destruct p || idtac; reflexivity. }
  destruct X as (data & E & D & C). pose proof (relay_ok r _ W E) as O. exists (cbor_encode (CArray data)), (CArray data). split; [unfold serialize; rewrite E; reflexivity|].
  split; [exact C|]. split; [apply encode_denotes, O|]. rewrite deser_array by exact O. exact D.
Qed.
(** A relay with an IPv6 address only cannot be written. *)
Theorem C42_ipv6_only_refuted : forall v6 port, serialize (relay_ser (RAddr None (Some v6) port)) = Throw.
Proof. reflexivity. Qed.
(** With both addresses, the IPv6 address is lost: the bytes are not the CDDL form and read back as a different relay. *)
Theorem C42_ipv6_dropped_refuted : forall v4 v6 port, relay_wf (RAddr (Some v4) (Some v6) port) ->
  exists s c, serialize (relay_ser (RAddr (Some v4) (Some v6) port)) = Ok s /\
    cddl_relay (RAddr (Some v4) (Some v6) port) = Some c /\ ~ denotes s c /\ deserialize_array relay_des s = Ok (RAddr (Some v4) None port).
Proof.
  intros v4 v6 port W. destruct (relay_rt _ W) as (data & E & D). pose proof (relay_ok _ _ W E) as O. exists (cbor_encode (CArray data)). eexists. split; [unfold serialize; rewrite E; reflexivity|].
  split; [reflexivity|]. split; [|rewrite deser_array by exact O; exact D]. intros H. pose proof (encode_denotes _ O) as H2. unfold denotes in *. rewrite H in H2. injection H2 as H2.
  cbn in E. injection E as <-. injection H2. discriminate.
Qed.
(** With neither address (a valid CDDL relay) what is written is rejected by the library itself. *)
Theorem C42_no_address_refuted : forall port, opt port_ok port ->
  exists s, serialize (relay_ser (RAddr None None port)) = Ok s /\ deserialize_array relay_des s = Throw /\
    exists c, cddl_relay (RAddr None None port) = Some c /\ ~ denotes s c.
Proof.
  intros port P. assert (W : relay_wf (RAddr None None port)) by (split; [exact I|split; [exact I|exact P]]). destruct (relay_rt _ W) as (data & E & D). pose proof (relay_ok _ _ W E) as O.
  exists (cbor_encode (CArray data)). split; [unfold serialize; rewrite E; reflexivity|]. split; [rewrite deser_array by exact O; exact D|].
  eexists. split; [reflexivity|]. intros H. pose proof (encode_denotes _ O) as H2. unfold denotes in *. rewrite H in H2. injection H2 as H2. cbn in E. injection E as <-. discriminate.
Qed.
Example C42_ex : relay_wf (RAddr (Some [10; 0; 0; 1]) None (Some 3001)) /\ good_relay (RAddr (Some [10; 0; 0; 1]) None (Some 3001)) /\
  serialize (relay_ser (RAddr (Some [10; 0; 0; 1]) None (Some 3001))) = Ok [132; 0; 25; 11; 185; 68; 10; 0; 0; 1; 246].
Proof. split; [|split; [exact I|reflexivity]]. cbn. unfold bytesN, bytes_ok, byte_ok, port_ok. repeat split; try lia; repeat constructor; lia. Qed.

(** ** C43: certificates *)
Theorem C43_cert_round_trip : forall c, cert_wf c -> simple_cert c ->
  exists s, serialize (cert_ser c) = Ok s /\ deserialize_array cert_des s = Ok c.
Proof.
  intros c W S. destruct (simple_ser [c] (Forall_cons _ S (Forall_nil _))) as [cs E]. cbn [mapM] in E. apply bind_ok in E as (x & Hx & _).
  destruct (cert_rt c x W S Hx) as (data & -> & D). exists (cbor_encode (CArray data)). split; [unfold serialize; rewrite Hx; reflexivity|]. rewrite deser_array; [exact D|]. exact (cert_ok c _ W Hx).
Qed.
(** A pool registration with owners is read back without its relays and without its metadata. *)
Theorem C43_pool_relays_lost_refuted : forall p s, cert_wf (PoolReg p) -> pp_owners p <> [] -> serialize (cert_ser (PoolReg p)) = Ok s ->
  exists q, deserialize_array cert_des s = Ok (PoolReg q) /\ pp_relays q = [] /\ pp_metadata q = None /\
    pp_operator q = pp_operator p /\ pp_vrf q = pp_vrf p /\ pp_pledge q = pp_pledge p /\ pp_cost q = pp_cost p /\ pp_margin q = pp_margin p /\ pp_account q = pp_account p /\ pp_owners q = pp_owners p.
Proof.
  intros p s W N E. unfold serialize in E. apply bind_ok in E as (x & Hx & E). injection E as <-. pose proof (cert_ok _ _ W Hx) as O.
  destruct (pool_rt p x W (or_introl N) Hx) as (data & -> & D). exists (strip_pool p). rewrite deser_array by exact O. split; [exact D|]. repeat split.
Qed.
(** Without owners, the bytes the library wrote make its own reader dereference a null pointer. *)
Theorem C43_pool_without_owners_refuted : forall p s, cert_wf (PoolReg p) -> pp_owners p = [] -> (pp_relays p <> [] \/ pp_metadata p <> None) ->
  serialize (cert_ser (PoolReg p)) = Ok s -> deserialize_array cert_des s = UB.
Proof.
  intros p s W N RM E. unfold serialize in E. apply bind_ok in E as (x & Hx & E). injection E as <-. pose proof (cert_ok _ _ W Hx) as O.
  cbn [cert_ser] in Hx. apply bind_ok in Hx as (rs & Hr & Hx). apply ok_inj in Hx. subst x. rewrite N in O |- *. rewrite deser_array by exact O. clear O. cbn [app].
  destruct W as (Wo & Wv & _ & _ & Wm & _ & _ & _ & Wr & _). 
  assert (T : exists y ys, match rs with [] => [] | _ :: _ => [CArray rs] end ++ match pp_metadata p with None => [] | Some m => [pm_ser m] end = y :: ys /\ owners_des (as_array y) = UB).
  { destruct rs as [|r rs].
    - destruct (pp_metadata p) as [m|]; [|destruct RM as [RM|RM]; [|congruence]; destruct (pp_relays p) as [|r l]; [congruence|]; cbn [mapM] in Hr; apply bind_ok in Hr as (z & _ & Hr); apply bind_ok in Hr as (zs & _ & Hr); discriminate].
      eexists _, _. split; reflexivity.
    - eexists _, _. split; [reflexivity|]. cbn [as_array]. unfold owners_des. cbn [mapM].
      destruct (mapM_in _ _ _ Hr r (or_introl eq_refl)) as (q & _ & Eq). assert (X : exists d, r = CArray d).
      { destruct q as [|[a|] [b|] pt|dn pt|dn]; cbn in Eq; try discriminate; injection Eq as <-; eexists; reflexivity. }
      destruct X as [d ->]. reflexivity. }
  destruct T as (y & ys & -> & U). cbn [app]. unfold cert_des.
  match goal with |- (if zlen ?d <? 2 then _ else _) = _ => set (data := d) end.
  assert (L : 8 <= zlen data) by (unfold data; rewrite !zlen_cons; pose proof (zlen_nonneg ys); lia).
  destruct (Z.ltb_spec (zlen data) 2); [lia|]. unfold data at 1. cbn [get_ub nth_error bind as_uint want Z.eqb Pos.eqb].
  unfold pool_reg_des. destruct (Z.ltb_spec (zlen data) 7); [lia|]. unfold data at 1 2 3 4 5 6. cbn [get_ub nth_error bind as_bytes as_uint want].
  unfold rational_ser. cbn [as_array want bind]. rewrite (fixed_ok 28 _ Wo), (fixed_ok 32 _ Wv). cbn [bind as_tag deref fst snd]. rewrite (rational_rt _ Wm). cbn [bind].
  destruct (Z.ltb_spec 7 (zlen data)); [|lia]. unfold data. cbn [get_ub nth_error bind]. rewrite U. reflexivity.
Qed.
(** A genesis key delegation the library wrote makes its own reader dereference a null pointer, always. *)
Theorem C43_genesis_refuted : forall g d v s, cert_wf (GenesisDeleg g d v) -> serialize (cert_ser (GenesisDeleg g d v)) = Ok s -> deserialize_array cert_des s = UB.
Proof.
  intros g d v s W E. unfold serialize in E. apply bind_ok in E as (x & Hx & E). injection E as <-. pose proof (cert_ok _ _ W Hx) as O. cbn in Hx. injection Hx as <-. rewrite deser_array by exact O. reflexivity.
Qed.
(** Reading an instantaneous reward into an object that already holds credentials keeps the old ones. *)
Theorem C43_mir_accumulates_refuted : forall m old, mir_wf m -> exists data, mir_ser m = CArray data /\
  mir_des (mir_creds old) data = Ok {| mir_source := mir_source m; mir_creds := mir_creds old ++ mir_creds m |}.
Proof. intros m old W. exact (mir_rt m (mir_creds old) W). Qed.
Definition ex_hash (n : Z) (k : nat) : list Z := repeat n k.
Definition ex_pool : pool_params :=
  {| pp_operator := ex_hash 1 28; pp_vrf := ex_hash 2 32; pp_pledge := 100000000; pp_cost := 340000000; pp_margin := {| rnum := 1; rden := 40 |}; pp_account := 224 :: ex_hash 3 28;
     pp_owners := [ex_hash 4 28; ex_hash 5 28]; pp_relays := [RName (str "relay.example") (Some 3001)]; pp_metadata := Some {| pm_url := str "https://x"; pm_hash := ex_hash 6 32 |} |}.
Lemma bytesN_b n b : forallb byte_okb b && (zlen b =? n) = true -> bytesN n b.
Proof.
  intros H. apply andb_prop in H as [H1 H2]. apply Z.eqb_eq in H2. split; [|exact H2]. apply Forall_forall. intros x I. rewrite forallb_forall in H1. specialize (H1 x I).
  unfold byte_okb in H1. apply andb_prop in H1 as [A B]. unfold byte_ok. lia.
Qed.
Lemma text_b b : forallb byte_okb b && (zlen b <? 2 ^ 64) = true -> text_ok b.
Proof. intros H. apply andb_prop in H as [H1 H2]. apply Z.ltb_lt in H2. split; [|exact H2]. apply (bytesN_b (zlen b)). rewrite H1, Z.eqb_refl. reflexivity. Qed.
Example C43_ex_pool : cert_wf (PoolReg ex_pool) /\ pp_owners ex_pool <> [] /\ is_ok (serialize (cert_ser (PoolReg ex_pool))) = true.
Proof.
  split; [|split; [discriminate|reflexivity]]. cbn. unfold pool_wf, many, u64, rational_wf. cbn. unfold zlen. cbn [length].
  split; [apply bytesN_b; reflexivity|]. split; [apply bytesN_b; reflexivity|]. split; [lia|]. split; [lia|]. split; [unfold u64; cbn; lia|].
  split; [apply text_b; reflexivity|]. split; [split; [constructor; [apply bytesN_b; reflexivity|constructor; [apply bytesN_b; reflexivity|constructor]]|lia]|]. split; [repeat constructor|].
  split; [split; [constructor; [split; [apply text_b; reflexivity|cbn; unfold port_ok; lia]|constructor]|lia]|]. split; [apply text_b; reflexivity|apply bytesN_b; reflexivity].
Qed.
Example C43_ex_simple : let c := StakeDeleg {| sc_type := Scripthash; sc_hash := ex_hash 9 28 |} (ex_hash 7 28) in cert_wf c /\ simple_cert c.
Proof. split; [|exact I]. split; apply bytesN_b; reflexivity. Qed.
Example C43_ex_no_owners : let p := {| pp_operator := ex_hash 1 28; pp_vrf := ex_hash 2 32; pp_pledge := 1; pp_cost := 2; pp_margin := {| rnum := 1; rden := 40 |}; pp_account := ex_hash 3 29;
     pp_owners := []; pp_relays := []; pp_metadata := Some {| pm_url := str "u"; pm_hash := ex_hash 6 32 |} |} in
  exists s, serialize (cert_ser (PoolReg p)) = Ok s /\ deserialize_array cert_des s = UB.
Proof. eexists. split; reflexivity. Qed.

(** ** C44: native scripts *)
Lemma ms_array s : exists d, ms_ser s = CArray d. Proof. destruct s; eexists; reflexivity. Qed.
Lemma ms_bytes s : ms_wf s -> deserialize_array ms_des (cbor_encode (ms_ser s)) = ms_item (ms_ser s).
Proof. intros W. pose proof (ms_ok s W) as O. destruct (ms_array s) as [d E]. rewrite E in *. rewrite deser_array by exact O. reflexivity. Qed.
Theorem C44_script_round_trip : forall s, ms_wf s -> no_nofk s -> deserialize_array ms_des (cbor_encode (ms_ser s)) = Ok s.
Proof. intros s W N. rewrite ms_bytes by exact W. apply (proj1 (ms_rt s W) N). Qed.
(** A script with an n-of-k (or empty) part anywhere: the library rejects what it wrote. *)
Theorem C44_nofk_rejected_refuted : forall s, ms_wf s -> ~ no_nofk s -> deserialize_array ms_des (cbor_encode (ms_ser s)) = Throw.
Proof. intros s W N. rewrite ms_bytes by exact W. apply (proj2 (ms_rt s W) N). Qed.
(** No input whatsoever is read as a script with an n-of-k part. *)
Theorem C44_nofk_never_read_refuted : forall bytes s, deserialize_array ms_des bytes = Ok s -> ~ has_nofk s.
Proof. intros b s H. unfold deserialize_array in H. apply bind_ok in H as (c & _ & H). apply bind_ok in H as (a & _ & H). exact (ms_item_no_nofk _ s H). Qed.
Ltac dec_wf := repeat match goal with |- bytesN _ _ => apply bytesN_b; reflexivity | |- _ /\ _ => split | |- True => exact I | |- _ => lia end.
Definition ex_script : mscript := MAll [MPub (ex_hash 1 28); MAny [MPub (ex_hash 2 28); MAll []; MAny [MPub (ex_hash 3 28)]]].
Example C44_ex : ms_wf ex_script /\ no_nofk ex_script.
Proof. unfold ex_script. cbn [ms_wf no_nofk fold_right]. unfold zlen; cbn [length]. dec_wf. Qed.
Example C44_ex_nofk : let s := MAny [MPub (ex_hash 1 28); MNofK 1 [MPub (ex_hash 2 28)]] in ms_wf s /\ ~ no_nofk s /\ has_nofk s.
Proof. cbn [ms_wf no_nofk has_nofk fold_right]. unfold zlen, u64; cbn [length]. split; [dec_wf|tauto]. Qed.

(** ** C45: inputs and withdrawals are canonical *)
Theorem C45_input_order : (forall a, txin_lt a a = false) /\ (forall a b c, txin_lt a b = true -> txin_lt b c = true -> txin_lt a c = true) /\
  (forall a b, txin_lt a b = false -> txin_lt b a = false -> ti_id a = ti_id b /\ ti_index a = ti_index b).
Proof. split; [exact (st_irr _ txin_st)|]. split; [exact (st_trans _ txin_st)|]. intros a b H1 H2. rewrite (st_total _ txin_st a b H1 H2). auto. Qed.
(** The body with these inputs and withdrawals inserted one after the other, the rest as in [b]. *)
Definition with_inserted (b : txbody) (ins : list txin) (ws : list (list Z * Z)) : txbody :=
  {| tb_inputs := fold_left (fun s x => set_insert txin_lt x s) ins []; tb_outputs := tb_outputs b; tb_fee := tb_fee b; tb_ttl := tb_ttl b; tb_certs := tb_certs b;
     tb_withdrawals := fold_left (fun s p => map_assign (fst p) (snd p) s) ws []; tb_metadata_hash := tb_metadata_hash b |}.
(** Same inputs, in any order and however often; same withdrawals in any order: same bytes. *)
Theorem C45_body_order_independent : forall b ins ins' ws ws', (forall i, In i ins <-> In i ins') -> Permutation ws ws' -> NoDup (map fst ws) ->
  serialize (txbody_ser (with_inserted b ins ws)) = serialize (txbody_ser (with_inserted b ins' ws')).
Proof.
  intros b ins ins' ws ws' HI HP ND. unfold with_inserted. pose proof (set_of_same txin_lt txin_st ins ins' HI) as E1. unfold set_of in E1. rewrite E1.
  pose proof (map_of_perm ws ws' HP ND) as E2. unfold map_of in E2. rewrite E2. reflexivity.
Qed.
(** Exactly the inputs added, each once, in strictly increasing order; the last amount given for each account. *)
Theorem C45_inputs_exact : forall b ins ws, let r := tb_inputs (with_inserted b ins ws) in
  NoDup r /\ (forall i, In i r <-> In i ins) /\ StronglySorted (fun x y => txin_lt x y = true) r.
Proof.
  intros b ins ws. cbv zeta. cbn [with_inserted tb_inputs]. pose proof (set_of_sorted txin_lt txin_st ins) as S. unfold set_of in S. split; [apply (sorted_nodup txin_lt txin_st), S|]. split; [|exact S].
  intros i. pose proof (set_of_in txin_lt txin_st ins i) as H. unfold set_of in H. exact H.
Qed.
Theorem C45_withdrawals_exact : forall b ins ws account amount, let r := tb_withdrawals (with_inserted b ins (ws ++ [(account, amount)])) in
  NoDup (map fst r) /\ forall a n, In (a, n) r <-> a = account /\ n = amount \/ a <> account /\ In (a, n) (tb_withdrawals (with_inserted b ins ws)).
Proof.
  intros b ins ws account amount. cbv zeta. cbn [with_inserted tb_withdrawals]. rewrite fold_left_app. cbn [fold_left fst snd]. pose proof (map_of_sorted ws) as S. unfold map_of in S. split.
  - pose proof (assign_sorted account amount _ S) as S2. clear S. induction S2 as [|x l S2 IH F]; cbn [map]; constructor; auto. intros I. apply in_map_iff in I as (y & E & I).
    rewrite Forall_forall in F. specialize (F y I). cbn beta in F. rewrite E, lex_irr in F. discriminate.
  - intros a n. apply (assign_get account amount _ a n S).
Qed.
Example C45_ex : let i k := {| ti_id := ex_hash k 32; ti_index := 0 |} in
  serialize (txbody_ser (with_inserted empty_body [i 3; i 1; i 2; i 1] [])) = serialize (txbody_ser (with_inserted empty_body [i 1; i 2; i 3] [])) /\
  zlen (tb_inputs (with_inserted empty_body [i 3; i 1; i 2; i 1] [])) = 3.
Proof. split; reflexivity. Qed.

(** ** C52: memory safety of the readers *)
Theorem C52_simple_readers_safe : forall s : list Z,
  deserialize_array pm_des s <> UB /\ deserialize_array relay_des s <> UB /\ deserialize_array cred_des s <> UB /\ deserialize_array txout_des s <> UB /\
  deserialize_array txin_des s <> UB /\ deserialize_tag rational_des s <> UB.
Proof.
  intros s. repeat split; try apply safe_array; try apply safe_tag; [exact safe_pm|exact safe_relay|exact safe_cred|exact safe_txout|exact safe_txin|exact safe_rational].
Qed.
(** Certificates that are neither pool registrations (3), genesis delegations (5) nor instantaneous rewards (6). *)
Theorem C52_cert_safe : forall kind more, kind <> 3 -> kind <> 5 -> kind <> 6 -> forall c, as_uint c = Some kind -> cert_des (c :: more) <> UB.
Proof. intros kind more N3 N5 N6 c E. apply safe_cert. intros a r H. injection H as <- _. rewrite E. auto. Qed.
(** Byte strings that are CBOR and make a reader dereference null, read out of range or keep uninitialised bytes. *)
Theorem C52_unsafe_refuted :
  (* certificate [6, [0, {0: 0}]] *) deserialize_array cert_des [130; 6; 130; 0; 161; 0; 0] = UB /\
  (* certificate [5, 0] *) deserialize_array cert_des [130; 5; 0] = UB /\
  (* certificate [6, 0] *) deserialize_array cert_des [130; 6; 0] = UB /\
  (* script [3, 0] *) deserialize_array ms_des [130; 3; 0] = UB /\
  (* script [1, [0]] *) deserialize_array ms_des [130; 1; 129; 0] = UB /\
  (* body {0: [0]} *) deserialize_map txbody_des [161; 0; 129; 0] = UB /\
  (* body {5: {0: 0}} *) deserialize_map txbody_des [161; 5; 161; 0; 0] = UB /\
  (* witness set {0: [[]]} *) deserialize_map witset_des [161; 0; 129; 128] = UB /\
  (* witness set {0: [[h'', h'']]} *) deserialize_map witset_des [161; 0; 129; 130; 64; 64] = UB.
Proof. repeat split; reflexivity. Qed.
(** A pool registration whose margin is an untagged pair, everything else in order. *)
Theorem C52_untagged_margin_refuted : forall op vrf pledge cost num den acct more, bytesN 28 op -> bytesN 32 vrf ->
  cert_des ([CUint 3; CBytes op; CBytes vrf; CUint pledge; CUint cost; CArray [num; den]; CBytes acct] ++ more) = UB.
Proof.
  intros op vrf pledge cost num den acct more W1 W2. unfold cert_des. match goal with |- (if zlen ?d <? 2 then _ else _) = _ => set (data := d) end.
  assert (L : 7 <= zlen data) by (unfold data; rewrite zlen_app; pose proof (zlen_nonneg more); unfold zlen at 1; cbn [length]; lia).
  destruct (Z.ltb_spec (zlen data) 2); [lia|]. unfold data at 1. cbn [app get_ub nth_error bind as_uint want Z.eqb Pos.eqb]. unfold pool_reg_des. destruct (Z.ltb_spec (zlen data) 7); [lia|].
  unfold data at 1 2 3 4 5 6. cbn [app get_ub nth_error bind as_bytes as_uint as_array want]. rewrite (fixed_ok 28 _ W1), (fixed_ok 32 _ W2). reflexivity.
Qed.

(** ** C54: transactions *)
Theorem C54_body_round_trip : forall b, body_wf b -> Forall simple_cert (tb_certs b) ->
  exists s, serialize (txbody_ser b) = Ok s /\ deserialize_map txbody_des s = Ok b.
Proof.
  intros b W S. destruct (body_rt b W S) as (m & E & O & D). exists (cbor_encode (CMap m)). split; [unfold serialize; rewrite E; reflexivity|]. rewrite deser_map by exact O. exact D.
Qed.
Theorem C54_transaction_round_trip : forall t, body_wf (tx_body t) -> Forall simple_cert (tb_certs (tx_body t)) -> wits_wf (tx_wits t) ->
  ws_scripts (tx_wits t) = [] -> ws_bootstrap (tx_wits t) = 0 -> tx_meta t = false ->
  exists s, serialize (tx_ser t) = Ok s /\ deserialize_array tx_des s = Ok t.
Proof.
  intros t WB S WW NS NB NM. destruct (tx_des_ser t WB S WW) as (data & E & O & D). exists (cbor_encode (CArray data)). split; [unfold serialize; rewrite E; reflexivity|].
  rewrite deser_array by exact O. rewrite D. destruct t as [b [v sc bt] mt]. cbn in *. subst. reflexivity.
Qed.
(** Script and bootstrap witnesses are lost on reading; with metadata set, the transaction is written with two elements, without them. *)
Theorem C54_scripts_lost_refuted : forall t, body_wf (tx_body t) -> Forall simple_cert (tb_certs (tx_body t)) -> wits_wf (tx_wits t) ->
  exists s, serialize (tx_ser t) = Ok s /\ exists t', deserialize_array tx_des s = Ok t' /\ ws_scripts (tx_wits t') = [] /\ ws_bootstrap (tx_wits t') = 0 /\
    tx_body t' = tx_body t /\ ws_vkeys (tx_wits t') = ws_vkeys (tx_wits t).
Proof.
  intros t WB S WW. destruct (tx_des_ser t WB S WW) as (data & E & O & D). exists (cbor_encode (CArray data)). split; [unfold serialize; rewrite E; reflexivity|].
  rewrite deser_array by exact O. rewrite D. eexists. split; [reflexivity|]. repeat split.
Qed.
Theorem C54_metadata_dropped_refuted : forall t s, tx_meta t = true -> body_wf (tx_body t) -> wits_wf (tx_wits t) -> serialize (tx_ser t) = Ok s ->
  exists body wits, denotes s (CArray [body; wits]).
Proof.
  intros t s M WB WW E. unfold serialize in E. apply bind_ok in E as (x & Hx & E). injection E as <-. unfold tx_ser in Hx. apply bind_ok in Hx as (y & Hy & Hx). rewrite M in Hx. cbn [app] in Hx. injection Hx as <-.
  exists y, (witset_ser (tx_wits t)). apply encode_denotes. apply ok_array. split; [small_list|]. constructor; [exact (body_ok _ _ WB Hy)|]. constructor; [exact (wits_ok _ WW)|constructor].
Qed.
Definition ex_body : txbody :=
  {| tb_inputs := [{| ti_id := ex_hash 1 32; ti_index := 0 |}; {| ti_id := ex_hash 1 32; ti_index := 5 |}; {| ti_id := ex_hash 2 32; ti_index := 0 |}];
     tb_outputs := [{| to_addr := ex_hash 8 57; to_amount := 5000000 |}]; tb_fee := 170000; tb_ttl := 99999999;
     tb_certs := [StakeReg {| sc_type := AddrKeyhash; sc_hash := ex_hash 9 28 |}; PoolRetire (ex_hash 7 28) 300];
     tb_withdrawals := [(224 :: ex_hash 3 28, 12345)]; tb_metadata_hash := Some (ex_hash 6 32) |}.
Example C54_ex_body : body_wf ex_body /\ Forall simple_cert (tb_certs ex_body).
Proof.
  split; [|repeat constructor]. unfold body_wf, many, zlen, txin_wf, txout_wf, u64. cbn [ex_body tb_inputs tb_outputs tb_fee tb_ttl tb_certs tb_withdrawals tb_metadata_hash length opt].
  split; [split; [do 3 (constructor; [split; [apply bytesN_b; reflexivity|cbn [ti_index]; lia]|]); constructor|lia]|]. split; [repeat constructor|].
  split; [split; [constructor; [split; [apply text_b; reflexivity|cbn [to_amount]; lia]|constructor]|lia]|]. split; [lia|]. split; [lia|].
  split; [split; [constructor; [apply bytesN_b; reflexivity|constructor; [split; [apply bytesN_b; reflexivity|unfold u64; lia]|constructor]]|lia]|].
  split; [split; [constructor; [split; [apply text_b; reflexivity|cbn [snd]; lia]|constructor]|lia]|]. split; [repeat constructor|]. apply bytesN_b; reflexivity.
Qed.
Example C54_ex_wits : wits_wf {| ws_vkeys := [(ex_hash 1 32, ex_hash 2 64)]; ws_scripts := [ex_script]; ws_bootstrap := 0 |}.
Proof.
  split; [|split; [|cbn; lia]]; (split; [|unfold zlen; cbn; lia]); constructor; try apply Forall_nil; [split; apply bytesN_b; reflexivity|exact (proj1 C44_ex)].
Qed.

(** ** C55: certificates on the wire *)
Definition not_pool (c : cert) : Prop := match c with PoolReg _ | CertNone => False | _ => True end.
Theorem C55_cert_cddl : forall c, cert_wf c -> not_pool c -> exists s x, serialize (cert_ser c) = Ok s /\ cddl_cert c = Some x /\ denotes s x.
Proof.
  intros c W N. assert (X : exists x, cert_ser c = Ok x /\ cddl_cert c = Some x) by (destruct c; cbn in N; try contradiction; eexists; split; reflexivity).
  destruct X as (x & E & C). exists (cbor_encode x), x. split; [unfold serialize; rewrite E; reflexivity|]. split; [exact C|]. apply encode_denotes, (cert_ok c _ W E).
Qed.
(** Pool registrations: the CDDL form exactly when owners, relays and metadata are all present. *)
Lemma relays_cddl l : Forall good_relay l -> exists rs, mapM relay_ser l = Ok rs /\ all_some (map cddl_relay l) = Some rs /\ length rs = length l.
Proof.
  induction 1 as [|r l G _ (rs & E1 & E2 & E3)]; [exists []; auto|].
  assert (X : exists x, relay_ser r = Ok x /\ cddl_relay r = Some x) by (destruct r as [|[a|] [b|] p|d p|d]; cbn in G; try contradiction; eexists; (split; [reflexivity|]); destruct p || idtac; reflexivity).
  destruct X as (x & X1 & X2). exists (x :: rs). cbn [mapM map all_some]. rewrite X1, X2, E1, E2. cbn. auto.
Qed.
Theorem C55_pool_cddl : forall p, cert_wf (PoolReg p) -> Forall good_relay (pp_relays p) ->
  exists s x, serialize (cert_ser (PoolReg p)) = Ok s /\ cddl_cert (PoolReg p) = Some x /\
    (denotes s x <-> pp_owners p <> [] /\ pp_relays p <> [] /\ pp_metadata p <> None).
Proof.
  intros p W G. destruct (relays_cddl _ G) as (rs & E1 & E2 & E3).
  set (y := CArray ([CUint 3; CBytes (pp_operator p); CBytes (pp_vrf p); CUint (pp_pledge p); CUint (pp_cost p); rational_ser (pp_margin p); CBytes (pp_account p)]
        ++ match pp_owners p with [] => [] | o => [CArray (map CBytes o)] end ++ match rs with [] => [] | r => [CArray r] end ++ match pp_metadata p with None => [] | Some m => [pm_ser m] end)).
  assert (E : cert_ser (PoolReg p) = Ok y) by (cbn [cert_ser]; rewrite E1; reflexivity).
  eexists (cbor_encode y), _. split; [unfold serialize; rewrite E; reflexivity|]. cbn [cddl_cert]. rewrite E2. split; [reflexivity|].
  pose proof (encode_denotes _ (cert_ok _ _ W E)) as D. unfold denotes in *. rewrite D. unfold y. clear D y E W.
  assert (R : pp_relays p <> [] <-> rs <> []) by (destruct (pp_relays p), rs; cbn in E3; try lia; split; congruence). rewrite R.
  destruct (pp_owners p), rs, (pp_metadata p); cbn [app or_null]; split; intros H; try discriminate; try (destruct H as (H1 & H2 & H3); congruence); try reflexivity; repeat split; discriminate.
Qed.
(** Without owners, relays or metadata the certificate is not in the CDDL form. *)
Theorem C55_pool_not_cddl_refuted : forall p s x, cert_wf (PoolReg p) -> Forall good_relay (pp_relays p) ->
  pp_owners p = [] \/ pp_relays p = [] \/ pp_metadata p = None -> serialize (cert_ser (PoolReg p)) = Ok s -> cddl_cert (PoolReg p) = Some x -> ~ denotes s x.
Proof.
  intros p s x W G M E C D. destruct (C55_pool_cddl p W G) as (s' & x' & E' & C' & I). rewrite E in E'. injection E' as <-. rewrite C in C'. injection C' as <-. apply I in D as (A & B & Cm). destruct M as [M|[M|M]]; congruence.
Qed.
(** Babbage bodies: certificates never reach the wire, nor do an output's script reference. *)
Theorem C55_babbage_certs_dropped_refuted : forall b certs, 
  btxbody_ser {| bb_inputs := bb_inputs b; bb_outputs := bb_outputs b; bb_fee := bb_fee b; bb_ttl := bb_ttl b; bb_certs := certs; bb_withdrawals := bb_withdrawals b |} = btxbody_ser b.
Proof. intros b certs. destruct b; reflexivity. Qed.
Theorem C55_babbage_script_ref_dropped_refuted : forall addr amount r1 r2,
  btxout_ser (BPost {| po_addr := addr; po_amount := amount; po_script_ref := r1 |}) = btxout_ser (BPost {| po_addr := addr; po_amount := amount; po_script_ref := r2 |}).
Proof. reflexivity. Qed.
Example C55_ex : Forall good_relay (pp_relays ex_pool) /\ pp_owners ex_pool <> [] /\ pp_relays ex_pool <> [] /\ pp_metadata ex_pool <> None.
Proof. split; [repeat constructor|]. repeat split; discriminate. Qed.

Print Assumptions C42_relay_round_trip.
Print Assumptions C42_ipv6_only_refuted.
Print Assumptions C42_ipv6_dropped_refuted.
Print Assumptions C42_no_address_refuted.
Print Assumptions C43_cert_round_trip.
Print Assumptions C43_pool_relays_lost_refuted.
Print Assumptions C43_pool_without_owners_refuted.
Print Assumptions C43_genesis_refuted.
Print Assumptions C43_mir_accumulates_refuted.
Print Assumptions C44_script_round_trip.
Print Assumptions C44_nofk_rejected_refuted.
Print Assumptions C44_nofk_never_read_refuted.
Print Assumptions C45_input_order.
Print Assumptions C45_body_order_independent.
Print Assumptions C45_inputs_exact.
Print Assumptions C45_withdrawals_exact.
Print Assumptions C52_simple_readers_safe.
Print Assumptions C52_cert_safe.
Print Assumptions C52_unsafe_refuted.
Print Assumptions C52_untagged_margin_refuted.
Print Assumptions C54_body_round_trip.
Print Assumptions C54_transaction_round_trip.
Print Assumptions C54_scripts_lost_refuted.
Print Assumptions C54_metadata_dropped_refuted.
Print Assumptions C55_cert_cddl.
Print Assumptions C55_pool_cddl.
Print Assumptions C55_pool_not_cddl_refuted.
Print Assumptions C55_babbage_certs_dropped_refuted.
Print Assumptions C55_babbage_script_ref_dropped_refuted.
