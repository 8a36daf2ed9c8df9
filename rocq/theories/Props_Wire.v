(** Property C63: transactions on the wire.  Which keys a body and a witness set have, what is under each, and what a reader of
    RFC 8949 sees in the serialised transaction, for the Shelley and the Babbage builders' transactions. *)
From Verif Require Import Base BaseLemmas Spec_Cbor Model_Cbor Proof_Cbor Spec_Ledger Model_Ledger Proof_Ledger Proof_Ledger2 Props_Ledger.
Ltac Zify.zify_post_hook ::= idtac.

(** ** Specification *)
Definition keys (c : cbor) : list cbor := match c with CMap m => map fst m | _ => [] end.
Definition entry (c : cbor) (k : Z) (v : cbor) : Prop := match c with CMap m => In (CUint k, v) m | _ => False end.
Definition wire_txin (i : txin) : cbor := CArray [CBytes (ti_id i); CUint (ti_index i)].
Definition wire_txout (o : txout) : cbor := CArray [CBytes (to_addr o); CUint (to_amount o)].
Definition wire_withdrawals (w : list (list Z * Z)) : cbor := CMap (map (fun p => (CBytes (fst p), CUint (snd p))) w).
Definition wire_vkeys (v : list (list Z * list Z)) : cbor := CArray (map (fun p => CArray [CBytes (fst p); CBytes (snd p)]) v).
(** Babbage outputs: the array form (with the datum hash, if any) or the map form *)
Definition wire_btxout (o : btxout) : cbor :=
  match o with
  | BPre {| ao_addr := a; ao_amount := n; ao_datum := None |} => CArray [CBytes a; CUint n]
  | BPre {| ao_addr := a; ao_amount := n; ao_datum := Some h |} => CArray [CBytes a; CUint n; CBytes h]
  | BPost {| po_addr := a; po_amount := n |} => CMap [(CUint 0, CBytes a); (CUint 1, CUint n)]
  end.
Fixpoint wire_script (s : mscript) : cbor :=
  match s with
  | MNone => CArray []
  | MPub h => CArray [CUint 0; CBytes h]
  | MAll l => CArray [CUint 1; CArray (map wire_script l)]
  | MAny l => CArray [CUint 2; CArray (map wire_script l)]
  | MNofK n l => CArray [CUint 3; CUint n; CArray (map wire_script l)]
  end.
Definition btxout_wf (o : btxout) : Prop :=
  match o with BPre o => text_ok (ao_addr o) /\ u64 (ao_amount o) /\ opt text_ok (ao_datum o) | BPost o => text_ok (po_addr o) /\ u64 (po_amount o) end.
Definition bbody_wf (b : btxbody) : Prop :=
  many txin_wf (bb_inputs b) /\ many btxout_wf (bb_outputs b) /\ u64 (bb_fee b) /\ opt u64 (bb_ttl b) /\
  many (fun p => text_ok (fst p) /\ u64 (snd p)) (bb_withdrawals b).

(** Certificates whose serialisation is the one the CDDL prescribes (C55): all but pool registrations that lack owners, relays or
    metadata, or have an address relay that is not exactly an IPv4 one. *)
Definition conforming (c : cert) : Prop :=
  match c with
  | CertNone => False
  | PoolReg p => pp_owners p <> [] /\ pp_relays p <> [] /\ Forall good_relay (pp_relays p) /\ pp_metadata p <> None
  | _ => True
  end.

(** ** Shelley *)
Lemma cert_conforms c : conforming c -> exists x, cert_ser c = Ok x /\ cddl_cert c = Some x.
Proof.
  destruct c as [| | | |p| | |]; cbn [conforming]; intros N; try contradiction; try (eexists; split; reflexivity).
  destruct N as (NO & NR & G & NM). destruct (relays_cddl _ G) as (rs & E1 & E2 & E3). cbn [cert_ser cddl_cert]. rewrite E1, E2. cbn [bind].
  destruct (pp_owners p); [congruence|]. destruct (pp_metadata p); [|congruence]. destruct rs; [destruct (pp_relays p); [congruence|discriminate E3]|]. eexists; split; reflexivity.
Qed.
Lemma certs_cddl l : Forall conforming l -> exists cs, mapM cert_ser l = Ok cs /\ all_some (map cddl_cert l) = Some cs /\ length cs = length l.
Proof.
  induction 1 as [|c l N _ (cs & E1 & E2 & E3)]; [exists []; auto|]. destruct (cert_conforms c N) as (x & F1 & F2). exists (x :: cs). cbn [mapM map all_some length]. rewrite F1, F2, E1, E2, E3. auto.
Qed.
Lemma script_wire s : ms_ser s = wire_script s.
Proof.
  revert s. fix IH 1. intros s. assert (G : forall l, map ms_ser l = map wire_script l) by (fix go 1; intros [|x l]; [reflexivity|cbn [map]; rewrite (IH x), (go l); reflexivity]).
  destruct s; cbn [ms_ser wire_script]; rewrite ?G; reflexivity.
Qed.
Lemma nodup_keys (l : list Z) : NoDup l -> NoDup (map CUint l).
Proof. intros H. apply FinFun.Injective_map_NoDup; [intros a b E; congruence|exact H]. Qed.
Ltac wire := match goal with |- ?A <-> ?B => split; intro end.

Theorem C63_shelley_body : forall b, body_wf b -> Forall conforming (tb_certs b) ->
  exists s c cs, serialize (txbody_ser b) = Ok s /\ denotes s c /\ all_some (map cddl_cert (tb_certs b)) = Some cs /\ NoDup (keys c) /\
  (forall k, In k (keys c) <-> exists n, k = CUint n /\ exists v, entry c n v) /\
  forall n v, entry c n v <->
    n = 0 /\ v = CArray (map wire_txin (tb_inputs b)) \/ n = 1 /\ v = CArray (map wire_txout (tb_outputs b)) \/
    n = 2 /\ v = CUint (tb_fee b) \/ n = 3 /\ v = CUint (tb_ttl b) \/
    n = 4 /\ tb_certs b <> [] /\ v = CArray cs \/ n = 5 /\ tb_withdrawals b <> [] /\ v = wire_withdrawals (tb_withdrawals b) \/
    n = 7 /\ exists h, tb_metadata_hash b = Some h /\ v = CBytes h.
Proof.
  intros b W NP. destruct (certs_cddl _ NP) as (cs & E1 & E2 & E3). pose proof (body_ser b cs E1) as E. pose proof (body_ok b _ W E) as O.
  eexists (cbor_encode _), _, cs. split; [unfold serialize; rewrite E; reflexivity|]. split; [apply encode_denotes, O|]. split; [exact E2|]. unfold body_map. cbn [keys entry].
  assert (C0 : cs = [] <-> tb_certs b = []) by (destruct cs, (tb_certs b); cbn in E3; split; intros; try discriminate; reflexivity).
  split; [|split].
  - destruct cs as [|x cs], (tb_withdrawals b) as [|y w], (tb_metadata_hash b) as [h|]; cbn [app map fst];
      match goal with |- NoDup [?a;?b;?c;?d] => apply (nodup_keys [0;1;2;3]) | |- NoDup [_;_;_;_;CUint 4] => apply (nodup_keys [0;1;2;3;4]) | |- NoDup [_;_;_;_;CUint 5] => apply (nodup_keys [0;1;2;3;5]) | |- NoDup [_;_;_;_;CUint 7] => apply (nodup_keys [0;1;2;3;7])
      | |- NoDup [_;_;_;_;CUint 4;CUint 5] => apply (nodup_keys [0;1;2;3;4;5]) | |- NoDup [_;_;_;_;CUint 4;CUint 7] => apply (nodup_keys [0;1;2;3;4;7]) | |- NoDup [_;_;_;_;CUint 5;CUint 7] => apply (nodup_keys [0;1;2;3;5;7]) | |- NoDup _ => apply (nodup_keys [0;1;2;3;4;5;7]) end;
      repeat (constructor; [cbn [In]; intuition discriminate|]); constructor.
  - intros k. rewrite in_map_iff. split.
    + intros ([k' v] & <- & I). cbn [fst]. assert (X : exists n, k' = CUint n).
      { destruct cs as [|x cs], (tb_withdrawals b) as [|y w], (tb_metadata_hash b) as [h|]; cbn [app In] in I; repeat (destruct I as [I|I]; [injection I as <- _; eauto|]); contradiction. }
      destruct X as (n & ->). eauto.
    + intros (n & -> & v & I). exists (CUint n, v). auto.
  - intros n v. assert (IC : tb_certs b <> [] <-> cs <> []) by tauto. rewrite IC. clear IC C0.
    change (map txin_ser (tb_inputs b)) with (map wire_txin (tb_inputs b)). change (map txout_ser (tb_outputs b)) with (map wire_txout (tb_outputs b)).
    unfold wire_withdrawals. rewrite !in_app_iff. cbn [In]. split.
    + intros [I|[I|[I|I]]].
      * destruct I as [I|[I|[I|[I|[]]]]]; injection I as <- <-; tauto.
      * destruct cs; [contradiction|]. destruct I as [I|[]]. injection I as <- <-. right. right. right. right. left. split; [reflexivity|]. split; [discriminate|reflexivity].
      * destruct (tb_withdrawals b); [contradiction|]. destruct I as [I|[]]. injection I as <- <-. right. right. right. right. right. left. split; [reflexivity|]. split; [discriminate|reflexivity].
      * destruct (tb_metadata_hash b) as [h|]; [|contradiction]. destruct I as [I|[]]. injection I as <- <-. right. right. right. right. right. right. split; [reflexivity|]. exists h. split; reflexivity.
    + intros [[-> ->]|[[-> ->]|[[-> ->]|[[-> ->]|[(-> & N & ->)|[(-> & N & ->)|(-> & h & -> & ->)]]]]]]; [left; tauto..| | |].
      * right. left. destruct cs; [exfalso; apply N; reflexivity|left; reflexivity].
      * right. right. left. destruct (tb_withdrawals b); [exfalso; apply N; reflexivity|left; reflexivity].
      * right. right. right. left. reflexivity.
Qed.
Theorem C63_shelley_transaction : forall t, body_wf (tx_body t) -> Forall conforming (tb_certs (tx_body t)) -> wits_wf (tx_wits t) ->
  exists s sb body wits, serialize (tx_ser t) = Ok s /\ serialize (txbody_ser (tx_body t)) = Ok sb /\ denotes sb body /\
  denotes s (CArray ([body; wits] ++ if tx_meta t then [] else [CNull])) /\ NoDup (keys wits) /\
  (forall k, In k (keys wits) <-> exists n, k = CUint n /\ exists v, entry wits n v) /\
  forall n v, entry wits n v <->
    n = 0 /\ ws_vkeys (tx_wits t) <> [] /\ v = wire_vkeys (ws_vkeys (tx_wits t)) \/
    n = 1 /\ ws_scripts (tx_wits t) <> [] /\ v = CArray (map wire_script (ws_scripts (tx_wits t))) \/
    n = 2 /\ 0 < ws_bootstrap (tx_wits t) /\ v = CArray [].
Proof.
  intros t W NP WW. destruct (certs_cddl _ NP) as (cs & E1 & _ & _). pose proof (body_ser _ cs E1) as E. pose proof (body_ok _ _ W E) as O. pose proof (wits_ok _ WW) as O2.
  eexists (cbor_encode (CArray _)), _, _, (CMap (wits_map (tx_wits t))). split; [unfold serialize, tx_ser; rewrite E; reflexivity|].
  split; [unfold serialize; rewrite E; reflexivity|]. split; [apply encode_denotes, O|].
  split; [apply encode_denotes; apply ok_array; split; [destruct (tx_meta t); reflexivity|]; constructor; [exact O|]; constructor; [exact O2|]; destruct (tx_meta t); repeat constructor|].
  unfold wits_map. cbn [keys entry]. split; [|split].
  - destruct (ws_vkeys (tx_wits t)), (ws_scripts (tx_wits t)), (0 <? ws_bootstrap (tx_wits t)); cbn [app map fst]; repeat (constructor; [cbn [In]; intuition discriminate|]); constructor.
  - intros k. rewrite in_map_iff. split; [|intros (n & -> & v & I); exists (CUint n, v); auto]. intros ([k' v] & <- & I). cbn [fst]. assert (X : exists n, k' = CUint n); [|destruct X as (n & ->); eauto].
    destruct (ws_vkeys (tx_wits t)), (ws_scripts (tx_wits t)), (0 <? ws_bootstrap (tx_wits t)); cbn [app In] in I; repeat (destruct I as [I|I]; [injection I as <- _; eauto|]); contradiction.
  - intros n v. unfold wire_vkeys. rewrite (map_ext _ _ (fun s => eq_sym (script_wire s))). rewrite !in_app_iff. split.
    + intros [I|[I|I]].
      * destruct (ws_vkeys (tx_wits t)); [contradiction|]. destruct I as [I|[]]. injection I as <- <-. left. split; [reflexivity|]. split; [discriminate|reflexivity].
      * destruct (ws_scripts (tx_wits t)); [contradiction|]. destruct I as [I|[]]. injection I as <- <-. right. left. split; [reflexivity|]. split; [discriminate|reflexivity].
      * destruct (Z.ltb_spec 0 (ws_bootstrap (tx_wits t))); [|contradiction]. destruct I as [I|[]]. injection I as <- <-. right. right. auto.
    + intros [(-> & N & ->)|[(-> & N & ->)|(-> & N & ->)]].
      * left. destruct (ws_vkeys (tx_wits t)); [exfalso; apply N; reflexivity|left; reflexivity].
      * right. left. destruct (ws_scripts (tx_wits t)); [exfalso; apply N; reflexivity|left; reflexivity].
      * right. right. destruct (Z.ltb_spec 0 (ws_bootstrap (tx_wits t))); [left; reflexivity|lia].
Qed.

(** ** Babbage: everything but certificates, script references and datums *)
Lemma btxout_wire o : btxout_ser o = wire_btxout o.
Proof. destruct o as [[a n [h|]]|[a n r]]; reflexivity. Qed.
Lemma btxout_ok o : btxout_wf o -> cbor_ok (btxout_ser o).
Proof.
  destruct o as [[a n d]|[a n r]]; cbn [btxout_wf btxout_ser atxout_ser ptxout_ser ao_addr ao_amount ao_datum po_addr po_amount].
  - intros (A & N & D). apply ok_array. cbn [ao_datum]. destruct d as [h|]; cbn [app]; (split; [small_list|]); constructor; try exact A; constructor; try exact N; repeat constructor; apply D.
  - intros (A & N). apply ok_cmap. split; [unfold zlen; cbn [length app]; lia|]. constructor; [split; [cbn; lia|exact A]|]. constructor; [split; [cbn; lia|exact N]|constructor].
Qed.
Theorem C63_babbage_transaction : forall b v flag, bbody_wf b -> many vkey_wf v ->
  exists body wits, denotes (cbor_encode (btx_ser b v flag)) (CArray [body; wits; CBool flag; CNull]) /\ denotes (cbor_encode (btxbody_ser b)) body /\ NoDup (keys body) /\
  (forall k, In k (keys body) <-> exists n, k = CUint n /\ exists x, entry body n x) /\ (forall k, In k (keys wits) <-> exists n, k = CUint n /\ exists x, entry wits n x) /\
  (forall n x, entry body n x <->
    n = 0 /\ x = CArray (map wire_txin (bb_inputs b)) \/ n = 1 /\ x = CArray (map wire_btxout (bb_outputs b)) \/ n = 2 /\ x = CUint (bb_fee b) \/
    n = 3 /\ (exists t, bb_ttl b = Some t /\ x = CUint t) \/ n = 5 /\ bb_withdrawals b <> [] /\ x = wire_withdrawals (bb_withdrawals b)) /\
  (forall n x, entry wits n x <-> n = 0 /\ v <> [] /\ x = wire_vkeys v).
Proof.
  intros b v flag (WI & WO & WF & WT & WW) WV. exists (btxbody_ser b), (bwitset_ser v).
  pose proof (ok_many _ txin_ser _ WI txin_ok) as K0. pose proof (ok_many _ btxout_ser _ WO btxout_ok) as K1. pose proof (wd_ok _ WW) as K5. pose proof (ok_many _ vkey_ser _ WV vkey_ok) as KV.
  assert (S : forall k, 0 <= k < 10 -> cbor_ok (CUint k)) by (intros k B; cbn [cbor_ok]; lia).
  assert (OB : cbor_ok (btxbody_ser b)).
  { unfold btxbody_ser. apply ok_cmap. split; [destruct (bb_ttl b), (bb_withdrawals b); unfold zlen; cbn [length app]; lia|].
    apply Forall_app. split; [|apply Forall_app; split].
    - constructor; [split; [apply S; lia|exact K0]|]. constructor; [split; [apply S; lia|exact K1]|]. constructor; [split; [apply S; lia|exact WF]|constructor].
    - destruct (bb_ttl b); constructor; [split; [apply S; lia|exact WT]|constructor].
    - destruct (bb_withdrawals b) as [|p w]; constructor; [split; [apply S; lia|exact K5]|constructor]. }
  assert (OW : cbor_ok (bwitset_ser v)).
  { unfold bwitset_ser. apply ok_cmap. destruct v; (split; [small_list|]); constructor; [split; [apply S; lia|exact KV]|constructor]. }
  split; [apply encode_denotes; apply ok_array; split; [small_list|]; constructor; [exact OB|]; constructor; [exact OW|]; repeat constructor|].
  split; [apply encode_denotes, OB|]. unfold btxbody_ser, bwitset_ser. cbn [keys entry]. split; [|split; [|split; [|split]]].
  - destruct (bb_ttl b), (bb_withdrawals b); cbn [app map fst]; repeat (constructor; [cbn [In]; intuition discriminate|]); constructor.
  - intros k. rewrite in_map_iff. split; [|intros (n & -> & x & I); exists (CUint n, x); auto]. intros ([k' x] & <- & I). cbn [fst]. assert (X : exists n, k' = CUint n); [|destruct X as (n & ->); eauto].
    destruct (bb_ttl b), (bb_withdrawals b); cbn [app In] in I; repeat (destruct I as [I|I]; [injection I as <- _; eauto|]); contradiction.
  - intros k. rewrite in_map_iff. split; [|intros (n & -> & x & I); exists (CUint n, x); auto]. intros ([k' x] & <- & I). cbn [fst]. assert (X : exists n, k' = CUint n); [|destruct X as (n & ->); eauto].
    destruct v; cbn [app In] in I; repeat (destruct I as [I|I]; [injection I as <- _; eauto|]); contradiction.
  - intros n x. rewrite (map_ext _ _ btxout_wire). change (map txin_ser (bb_inputs b)) with (map wire_txin (bb_inputs b)). unfold wire_withdrawals. rewrite !in_app_iff. cbn [In]. split.
    + intros [I|[I|I]].
      * destruct I as [I|[I|[I|[]]]]; injection I as <- <-; tauto.
      * destruct (bb_ttl b) as [t|]; [|contradiction]. destruct I as [I|[]]. injection I as <- <-. right. right. right. left. split; [reflexivity|]. exists t. auto.
      * destruct (bb_withdrawals b); [contradiction|]. destruct I as [I|[]]. injection I as <- <-. right. right. right. right. split; [reflexivity|]. split; [discriminate|reflexivity].
    + intros [[-> ->]|[[-> ->]|[[-> ->]|[(-> & t & -> & ->)|(-> & N & ->)]]]]; [left; tauto..| |].
      * right. left. left. reflexivity.
      * right. right. destruct (bb_withdrawals b); [exfalso; apply N; reflexivity|left; reflexivity].
  - intros n x. destruct v; cbn [In]; split.
    + intros [].
    + intros (_ & N & _). exfalso; apply N; reflexivity.
    + intros [I|[]]. injection I as <- <-. split; [reflexivity|]. split; [discriminate|reflexivity].
    + intros (-> & _ & ->). left. reflexivity.
Qed.
(** A script reference: the script's bytes under tag 24. *)
Theorem C63_script_reference : forall script, text_ok script -> denotes (cbor_encode (scriptref_ser script)) (CTag 24 (CBytes script)).
Proof. intros script [B L]. apply encode_denotes. cbn [scriptref_ser cbor_ok]. split; [lia|]. split; [exact B|exact L]. Qed.
Example C63_ex : body_wf ex_body /\ Forall conforming (tb_certs ex_body) /\ tb_certs ex_body <> [] /\ tb_withdrawals ex_body <> [] /\ length (tb_outputs ex_body) <> 0%nat.
Proof. split; [apply C54_ex_body|]. split; [repeat constructor|]. repeat split; discriminate. Qed.
Example C63_ex_babbage : exists b, bbody_wf b /\ bb_ttl b = None /\ length (bb_outputs b) = 2%nat /\ bb_withdrawals b <> [].
Proof.
  exists {| bb_inputs := [{| ti_id := repeat 1 32; ti_index := 0 |}]; bb_outputs := [BPre {| ao_addr := [97]; ao_amount := 5; ao_datum := Some (repeat 2 32) |}; BPost {| po_addr := [97]; po_amount := 6; po_script_ref := None |}];
     bb_fee := 170000; bb_ttl := None; bb_certs := []; bb_withdrawals := [([225; 1], 3)] |}.
  split; [|split; [reflexivity|split; [reflexivity|discriminate]]]. unfold bbody_wf, many, txin_wf, bytesN, u64, text_ok, bytes_ok. cbn [bb_inputs bb_outputs bb_fee bb_ttl bb_withdrawals opt].
  assert (B : forall l, forallb (fun x => (0 <=? x) && (x <? 256)) l = true -> Forall byte_ok l) by (intros l F; rewrite forallb_forall in F; apply Forall_forall; intros x I; specialize (F x I); unfold byte_ok; lia).
  repeat split; repeat constructor; cbn [opt fst snd ti_id ti_index btxout_wf ao_addr ao_amount ao_datum po_addr po_amount]; unfold text_ok, u64, bytes_ok; try lia; try reflexivity; try (apply B; reflexivity).
Qed.
Print Assumptions C63_shelley_body.
Print Assumptions C63_shelley_transaction.
Print Assumptions C63_babbage_transaction.
Print Assumptions C63_script_reference.
