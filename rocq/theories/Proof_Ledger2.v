From Verif Require Import Base BaseLemmas Model_Hex Spec_Cbor Model_Cbor Proof_Cbor Model_Ledger Spec_Ledger Proof_Ledger.
From Coq Require Import Sorted Permutation.
Ltac Zify.zify_post_hook ::= idtac.

(** ** Scripts *)
Section MsInd.
Variable P : mscript -> Prop.
Hypothesis HN : P MNone.
Hypothesis HP : forall h, P (MPub h).
Hypothesis HA : forall l, Forall P l -> P (MAll l).
Hypothesis HO : forall l, Forall P l -> P (MAny l).
Hypothesis HK : forall n l, Forall P l -> P (MNofK n l).
Fixpoint ms_nested_ind (s : mscript) : P s :=
  let go := fix go (l : list mscript) : Forall P l := match l with [] => Forall_nil _ | x :: r => Forall_cons x (ms_nested_ind x) (go r) end in
  match s with MNone => HN | MPub h => HP h | MAll l => HA l (go l) | MAny l => HO l (go l) | MNofK n l => HK n l (go l) end.
End MsInd.

Lemma fold_forall {A} (P : A -> Prop) l : fold_right (fun x Q => P x /\ Q) True l <-> Forall P l.
Proof. induction l as [|x l IH]; cbn [fold_right]; [split; constructor|]. rewrite IH. split; [intros [a b]; constructor; auto|intros H; inversion H; auto]. Qed.
Lemma ms_ok s : ms_wf s -> cbor_ok (ms_ser s).
Proof.
  assert (K : forall l, zlen l < 2 ^ 64 -> Forall (fun s => ms_wf s -> cbor_ok (ms_ser s)) l -> Forall ms_wf l -> cbor_ok (CArray (map ms_ser l))).
  { intros l L F W. apply ok_array. unfold zlen in *. rewrite map_length. split; [exact L|]. apply Forall_forall. intros y I. apply in_map_iff in I as (x & <- & I).
    rewrite Forall_forall in F, W. apply F; auto. }
  induction s as [|h|l IH|l IH|n l IH] using ms_nested_ind; cbn [ms_wf ms_ser]; rewrite ?fold_forall.
  - intros _. apply ok_array. split; [small_list|constructor].
  - intros W. apply ok_array. split; [small_list|]. constructor; [cbn [cbor_ok]; lia|]. constructor; [eapply bytesN_ok; [|exact W]; lia|constructor].
  - intros [L W]. apply ok_array. split; [small_list|]. constructor; [cbn [cbor_ok]; lia|]. constructor; [apply K; auto|constructor].
  - intros [L W]. apply ok_array. split; [small_list|]. constructor; [cbn [cbor_ok]; lia|]. constructor; [apply K; auto|constructor].
  - intros (N & L & W). apply ok_array. split; [small_list|]. constructor; [cbn [cbor_ok]; lia|]. constructor; [exact N|]. constructor; [apply K; auto|constructor].
Qed.
Definition ms_list (l : list cbor) : outcome (list mscript) := mapM ms_item l.
Lemma ms_go l : (fix go (l : list cbor) : outcome (list mscript) :=
        match l with [] => Ok [] | x :: r => let* y := ms_item x in let* ys := go r in Ok (y :: ys) end) l = mapM ms_item l.
Proof. induction l as [|x l IH]; [reflexivity|]. cbn [mapM]. rewrite IH. reflexivity. Qed.
Lemma ms_all l : ms_item (CArray [CUint 1; CArray l]) = let* l := mapM ms_item l in Ok (MAll l).
Proof. rewrite <- (ms_go l). reflexivity. Qed.
Lemma ms_any l : ms_item (CArray [CUint 2; CArray l]) = let* l := mapM ms_item l in Ok (MAny l).
Proof. rewrite <- (ms_go l). reflexivity. Qed.
(** What reading a written script gives, for every script *)
Lemma ms_rt s : ms_wf s -> (no_nofk s -> ms_item (ms_ser s) = Ok s) /\ (~ no_nofk s -> ms_item (ms_ser s) = Throw).
Proof.
  assert (K : forall l, Forall (fun s => ms_wf s -> (no_nofk s -> ms_item (ms_ser s) = Ok s) /\ (~ no_nofk s -> ms_item (ms_ser s) = Throw)) l -> Forall ms_wf l ->
     (Forall no_nofk l -> mapM ms_item (map ms_ser l) = Ok l) /\ (~ Forall no_nofk l -> mapM ms_item (map ms_ser l) = Throw)).
  { induction l as [|x l IH]; intros F W; [split; [reflexivity|intros N; destruct N; constructor]|].
    inversion F as [|? ? Fx F']; subst. inversion W as [|? ? Wx W']; subst. destruct (Fx Wx) as [X1 X2]. destruct (IH F' W') as [L1 L2]. cbn [map mapM]. split; intros N.
    - inversion N; subst. rewrite X1 by assumption. cbn [bind]. rewrite L1 by assumption. reflexivity.
    - destruct (ms_item (ms_ser x)) as [y| |] eqn:E; cbn [bind]; [|reflexivity|].
      + assert (NX : ~ ~ no_nofk x) by (intros C; discriminate (X2 C)). rewrite L2; [reflexivity|]. intros C. apply NX. intros CX. apply N. constructor; assumption.
      + assert (NX : ~ no_nofk x) by (intros C; discriminate (X1 C)). discriminate (X2 NX). }
  induction s as [|h|l IH|l IH|n l IH] using ms_nested_ind; cbn [ms_wf no_nofk]; rewrite ?fold_forall.
  - intros _. split; [intros []|reflexivity].
  - intros W. split; [|intros C; destruct (C I)]. intros _. cbn. rewrite (fixed_ok 28 _ W). reflexivity.
  - intros [L W]. destruct (K l IH W) as [K1 K2]. cbn [ms_ser]. rewrite ms_all. split; intros N; [rewrite (K1 N)|rewrite (K2 N)]; reflexivity.
  - intros [L W]. destruct (K l IH W) as [K1 K2]. cbn [ms_ser]. rewrite ms_any. split; intros N; [rewrite (K1 N)|rewrite (K2 N)]; reflexivity.
  - intros _. split; [intros []|reflexivity].
Qed.
(** The reader never returns an n-of-k script *)
Fixpoint has_nofk (s : mscript) : Prop :=
  match s with
  | MNone | MPub _ => False
  | MAll l | MAny l => fold_right (fun x P => has_nofk x \/ P) False l
  | MNofK _ _ => True
  end.

(** ** Transaction bodies *)
Definition ser_certs (l : list cert) : outcome (list cbor) := mapM cert_ser l.
Lemma txin_ok i : txin_wf i -> cbor_ok (txin_ser i).
Proof. intros [H N]. apply ok_array. split; [small_list|]. constructor; [eapply bytesN_ok; [|exact H]; lia|]. constructor; [exact N|constructor]. Qed.
Lemma txin_rt i : txin_wf i -> item_des txin_des (txin_ser i) = Ok i.
Proof. intros [H N]. unfold item_des, txin_ser. cbn [as_array deref bind txin_des as_bytes as_uint want]. rewrite (fixed_ok 32 _ H). destruct i; reflexivity. Qed.
Lemma txout_ok o : txout_wf o -> cbor_ok (txout_ser o).
Proof. intros [H N]. apply ok_array. split; [small_list|]. constructor; [exact H|]. constructor; [exact N|constructor]. Qed.
Lemma txout_rt o : item_des txout_des (txout_ser o) = Ok o.
Proof. destruct o; reflexivity. Qed.
Lemma certs_ok l cs : many cert_wf l -> mapM cert_ser l = Ok cs -> cbor_ok (CArray cs).
Proof.
  intros [F L] H. apply ok_array. split; [unfold zlen in *; rewrite (mapM_ok_length _ _ _ H); exact L|]. apply Forall_forall. intros y I.
  destruct (mapM_in _ _ _ H y I) as (c & Ic & Ec). rewrite Forall_forall in F. eapply cert_ok; [apply F, Ic|exact Ec].
Qed.
Lemma certs_rt l cs : Forall cert_wf l -> Forall simple_cert l -> mapM cert_ser l = Ok cs -> mapM (item_des cert_des) cs = Ok l.
Proof.
  revert cs; induction l as [|c l IH]; intros cs W S H; cbn [mapM] in H; [injection H as <-; reflexivity|].
  inversion W as [|? ? Wc W']; subst. inversion S as [|? ? Sc S']; subst. apply bind_ok in H as (x & Hx & H). apply bind_ok in H as (xs & Hxs & H). injection H as <-.
  destruct (cert_rt c x Wc Sc Hx) as (data & -> & D). cbn [mapM]. unfold item_des at 1. cbn [as_array deref bind]. rewrite D. cbn [bind]. rewrite (IH xs W' S' Hxs). reflexivity.
Qed.
Lemma simple_ser l : Forall simple_cert l -> exists cs, mapM cert_ser l = Ok cs.
Proof.
  induction 1 as [|c l S _ [cs E]]; [eexists; reflexivity|]. assert (H : exists x, cert_ser c = Ok x).
  { destruct c; cbn [simple_cert] in S; try contradiction; try (eexists; reflexivity). destruct S as [R _]. cbn [cert_ser]. rewrite R. cbn [mapM bind]. eexists; reflexivity. }
  destruct H as [x Hx]. cbn [mapM]. rewrite Hx. cbn [bind]. rewrite E. eexists; reflexivity.
Qed.
Definition wd_ser (w : list (list Z * Z)) : list (cbor * cbor) := map (fun p => (CBytes (fst p), CUint (snd p))) w.
Lemma wd_ok w : many (fun p => text_ok (fst p) /\ u64 (snd p)) w -> cbor_ok (CMap (wd_ser w)).
Proof.
  intros [F L]. apply ok_cmap. unfold wd_ser, zlen in *. rewrite map_length. split; [exact L|]. apply Forall_forall. intros y I. apply in_map_iff in I as ([k v] & <- & I).
  rewrite Forall_forall in F. destruct (F _ I). split; assumption.
Qed.
Lemma wd_rt w : StronglySorted (fun a b => lex_lt (fst a) (fst b) = true) w ->
  (let* ws := mapM wdrl_entry (wd_ser w) in Ok (fold_left (fun s p => map_assign (fst p) (snd p) s) ws [])) = Ok w.
Proof.
  intros S. unfold wd_ser. rewrite (mapM_map_id wdrl_entry); [|intros [k v] _; reflexivity]. cbn [bind]. f_equal. apply (assign_sorted_id w []). exact S.
Qed.
Definition body_map (b : txbody) (cs : list cbor) : list (cbor * cbor) :=
  [(CUint 0, CArray (map txin_ser (tb_inputs b))); (CUint 1, CArray (map txout_ser (tb_outputs b))); (CUint 2, CUint (tb_fee b)); (CUint 3, CUint (tb_ttl b))]
    ++ match cs with [] => [] | cs => [(CUint 4, CArray cs)] end
    ++ match tb_withdrawals b with [] => [] | w => [(CUint 5, CMap (wd_ser w))] end
    ++ match tb_metadata_hash b with None => [] | Some h => [(CUint 7, CBytes h)] end.
Lemma body_ser b cs : mapM cert_ser (tb_certs b) = Ok cs -> txbody_ser b = Ok (CMap (body_map b cs)).
Proof. intros E. unfold txbody_ser. rewrite E. reflexivity. Qed.
Lemma body_ok b x : body_wf b -> txbody_ser b = Ok x -> cbor_ok x.
Proof.
  intros (WI & _ & WO & WF & WT & WC & WW & _ & WM) E. pose proof E as E0. unfold txbody_ser in E0. apply bind_ok in E0 as (cs & Hc & _). rewrite (body_ser b cs Hc) in E. apply ok_inj in E. subst x.
  pose proof (ok_many _ txin_ser _ WI txin_ok) as K0. pose proof (ok_many _ txout_ser _ WO txout_ok) as K1. pose proof (certs_ok _ _ WC Hc) as K4. pose proof (wd_ok _ WW) as K5.
  apply ok_cmap. unfold body_map. split.
  { destruct cs, (tb_withdrawals b), (tb_metadata_hash b); unfold zlen; cbn [length app]; lia. }
  assert (S : forall k, 0 <= k < 10 -> cbor_ok (CUint k)) by (intros k B; cbn [cbor_ok]; lia).
  apply Forall_app. split; [constructor; [split; [apply S; lia|exact K0]|constructor; [split; [apply S; lia|exact K1]|constructor; [split; [apply S; lia|exact WF]|constructor; [split; [apply S; lia|exact WT]|constructor]]]]|].
  apply Forall_app. split; [destruct cs; constructor; [|constructor]; cbn [fst snd]; split; [apply S; lia|exact K4]|].
  apply Forall_app. split; [destruct (tb_withdrawals b); constructor; [|constructor]; cbn [fst snd]; split; [apply S; lia|exact K5]|].
  destruct (tb_metadata_hash b) as [h|]; constructor; [|constructor]. cbn [fst snd]. split; [apply S; lia|]. eapply bytesN_ok; [|exact WM]. lia.
Qed.
Lemma get0 b cs : body_array (body_map b cs) 0 = map txin_ser (tb_inputs b). Proof. reflexivity. Qed.
Lemma get1 b cs : body_array (body_map b cs) 1 = map txout_ser (tb_outputs b). Proof. reflexivity. Qed.
Lemma get2 b cs : body_uint (body_map b cs) 2 = tb_fee b. Proof. reflexivity. Qed.
Lemma get3 b cs : body_uint (body_map b cs) 3 = tb_ttl b. Proof. reflexivity. Qed.
Lemma get4 b cs : body_array (body_map b cs) 4 = cs.
Proof. unfold body_array, body_map. destruct cs as [|c cs]; [|reflexivity]. destruct (tb_withdrawals b), (tb_metadata_hash b); reflexivity. Qed.
Lemma get5 b cs : (match map_get (body_map b cs) 5 with Some c => match as_map c with Some l => l | None => [] end | None => [] end) = wd_ser (tb_withdrawals b).
Proof. unfold body_map. destruct cs as [|c cs], (tb_withdrawals b) as [|w ws], (tb_metadata_hash b); reflexivity. Qed.
Lemma get7 b cs : map_get (body_map b cs) 7 = match tb_metadata_hash b with Some h => Some (CBytes h) | None => None end.
Proof. unfold body_map. destruct cs as [|c cs], (tb_withdrawals b) as [|w ws], (tb_metadata_hash b); reflexivity. Qed.
(** Everything but the certificates is read back as written *)
Lemma body_des b cs : body_wf b -> txbody_des (body_map b cs) =
  let* certs := mapM (item_des cert_des) cs in
  Ok {| tb_inputs := tb_inputs b; tb_outputs := tb_outputs b; tb_fee := tb_fee b; tb_ttl := tb_ttl b; tb_certs := certs; tb_withdrawals := tb_withdrawals b; tb_metadata_hash := tb_metadata_hash b |}.
Proof.
  intros ([FI _] & SI & _ & _ & _ & _ & _ & SW & WM). unfold txbody_des. rewrite get0, get1, get2, get3, get4, get5, get7.
  rewrite (mapM_map_id (item_des txin_des) txin_ser) by (intros x I; apply txin_rt; rewrite Forall_forall in FI; apply FI, I). cbn [bind].
  rewrite (mapM_map_id (item_des txout_des) txout_ser) by (intros x _; apply txout_rt). cbn [bind].
  destruct (mapM (item_des cert_des) cs) as [certs| |]; cbn [bind]; [|reflexivity|reflexivity].
  unfold wd_ser. rewrite (mapM_map_id wdrl_entry) by (intros [k v] _; reflexivity). cbn [bind].
  pose proof (assign_sorted_id (tb_withdrawals b) [] SW) as AW. cbn [app] in AW. rewrite AW.
  pose proof (set_of_id txin_lt txin_st _ SI) as AI. unfold set_of in AI. rewrite AI.
  destruct (tb_metadata_hash b) as [h|]; cbn [as_bytes]; [rewrite (fixed_ok 32 h WM)|]; reflexivity.
Qed.
Lemma body_rt b : body_wf b -> Forall simple_cert (tb_certs b) ->
  exists m, txbody_ser b = Ok (CMap m) /\ cbor_ok (CMap m) /\ txbody_des m = Ok b.
Proof.
  intros W S. destruct (simple_ser _ S) as [cs Hc]. exists (body_map b cs). pose proof (body_ser b cs Hc) as E. split; [exact E|]. split; [apply (body_ok b _ W E)|].
  rewrite (body_des b cs W). pose proof W as (_ & _ & _ & _ & _ & [FC _] & _). rewrite (certs_rt _ _ FC S Hc). cbn [bind]. destruct b; reflexivity.
Qed.

(** ** Witness sets and transactions *)
Definition wits_map (w : witset) : list (cbor * cbor) :=
  match ws_vkeys w with [] => [] | v => [(CUint 0, CArray (map vkey_ser v))] end
     ++ match ws_scripts w with [] => [] | s => [(CUint 1, CArray (map ms_ser s))] end
     ++ (if 0 <? ws_bootstrap w then [(CUint 2, CArray [])] else []).
Lemma vkey_ok v : vkey_wf v -> cbor_ok (vkey_ser v).
Proof. intros [K S]. apply ok_array. split; [small_list|]. constructor; [eapply bytesN_ok; [|exact K]; lia|]. constructor; [eapply bytesN_ok; [|exact S]; lia|constructor]. Qed.
Lemma make_array_ok n b : 0 <= n -> bytesN n b -> make_array n b = Ok b.
Proof.
  intros N [_ L]. unfold make_array. rewrite L, Z.ltb_irrefl. f_equal. apply firstn_all2. unfold zlen in L. lia.
Qed.
Lemma vkey_rt v : vkey_wf v -> vkey_des (vkey_ser v) = Ok (Some v).
Proof.
  intros [K S]. unfold vkey_des, vkey_ser. cbn [as_array get_ub nth_error bind as_bytes deref]. cbn. rewrite (make_array_ok 32 _ ltac:(lia) K). cbn. rewrite (make_array_ok 64 _ ltac:(lia) S). destruct v; reflexivity.
Qed.
Lemma wits_ok w : wits_wf w -> cbor_ok (CMap (wits_map w)).
Proof.
  intros (WV & WS & _). pose proof (ok_many _ vkey_ser _ WV vkey_ok) as K0. pose proof (ok_many _ ms_ser _ WS ms_ok) as K1. unfold wits_map. apply ok_cmap.
  assert (S : forall k, 0 <= k < 10 -> cbor_ok (CUint k)) by (intros k B; cbn [cbor_ok]; lia). split.
  { destruct (ws_vkeys w), (ws_scripts w), (0 <? ws_bootstrap w); unfold zlen; cbn [length app]; lia. }
  apply Forall_app. split; [destruct (ws_vkeys w); constructor; [|constructor]; cbn [fst snd]; split; [apply S; lia|exact K0]|].
  apply Forall_app. split; [destruct (ws_scripts w); constructor; [|constructor]; cbn [fst snd]; split; [apply S; lia|exact K1]|].
  destruct (0 <? ws_bootstrap w); constructor; [|constructor]. cbn [fst snd]. split; [apply S; lia|]. apply ok_array. split; [small_list|constructor].
Qed.
Lemma keep_some_map {A} (l : list A) : keep_some (map Some l) = l.
Proof. unfold keep_some. induction l as [|x l IH]; cbn [map flat_map app]; [reflexivity|]. f_equal. exact IH. Qed.
Lemma wits_des w : wits_wf w -> witset_des (wits_map w) = Ok {| ws_vkeys := ws_vkeys w; ws_scripts := []; ws_bootstrap := 0 |}.
Proof.
  intros ([FV _] & _). unfold witset_des. assert (G : body_array (wits_map w) 0 = map vkey_ser (ws_vkeys w)).
  { unfold wits_map. destruct (ws_vkeys w); [|reflexivity]. destruct (ws_scripts w), (0 <? ws_bootstrap w); reflexivity. }
  rewrite G, (mapM_map vkey_des vkey_ser Some). - cbn [bind]. rewrite keep_some_map. reflexivity.
  - intros x I. apply vkey_rt. rewrite Forall_forall in FV. apply FV, I.
Qed.
Lemma tx_des_ser t : body_wf (tx_body t) -> Forall simple_cert (tb_certs (tx_body t)) -> wits_wf (tx_wits t) ->
  exists data, tx_ser t = Ok (CArray data) /\ cbor_ok (CArray data) /\
    tx_des data = Ok {| tx_body := tx_body t; tx_wits := {| ws_vkeys := ws_vkeys (tx_wits t); ws_scripts := []; ws_bootstrap := 0 |}; tx_meta := false |}.
Proof.
  intros WB S WW. destruct (body_rt _ WB S) as (m & E & O & D). exists ([CMap m; CMap (wits_map (tx_wits t))] ++ if tx_meta t then [] else [CNull]). split; [|split].
  - unfold tx_ser. rewrite E. reflexivity.
  - apply ok_array. split; [destruct (tx_meta t); unfold zlen; cbn [length app]; lia|]. cbn [app]. constructor; [exact O|]. constructor; [apply wits_ok, WW|]. destruct (tx_meta t); repeat constructor.
  - unfold tx_des. cbn [app nth_error as_map]. rewrite D. cbn [bind]. rewrite (wits_des _ WW). reflexivity.
Qed.

(** ** Readers that cannot go wrong *)
Definition safe {A} (o : outcome A) : Prop := o <> UB.
Lemma safe_ok {A} (x : A) : safe (Ok x). Proof. discriminate. Qed.
Lemma safe_throw {A} : safe (@Throw A). Proof. discriminate. Qed.
Lemma safe_bind {A B} (o : outcome A) (f : A -> outcome B) : safe o -> (forall x, o = Ok x -> safe (f x)) -> safe (bind o f).
Proof. destruct o; cbn [bind]; intros S H; [apply H; reflexivity|discriminate|contradiction]. Qed.
Lemma safe_want {A} (o : option A) : safe (want o). Proof. destruct o; discriminate. Qed.
Lemma safe_fixed n b : safe (fixed n b). Proof. unfold fixed. destruct (_ =? _); discriminate. Qed.
Lemma safe_parse s : safe (cbor_parse s). Proof. unfold cbor_parse. destruct (cbor_read s) as [[]|]; discriminate. Qed.
Ltac go_safe := repeat first [apply safe_ok | apply safe_throw | apply safe_want | apply safe_fixed | apply safe_parse
  | (apply safe_bind; [|intros ? ?]) | match goal with |- safe (if ?b then _ else _) => destruct b | |- safe (match ?l with _ => _ end) => destruct l end].
Lemma safe_cred data : safe (cred_des data). Proof. unfold cred_des. go_safe. Qed.
Lemma safe_relay data : safe (relay_des data).
Proof.
  destruct data as [|a [|b data]]; try (cbn; discriminate). unfold relay_des. destruct (zlen _ <? 2); [apply safe_throw|]. cbn [get_ub nth_error bind].
  destruct (as_uint a) as [n|]; [|apply safe_throw]. cbn [want bind].
  destruct data as [|c [|d [|e data]]]; cbn [nth_error bind get_ub]; go_safe; cbn in *; try discriminate.
Qed.
Lemma safe_pm data : safe (pm_des data). Proof. unfold pm_des. go_safe. Qed.
Lemma safe_rational t c : safe (rational_des t c). Proof. unfold rational_des. go_safe. Qed.
Lemma safe_txout data : safe (txout_des data). Proof. unfold txout_des. go_safe. Qed.
Lemma safe_txin data : safe (txin_des data). Proof. unfold txin_des. go_safe. Qed.
(** Certificates other than pool registrations, genesis delegations and instantaneous rewards *)
Lemma safe_cert data : (forall a r, data = a :: r -> match as_uint a with Some n => n <> 3 /\ n <> 5 /\ n <> 6 | None => True end) -> safe (cert_des data).
Proof.
  destruct data as [|a [|b data]]; intros H; try (cbn; discriminate). specialize (H a _ eq_refl). unfold cert_des.
  destruct (zlen _ <? 2); [apply safe_throw|]. cbn [get_ub nth_error bind]. destruct (as_uint a) as [n|]; [|apply safe_throw]. cbn [want bind].
  destruct (Z.eqb_spec n 3), (Z.eqb_spec n 5), (Z.eqb_spec n 6); try lia.
  destruct data as [|c [|d data]]; go_safe; try apply safe_cred; cbn in *; try discriminate; try congruence.
Qed.
Lemma safe_array {A} (des : list cbor -> outcome A) s : (forall d, safe (des d)) -> safe (deserialize_array des s).
Proof. intros H. unfold deserialize_array. apply safe_bind; [apply safe_parse|]. intros. apply safe_bind; [apply safe_want|]. intros. apply H. Qed.
Lemma safe_tag {A} (des : Z -> cbor -> outcome A) s : (forall t d, safe (des t d)) -> safe (deserialize_tag des s).
Proof. intros H. unfold deserialize_tag. apply safe_bind; [apply safe_parse|]. intros. apply safe_bind; [apply safe_want|]. intros. apply H. Qed.

(** ** n-of-k scripts are never returned *)
Lemma has_exists l : fold_right (fun x P => has_nofk x \/ P) False l <-> Exists has_nofk l.
Proof. induction l as [|x l IH]; cbn [fold_right]; [split; [intros []|intros H; inversion H]|]. rewrite IH, Exists_cons. reflexivity. Qed.
Lemma ms_item_no_nofk c : forall s, ms_item c = Ok s -> ~ has_nofk s.
Proof.
  assert (K : forall l, Forall (fun c => forall s, ms_item c = Ok s -> ~ has_nofk s) l -> forall r, mapM ms_item l = Ok r -> ~ fold_right (fun x P => has_nofk x \/ P) False r).
  { intros l F r H. rewrite has_exists. intros E. apply Exists_exists in E as (y & I & N). destruct (mapM_in _ _ _ H y I) as (x & Ix & Ex). rewrite Forall_forall in F. exact (F x Ix y Ex N). }
  (* strengthen: the nested readers look below tags, two levels down *)
  assert (D : forall c, (forall s, ms_item c = Ok s -> ~ has_nofk s) /\ (match c with CArray l => Forall (fun c => forall s, ms_item c = Ok s -> ~ has_nofk s) l | _ => True end)
     /\ (forall l, as_array c = Some l -> Forall (fun c => forall s, ms_item c = Ok s -> ~ has_nofk s) l)).
  2:{ exact (proj1 (D c)). }
  clear c. intros c. induction c as [n|n|b|b|l IH|l IH|t c IH|b|] using cbor_nested_ind; try (split; [cbn; discriminate|split; [exact I|cbn; discriminate]]).
  - assert (FL : Forall (fun c => forall s, ms_item c = Ok s -> ~ has_nofk s) l) by (eapply Forall_impl; [|exact IH]; intros a H; apply H).
    split; [|split; [exact FL|cbn; intros l0 E; injection E as <-; exact FL]].
    intros s H. destruct l as [|t [|a more]]; [discriminate|discriminate|].
    inversion IH as [|? ? _ IH1]; subst. inversion IH1 as [|? ? (_ & _ & IA) _]; subst.
    assert (G : forall a, (forall l, as_array a = Some l -> Forall (fun c => forall s, ms_item c = Ok s -> ~ has_nofk s) l) -> forall r,
       (fix strip (a : cbor) : outcome (list mscript) :=
        match a with CTag _ a => strip a | CArray l => (fix go (l : list cbor) : outcome (list mscript) :=
        match l with [] => Ok [] | x :: r => let* y := ms_item x in let* ys := go r in Ok (y :: ys) end) l | _ => Throw end) a = Ok r -> ~ fold_right (fun x P => has_nofk x \/ P) False r).
    { clear. intros a. assert (K : forall l, Forall (fun c => forall s, ms_item c = Ok s -> ~ has_nofk s) l -> forall r, mapM ms_item l = Ok r -> ~ fold_right (fun x P => has_nofk x \/ P) False r).
      { intros l F r H. rewrite has_exists. intros E. apply Exists_exists in E as (y & I & N). destruct (mapM_in _ _ _ H y I) as (x & Ix & Ex). rewrite Forall_forall in F. exact (F x Ix y Ex N). }
      induction a; intros HA r E; try discriminate.
      - rewrite ms_go in E. apply (K l); [apply HA; reflexivity|exact E].
      - apply IHa; [intros l0 E0; apply HA; exact E0|exact E]. }
    cbn [ms_item] in H. destruct (as_uint t) as [tag|]; [|discriminate].
    destruct (tag =? 0); [destruct more; [|discriminate]; apply bind_ok in H as (h & _ & H); apply bind_ok in H as (h' & _ & H); injection H as <-; intros []|].
    destruct (tag =? 1); [destruct more; [|discriminate]; apply bind_ok in H as (l & Hl & H); injection H as <-; exact (G a IA l Hl)|].
    destruct (tag =? 2); [destruct more; [|discriminate]; apply bind_ok in H as (l & Hl & H); injection H as <-; exact (G a IA l Hl)|].
    destruct (tag =? 3); [destruct more; [|discriminate]; apply bind_ok in H as (l & Hl & H); discriminate|]. injection H as <-. intros [].
  - destruct IH as (I1 & _ & I3). split; [exact I1|split; [exact I|exact I3]].
Qed.

(** ** Maps do not depend on the order of assignments *)
Section Assign.
Context {V : Type}.
Lemma assign_comm k1 (v1 : V) k2 v2 l : k1 <> k2 -> map_assign k1 v1 (map_assign k2 v2 l) = map_assign k2 v2 (map_assign k1 v1 l).
Proof.
  pose proof (st_asym _ lex_st) as AS. pose proof lex_total as T. pose proof lex_trans as TR. pose proof lex_irr as IR.
  intros N. induction l as [|[k v] l IH]; cbn [map_assign].
  - destruct (lex_lt k1 k2) eqn:E1, (lex_lt k2 k1) eqn:E2; cbn [map_assign]; rewrite ?E1, ?E2; auto.
    + rewrite (AS _ _ E1) in E2. discriminate.
    + destruct N. apply T; assumption.
  - destruct (lex_lt k2 k) eqn:A, (lex_lt k1 k) eqn:B; cbn [map_assign]; rewrite ?A, ?B.
    + destruct (lex_lt k1 k2) eqn:E1, (lex_lt k2 k1) eqn:E2; cbn [map_assign]; rewrite ?A, ?B; auto.
      * rewrite (AS _ _ E1) in E2. discriminate.
      * destruct N. apply T; assumption.
    + destruct (lex_lt k1 k2) eqn:E1; [rewrite (TR _ _ _ E1 A) in B; discriminate|].
      destruct (lex_lt k2 k1) eqn:E2; [|destruct N; apply T; assumption].
      destruct (lex_lt k k1) eqn:C; cbn [map_assign]; rewrite ?A; reflexivity.
    + destruct (lex_lt k2 k1) eqn:E1; [rewrite (TR _ _ _ E1 B) in A; discriminate|].
      destruct (lex_lt k1 k2) eqn:E2; [|destruct N; apply T; assumption].
      destruct (lex_lt k k2) eqn:C; cbn [map_assign]; rewrite ?B; reflexivity.
    + destruct (lex_lt k k2) eqn:C, (lex_lt k k1) eqn:D; cbn [map_assign]; rewrite ?A, ?B, ?C, ?D.
      * rewrite IH. reflexivity.
      * reflexivity.
      * reflexivity.
      * assert (k1 = k) by (apply T; assumption). assert (k2 = k) by (apply T; assumption). congruence.
Qed.
Definition map_of (l : list (list Z * V)) : list (list Z * V) := fold_left (fun s p => map_assign (fst p) (snd p) s) l [].
Lemma map_of_perm l r : Permutation l r -> NoDup (map fst l) -> map_of l = map_of r.
Proof.
  intros P. unfold map_of. generalize (@nil (list Z * V)). induction P as [|[k v] l r P IH|[k1 v1] [k2 v2] l|l m r P1 IH1 P2 IH2]; intros acc N; cbn [fold_left map fst snd] in *.
  - reflexivity.
  - inversion N; subst. apply IH. assumption.
  - rewrite assign_comm; [reflexivity|]. inversion N as [|? ? NI _]; subst. intros ->. apply NI. left; reflexivity.
  - rewrite IH1 by exact N. apply IH2. eapply Permutation_NoDup; [|exact N]. apply Permutation_map, P1.
Qed.
Lemma assign_keys k (v : V) l x : In x (map fst (map_assign k v l)) <-> x = k \/ In x (map fst l).
Proof.
  induction l as [|[k' v'] l IH]; cbn [map_assign map fst In]; [intuition congruence|].
  destruct (lex_lt k k') eqn:A; cbn [map fst In]; [intuition congruence|]. destruct (lex_lt k' k) eqn:B; cbn [map fst In]; [rewrite IH; intuition congruence|].
  rewrite (lex_total _ _ A B). intuition congruence.
Qed.
Lemma assign_sorted k (v : V) l : StronglySorted (fun a b => lex_lt (fst a) (fst b) = true) l -> StronglySorted (fun a b => lex_lt (fst a) (fst b) = true) (map_assign k v l).
Proof.
  induction l as [|[k' v'] l IH]; intros S; cbn [map_assign]; [repeat constructor|]. inversion S as [|? ? S' F]; subst. cbn [fst] in *.
  destruct (lex_lt k k') eqn:A.
  - constructor; [exact S|]. constructor; [exact A|]. eapply Forall_impl; [|exact F]. cbn [fst]. intros y Hy. apply (lex_trans _ _ _ A Hy).
  - destruct (lex_lt k' k) eqn:B; [|constructor; assumption]. constructor; [apply IH, S'|]. apply Forall_forall. intros y I.
    assert (J : In (fst y) (map fst (map_assign k v l))) by (apply in_map, I). apply assign_keys in J as [->|J]; [exact B|].
    apply in_map_iff in J as (z & <- & J). rewrite Forall_forall in F. apply (F z J).
Qed.
Lemma map_of_sorted l : StronglySorted (fun a b => lex_lt (fst a) (fst b) = true) (map_of l).
Proof.
  unfold map_of. assert (G : StronglySorted (fun a b => lex_lt (fst a) (fst b) = true) (@nil (list Z * V))) by constructor.
  revert G. generalize (@nil (list Z * V)). induction l as [|[k v] l IH]; intros acc G; cbn [fold_left]; [exact G|]. apply IH. apply assign_sorted, G.
Qed.
Lemma assign_get k (v : V) l x w : StronglySorted (fun a b => lex_lt (fst a) (fst b) = true) l -> (In (x, w) (map_assign k v l) <-> x = k /\ w = v \/ x <> k /\ In (x, w) l).
Proof.
  induction l as [|[k' v'] l IH]; intros S; cbn [map_assign In].
  - split; [intros [E|[]]; injection E as <- <-; auto|intros [[-> ->]|[_ []]]; auto].
  - inversion S as [|? ? S' F]; subst. cbn [fst] in F. rewrite Forall_forall in F. destruct (lex_lt k k') eqn:A; [|destruct (lex_lt k' k) eqn:B].
    + cbn [In]. split.
      * intros [E|I]; [injection E as <- <-; auto|]. right. split; [|exact I]. intros ->. destruct I as [E|I]; [injection E as -> _; rewrite lex_irr in A; discriminate|].
        pose proof (F _ I) as X. cbn [fst] in X. rewrite (st_asym _ lex_st _ _ A) in X. discriminate.
      * intros [[-> ->]|[_ I]]; auto.
    + cbn [In]. rewrite (IH S'). split.
      * intros [E|[H|[H1 H2]]]; [injection E as <- <-; right; split; [intros ->; rewrite lex_irr in B; discriminate|auto]|auto|auto].
      * intros [H|[H1 [E|I]]]; auto.
    + pose proof (lex_total _ _ A B) as ->. cbn [In]. split.
      * intros [E|I]; [injection E as <- <-; auto|]. right. split; [|auto]. intros ->. pose proof (F _ I) as X. cbn [fst] in X. rewrite lex_irr in X. discriminate.
      * intros [[-> ->]|[N [E|I]]]; auto. injection E as -> _. contradiction.
Qed.
End Assign.
