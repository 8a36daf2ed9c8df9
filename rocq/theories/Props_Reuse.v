(** C78: reading into an object that is used again, and objects after a read that failed. *)
From Verif Require Import Base BaseLemmas Spec_Cbor Model_Cbor Proof_Cbor Spec_Ledger Model_Ledger Proof_Ledger Proof_Ledger2 Props_Ledger Model_Reuse.
Ltac Zify.zify_post_hook ::= idtac.

(** ** Specification *)
(** An object on which [deserialize] is called once for every element of [l], exceptions being caught; [None]: undefined behaviour on the way. *)
Fixpoint read_all {S} (rd : list Z -> member S unit) (l : list (list Z)) (s : S) : option S :=
  match l with
  | [] => Some s
  | b :: r => match rd b s with (_, UB) => None | (s', _) => read_all rd r s' end
  end.
(** The value of the last text that has one, or what was there. *)
Fixpoint last_value {S} (value : list Z -> option S) (l : list (list Z)) (s : S) : S :=
  match l with [] => s | b :: r => last_value value r (match value b with Some v => v | None => s end) end.
(** What the bytes say to a reader that starts from nothing. *)
Definition said {S} (fresh : list Z -> outcome S) (b : list Z) : option S := match fresh b with Ok v => Some v | _ => None end.
(** The same, for types with kinds: bytes of no known kind say nothing. *)
Definition said_kind {S} (blank : S -> bool) (fresh : list Z -> outcome S) (b : list Z) : option S := match fresh b with Ok v => if blank v then None else Some v | _ => None end.
(** Reading into any object ends like reading into a fresh one, and with the same value. *)
Definition as_new {S} (rd : list Z -> member S unit) (fresh : list Z -> outcome S) : Prop :=
  forall s b, match fresh b with Ok v => rd b s = (v, Ok tt) | Throw => snd (rd b s) = Throw | UB => snd (rd b s) = UB end.
(** A read that throws leaves the object alone. *)
Definition all_or_nothing {S} (rd : list Z -> member S unit) : Prop := forall s b, snd (rd b s) = Throw -> fst (rd b s) = s.
Definition no_relay (r : relay) : bool := match r with RNone => true | _ => false end.
Definition no_cert (c : cert) : bool := match c with CertNone => true | _ => false end.
Definition no_script (m : mscript) : bool := match m with MNone => true | _ => false end.
(** The map that is element [i] of the array the bytes hold. *)
Definition part (b : list Z) (i : nat) : option (list (cbor * cbor)) :=
  match cbor_parse b with Ok c => match as_array c with Some data => match nth_error data i with Some x => as_map x | None => None end | None => None end | _ => None end.

(** What a failed read of a body leaves in an object that held [s]: the members before the first bad entry are the new ones, the one with the bad entry holds the entries before it,
    those after it are still the old ones.  [set_insert], [map_assign]: insertion into a std::set, assignment to a std::map entry. *)
Definition entries (m : list (cbor * cbor)) (k : Z) : list cbor := match map_get m k with Some c => match as_array c with Some l => l | None => [] end | None => [] end.
Definition number (m : list (cbor * cbor)) (k : Z) : Z := match map_get m k with Some c => match as_uint c with Some n => n | None => 0 end | None => 0 end.
Definition inputs_set (l : list txin) : list txin := fold_left (fun s x => set_insert txin_lt x s) l [].
Definition body_left (s : txbody) (m : list (cbor * cbor)) (s' : txbody) : Prop :=
  (exists a x r ins, entries m 0 = a ++ x :: r /\ mapM (item_des txin_des) a = Ok ins /\ item_des txin_des x = Throw /\
     s' = {| tb_inputs := inputs_set ins; tb_outputs := tb_outputs s; tb_fee := tb_fee s; tb_ttl := tb_ttl s; tb_certs := tb_certs s; tb_withdrawals := tb_withdrawals s; tb_metadata_hash := tb_metadata_hash s |}) \/
  exists ins, mapM (item_des txin_des) (entries m 0) = Ok ins /\
  ((exists a x r outs, entries m 1 = a ++ x :: r /\ mapM (item_des txout_des) a = Ok outs /\ item_des txout_des x = Throw /\
     s' = {| tb_inputs := inputs_set ins; tb_outputs := outs; tb_fee := tb_fee s; tb_ttl := tb_ttl s; tb_certs := tb_certs s; tb_withdrawals := tb_withdrawals s; tb_metadata_hash := tb_metadata_hash s |}) \/
   exists outs, mapM (item_des txout_des) (entries m 1) = Ok outs /\
   ((exists a x r cs, entries m 4 = a ++ x :: r /\ mapM (item_des cert_des) a = Ok cs /\ item_des cert_des x = Throw /\
      s' = {| tb_inputs := inputs_set ins; tb_outputs := outs; tb_fee := number m 2; tb_ttl := number m 3; tb_certs := cs; tb_withdrawals := tb_withdrawals s; tb_metadata_hash := tb_metadata_hash s |}) \/
    exists cs ws c h, mapM (item_des cert_des) (entries m 4) = Ok cs /\ map_get m 7 = Some c /\ as_bytes c = Some h /\ zlen h <> 32 /\
      s' = {| tb_inputs := inputs_set ins; tb_outputs := outs; tb_fee := number m 2; tb_ttl := number m 3; tb_certs := cs; tb_withdrawals := ws; tb_metadata_hash := None |})).

(** ** Lemmas *)
Lemma seq_local {S A B} (o : outcome A) (q : A -> member S B) s : seq (local o) q s = match o with Ok x => q x s | Throw => (s, Throw) | UB => (s, UB) end.
Proof. unfold seq, local. destruct o; reflexivity. Qed.
Lemma seq_assign {S B} (f : S -> S) (q : unit -> member S B) s : seq (assign f) q s = q tt (f s).
Proof. reflexivity. Qed.
Lemma seq_step {S A B} (o : outcome A) (g : A -> S -> S) (q : unit -> member S B) s :
  seq (seq (local o) (fun y => assign (g y))) q s = match o with Ok y => q tt (g y s) | Throw => (s, Throw) | UB => (s, UB) end.
Proof. unfold seq, local, assign. destruct o; reflexivity. Qed.
Lemma seq_done {S A B} (p : member S A) (q : A -> member S B) s s' x : p s = (s', Ok x) -> seq p q s = q x s'.
Proof. intros E. unfold seq. rewrite E. reflexivity. Qed.
Lemma seq_throw {S A B} (p : member S A) (q : A -> member S B) s : snd (p s) = Throw -> seq p q s = (fst (p s), Throw).
Proof. intros E. unfold seq. destruct (p s) as [t o]. cbn [snd] in E. subst o. reflexivity. Qed.
Lemma seq_ub {S A B} (p : member S A) (q : A -> member S B) s : snd (p s) = UB -> seq p q s = (fst (p s), UB).
Proof. intros E. unfold seq. destruct (p s) as [t o]. cbn [snd] in E. subst o. reflexivity. Qed.
(** a loop that reads and then changes the object *)
Lemma each_ok {S A B} (f : A -> outcome B) (g : B -> S -> S) l : forall s, 
  each (fun x => set y <- local (f x); assign (g y)) l s =
  match mapM f l with
  | Ok ys => (fold_left (fun s y => g y s) ys s, Ok tt)
  | Throw => (fst (each (fun x => set y <- local (f x); assign (g y)) l s), Throw)
  | UB => (fst (each (fun x => set y <- local (f x); assign (g y)) l s), UB)
  end.
Proof.
  induction l as [|x l IH]; intros s; cbn [each mapM bind fold_left]; [reflexivity|].
  rewrite seq_step. destruct (f x) as [y| |]; cbn [bind]; [|reflexivity|reflexivity].
  rewrite IH. destruct (mapM f l) as [ys| |]; cbn [bind fst]; reflexivity.
Qed.
Lemma each_throw {S A B} (f : A -> outcome B) (g : B -> S -> S) l : mapM f l = Throw -> forall s,
  exists a x c ys, l = a ++ x :: c /\ mapM f a = Ok ys /\ f x = Throw /\ each (fun x => set y <- local (f x); assign (g y)) l s = (fold_left (fun s y => g y s) ys s, Throw).
Proof.
  induction l as [|x l IH]; cbn [mapM]; [discriminate|]. intros E s. destruct (f x) as [y| |] eqn:F; cbn [bind] in E; [|exists [], x, l, []; repeat split; [exact F|]; cbn [each fold_left]; rewrite seq_step, F; reflexivity|discriminate].
  destruct (mapM f l) as [z| |] eqn:M; cbn [bind] in E; [discriminate| |discriminate]. destruct (IH eq_refl (g y s)) as (a & x' & c & ys & -> & EA & FX & EE).
  exists (x :: a), x', c, (y :: ys). split; [reflexivity|]. split; [cbn [mapM]; rewrite F; cbn [bind]; rewrite EA; reflexivity|]. split; [exact FX|].
  cbn [each fold_left]. rewrite seq_step, F. exact EE.
Qed.

Lemma as_new_array {S} (des : list cbor -> member S unit) (fresh : list cbor -> outcome S) :
  (forall s d, match fresh d with Ok v => des d s = (v, Ok tt) | Throw => snd (des d s) = Throw | UB => snd (des d s) = UB end) ->
  as_new (array_into des) (deserialize_array fresh).
Proof.
  intros H s b. unfold array_into, deserialize_array. rewrite seq_local. destruct (cbor_parse b) as [c| |]; cbn [bind]; [|reflexivity|reflexivity]. rewrite seq_local. destruct (as_array c) as [d|]; cbn [want bind]; [apply H|reflexivity].
Qed.
Lemma as_new_map {S} (des : list (cbor * cbor) -> member S unit) (fresh : list (cbor * cbor) -> outcome S) :
  (forall s d, match fresh d with Ok v => des d s = (v, Ok tt) | Throw => snd (des d s) = Throw | UB => snd (des d s) = UB end) ->
  as_new (map_into des) (deserialize_map fresh).
Proof.
  intros H s b. unfold map_into, deserialize_map. rewrite seq_local. destruct (cbor_parse b) as [c| |]; cbn [bind]; [|reflexivity|reflexivity]. rewrite seq_local. destruct (as_map c) as [d|]; cbn [want bind]; [apply H|reflexivity].
Qed.
Ltac steps := repeat (first [rewrite seq_local | rewrite seq_assign]); cbn [want bind].
Lemma rational_new s t c : match rational_des t c with Ok v => rational_into t c s = (v, Ok tt) | Throw => snd (rational_into t c s) = Throw | UB => snd (rational_into t c s) = UB end.
Proof.
  unfold rational_des, rational_into. destruct (negb (t =? 30)); [reflexivity|]. steps. destruct (as_array c) as [[|a [|b [|x l]]]|]; cbn [want bind]; try reflexivity.
  steps. destruct (as_uint a); cbn [want bind]; [|reflexivity]. steps. destruct (as_uint b); cbn [want bind]; [|reflexivity]. steps. destruct (z0 =? 0); reflexivity.
Qed.
Lemma pm_new s d : match pm_des d with Ok v => pm_into d s = (v, Ok tt) | Throw => snd (pm_into d s) = Throw | UB => snd (pm_into d s) = UB end.
Proof.
  unfold pm_des, pm_into. destruct d as [|u [|h [|x l]]]; try reflexivity. steps. destruct (as_text u); cbn [want bind]; [|reflexivity]. steps. destruct (as_bytes h) as [y|]; cbn [want bind]; [|reflexivity].
  steps. unfold fixed. destruct (zlen y =? 32); reflexivity.
Qed.
Lemma cred_new s d : match cred_des d with Ok v => cred_into d s = (v, Ok tt) | Throw => snd (cred_into d s) = Throw | UB => snd (cred_into d s) = UB end.
Proof.
  unfold cred_des, cred_into. destruct d as [|t [|h [|x l]]]; try reflexivity. steps. destruct (as_uint t) as [n|]; cbn [want bind]; [|reflexivity]. steps. destruct (as_bytes h) as [y|]; cbn [want bind]; [|reflexivity].
  destruct (n =? 0); [|destruct (n =? 1)]; cbn [bind]; [| |reflexivity]; steps; unfold fixed; destruct (zlen y =? 28); reflexivity.
Qed.
Lemma txout_new s d : match txout_des d with Ok v => txout_into d s = (v, Ok tt) | Throw => txout_into d s = (s, Throw) | UB => snd (txout_into d s) = UB end.
Proof. unfold txout_des, txout_into. destruct d as [|t [|h [|x l]]]; try reflexivity. steps. destruct (as_bytes t) as [n|]; cbn [want bind]; [|reflexivity]. steps. destruct (as_uint h) as [y|]; cbn [want bind]; reflexivity. Qed.
Lemma txin_new s d : match txin_des d with Ok v => txin_into d s = (v, Ok tt) | Throw => txin_into d s = (s, Throw) | UB => snd (txin_into d s) = UB end.
Proof.
  unfold txin_des, txin_into. destruct d as [|t [|h [|x l]]]; try reflexivity. steps. destruct (as_bytes t) as [n|]; cbn [want bind]; [|reflexivity]. steps. destruct (as_uint h) as [y|]; cbn [want bind]; [|reflexivity].
  steps. unfold fixed. destruct (zlen n =? 32); reflexivity.
Qed.
Lemma fold_put {A B S} (get : S -> B) (put : B -> S -> S) (f : B -> A -> B) : (forall v s, get (put v s) = v) -> (forall v w s, put v (put w s) = put v s) ->
  forall l v s, fold_left (fun s y => put (f (get s) y) s) l (put v s) = put (fold_left f l v) s.
Proof. intros G P. induction l as [|y l IH]; intros v s; cbn [fold_left]; [reflexivity|]. rewrite G, P. apply IH. Qed.
Lemma fold_snoc {A} (l : list A) : forall acc, fold_left (fun l x => l ++ [x]) l acc = acc ++ l.
Proof. induction l as [|x l IH]; intros acc; cbn [fold_left]; [rewrite app_nil_r; reflexivity|]. rewrite IH, <- app_assoc. reflexivity. Qed.
Lemma seq_each {S A B C} (f : A -> outcome B) (g : B -> S -> S) l (q : unit -> member S C) s :
  seq (each (fun x => set y <- local (f x); assign (g y)) l) q s =
  match mapM f l with
  | Ok ys => q tt (fold_left (fun s y => g y s) ys s)
  | Throw => (fst (each (fun x => set y <- local (f x); assign (g y)) l s), Throw)
  | UB => (fst (each (fun x => set y <- local (f x); assign (g y)) l s), UB)
  end.
Proof. unfold seq at 1. rewrite each_ok. destruct (mapM f l); reflexivity. Qed.
Lemma fold_inputs l v b : fold_left (fun b i => put_inputs (set_insert txin_lt i (tb_inputs b)) b) l (put_inputs v b) = put_inputs (fold_left (fun s x => set_insert txin_lt x s) l v) b.
Proof. apply (fold_put tb_inputs put_inputs (fun s x => set_insert txin_lt x s)); reflexivity. Qed.
Lemma fold_outputs l b : fold_left (fun b o => put_outputs (tb_outputs b ++ [o]) b) l (put_outputs [] b) = put_outputs l b.
Proof. rewrite (fold_put tb_outputs put_outputs (fun s x => s ++ [x])) by reflexivity. rewrite fold_snoc. reflexivity. Qed.
Lemma fold_certs l b : fold_left (fun b o => put_certs (tb_certs b ++ [o]) b) l (put_certs [] b) = put_certs l b.
Proof. rewrite (fold_put tb_certs put_certs (fun s x => s ++ [x])) by reflexivity. rewrite fold_snoc. reflexivity. Qed.
Lemma fold_wdrl l v b : fold_left (fun b p => put_withdrawals (map_assign (fst p) (snd p) (tb_withdrawals b)) b) l (put_withdrawals v b) = put_withdrawals (fold_left (fun s p => map_assign (fst p) (snd p) s) l v) b.
Proof. apply (fold_put tb_withdrawals put_withdrawals (fun s p => map_assign (fst p) (snd p) s)); reflexivity. Qed.
(** the body: how the read ends and what the object is then *)
Lemma body_run s m : txbody_into m s =
  match mapM (item_des txin_des) (body_array m 0) with
  | Ok ins => match mapM (item_des txout_des) (body_array m 1) with
    | Ok outs => let s1 := put_ttl (body_uint m 3) (put_fee (body_uint m 2) (put_outputs outs (put_inputs (fold_left (fun s x => set_insert txin_lt x s) ins []) s))) in
      match mapM (item_des cert_des) (body_array m 4) with
      | Ok certs => match mapM wdrl_entry (match map_get m 5 with Some c => match as_map c with Some l => l | None => [] end | None => [] end) with
        | Ok ws => let s2 := put_metadata None (put_withdrawals (fold_left (fun s p => map_assign (fst p) (snd p) s) ws []) (put_certs certs s1)) in
          match map_get m 7 with
          | Some c => match as_bytes c with Some h => if zlen h =? 32 then (put_metadata (Some h) s2, Ok tt) else (s2, Throw) | None => (s2, Ok tt) end
          | None => (s2, Ok tt)
          end
        | Throw => (fst (each (fun e => set p <- local (wdrl_entry e); assign (fun b => put_withdrawals (map_assign (fst p) (snd p) (tb_withdrawals b)) b)) (match map_get m 5 with Some c => match as_map c with Some l => l | None => [] end | None => [] end) (put_withdrawals [] (put_certs certs s1))), Throw)
        | UB => (fst (each (fun e => set p <- local (wdrl_entry e); assign (fun b => put_withdrawals (map_assign (fst p) (snd p) (tb_withdrawals b)) b)) (match map_get m 5 with Some c => match as_map c with Some l => l | None => [] end | None => [] end) (put_withdrawals [] (put_certs certs s1))), UB)
        end
      | Throw => (fst (each (fun c => set x <- local (item_des cert_des c); assign (fun b => put_certs (tb_certs b ++ [x]) b)) (body_array m 4) (put_certs [] s1)), Throw)
      | UB => (fst (each (fun c => set x <- local (item_des cert_des c); assign (fun b => put_certs (tb_certs b ++ [x]) b)) (body_array m 4) (put_certs [] s1)), UB)
      end
    | Throw => (fst (each (fun c => set o <- local (item_des txout_des c); assign (fun b => put_outputs (tb_outputs b ++ [o]) b)) (body_array m 1) (put_outputs [] (put_inputs (fold_left (fun s x => set_insert txin_lt x s) ins []) s))), Throw)
    | UB => (fst (each (fun c => set o <- local (item_des txout_des c); assign (fun b => put_outputs (tb_outputs b ++ [o]) b)) (body_array m 1) (put_outputs [] (put_inputs (fold_left (fun s x => set_insert txin_lt x s) ins []) s))), UB)
    end
  | Throw => (fst (each (fun c => set i <- local (item_des txin_des c); assign (fun b => put_inputs (set_insert txin_lt i (tb_inputs b)) b)) (body_array m 0) (put_inputs [] s)), Throw)
  | UB => (fst (each (fun c => set i <- local (item_des txin_des c); assign (fun b => put_inputs (set_insert txin_lt i (tb_inputs b)) b)) (body_array m 0) (put_inputs [] s)), UB)
  end.
Proof.
  unfold txbody_into. rewrite seq_assign, seq_each. destruct (mapM (item_des txin_des) (body_array m 0)) as [ins| |]; [|reflexivity|reflexivity]. rewrite fold_inputs.
  rewrite seq_assign, seq_each. destruct (mapM (item_des txout_des) (body_array m 1)) as [outs| |]; [|reflexivity|reflexivity]. rewrite fold_outputs, !seq_assign, seq_each. cbv zeta.
  change (put_certs [] (put_ttl (body_uint m 3) (put_ttl 0 (put_fee (body_uint m 2) (put_fee 0 (put_outputs outs (put_inputs (fold_left (fun s x => set_insert txin_lt x s) ins []) s)))))))
    with (put_certs [] (put_ttl (body_uint m 3) (put_fee (body_uint m 2) (put_outputs outs (put_inputs (fold_left (fun s x => set_insert txin_lt x s) ins []) s))))).
  destruct (mapM (item_des cert_des) (body_array m 4)) as [certs| |]; [|reflexivity|reflexivity]. rewrite fold_certs, seq_assign, seq_each.
  destruct (mapM wdrl_entry _) as [ws| |]; [|reflexivity|reflexivity]. rewrite fold_wdrl, seq_assign. destruct (map_get m 7) as [c|]; [|reflexivity]. destruct (as_bytes c) as [h|]; [|reflexivity].
  rewrite seq_local. unfold fixed. destruct (zlen h =? 32); reflexivity.
Qed.
Lemma body_new s m : match txbody_des m with Ok v => txbody_into m s = (v, Ok tt) | Throw => snd (txbody_into m s) = Throw | UB => snd (txbody_into m s) = UB end.
Proof.
  rewrite body_run. unfold txbody_des. destruct (mapM (item_des txin_des) (body_array m 0)) as [ins| |]; cbn [bind]; [|reflexivity|reflexivity].
  destruct (mapM (item_des txout_des) (body_array m 1)) as [outs| |]; cbn [bind]; [|reflexivity|reflexivity]. cbv zeta. destruct (mapM (item_des cert_des) (body_array m 4)) as [certs| |]; cbn [bind]; [|reflexivity|reflexivity].
  destruct (mapM wdrl_entry _) as [ws| |]; cbn [bind]; [|reflexivity|reflexivity]. destruct (map_get m 7) as [c|]; [|reflexivity]. destruct (as_bytes c) as [h|]; [|reflexivity]. unfold fixed. destruct (zlen h =? 32); reflexivity.
Qed.
Definition put_vkeys (v : list (list Z * list Z)) (w : witset) : witset := {| ws_vkeys := v; ws_scripts := ws_scripts w; ws_bootstrap := ws_bootstrap w |}.
Definition vkey_step (c : cbor) : member witset unit := set v <- local (vkey_des c);
      match v with Some v => assign (fun w => {| ws_vkeys := ws_vkeys w ++ [v]; ws_scripts := ws_scripts w; ws_bootstrap := ws_bootstrap w |}) | None => local (Ok tt) end.
Lemma vkey_step_ok c v s : vkey_step c (put_vkeys v s) = match vkey_des c with Ok (Some k) => (put_vkeys (v ++ [k]) s, Ok tt) | Ok None => (put_vkeys v s, Ok tt) | Throw => (put_vkeys v s, Throw) | UB => (put_vkeys v s, UB) end.
Proof. unfold vkey_step. rewrite seq_local. destruct (vkey_des c) as [[k|]| |]; reflexivity. Qed.
Lemma vkeys_each l : forall v s, match mapM vkey_des l with
  | Ok ys => each vkey_step l (put_vkeys v s) = (put_vkeys (v ++ keep_some ys) s, Ok tt)
  | Throw => snd (each vkey_step l (put_vkeys v s)) = Throw
  | UB => snd (each vkey_step l (put_vkeys v s)) = UB
  end.
Proof.
  induction l as [|c l IH]; intros v s; cbn [each mapM bind]; [rewrite app_nil_r; reflexivity|]. unfold seq. rewrite vkey_step_ok. destruct (vkey_des c) as [[k|]| |]; cbn [bind snd]; try reflexivity.
  - specialize (IH (v ++ [k]) s). destruct (mapM vkey_des l); cbn [bind]; [|exact IH|exact IH]. rewrite IH. cbn [keep_some flat_map]. rewrite <- app_assoc. reflexivity.
  - specialize (IH v s). destruct (mapM vkey_des l); cbn [bind]; exact IH.
Qed.
Lemma witset_new s m : match witset_des m with Ok v => witset_into m s = (v, Ok tt) | Throw => snd (witset_into m s) = Throw | UB => snd (witset_into m s) = UB end.
Proof.
  unfold witset_des, witset_into. rewrite seq_assign. change {| ws_vkeys := []; ws_scripts := ws_scripts s; ws_bootstrap := ws_bootstrap s |} with (put_vkeys [] s). fold vkey_step. change (fun c : cbor => _) with vkey_step.
  pose proof (vkeys_each (body_array m 0) [] s) as E. destruct (mapM vkey_des (body_array m 0)) as [ys| |]; cbn [bind].
  - rewrite (seq_done _ _ _ _ _ E). reflexivity.
  - rewrite seq_throw by exact E. reflexivity.
  - rewrite seq_ub by exact E. reflexivity.
Qed.
(** kinds *)
Definition kinds {S D} (blank : S -> bool) (des : D -> member S unit) (fresh : D -> outcome S) : Prop :=
  forall s d, match fresh d with Ok v => des d s = (if blank v then s else v, Ok tt) | Throw => des d s = (s, Throw) | UB => snd (des d s) = UB end.
Lemma kinds_array {S} blank (des : list cbor -> member S unit) fresh : kinds blank des fresh -> kinds blank (array_into des) (deserialize_array fresh).
Proof.
  intros H s b. unfold array_into, deserialize_array. rewrite seq_local. destruct (cbor_parse b) as [c| |]; cbn [bind]; [|reflexivity|reflexivity]. rewrite seq_local. destruct (as_array c) as [d|]; cbn [want bind]; [apply H|reflexivity].
Qed.
Lemma relay_known d c0 tag v : zlen d <? 2 = false -> get_ub d 0 = Ok c0 -> as_uint c0 = Some tag -> relay_des d = Ok v -> no_relay v = negb ((tag =? 0) || (tag =? 1) || (tag =? 2)).
Proof.
  intros Z0 G U. unfold relay_des. rewrite Z0, G. cbn [bind]. rewrite U. cbn [want bind]. destruct (tag =? 0); [|destruct (tag =? 1); [|destruct (tag =? 2)]]; cbn [orb negb].
  - destruct (negb _); [discriminate|]. destruct (get_ub d 1); cbn [bind]; [|discriminate|discriminate]. destruct (get_ub d 2); cbn [bind]; [|discriminate|discriminate]. destruct (as_bytes a0) as [b|]; [destruct (zlen b =? 4); [|destruct (zlen b =? 16)]|]; intros E; injection E as <-; reflexivity.
  - destruct (negb _); [discriminate|]. destruct (get_ub d 2); cbn [bind]; [|discriminate|discriminate]. destruct (want (as_text a)); cbn [bind]; [|discriminate|discriminate]. destruct (get_ub d 1); cbn [bind]; [|discriminate|discriminate]. intros E; injection E as <-; reflexivity.
  - destruct (negb _); [discriminate|]. destruct (get_ub d 1); cbn [bind]; [|discriminate|discriminate]. destruct (want (as_text a)); cbn [bind]; [|discriminate|discriminate]. intros E; injection E as <-; reflexivity.
  - intros E; injection E as <-; reflexivity.
Qed.
Lemma relay_kinds : kinds no_relay relay_into relay_des.
Proof.
  intros s d. pose proof (fun c0 tag v => relay_known d c0 tag v) as K. unfold relay_into. destruct (zlen d <? 2) eqn:Z0; [unfold relay_des; rewrite Z0; reflexivity|]. rewrite seq_local. destruct (get_ub d 0) as [c0| |] eqn:G.
  2,3: unfold relay_des; rewrite Z0, G; reflexivity. rewrite seq_local. destruct (as_uint c0) as [tag|] eqn:U; [|unfold relay_des; rewrite Z0, G; cbn [bind]; rewrite U; reflexivity].
  cbn [want]. destruct ((tag =? 0) || (tag =? 1) || (tag =? 2)) eqn:T.
  - rewrite seq_local. destruct (relay_des d) as [v| |] eqn:R; [|reflexivity|reflexivity]. rewrite (K _ _ _ eq_refl eq_refl U eq_refl), T. reflexivity.
  - destruct (relay_des d) as [v| |] eqn:R; [rewrite (K _ _ _ eq_refl eq_refl U eq_refl), T; reflexivity| |]; exfalso; unfold relay_des in R; rewrite Z0, G in R; cbn [bind] in R; rewrite U in R; cbn [want bind] in R;
      apply orb_false_elim in T as [T T2]; apply orb_false_elim in T as [T0 T1]; rewrite T0, T1, T2 in R; discriminate.
Qed.
Ltac bindstep := match goal with |- (let* _ := ?o in _) = Ok _ -> _ => destruct o; cbn [bind]; [|discriminate|discriminate] end.
Lemma cert_known d c0 tag v : zlen d <? 2 = false -> get_ub d 0 = Ok c0 -> as_uint c0 = Some tag -> cert_des d = Ok v -> no_cert v = negb ((0 <=? tag) && (tag <=? 6)).
Proof.
  intros Z0 G U. unfold cert_des. rewrite Z0, G. cbn [bind]. rewrite U. cbn [want bind].
  destruct (tag =? 0) eqn:E0; [apply Z.eqb_eq in E0; subst tag; destruct (negb _); [discriminate|]; repeat bindstep; intros E; injection E as <-; reflexivity|].
  destruct (tag =? 1) eqn:E1; [apply Z.eqb_eq in E1; subst tag; destruct (negb _); [discriminate|]; repeat bindstep; intros E; injection E as <-; reflexivity|].
  destruct (tag =? 2) eqn:E2; [apply Z.eqb_eq in E2; subst tag; destruct (negb _); [discriminate|]; repeat bindstep; intros E; injection E as <-; reflexivity|].
  destruct (tag =? 3) eqn:E3; [apply Z.eqb_eq in E3; subst tag; unfold pool_reg_des; destruct (zlen d <? 7); [discriminate|]; repeat bindstep; intros E; injection E as <-; reflexivity|].
  destruct (tag =? 4) eqn:E4; [apply Z.eqb_eq in E4; subst tag; destruct (negb _); [discriminate|]; repeat bindstep; intros E; injection E as <-; reflexivity|].
  destruct (tag =? 5) eqn:E5; [apply Z.eqb_eq in E5; subst tag; repeat bindstep; intros E; injection E as <-; reflexivity|].
  destruct (tag =? 6) eqn:E6; [apply Z.eqb_eq in E6; subst tag; repeat bindstep; intros E; injection E as <-; reflexivity|].
  intros E; injection E as <-. cbn [no_cert]. symmetry. apply negb_true_iff, andb_false_iff. apply Z.eqb_neq in E0, E1, E2, E3, E4, E5, E6. destruct (0 <=? tag) eqn:X; [right; apply Z.leb_gt; apply Z.leb_le in X; lia|left; reflexivity].
Qed.
Lemma cert_unknown d c0 tag : zlen d <? 2 = false -> get_ub d 0 = Ok c0 -> as_uint c0 = Some tag -> (0 <=? tag) && (tag <=? 6) = false -> cert_des d = Ok CertNone.
Proof.
  intros Z0 G U T. unfold cert_des. rewrite Z0, G. cbn [bind]. rewrite U. cbn [want bind].
  repeat match goal with |- context [tag =? ?n] => destruct (Z.eqb_spec tag n) as [X|_]; [subst tag; discriminate T|] end. reflexivity.
Qed.
Lemma cert_kinds : kinds no_cert cert_into cert_des.
Proof.
  intros s d. unfold cert_into. destruct (zlen d <? 2) eqn:Z0; [unfold cert_des; rewrite Z0; reflexivity|]. rewrite seq_local. destruct (get_ub d 0) as [c0| |] eqn:G.
  2,3: unfold cert_des; rewrite Z0, G; reflexivity. rewrite seq_local. destruct (as_uint c0) as [tag|] eqn:U; [|unfold cert_des; rewrite Z0, G; cbn [bind]; rewrite U; reflexivity].
  cbn [want]. destruct ((0 <=? tag) && (tag <=? 6)) eqn:T.
  - rewrite seq_local. destruct (cert_des d) as [v| |] eqn:R; [|reflexivity|reflexivity]. rewrite (cert_known _ _ _ _ Z0 G U R), T. reflexivity.
  - rewrite (cert_unknown _ _ _ Z0 G U T). reflexivity.
Qed.
Lemma ms_kinds : kinds no_script ms_into ms_des.
Proof.
  intros s d. unfold ms_into, ms_des. destruct d as [|t [|a more]]; [reflexivity|reflexivity|]. rewrite seq_local. cbn [ms_item]. destruct (as_uint t) as [tag|] eqn:U; [|reflexivity]. cbn [want].
  destruct ((0 <=? tag) && (tag <=? 3)) eqn:T.
  - rewrite seq_local.
    destruct (tag =? 0) eqn:E0; [|destruct (tag =? 1) eqn:E1; [|destruct (tag =? 2) eqn:E2; [|destruct (tag =? 3) eqn:E3]]].
    1-4: destruct more; [|reflexivity]; match goal with |- context [let* _ := ?o in _] => destruct o; cbn [bind]; try reflexivity end.
    + unfold fixed. destruct (zlen a0 =? 28); reflexivity.
    + apply andb_prop in T as [A B]. apply Z.leb_le in A, B. apply Z.eqb_neq in E0, E1, E2, E3. lia.
  - repeat match goal with |- context [tag =? ?n] => destruct (Z.eqb_spec tag n) as [X|_]; [subst tag; discriminate T|] end. reflexivity.
Qed.

(** ** Theorems *)
(** C78: reading these types into an object that held something else, or that a failed read left behind, ends as reading into a fresh object does, and with the same value. *)
Theorem C78_as_new :
  as_new (tag_into rational_into) (deserialize_tag rational_des) /\ as_new (array_into pm_into) (deserialize_array pm_des) /\ as_new (array_into cred_into) (deserialize_array cred_des) /\
  as_new (array_into txout_into) (deserialize_array txout_des) /\ as_new (array_into txin_into) (deserialize_array txin_des) /\
  as_new (map_into txbody_into) (deserialize_map txbody_des) /\ as_new (map_into witset_into) (deserialize_map witset_des).
Proof.
  split.
  { intros s b. unfold tag_into, deserialize_tag. rewrite seq_local. destruct (cbor_parse b) as [c| |]; cbn [bind]; [|reflexivity|reflexivity]. rewrite seq_local. destruct (as_tag c) as [d|]; cbn [want bind]; [apply rational_new|reflexivity]. }
  split; [apply as_new_array, pm_new|]. split; [apply as_new_array, cred_new|]. split.
  { apply as_new_array. intros s d. pose proof (txout_new s d) as H. destruct (txout_des d); [exact H|rewrite H; reflexivity|exact H]. } split.
  { apply as_new_array. intros s d. pose proof (txin_new s d) as H. destruct (txin_des d); [exact H|rewrite H; reflexivity|exact H]. }
  split; [apply as_new_map, body_new|apply as_new_map, witset_new].
Qed.
Print Assumptions C78_as_new.
(** C78: relays, certificates and scripts: the same, except that bytes of an unknown kind leave the object alone, and report success. *)
Theorem C78_kinds : kinds no_relay (array_into relay_into) (deserialize_array relay_des) /\ kinds no_cert (array_into cert_into) (deserialize_array cert_des) /\ kinds no_script (array_into ms_into) (deserialize_array ms_des).
Proof. repeat split; apply kinds_array; [apply relay_kinds|apply cert_kinds|apply ms_kinds]. Qed.
Print Assumptions C78_kinds.
(** C78: whatever bytes are read one after the other into one of these objects, exceptions being caught, it holds the value of the last ones that had one. *)
Lemma history_of {S} blank (rd : list Z -> member S unit) fresh : kinds blank rd fresh -> forall l s s', read_all rd l s = Some s' -> s' = last_value (said_kind blank fresh) l s.
Proof.
  intros K. induction l as [|b l IH]; intros s s'; cbn [read_all last_value]; [congruence|]. pose proof (K s b) as H. unfold said_kind at 2. destruct (fresh b) as [v| |].
  - rewrite H. intros E. rewrite (IH _ _ E). destruct (blank v); reflexivity.
  - rewrite H. apply IH.
  - destruct (rd b s) as [t o]. cbn [snd] in H. subst o. discriminate.
Qed.
Lemma said_all {S} (fresh : list Z -> outcome S) l : forall s, last_value (said_kind (fun _ => false) fresh) l s = last_value (said fresh) l s.
Proof. induction l as [|b l IH]; intros s; cbn [last_value]; [reflexivity|]. rewrite IH. reflexivity. Qed.
Theorem C78_history : forall l,
  (forall s s', read_all (array_into txin_into) l s = Some s' -> s' = last_value (said (deserialize_array txin_des)) l s) /\
  (forall s s', read_all (array_into txout_into) l s = Some s' -> s' = last_value (said (deserialize_array txout_des)) l s) /\
  (forall s s', read_all (array_into relay_into) l s = Some s' -> s' = last_value (said_kind no_relay (deserialize_array relay_des)) l s) /\
  (forall s s', read_all (array_into cert_into) l s = Some s' -> s' = last_value (said_kind no_cert (deserialize_array cert_des)) l s) /\
  (forall s s', read_all (array_into ms_into) l s = Some s' -> s' = last_value (said_kind no_script (deserialize_array ms_des)) l s).
Proof.
  intros l. destruct C78_kinds as (R & C & M).
  split; [intros s s' E; rewrite <- said_all; revert E; apply history_of, kinds_array; intros s0 d; pose proof (txin_new s0 d) as H; destruct (txin_des d); exact H|].
  split; [intros s s' E; rewrite <- said_all; revert E; apply history_of, kinds_array; intros s0 d; pose proof (txout_new s0 d) as H; destruct (txout_des d); exact H|].
  split; [intros s s'; apply history_of, R|]. split; [intros s s'; apply history_of, C|intros s s'; apply history_of, M].
Qed.
Print Assumptions C78_history.
(** C78: a transaction: the parts the bytes have are as new, the parts they do not have and the metadata are the old ones. *)
Theorem C78_transaction : forall s b t, deserialize_array tx_des b = Ok t -> exists t', array_into tx_into b s = (t', Ok tt) /\ tx_meta t' = tx_meta s /\
  tx_body t' = (match part b 0 with Some _ => tx_body t | None => tx_body s end) /\ tx_wits t' = (match part b 1 with Some _ => tx_wits t | None => tx_wits s end).
Proof.
  intros s b t. unfold deserialize_array, array_into, part. rewrite seq_local. destruct (cbor_parse b) as [c| |]; cbn [bind]; [|discriminate|discriminate]. rewrite seq_local. destruct (as_array c) as [d|]; cbn [want bind]; [|discriminate].
  unfold tx_des, tx_into. intros E. apply bind_ok in E as (bo & EB & E). apply bind_ok in E as (w & EW & E). injection E as <-. cbn [tx_body tx_wits].
  assert (HB : exists s1, (match nth_error d 0 with
    | Some c => match as_map c with Some m => within tx_body (fun b t => {| tx_body := b; tx_wits := tx_wits t; tx_meta := tx_meta t |}) (txbody_into m) | None => local (Ok tt) end
    | None => local (Ok tt) end) s = (s1, Ok tt) /\ tx_meta s1 = tx_meta s /\ tx_wits s1 = tx_wits s /\ tx_body s1 = match match nth_error d 0 with Some x => as_map x | None => None end with Some _ => bo | None => tx_body s end).
  { destruct (nth_error d 0) as [x|]; [|eexists; repeat split]. destruct (as_map x) as [m|]; [|eexists; repeat split]. pose proof (body_new (tx_body s) m) as H. rewrite EB in H. unfold within. rewrite H. eexists. repeat split. }
  destruct HB as (s1 & E1 & M1 & W1 & B1). rewrite (seq_done _ _ _ _ _ E1).
  destruct (nth_error d 1) as [x|]; [|exists s1; repeat split; assumption]. destruct (as_map x) as [m|]; [|exists s1; repeat split; assumption].
  pose proof (witset_new (tx_wits s1) m) as H. rewrite EW in H. unfold within. rewrite H. eexists. repeat split; [exact M1|exact B1].
Qed.
Print Assumptions C78_transaction.
(** C78: a move of rewards: the payments read are added to those already there, over any sequence of reads. *)
Lemma mir_new s d : match mir_des [] d with Ok v => mir_into d s = ({| mir_source := mir_source v; mir_creds := mir_creds s ++ mir_creds v |}, Ok tt) | Throw => snd (mir_into d s) = Throw | UB => snd (mir_into d s) = UB end.
Proof.
  unfold mir_des, mir_into. destruct d as [|t [|h [|x l]]]; try reflexivity. rewrite seq_local. destruct (as_uint t) as [n|]; cbn [want bind]; [|reflexivity]. rewrite seq_local. destruct (as_map h) as [m|]; cbn [want bind]; [|reflexivity].
  assert (L : forall src, match (let* creds := mapM mir_entry m in Ok {| mir_source := src; mir_creds := [] ++ creds |}) with
    | Ok v => each (fun e => set p <- local (mir_entry e); assign (fun x => {| mir_source := mir_source x; mir_creds := mir_creds x ++ [p] |})) m {| mir_source := src; mir_creds := mir_creds s |} = ({| mir_source := mir_source v; mir_creds := mir_creds s ++ mir_creds v |}, Ok tt)
    | Throw => snd (each (fun e => set p <- local (mir_entry e); assign (fun x => {| mir_source := mir_source x; mir_creds := mir_creds x ++ [p] |})) m {| mir_source := src; mir_creds := mir_creds s |}) = Throw
    | UB => snd (each (fun e => set p <- local (mir_entry e); assign (fun x => {| mir_source := mir_source x; mir_creds := mir_creds x ++ [p] |})) m {| mir_source := src; mir_creds := mir_creds s |}) = UB end).
  { intros src. rewrite each_ok. destruct (mapM mir_entry m) as [ys| |]; cbn [bind]; [|reflexivity|reflexivity]. cbn [mir_source mir_creds]. f_equal.
    clear. revert s. assert (G : forall ys v, fold_left (fun (s : mir) y => {| mir_source := mir_source s; mir_creds := mir_creds s ++ [y] |}) ys {| mir_source := src; mir_creds := v |} = {| mir_source := src; mir_creds := v ++ ys |}).
    { clear. induction ys as [|y ys IH]; intros v; cbn [fold_left]; [rewrite app_nil_r; reflexivity|]. cbn [mir_source mir_creds]. rewrite IH, <- app_assoc. reflexivity. }
    intros s. apply G. }
  destruct (n =? 0); [|destruct (n =? 1)]; cbn [bind]; [| |reflexivity]; rewrite seq_assign; apply L.
Qed.
Theorem C78_rewards : forall l vs, Forall2 (fun b v => deserialize_array (mir_des []) b = Ok v) l vs -> forall s,
  exists s', read_all (array_into mir_into) l s = Some s' /\ mir_creds s' = mir_creds s ++ concat (map mir_creds vs) /\ mir_source s' = last (map mir_source vs) (mir_source s).
Proof.
  induction 1 as [|b v l vs E F IH]; intros s; cbn [read_all]; [exists s; cbn [map concat last]; rewrite app_nil_r; auto|].
  assert (X : array_into mir_into b s = ({| mir_source := mir_source v; mir_creds := mir_creds s ++ mir_creds v |}, Ok tt)).
  { unfold deserialize_array in E. unfold array_into. rewrite seq_local. destruct (cbor_parse b) as [c| |]; cbn [bind] in E; [|discriminate|discriminate]. rewrite seq_local. destruct (as_array c) as [d|]; cbn [want bind] in *; [|discriminate].
    pose proof (mir_new s d) as H. rewrite E in H. exact H. }
  rewrite X. destruct (IH {| mir_source := mir_source v; mir_creds := mir_creds s ++ mir_creds v |}) as (s' & R & C & L). exists s'. split; [exact R|]. cbn [mir_creds mir_source] in *. split; [rewrite C; cbn [map concat]; rewrite <- app_assoc; reflexivity|].
  rewrite L. cbn [map]. destruct (map mir_source vs) eqn:M; [reflexivity|]. cbn [last]. destruct l0; [reflexivity|]. clear. revert r0. induction l0 as [|x l0 IH]; intros r0; [reflexivity|]. cbn [last] in *. apply IH.
Qed.
Print Assumptions C78_rewards.

(** C78: after a read that throws.  Inputs, outputs, relays, certificates and scripts are as they were. *)
Lemma kinds_all {S} blank (rd : list Z -> member S unit) fresh : kinds blank rd fresh -> all_or_nothing rd.
Proof. intros K s b T. pose proof (K s b) as H. destruct (fresh b) as [v| |]; [rewrite H in T; discriminate|rewrite H; reflexivity|rewrite H in T; discriminate]. Qed.
Theorem C78_all_or_nothing : all_or_nothing (array_into txin_into) /\ all_or_nothing (array_into txout_into) /\ all_or_nothing (array_into relay_into) /\ all_or_nothing (array_into cert_into) /\ all_or_nothing (array_into ms_into).
Proof.
  destruct C78_kinds as (R & C & M).
  split; [apply (kinds_all (fun _ => false) _ (deserialize_array txin_des)), kinds_array; intros s0 d; pose proof (txin_new s0 d) as H; destruct (txin_des d); exact H|].
  split; [apply (kinds_all (fun _ => false) _ (deserialize_array txout_des)), kinds_array; intros s0 d; pose proof (txout_new s0 d) as H; destruct (txout_des d); exact H|].
  split; [exact (kinds_all _ _ _ R)|split; [exact (kinds_all _ _ _ C)|exact (kinds_all _ _ _ M)]].
Qed.
Print Assumptions C78_all_or_nothing.
Lemma wdrl_no_throw l : mapM wdrl_entry l <> Throw.
Proof.
  induction l as [|[a n] l IH]; cbn [mapM]; [discriminate|]. unfold wdrl_entry at 1. destruct (as_bytes _); cbn [deref bind]; [|discriminate]. destruct (as_uint _); cbn [deref bind]; [|discriminate].
  destruct (mapM wdrl_entry l); cbn [bind]; [discriminate|congruence|discriminate].
Qed.
(** The others may be half written; this is all that can be there. *)
Theorem C78_failed_body : forall s b s', map_into txbody_into b s = (s', Throw) -> s' = s \/ exists c m, cbor_parse b = Ok c /\ as_map c = Some m /\ body_left s m s'.
Proof.
  intros s b s'. unfold map_into. rewrite seq_local. destruct (cbor_parse b) as [c| |]; [|intros E; left; congruence|discriminate]. rewrite seq_local. destruct (as_map c) as [m|] eqn:M; cbn [want]; [|intros E; left; congruence].
  rewrite body_run. intros E. right. exists c, m. split; [reflexivity|]. split; [exact M|]. unfold body_left. change (entries m 0) with (body_array m 0). change (entries m 1) with (body_array m 1). change (entries m 4) with (body_array m 4).
  destruct (mapM (item_des txin_des) (body_array m 0)) as [ins| |] eqn:EI; [| |discriminate].
  2:{ left. destruct (each_throw _ (fun i b => put_inputs (set_insert txin_lt i (tb_inputs b)) b) _ EI (put_inputs [] s)) as (a & x & r & ys & H1 & H2 & H3 & H4). exists a, x, r, ys. split; [exact H1|]. split; [exact H2|]. split; [exact H3|].
      rewrite H4, fold_inputs in E. cbn [fst] in E. assert (s' = put_inputs (inputs_set ys) s) by (unfold inputs_set; congruence). subst s'. reflexivity. }
  right. exists ins. split; [reflexivity|]. destruct (mapM (item_des txout_des) (body_array m 1)) as [outs| |] eqn:EO; [| |discriminate].
  2:{ left. destruct (each_throw _ (fun o b => put_outputs (tb_outputs b ++ [o]) b) _ EO (put_outputs [] (put_inputs (fold_left (fun s x => set_insert txin_lt x s) ins []) s))) as (a & x & r & ys & H1 & H2 & H3 & H4). exists a, x, r, ys. split; [exact H1|]. split; [exact H2|]. split; [exact H3|].
      rewrite H4, fold_outputs in E. cbn [fst] in E. assert (s' = put_outputs ys (put_inputs (inputs_set ins) s)) by (unfold inputs_set; congruence). subst s'. reflexivity. }
  right. exists outs. split; [reflexivity|]. cbv zeta in E. destruct (mapM (item_des cert_des) (body_array m 4)) as [cs| |] eqn:EC; [| |discriminate].
  2:{ left. destruct (each_throw _ (fun o b => put_certs (tb_certs b ++ [o]) b) _ EC (put_certs [] (put_ttl (body_uint m 3) (put_fee (body_uint m 2) (put_outputs outs (put_inputs (fold_left (fun s x => set_insert txin_lt x s) ins []) s)))))) as (a & x & r & ys & H1 & H2 & H3 & H4). exists a, x, r, ys. split; [exact H1|]. split; [exact H2|]. split; [exact H3|].
      rewrite H4, fold_certs in E. cbn [fst] in E. assert (s' = put_certs ys (put_ttl (body_uint m 3) (put_fee (body_uint m 2) (put_outputs outs (put_inputs (inputs_set ins) s))))) by (unfold inputs_set; congruence). subst s'. reflexivity. }
  right. destruct (mapM wdrl_entry _) as [ws| |] eqn:EW; [|exfalso; exact (wdrl_no_throw _ EW)|discriminate]. destruct (map_get m 7) as [c7|]; [|discriminate]. destruct (as_bytes c7) as [h|] eqn:EH; [|discriminate]. destruct (zlen h =? 32) eqn:L; [discriminate|].
  exists cs, (fold_left (fun s p => map_assign (fst p) (snd p) s) ws []), c7, h. split; [reflexivity|]. split; [reflexivity|]. split; [exact EH|]. split; [apply Z.eqb_neq, L|]. 
  assert (s' = put_metadata None (put_withdrawals (fold_left (fun s p => map_assign (fst p) (snd p) s) ws []) (put_certs cs (put_ttl (body_uint m 3) (put_fee (body_uint m 2) (put_outputs outs (put_inputs (inputs_set ins) s))))))) by (unfold inputs_set; congruence).
  subst s'. reflexivity.
Qed.
Print Assumptions C78_failed_body.
Theorem C78_failed_small :
  (forall s b s', tag_into rational_into b s = (s', Throw) -> s' = s \/ rden s' = 0) /\
  (forall s b s', array_into pm_into b s = (s', Throw) -> pm_hash s' = pm_hash s) /\
  (forall s b s', array_into cred_into b s = (s', Throw) -> sc_hash s' = sc_hash s).
Proof.
  split; [|split].
  - intros s b s'. unfold tag_into. rewrite seq_local. destruct (cbor_parse b) as [c| |]; [|intros E; left; congruence|discriminate]. rewrite seq_local. destruct (as_tag c) as [[t x]|]; cbn [want]; [|intros E; left; congruence]. cbn [fst snd]. unfold rational_into.
    destruct (negb (t =? 30)); [intros E; left; unfold local in E; congruence|]. rewrite seq_local. destruct (as_array x) as [[|p [|q [|y l]]]|]; cbn [want]; try (intros E; left; unfold local in E; congruence).
    rewrite seq_local. destruct (as_uint p); cbn [want]; [|intros E; left; congruence]. rewrite seq_local. destruct (as_uint q) as [d|]; cbn [want]; [|intros E; left; congruence]. rewrite !seq_assign. destruct (d =? 0) eqn:D; [|discriminate].
    intros E. right. unfold local in E. cbn [rnum rden] in E. assert (X : s' = {| rnum := z; rden := d |}) by congruence. subst s'. apply Z.eqb_eq, D.
  - intros s b s'. unfold array_into. rewrite seq_local. destruct (cbor_parse b) as [c| |]; [|intros E; congruence|discriminate]. rewrite seq_local. destruct (as_array c) as [d|]; cbn [want]; [|intros E; congruence]. unfold pm_into.
    destruct d as [|p [|q [|y l]]]; try (intros E; unfold local in E; congruence). rewrite seq_local. destruct (as_text p) as [u|]; cbn [want]; [|intros E; congruence]. rewrite seq_local. destruct (as_bytes q) as [h|]; cbn [want]; [|intros E; congruence].
    rewrite seq_assign, seq_local. unfold fixed. destruct (zlen h =? 32); [discriminate|]. intros E. assert (X : s' = {| pm_url := u; pm_hash := pm_hash s |}) by congruence. subst s'. reflexivity.
  - intros s b s'. unfold array_into. rewrite seq_local. destruct (cbor_parse b) as [c| |]; [|intros E; congruence|discriminate]. rewrite seq_local. destruct (as_array c) as [d|]; cbn [want]; [|intros E; congruence]. unfold cred_into.
    destruct d as [|p [|q [|y l]]]; try (intros E; unfold local in E; congruence). rewrite seq_local. destruct (as_uint p) as [u|]; cbn [want]; [|intros E; congruence]. rewrite seq_local. destruct (as_bytes q) as [h|]; cbn [want]; [|intros E; congruence].
    unfold fixed. destruct (u =? 0); [|destruct (u =? 1)]; [rewrite seq_assign, seq_local..|unfold seq, local; intros E; congruence]; (destruct (zlen h =? 28); [discriminate|]); intros E;
      [assert (X : s' = {| sc_type := AddrKeyhash; sc_hash := sc_hash s |}) by congruence|assert (X : s' = {| sc_type := Scripthash; sc_hash := sc_hash s |}) by congruence]; subst s'; reflexivity.
Qed.
Print Assumptions C78_failed_small.
(** Missing: a read that throws leaves every object as it was.  A rational keeps the zero denominator it refused (and then writes bytes no one can read); a credential gets the new kind with the old hash,
    so that a key hash passes for a script hash; pool metadata get the new address with the old hash; a body gets new inputs with the old outputs and fee. *)
Theorem C78_half_written_refuted :
  (forall n, u64 n -> exists b, deserialize_tag rational_des b = Throw /\ forall s, tag_into rational_into b s = ({| rnum := n; rden := 0 |}, Throw) /\ serialize (Ok (rational_ser {| rnum := n; rden := 0 |})) = Ok b) /\
  (forall ty, exists b, forall s, array_into cred_into b s = ({| sc_type := ty; sc_hash := sc_hash s |}, Throw)) /\
  (forall url, text_ok url -> exists b, forall s, array_into pm_into b s = ({| pm_url := url; pm_hash := pm_hash s |}, Throw)) /\
  (forall ins, Forall txin_wf ins -> zlen ins < 2 ^ 63 -> exists b, forall s, map_into txbody_into b s =
     ({| tb_inputs := inputs_set ins; tb_outputs := tb_outputs s; tb_fee := tb_fee s; tb_ttl := tb_ttl s; tb_certs := tb_certs s; tb_withdrawals := tb_withdrawals s; tb_metadata_hash := tb_metadata_hash s |}, Throw)).
Proof.
  split; [|split; [|split]].
  - intros n U. assert (O : cbor_ok (rational_ser {| rnum := n; rden := 0 |})). { cbn [rational_ser cbor_ok]. split; [lia|]. apply (proj2 (ok_array _)). split; [small_list|]. unfold u64 in U. constructor; [cbn [cbor_ok rnum]; lia|constructor; [cbn [cbor_ok rden]; lia|constructor]]. }
    exists (cbor_encode (rational_ser {| rnum := n; rden := 0 |})). split; [unfold deserialize_tag; rewrite (parse_encode _ O); reflexivity|]. intros s. split; [|reflexivity]. unfold tag_into. rewrite seq_local, (parse_encode _ O). reflexivity.
  - intros ty. exists (cbor_encode (CArray [CUint (match ty with AddrKeyhash => 0 | Scripthash => 1 end); CBytes []])). intros s. unfold array_into. rewrite seq_local, parse_encode; [destruct ty; reflexivity|]. apply ok_array. split; [small_list|]. constructor; [cbn [cbor_ok]; destruct ty; lia|]. constructor; [|constructor]. cbn [cbor_ok]. split; [constructor|unfold zlen; cbn [length]; lia].
  - intros url [U1 U2]. exists (cbor_encode (CArray [CText url; CBytes []])). intros s. unfold array_into. rewrite seq_local, parse_encode; [reflexivity|]. apply ok_array. split; [small_list|]. constructor; [split; assumption|]. constructor; [|constructor]. cbn [cbor_ok]. split; [constructor|unfold zlen; cbn [length]; lia].
  - intros ins W L. set (l := map txin_ser ins ++ [CArray []]). exists (cbor_encode (CMap [(CUint 0, CArray l)])). intros s. unfold map_into. rewrite seq_local, parse_encode.
    2:{ cbn [cbor_ok]. split; [unfold zlen; cbn [length]; lia|]. apply ok_map. constructor; [|constructor]. cbn [fst snd]. split; [cbn [cbor_ok]; lia|]. apply ok_array. split; [unfold l, zlen in *; rewrite app_length, map_length; cbn [length]; lia|]. unfold l. apply Forall_app. split; [|constructor; [apply ok_array; split; [small_list|constructor]|constructor]]. apply Forall_map. eapply Forall_impl; [|exact W]. intros i Wi. apply txin_ok, Wi. }
    rewrite seq_local. cbn [want as_map]. rewrite body_run.
    assert (MI : forall m, mapM (item_des txin_des) (map txin_ser ins ++ m) = (let* r := mapM (item_des txin_des) m in Ok (ins ++ r))).
    { clear L l. induction W as [|i ins Wi W IH]; intros m; cbn [map app mapM]; [destruct (mapM _ m); reflexivity|]. assert (E : item_des txin_des (txin_ser i) = Ok i). { unfold item_des, txin_ser. cbn [as_array deref bind]. unfold txin_des. cbn [as_bytes as_uint want bind]. destruct Wi as [[_ L] _]. unfold fixed. rewrite L. cbn [Z.eqb Pos.eqb bind]. destruct i; reflexivity. }
      rewrite E. cbn [bind]. rewrite IH. destruct (mapM _ m); reflexivity. }
    change (body_array [(CUint 0, CArray l)] 0) with l. assert (EL : mapM (item_des txin_des) l = Throw) by (unfold l; rewrite MI; reflexivity). rewrite EL.
    destruct (each_throw _ (fun i b => put_inputs (set_insert txin_lt i (tb_inputs b)) b) _ EL (put_inputs [] s)) as (a & x & r & ys & H1 & H2 & H3 & H4). rewrite H4, fold_inputs. cbn [fst]. 
    assert (A : r = [] /\ a = map txin_ser ins).
    { destruct r as [|y r] using rev_ind; [unfold l in H1; apply app_inj_tail in H1; intuition congruence|]. exfalso. unfold l in H1. rewrite app_comm_cons, app_assoc in H1. apply app_inj_tail in H1 as [H1 _].
      assert (In x (map txin_ser ins)) by (rewrite H1; apply in_or_app; right; left; reflexivity). apply in_map_iff in H as (i & <- & Ii). rewrite Forall_forall in W. pose proof (MI [] ) as M0. rewrite app_nil_r in M0.
      assert (E : item_des txin_des (txin_ser i) = Ok i). { unfold item_des, txin_ser. cbn [as_array deref bind]. unfold txin_des. cbn [as_bytes as_uint want bind]. destruct (W i Ii) as [[_ LL] _]. unfold fixed. rewrite LL. cbn [Z.eqb Pos.eqb bind]. destruct i; reflexivity. } congruence. }
    destruct A as [-> ->]. pose proof (MI []) as M0. rewrite app_nil_r in M0. rewrite M0 in H2. cbn [mapM bind] in H2. rewrite app_nil_r in H2. assert (ys = ins) by congruence. subst ys. reflexivity.
Qed.
Print Assumptions C78_half_written_refuted.
(** Missing: a read that succeeds leaves what the bytes say.  An empty array leaves any transaction, and an unknown kind any certificate, relay or script, and reports success; and an object that
    reads back the rewards it has just written holds every payment twice. *)
Theorem C78_stale_refuted :
  (exists b, forall s, array_into tx_into b s = (s, Ok tt)) /\ (exists b, (forall s, array_into cert_into b s = (s, Ok tt)) /\ (forall s, array_into relay_into b s = (s, Ok tt)) /\ (forall s, array_into ms_into b s = (s, Ok tt))) /\
  (forall m, mir_wf m -> exists b, serialize (Ok (mir_ser m)) = Ok b /\ array_into mir_into b m = ({| mir_source := mir_source m; mir_creds := mir_creds m ++ mir_creds m |}, Ok tt)).
Proof.
  split; [exists [128]; intros s; reflexivity|]. split; [exists [130; 7; 0]; split; [intros s; reflexivity|split; intros s; reflexivity]|].
  intros m W. exists (cbor_encode (mir_ser m)). split; [reflexivity|]. unfold array_into. rewrite seq_local, (parse_encode _ (mir_ok m W)). destruct (mir_rt m [] W) as (data & E1 & E2). rewrite E1. rewrite seq_local. cbn [as_array want].
  pose proof (mir_new m data) as H. rewrite E2 in H. cbn [app mir_creds mir_source] in H. exact H.
Qed.
Print Assumptions C78_stale_refuted.
(** C78: the Alonzo and Babbage types can be written only: every read throws and leaves the object alone. *)
Theorem C78_babbage_unread : forall b, (forall s : atxout, array_into unread_array b s = (s, Throw)) /\ (forall s : btxbody * list (list Z * list Z) * bool, array_into unread_array b s = (s, Throw)) /\
  (forall s : ptxout, map_into unread_map b s = (s, Throw)) /\ (forall s : btxbody, map_into unread_map b s = (s, Throw)) /\ (forall s : list (list Z * list Z), map_into unread_map b s = (s, Throw)) /\
  (forall s : list Z, tag_into unread_tag b s = (s, Throw)).
Proof.
  intros b. unfold array_into, map_into, tag_into, cbor_parse.
  assert (A : forall S (s : S), (set c <- local (match cbor_read b with Some (c, _) => Ok c | None => Throw end); set a <- local (want (as_array c)); unread_array a) s = (s, Throw)) by (intros; rewrite seq_local; destruct (cbor_read b) as [[c r]|]; [rewrite seq_local; destruct (as_array c); reflexivity|reflexivity]).
  assert (M : forall S (s : S), (set c <- local (match cbor_read b with Some (c, _) => Ok c | None => Throw end); set a <- local (want (as_map c)); unread_map a) s = (s, Throw)) by (intros; rewrite seq_local; destruct (cbor_read b) as [[c r]|]; [rewrite seq_local; destruct (as_map c); reflexivity|reflexivity]).
  assert (T : forall S (s : S), (set c <- local (match cbor_read b with Some (c, _) => Ok c | None => Throw end); set a <- local (want (as_tag c)); unread_tag (fst a) (snd a)) s = (s, Throw)) by (intros; rewrite seq_local; destruct (cbor_read b) as [[c r]|]; [rewrite seq_local; destruct (as_tag c); reflexivity|reflexivity]).
  split; [intros; apply A|]. split; [intros; apply A|]. split; [intros; apply M|]. split; [intros; apply M|]. split; [intros; apply M|intros; apply T].
Qed.
Print Assumptions C78_babbage_unread.

(** ** The hypotheses are met: a sequence of four reads into a credential, one of them failing half way; and into a certificate, one unknown and one broken. *)
Definition c28 (x : Z) : list Z := repeat x 28.
Example C78_ex_history :
  read_all (array_into cert_into) [cbor_encode (CArray [CUint 0; cred_ser {| sc_type := Scripthash; sc_hash := c28 3 |}]); [130; 7; 0]; [130; 0]; [255]] CertNone = Some (StakeReg {| sc_type := Scripthash; sc_hash := c28 3 |}) /\
  read_all (array_into cred_into) [cbor_encode (cred_ser {| sc_type := AddrKeyhash; sc_hash := c28 3 |}); [130; 1; 64]] {| sc_type := Scripthash; sc_hash := c28 0 |} = Some {| sc_type := Scripthash; sc_hash := c28 3 |} /\
  snd (array_into tx_into [131; 160; 160; 246] {| tx_body := empty_body; tx_wits := empty_wits; tx_meta := true |}) = Ok tt /\ deserialize_array tx_des [131; 160; 160; 246] = Ok {| tx_body := empty_body; tx_wits := empty_wits; tx_meta := false |}.
Proof. split; [vm_compute; reflexivity|]. split; [vm_compute; reflexivity|]. split; vm_compute; reflexivity. Qed.
Definition ex_mir : mir := {| mir_source := Treasury; mir_creds := [({| sc_type := AddrKeyhash; sc_hash := c28 9 |}, 5)] |}.
Example C78_ex_rewards : Forall2 (fun b v => deserialize_array (mir_des []) b = Ok v) [cbor_encode (mir_ser ex_mir); cbor_encode (mir_ser ex_mir)] [ex_mir; ex_mir] /\ mir_wf ex_mir.
Proof. split; [constructor; [vm_compute; reflexivity|constructor; [vm_compute; reflexivity|constructor]]|]. split; [|vm_compute; reflexivity]. constructor; [|constructor]. split; [split; [|vm_compute; reflexivity]|split; [discriminate|vm_compute; reflexivity]]. apply Forall_forall. intros x I. apply repeat_spec in I. subst x. split; [discriminate|reflexivity]. Qed.
