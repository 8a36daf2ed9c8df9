(** C68: unspent outputs read from JSON, and their order. *)
From Coq Require Import String.
From Verif Require Import Base BaseLemmas Model_Hex Proof_Hex Spec_Hex Spec_Genesis Model_Genesis Model_Ledger Proof_Ledger Model_Tx Model_Utxo.
Local Open Scope list_scope.
Ltac Zify.zify_post_hook ::= idtac.

(** ** Specification *)
(** [j] describes the unspent output of the transaction [id] (in hexadecimal, either case) at [index], worth [value] lovelace, as the Ogmios server writes it. *)
Definition utxo_json (j : json) (id : list Z) (index value : Z) : Prop :=
  (exists t text, field j "transaction" t /\ field t "id" (JStr text) /\ map spec_lower text = spec_hex_text id) /\
  (exists n, field j "index" n /\ is_int index n) /\
  (exists v a l, field j "value" v /\ field v "ada" a /\ field a "lovelace" l /\ is_int value l).

(** ** Lemmas *)
Lemma index_field j k v : field j k v -> index_const j k = Ok v.
Proof. intros (l & -> & E). unfold index_const. rewrite E. reflexivity. Qed.
Lemma field_index j k v : index_const j k = Ok v -> field j k v.
Proof. unfold index_const, field. destruct j; try discriminate. destruct (lookup l (key k)) eqn:E; [|discriminate]. intros H. injection H as <-. exists l. split; [reflexivity|exact E]. Qed.
Lemma u64_int n v : 0 <= n < 2 ^ 64 -> is_int n v -> get_u64 v = Ok n.
Proof. intros R [->|[_ ->]]; cbn [get_u64]; [|reflexivity]. rewrite Z.mod_small by exact R. reflexivity. Qed.
Lemma lower_char c : spec_hex_char (spec_lower c) -> 0 <= spec_lower c -> spec_hex_char c.
Proof.
  unfold spec_lower. destruct ((65 <=? c) && (c <=? 90)) eqn:E; [|auto]. apply andb_prop in E. destruct E as [A B]. apply Z.leb_le in A, B.
  intros H _. unfold spec_hex_char in *. cbn in H |- *. lia.
Qed.
Lemma text_decodes text id : bytes_ok id -> map spec_lower text = spec_hex_text id -> hex_decode text = Ok id.
Proof.
  intros B E. destruct (hex_text_round_trip id B) as [T D]. pose proof (hex_decode_accepts (hex_encode id)) as A.
  assert (F : Forall spec_hex_char (map spec_lower text) /\ Nat.even (length (map spec_lower text)) = true).
  { rewrite E, <- T. pose proof (proj2 A) as N. pose proof (hex_encode_chars id B) as C. split.
    - apply Forall_forall. intros c I. rewrite forallb_forall in C. apply spec_hex_char_iff, C, I.
    - rewrite hex_encode_length. apply even_2n. }
  destruct F as [F L]. rewrite map_length in L.
  destruct (proj1 (hex_decode_accepts text)) as (b & Hb & _).
  { split; [exact L|]. apply Forall_forall. intros c I. rewrite Forall_forall in F.
    assert (H : spec_hex_char (spec_lower c)) by (apply F, in_map, I). apply lower_char; [exact H|]. unfold spec_hex_char in H. cbn in H. lia. }
  destruct (hex_decode_then_encode text b Hb) as [Bb Eb]. rewrite Hb. f_equal.
  assert (Q : hex_encode b = hex_encode id) by congruence. pose proof (hex_round_trip_l b Bb) as X. pose proof (hex_round_trip_l id B) as Y. congruence.
Qed.

(** ** Theorems *)
(** C68: what Ogmios describes is what is read: the id, the index and the value, for every one of them. *)
Theorem C68_reads : forall j id index value, length id = 32%nat -> bytes_ok id -> 0 <= index < 2 ^ 64 -> 0 <= value < 2 ^ 64 ->
  utxo_json j id index value -> utxo_fromJSON j = Ok {| u_id := id; u_index := index; u_value := value |}.
Proof.
  intros j id index value L B RI RV ((t & text & F1 & F2 & E) & (n & F3 & I3) & (v & a & l & F4 & F5 & F6 & I6)).
  unfold utxo_fromJSON. rewrite (index_field _ _ _ F1). cbn [bind]. rewrite (index_field _ _ _ F2). cbn [bind get_str].
  rewrite (text_decodes text id B E). cbn [bind]. rewrite (index_field _ _ _ F3). cbn [bind]. rewrite (u64_int index n RI I3). cbn [bind].
  rewrite (index_field _ _ _ F4). cbn [bind]. rewrite (index_field _ _ _ F5). cbn [bind]. rewrite (index_field _ _ _ F6). cbn [bind].
  rewrite (u64_int value l RV I6). cbn [bind]. unfold make_array, zlen. rewrite L. cbn [Z.of_nat]. 
  change (Z.pos _ <? 32) with false. cbn [bind]. rewrite firstn_all2 by (rewrite L; vm_compute; lia). reflexivity.
Qed.
Print Assumptions C68_reads.

(** C68, the converse for what is returned: the text was hexadecimal and at least 32 bytes long, of which the first 32 are kept;
    the numbers are read modulo 2^64 when they are integers. *)
Theorem C68_returned : forall j u, utxo_fromJSON j = Ok u ->
  exists t text id, field j "transaction" t /\ field t "id" (JStr text) /\ bytes_ok id /\ map spec_lower text = spec_hex_text id /\
    (32 <= length id)%nat /\ u_id u = firstn 32 id /\
    exists n l v a, field j "index" n /\ field j "value" v /\ field v "ada" a /\ field a "lovelace" l /\
      (forall x, is_int x n -> u_index u mod 2 ^ 64 = x mod 2 ^ 64) /\ (forall x, is_int x l -> u_value u mod 2 ^ 64 = x mod 2 ^ 64).
Proof.
  intros j u H. unfold utxo_fromJSON in H.
  apply bind_ok in H. destruct H as (t & F1 & H). apply bind_ok in H. destruct H as (i & F2 & H). apply bind_ok in H. destruct H as (text & G & H).
  apply bind_ok in H. destruct H as (id & D & H). apply bind_ok in H. destruct H as (n & F3 & H). apply bind_ok in H. destruct H as (ix & G3 & H).
  apply bind_ok in H. destruct H as (v & F4 & H). apply bind_ok in H. destruct H as (a & F5 & H). apply bind_ok in H. destruct H as (l & F6 & H).
  apply bind_ok in H. destruct H as (x & G6 & H). apply bind_ok in H. destruct H as (id' & M & H). injection H as <-. cbn [u_id u_index u_value].
  unfold get_str in G. destruct i as [| | | | |s| |]; try discriminate. injection G as <-.
  apply field_index in F1, F2, F3, F4, F5, F6. destruct (hex_decode_then_encode _ _ D) as [B E].
  exists t, s, id. split; [exact F1|]. split; [exact F2|]. split; [exact B|].
  split. { rewrite <- E. destruct (hex_text_round_trip id B) as [T _]. exact T. }
  unfold make_array in M. destruct (Z.ltb_spec (zlen id) 32) as [|LE]; [discriminate|]. injection M as <-.
  split; [unfold zlen in LE; lia|]. split; [reflexivity|].
  assert (W : forall y z k, get_u64 y = Ok z -> is_int k y -> z mod 2 ^ 64 = k mod 2 ^ 64).
  { intros y z k G [->|[_ ->]]; cbn [get_u64] in G; injection G as <-; [apply Z.mod_mod; lia|reflexivity]. }
  exists n, l, v, a. split; [exact F3|]. split; [exact F4|]. split; [exact F5|]. split; [exact F6|].
  split; intros k K; [exact (W n ix k G3 K)|exact (W l x k G6 K)].
Qed.
Print Assumptions C68_returned.

(** C68: text that is not hexadecimal throws, and so do members of the wrong type. *)
Theorem C68_bad_text_throws : forall j t i, field j "transaction" t -> field t "id" i ->
  (forall text, i = JStr text -> ~ (Nat.even (length text) = true /\ Forall spec_hex_char text)) -> utxo_fromJSON j = Throw.
Proof.
  intros j t i F1 F2 N. unfold utxo_fromJSON. rewrite (index_field _ _ _ F1). cbn [bind]. rewrite (index_field _ _ _ F2). cbn [bind].
  unfold get_str. destruct i as [| | | | |s| |]; try reflexivity. cbn [bind]. rewrite (proj2 (hex_decode_accepts s) (N s eq_refl)). reflexivity.
Qed.
Print Assumptions C68_bad_text_throws.

(** C68, refuted: malformed descriptions are not all refused with an exception.  A missing member and an id shorter than 32 bytes are undefined behaviour
    (an uninitialised array, an unchecked lookup); a longer id is cut; a negative index or value becomes a number near 2^64. *)
Definition utxo_obj (id : list Z) (n l : json) : json :=
  JObj [(key "transaction", JObj [(key "id", JStr id)]); (key "index", n); (key "value", JObj [(key "ada", JObj [(key "lovelace", l)])])].
Theorem C68_malformed_refuted :
  (forall l, lookup l (key "transaction") = None -> utxo_fromJSON (JObj l) = UB) /\
  (forall id n v, bytes_ok id -> (length id < 32)%nat -> utxo_fromJSON (utxo_obj (spec_hex_text id) (JUint n) (JUint v)) = UB) /\
  (forall id more n v, bytes_ok (id ++ more) -> length id = 32%nat ->
     utxo_fromJSON (utxo_obj (spec_hex_text (id ++ more)) (JUint n) (JUint v)) = Ok {| u_id := id; u_index := n; u_value := v |}) /\
  (forall id k v, bytes_ok id -> length id = 32%nat -> 0 < k <= 2 ^ 63 ->
     utxo_fromJSON (utxo_obj (spec_hex_text id) (JInt (- k)) (JInt (- v))) = Ok {| u_id := id; u_index := 2 ^ 64 - k; u_value := (- v) mod 2 ^ 64 |}).
Proof.
  assert (T : forall id n l, bytes_ok id -> utxo_fromJSON (utxo_obj (spec_hex_text id) n l) =
    (let* index := get_u64 n in let* value := get_u64 l in let* id := make_array 32 id in Ok {| u_id := id; u_index := index; u_value := value |})).
  { intros id n l B. unfold utxo_fromJSON, utxo_obj.
    change (index_const (JObj _) "transaction") with (Ok (JObj [(key "id", JStr (spec_hex_text id))])). cbn [bind].
    change (index_const (JObj [(key "id", _)]) "id") with (Ok (JStr (spec_hex_text id))). cbn [bind get_str].
    destruct (hex_text_round_trip id B) as [<- D]. rewrite D. cbn [bind].
    change (index_const (JObj _) "index") with (Ok n). change (index_const (JObj _) "value") with (Ok (JObj [(key "ada", JObj [(key "lovelace", l)])])). cbn [bind].
    change (index_const (JObj _) "ada") with (Ok (JObj [(key "lovelace", l)])). cbn [bind]. change (index_const (JObj _) "lovelace") with (Ok l). cbn [bind]. reflexivity. }
  assert (MA : forall id more, length id = 32%nat -> make_array 32 (id ++ more) = Ok id).
  { intros id more L. unfold make_array. rewrite zlen_app. unfold zlen at 1. rewrite L. pose proof (zlen_nonneg more). destruct (Z.ltb_spec (Z.of_nat 32 + zlen more) 32); [lia|].
    rewrite firstn_app_exact by (symmetry; exact L). reflexivity. }
  split. { intros l E. unfold utxo_fromJSON, index_const. rewrite E. reflexivity. }
  split. { intros id n v B L. rewrite T by exact B. cbn [get_u64 bind]. unfold make_array. destruct (Z.ltb_spec (zlen id) 32) as [|G]; [reflexivity|]. unfold zlen in G. lia. }
  split. { intros id more n v B L. rewrite T by exact B. cbn [get_u64 bind]. rewrite (MA id more L). reflexivity. }
  intros id k v B L K. rewrite T by exact B. cbn [get_u64 bind]. rewrite <- (app_nil_r id) at 1. rewrite (MA id [] L). cbn [bind].
  replace ((- k) mod 2 ^ 64) with (2 ^ 64 - k); [reflexivity|]. apply (Z.mod_unique _ _ (-1)); [left|]; lia.
Qed.
Print Assumptions C68_malformed_refuted.

(** C68: the order of unspent outputs is a strict total order on (id, index), the same as that of the transaction inputs they become;
    equality ignores the value, and is what the order leaves undecided. *)
Theorem C68_order : forall a b c,
  utxo_lt a a = false /\ (utxo_lt a b = true -> utxo_lt b c = true -> utxo_lt a c = true) /\
  (utxo_eq a b = true <-> utxo_lt a b = false /\ utxo_lt b a = false) /\
  (utxo_eq a b = true <-> u_id a = u_id b /\ u_index a = u_index b) /\
  utxo_lt a b = txin_lt {| ti_id := u_id a; ti_index := u_index a |} {| ti_id := u_id b; ti_index := u_index b |}.
Proof.
  assert (S : forall a b, utxo_lt a b = txin_lt {| ti_id := u_id a; ti_index := u_index a |} {| ti_id := u_id b; ti_index := u_index b |}).
  { intros a b. unfold utxo_lt, utxo_compare, txin_lt. cbn [ti_id ti_index]. destruct (zlist_eqb (u_id a) (u_id b)) eqn:E.
    - apply zlist_eqb_spec in E. rewrite E, lex_irr. unfold Z.ltb. destruct (u_index a ?= u_index b); reflexivity.
    - apply zlist_eqb_false in E. destruct (lex_lt (u_id a) (u_id b)) eqn:L; [reflexivity|]. destruct (lex_lt (u_id b) (u_id a)) eqn:M; [reflexivity|].
      exfalso. apply E, lex_total; assumption. }
  assert (Q : forall a b, utxo_eq a b = true <-> u_id a = u_id b /\ u_index a = u_index b).
  { intros a b. unfold utxo_eq. rewrite andb_true_iff, zlist_eqb_spec, Z.eqb_eq. reflexivity. }
  intros a b c. rewrite !S. destruct txin_st as [I T O].
  split; [apply I|]. split; [apply T|]. split; [|split; [apply Q|reflexivity]]. rewrite Q. split.
  - intros [E F]. rewrite E, F. split; apply I.
  - intros [E F]. specialize (O _ _ E F). injection O as O1 O2. split; assumption.
Qed.
Print Assumptions C68_order.

(** Not vacuous: an Ogmios object. *)
Example C68_example : let id := repeat 171 31 ++ [1] in
  utxo_json (utxo_obj (spec_hex_text id) (JUint 3) (JUint 1500000)) id 3 1500000 /\
  utxo_fromJSON (utxo_obj (spec_hex_text id) (JUint 3) (JUint 1500000)) = Ok {| u_id := id; u_index := 3; u_value := 1500000 |} /\
  utxo_lt {| u_id := id; u_index := 3; u_value := 9 |} {| u_id := id; u_index := 4; u_value := 0 |} = true.
Proof.
  cbv zeta. split; [|split; vm_compute; reflexivity]. split; [|split].
  - eexists. eexists. split; [eexists; split; [reflexivity|vm_compute; reflexivity]|]. split; [eexists; split; [reflexivity|vm_compute; reflexivity]|]. vm_compute. reflexivity.
  - eexists. split; [eexists; split; [reflexivity|vm_compute; reflexivity]|]. right. split; [lia|reflexivity].
  - eexists. eexists. eexists. split; [eexists; split; [reflexivity|vm_compute; reflexivity]|]. split; [eexists; split; [reflexivity|vm_compute; reflexivity]|].
    split; [eexists; split; [reflexivity|vm_compute; reflexivity]|]. right. split; [lia|reflexivity].
Qed.
