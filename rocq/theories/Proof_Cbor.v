From Verif Require Import Base BaseLemmas Model_Hex Proof_Hex Spec_Cbor Model_Cbor.
Ltac Zify.zify_post_hook ::= idtac.

Section Ind.
Variable P : cbor -> Prop.
Hypothesis HU : forall n, P (CUint n).
Hypothesis HN : forall n, P (CNint n).
Hypothesis HB : forall b, P (CBytes b).
Hypothesis HT : forall b, P (CText b).
Hypothesis HA : forall l, Forall P l -> P (CArray l).
Hypothesis HM : forall l, Forall (fun p => P (fst p) /\ P (snd p)) l -> P (CMap l).
Hypothesis HG : forall t c, P c -> P (CTag t c).
Hypothesis HBo : forall b, P (CBool b).
Hypothesis HNu : P CNull.
Fixpoint cbor_nested_ind (c : cbor) : P c :=
  match c with
  | CUint n => HU n | CNint n => HN n | CBytes b => HB b | CText b => HT b
  | CArray l => HA l ((fix go (l : list cbor) : Forall P l := match l with [] => Forall_nil _ | x :: r => Forall_cons x (cbor_nested_ind x) (go r) end) l)
  | CMap l => HM l ((fix go (l : list (cbor * cbor)) : Forall (fun p => P (fst p) /\ P (snd p)) l :=
      match l with [] => Forall_nil _ | (a, b) :: r => Forall_cons (a, b) (conj (cbor_nested_ind a) (cbor_nested_ind b)) (go r) end) l)
  | CTag t c => HG t c (cbor_nested_ind c)
  | CBool b => HBo b
  | CNull => HNu
  end.
End Ind.

Definition enc_pair (p : cbor * cbor) : list Z := let '(a, b) := p in cbor_encode a ++ cbor_encode b.
Lemma ok_list l : fold_right (fun x P => cbor_ok x /\ P) True l <-> Forall cbor_ok l.
Proof. induction l as [|x l IH]; cbn [fold_right]; [split; constructor|]. rewrite IH. split; [intros []; constructor; auto|inversion 1; auto]. Qed.
Lemma ok_map l : fold_right (fun p P => (let '(a, b) := p in cbor_ok a /\ cbor_ok b) /\ P) True l <-> Forall (fun p => cbor_ok (fst p) /\ cbor_ok (snd p)) l.
Proof. induction l as [|[a b] l IH]; cbn [fold_right]; [split; constructor|]. rewrite IH. split; [intros []; constructor; auto|inversion 1; auto]. Qed.

Lemma head_length major n : (1 <= length (cbor_head major n))%nat.
Proof. unfold cbor_head. repeat destruct (_ <? _); cbn [length]; lia. Qed.
Lemma encode_length c : (1 <= length (cbor_encode c))%nat.
Proof.
  destruct c; cbn [cbor_encode]; rewrite ?app_length; try (cbn [length]; lia);
  match goal with |- context [cbor_head ?m ?n] => pose proof (head_length m n); lia end.
Qed.

Lemma take_be_pack k n rest : 0 <= n < 256 ^ Z.of_nat k -> take_be k (pack_be k n ++ rest) = Some (n, rest).
Proof.
  intros B. unfold take_be. rewrite app_length, pack_be_length. destruct (Nat.ltb_spec (k + length rest) k); [lia|].
  rewrite firstn_app_exact, skipn_app_exact by (rewrite pack_be_length; reflexivity). rewrite pack_be_value, Z.mod_small by exact B. reflexivity.
Qed.
Lemma initial major ai : 0 <= ai < 32 -> (major * 32 + ai) / 32 = major /\ (major * 32 + ai) mod 32 = ai.
Proof. intros B. split; [rewrite Z.div_add_l by lia; rewrite Z.div_small by lia; lia|rewrite Z.add_comm, Z.mod_add by lia; apply Z.mod_small, B]. Qed.
Lemma head_read major n rest : 0 <= n < 2 ^ 64 ->
  exists b t, cbor_head major n = b :: t /\ b / 32 = major /\ read_arg (b mod 32) (t ++ rest) = Some (n, rest).
Proof.
  intros B. unfold cbor_head.
  destruct (Z.ltb_spec n 24) as [L|L].
  { exists (major * 32 + n), []. destruct (initial major n ltac:(lia)) as [D M]. split; [reflexivity|]. split; [exact D|].
    rewrite M. unfold read_arg. cbn [app]. destruct (Z.ltb_spec n 24); [reflexivity|lia]. }
  destruct (Z.ltb_spec n (2 ^ 8)) as [L1|L1]; [|destruct (Z.ltb_spec n (2 ^ 16)) as [L2|L2]; [|destruct (Z.ltb_spec n (2 ^ 32)) as [L3|L3]]];
  (eexists _, _; split; [reflexivity|]; 
   match goal with |- context [major * 32 + ?k] => destruct (initial major k ltac:(lia)) as [D M] end; split; [exact D|]; rewrite M; unfold read_arg; cbn [Z.ltb Z.eqb Z.compare Pos.compare Pos.compare_cont Pos.eqb];
   apply take_be_pack; split; [lia|]).
  - change (256 ^ Z.of_nat 1) with (2 ^ 8). lia.
  - change (256 ^ Z.of_nat 2) with (2 ^ 16). lia.
  - change (256 ^ Z.of_nat 4) with (2 ^ 32). lia.
  - change (256 ^ Z.of_nat 8) with (2 ^ 64). lia.
Qed.

Lemma take_bytes_app b rest : take_bytes (zlen b) (b ++ rest) = Some (b, rest).
Proof.
  unfold take_bytes. rewrite zlen_app. pose proof (zlen_nonneg rest). destruct (Z.ltb_spec (zlen b + zlen rest) (zlen b)); [lia|].
  unfold zlen. rewrite Nat2Z.id, firstn_app_exact, skipn_app_exact by reflexivity. reflexivity.
Qed.

Lemma read_many_ok {A} (rd : list Z -> option (A * list Z)) (e : A -> list Z) l :
  (forall x rest, In x l -> rd (e x ++ rest) = Some (x, rest)) ->
  forall k rest, (length l <= k)%nat -> read_many rd k (zlen l) (concat (map e l) ++ rest) = Some (l, rest).
Proof.
  induction l as [|x l IH]; intros H k rest L; [destruct k; reflexivity|].
  destruct k as [|k]; [cbn in L; lia|]. rewrite zlen_cons. pose proof (zlen_nonneg l). cbn [read_many]. destruct (Z.leb_spec (zlen l + 1) 0); [lia|].
  cbn [map concat]. rewrite <- app_assoc, H by (left; reflexivity). replace (zlen l + 1 - 1) with (zlen l) by lia.
  rewrite IH; [reflexivity| |cbn in L; lia]. intros y r I. apply H. right; exact I.
Qed.
Lemma concat_len_in {A} (e : A -> list Z) l x : In x l -> (length (e x) <= length (concat (map e l)))%nat.
Proof. induction l as [|y l IH]; intros I; [destruct I|]. cbn [map concat]. rewrite app_length. destruct I as [->|I]; [lia|]. specialize (IH I). lia. Qed.
Lemma concat_len_count {A} (e : A -> list Z) l : (forall x, In x l -> (1 <= length (e x))%nat) -> (length l <= length (concat (map e l)))%nat.
Proof.
  induction l as [|y l IH]; intros H; cbn [length map concat]; [lia|]. rewrite app_length. pose proof (H y (or_introl eq_refl)).
  specialize (IH (fun x I => H x (or_intror I))). lia.
Qed.

Lemma read_encode c : cbor_ok c -> forall fuel rest, (length (cbor_encode c) <= fuel)%nat -> read_item fuel (cbor_encode c ++ rest) = Some (c, rest).
Proof.
  induction c as [n|n|b|b|l IH|l IH|t c IH|b|] using cbor_nested_ind; intros OK [|f] rest LF;
    try (match goal with |- read_item 0 (cbor_encode ?c ++ _) = _ => pose proof (encode_length c) end; lia).
  - destruct (head_read 0 n rest OK) as (x & t & E & D & R). cbn [cbor_encode]. rewrite E. cbn [app read_item]. rewrite R, D. reflexivity.
  - destruct (head_read 1 n rest OK) as (x & t & E & D & R). cbn [cbor_encode]. rewrite E. cbn [app read_item]. rewrite R, D. reflexivity.
  - destruct OK as [_ B]. pose proof (zlen_nonneg b). destruct (head_read 2 (zlen b) (b ++ rest) ltac:(lia)) as (x & t & E & D & R).
    cbn [cbor_encode]. rewrite <- app_assoc, E. cbn [app read_item]. rewrite R, D, take_bytes_app. reflexivity.
  - destruct OK as [_ B]. pose proof (zlen_nonneg b). destruct (head_read 3 (zlen b) (b ++ rest) ltac:(lia)) as (x & t & E & D & R).
    cbn [cbor_encode]. rewrite <- app_assoc, E. cbn [app read_item]. rewrite R, D, take_bytes_app. reflexivity.
  - destruct OK as [B OK]. apply ok_list in OK. pose proof (zlen_nonneg l).
    destruct (head_read 4 (zlen l) (concat (map cbor_encode l) ++ rest) ltac:(lia)) as (x & t & E & D & R).
    cbn [cbor_encode] in *. rewrite app_length in LF. pose proof (head_length 4 (zlen l)).
    rewrite <- app_assoc, E. cbn [app read_item]. rewrite R, D, read_many_ok; [reflexivity| |].
    + intros y r I. rewrite Forall_forall in IH, OK. apply IH; auto. pose proof (concat_len_in cbor_encode l y I). lia.
    + pose proof (concat_len_count cbor_encode l (fun x _ => encode_length x)). lia.
  - destruct OK as [B OK]. apply ok_map in OK. pose proof (zlen_nonneg l).
    destruct (head_read 5 (zlen l) (concat (map enc_pair l) ++ rest) ltac:(lia)) as (x & t & E & D & R).
    change (cbor_encode (CMap l)) with (cbor_head 5 (zlen l) ++ concat (map enc_pair l)) in *. rewrite app_length in LF. pose proof (head_length 5 (zlen l)).
    rewrite <- app_assoc, E. cbn [app read_item]. rewrite R, D, read_many_ok; [reflexivity| |].
    + intros [a b] r I. rewrite Forall_forall in IH, OK. destruct (IH _ I) as [Ia Ib]. destruct (OK _ I) as [Oa Ob]. cbn [fst snd] in *.
      pose proof (concat_len_in enc_pair l _ I) as Lp. cbn [enc_pair] in Lp |- *. rewrite app_length in Lp. unfold read_pair.
      rewrite <- app_assoc, Ia by (auto; lia). rewrite Ib by (auto; lia). reflexivity.
    + assert (C : forall x, In x l -> (1 <= length (enc_pair x))%nat) by (intros [a b] _; cbn [enc_pair]; rewrite app_length; pose proof (encode_length a); lia).
      pose proof (concat_len_count enc_pair l C). lia.
  - destruct OK as [B OK]. destruct (head_read 6 t (cbor_encode c ++ rest) B) as (x & t' & E & D & R).
    cbn [cbor_encode] in *. rewrite app_length in LF. pose proof (head_length 6 t). rewrite <- app_assoc, E. cbn [app read_item]. rewrite R, D, IH by (auto; lia). reflexivity.
  - destruct b; reflexivity.
  - reflexivity.
Qed.

Lemma cbor_round_trip c rest : cbor_ok c -> cbor_read (cbor_encode c ++ rest) = Some (c, rest).
Proof. intros OK. unfold cbor_read. apply read_encode; [exact OK|]. rewrite app_length. lia. Qed.
Lemma parse_encode c : cbor_ok c -> cbor_parse (cbor_encode c) = Ok c.
Proof. intros OK. unfold cbor_parse. pose proof (cbor_round_trip c [] OK) as R. rewrite app_nil_r in R. rewrite R. reflexivity. Qed.

Lemma prefix_free a b x y : cbor_ok a -> cbor_ok b -> cbor_encode a ++ x = cbor_encode b ++ y -> a = b /\ x = y.
Proof. intros A B E. pose proof (cbor_round_trip a x A) as X. rewrite E, (cbor_round_trip b y B) in X. inversion X. auto. Qed.

(** ** Shortest form *)
Lemma take_be_inv k s n r : bytes_ok s -> take_be k s = Some (n, r) -> exists u, s = u ++ r /\ length u = k /\ 0 <= n < 256 ^ Z.of_nat k.
Proof.
  intros OK. unfold take_be. destruct (Nat.ltb_spec (length s) k); [discriminate|]. intros E. injection E as <- <-.
  exists (firstn k s). rewrite firstn_skipn, firstn_length. split; [reflexivity|]. split; [lia|].
  assert (F : digits_ok 256 (firstn k s)) by (apply bytes_ok_firstn, OK). pose proof (bev_bound 256 (firstn k s) ltac:(lia) F) as X.
  unfold zlen in X. rewrite firstn_length in X. replace (Nat.min k (length s)) with k in X by lia. exact X.
Qed.
Lemma head_len major n : length (cbor_head major n) = if n <? 24 then 1%nat else if n <? 2 ^ 8 then 2%nat else if n <? 2 ^ 16 then 3%nat else if n <? 2 ^ 32 then 5%nat else 9%nat.
Proof. unfold cbor_head. repeat destruct (_ <? _); cbn [length]; rewrite ?pack_be_length; reflexivity. Qed.
Lemma read_arg_inv ai s n r : 0 <= ai < 32 -> bytes_ok s -> read_arg ai s = Some (n, r) ->
  exists u, s = u ++ r /\ 0 <= n < 2 ^ 64 /\ forall major, (length (cbor_head major n) <= 1 + length u)%nat.
Proof.
  intros Bai OK. unfold read_arg. destruct (Z.ltb_spec ai 24) as [L|L].
  { intros E. injection E as <- <-. exists []. split; [reflexivity|]. split; [lia|]. intros m. rewrite head_len. destruct (Z.ltb_spec ai 24); cbn; lia. }
  assert (K : forall k, In k [1; 2; 4; 8]%nat -> take_be k s = Some (n, r) ->
     exists u, s = u ++ r /\ 0 <= n < 2 ^ 64 /\ forall major, (length (cbor_head major n) <= 1 + length u)%nat).
  { intros k Ik E. apply take_be_inv in E as (u & -> & Lu & B); [|exact OK]. exists u. split; [reflexivity|].
    assert (X : 256 ^ Z.of_nat k <= 2 ^ 64 /\ forall m, (length (cbor_head m n) <= 1 + k)%nat).
    { destruct Ik as [<-|[<-|[<-|[<-|[]]]]].
      - change (256 ^ Z.of_nat 1) with (2 ^ 8) in *. split; [lia|]. intros m. rewrite head_len. destruct (_ <? 24); [lia|]. destruct (Z.ltb_spec n (2 ^ 8)); lia.
      - change (256 ^ Z.of_nat 2) with (2 ^ 16) in *. split; [lia|]. intros m. rewrite head_len. destruct (_ <? 24); [lia|]. destruct (_ <? 2 ^ 8); [lia|]. destruct (Z.ltb_spec n (2 ^ 16)); lia.
      - change (256 ^ Z.of_nat 4) with (2 ^ 32) in *. split; [lia|]. intros m. rewrite head_len. destruct (_ <? 24); [lia|]. destruct (_ <? 2 ^ 8); [lia|]. destruct (_ <? 2 ^ 16); [lia|]. destruct (Z.ltb_spec n (2 ^ 32)); lia.
      - change (256 ^ Z.of_nat 8) with (2 ^ 64) in *. split; [lia|]. intros m. rewrite head_len. repeat destruct (_ <? _); lia. }
    destruct X as [X Y]. split; [lia|]. intros m. rewrite Lu. apply Y. }
  destruct (ai =? 24); [apply K; cbn; tauto|]. destruct (ai =? 25); [apply K; cbn; tauto|]. destruct (ai =? 26); [apply K; cbn; tauto|].
  destruct (ai =? 27); [apply K; cbn; tauto|]. discriminate.
Qed.
Lemma take_bytes_inv n s x r : 0 <= n -> take_bytes n s = Some (x, r) -> s = x ++ r /\ zlen x = n.
Proof.
  intros N. unfold take_bytes. destruct (Z.ltb_spec (zlen s) n); [discriminate|]. intros E. injection E as <- <-. rewrite firstn_skipn. split; [reflexivity|].
  unfold zlen in *. rewrite firstn_length. lia.
Qed.
Lemma read_many_inv {A} (rd : list Z -> option (A * list Z)) (Q : A -> Prop) (e : A -> list Z) :
  (forall s x r, bytes_ok s -> rd s = Some (x, r) -> exists u, s = u ++ r /\ (length (e x) <= length u)%nat /\ Q x) ->
  forall k n s l r, bytes_ok s -> 0 <= n -> read_many rd k n s = Some (l, r) ->
    exists u, s = u ++ r /\ zlen l = n /\ Forall Q l /\ (length (concat (map e l)) <= length u)%nat.
Proof.
  intros H. induction k as [|k IH]; intros n s l r OK N E; cbn [read_many] in E.
  - destruct (Z.leb_spec n 0); [|discriminate]. injection E as <- <-. exists []. rewrite zlen_nil. cbn [map concat]. repeat split; auto; lia.
  - destruct (Z.leb_spec n 0). { injection E as <- <-. exists []. rewrite zlen_nil. cbn [map concat]. repeat split; auto; lia. }
    destruct (rd s) as [[x s']|] eqn:R; [|discriminate]. destruct (read_many rd k (n - 1) s') as [[l' r']|] eqn:M; [|discriminate].
    injection E as <- <-. destruct (H _ _ _ OK R) as (u & -> & Lu & Qx). apply bytes_ok_app in OK as [OKu OKs].
    destruct (IH (n - 1) s' l' r' OKs ltac:(lia) M) as (v & -> & Zl & Fl & Ll). exists (u ++ v). rewrite app_assoc. split; [reflexivity|].
    rewrite zlen_cons. split; [lia|]. split; [constructor; assumption|]. cbn [map concat]. rewrite !app_length. lia.
Qed.

Lemma byte_initial b : byte_ok b -> 0 <= b mod 32 < 32 /\ 0 <= b / 32 <= 7.
Proof.
  intros B. unfold byte_ok in B. split; [apply Z.mod_pos_bound; lia|]. split; [apply Z.div_pos; lia|].
  assert (b / 32 < 8); [|lia]. apply Z.div_lt_upper_bound; lia.
Qed.
Lemma read_inv fuel : forall s c r, bytes_ok s -> read_item fuel s = Some (c, r) ->
  exists u, s = u ++ r /\ (length (cbor_encode c) <= length u)%nat /\ cbor_ok c.
Proof.
  induction fuel as [|f IH]; intros s c r OK E; [discriminate|]. destruct s as [|b s]; [discriminate|]. cbn [read_item] in E.
  apply bytes_ok_cons in OK as [Bb OK]. destruct (byte_initial b Bb) as [Bai Bm].
  destruct (read_arg (b mod 32) s) as [[n s']|] eqn:RA; [|discriminate].
  destruct (read_arg_inv _ _ _ _ Bai OK RA) as (u & -> & Bn & HL). apply bytes_ok_app in OK as [OKu OKs].
  assert (CASES : b / 32 = 0 \/ b / 32 = 1 \/ b / 32 = 2 \/ b / 32 = 3 \/ b / 32 = 4 \/ b / 32 = 5 \/ b / 32 = 6 \/ b / 32 = 7) by lia.
  assert (ST : forall (x r' : list Z), s' = x ++ r' -> exists v, b :: u ++ s' = v ++ r' /\ (length v = 1 + length u + length x)%nat).
  { intros x r' ->. exists (b :: u ++ x). cbn [app length]. rewrite <- app_assoc, app_length. split; [reflexivity|lia]. }
  destruct CASES as [D|[D|[D|[D|[D|[D|[D|D]]]]]]]; rewrite D in E.
  - injection E as <- <-. exists (b :: u). cbn [cbor_encode cbor_ok length app]. specialize (HL 0). repeat split; auto; lia.
  - injection E as <- <-. exists (b :: u). cbn [cbor_encode cbor_ok length app]. specialize (HL 1). repeat split; auto; lia.
  - destruct (take_bytes n s') as [[x r']|] eqn:T; [|discriminate]. injection E as <- <-. apply take_bytes_inv in T as [-> Zx]; [|lia].
    apply bytes_ok_app in OKs as [OKx _]. destruct (ST x r' eq_refl) as (v & -> & Lv). exists v. split; [reflexivity|].
    cbn [cbor_encode cbor_ok]. rewrite app_length, Zx. specialize (HL 2). repeat split; auto; lia.
  - destruct (take_bytes n s') as [[x r']|] eqn:T; [|discriminate]. injection E as <- <-. apply take_bytes_inv in T as [-> Zx]; [|lia].
    apply bytes_ok_app in OKs as [OKx _]. destruct (ST x r' eq_refl) as (v & -> & Lv). exists v. split; [reflexivity|].
    cbn [cbor_encode cbor_ok]. rewrite app_length, Zx. specialize (HL 3). repeat split; auto; lia.
  - destruct (read_many (read_item f) f n s') as [[x r']|] eqn:T; [|discriminate]. injection E as <- <-.
    destruct (read_many_inv (read_item f) cbor_ok cbor_encode IH f n s' x r' OKs ltac:(lia) T) as (w & -> & Zx & Fx & Lx).
    destruct (ST w r' eq_refl) as (v & -> & Lv). exists v. split; [reflexivity|].
    cbn [cbor_encode cbor_ok]. rewrite app_length, Zx, ok_list. specialize (HL 4). repeat split; auto; lia.
  - destruct (read_many (read_pair (read_item f)) f n s') as [[x r']|] eqn:T; [|discriminate]. injection E as <- <-.
    destruct (read_many_inv (read_pair (read_item f)) (fun p => cbor_ok (fst p) /\ cbor_ok (snd p)) enc_pair) with (k := f) (n := n) (s := s') (l := x) (r := r') as (w & -> & Zx & Fx & Lx);
      [|exact OKs|lia|exact T|].
    { intros s2 [a b2] r2 OK2 R2. unfold read_pair in R2. destruct (read_item f s2) as [[a' s3]|] eqn:R3; [|discriminate].
      destruct (read_item f s3) as [[b' s4]|] eqn:R4; [|discriminate]. injection R2 as <- <- <-.
      destruct (IH _ _ _ OK2 R3) as (ua & -> & La & Oa). apply bytes_ok_app in OK2 as [_ OK3]. destruct (IH _ _ _ OK3 R4) as (ub & -> & Lb & Ob).
      exists (ua ++ ub). rewrite app_assoc. cbn [enc_pair fst snd]. rewrite !app_length. repeat split; auto; lia. }
    destruct (ST w r' eq_refl) as (v & -> & Lv). exists v. split; [reflexivity|].
    change (cbor_encode (CMap x)) with (cbor_head 5 (zlen x) ++ concat (map enc_pair x)). cbn [cbor_ok]. rewrite app_length, Zx, ok_map. specialize (HL 5). repeat split; auto; lia.
  - destruct (read_item f s') as [[x r']|] eqn:T; [|discriminate]. injection E as <- <-. destruct (IH _ _ _ OKs T) as (w & -> & Lw & Ox).
    destruct (ST w r' eq_refl) as (v & -> & Lv). exists v. split; [reflexivity|]. cbn [cbor_encode cbor_ok]. rewrite app_length. specialize (HL 6). repeat split; auto; lia.
  - assert (X : exists c0, (c0 = CBool true \/ c0 = CBool false \/ c0 = CNull) /\ Some (c, r) = Some (c0, s')).
    { destruct (b mod 32 =? 20); [exists (CBool false); rewrite E; auto|]. destruct (b mod 32 =? 21); [exists (CBool true); rewrite E; auto|].
      destruct (b mod 32 =? 22); [exists CNull; rewrite E; auto|discriminate]. }
    destruct X as (c0 & C0 & X). injection X as -> ->. exists (b :: u). split; [reflexivity|]. destruct C0 as [->|[->| ->]]; cbn [cbor_encode length cbor_ok]; split; auto; lia.
Qed.
Lemma encode_shortest s c r : bytes_ok s -> cbor_read s = Some (c, r) -> cbor_ok c /\ exists u, s = u ++ r /\ zlen (cbor_encode c) <= zlen u.
Proof. intros OK H. destruct (read_inv _ _ _ _ OK H) as (u & -> & L & O). split; [exact O|]. exists u. split; [reflexivity|]. unfold zlen. lia. Qed.

Lemma head_bytes major n : 0 <= major <= 7 -> 0 <= n -> bytes_ok (cbor_head major n).
Proof.
  intros Bm Bn. unfold cbor_head. destruct (Z.ltb_spec n 24); [apply bytes_ok_cons; split; [unfold byte_ok; lia|constructor]|].
  repeat destruct (_ <? _); apply bytes_ok_cons; (split; [unfold byte_ok; lia|apply pack_be_ok]).
Qed.
Lemma concat_bytes {A} (e : A -> list Z) l : (forall x, In x l -> bytes_ok (e x)) -> bytes_ok (concat (map e l)).
Proof. induction l as [|x l IH]; intros H; cbn [map concat]; [constructor|]. apply bytes_ok_app. split; [apply H; left; reflexivity|apply IH; intros y I; apply H; right; exact I]. Qed.
Lemma encode_bytes c : cbor_ok c -> bytes_ok (cbor_encode c).
Proof.
  induction c as [n|n|b|b|l IH|l IH|t c IH|b|] using cbor_nested_ind; intros OK; cbn [cbor_encode].
  - apply head_bytes; [lia|apply OK].
  - apply head_bytes; [lia|apply OK].
  - apply bytes_ok_app. split; [apply head_bytes; [lia|apply zlen_nonneg]|apply OK].
  - apply bytes_ok_app. split; [apply head_bytes; [lia|apply zlen_nonneg]|apply OK].
  - destruct OK as [B OK]. apply ok_list in OK. apply bytes_ok_app. split; [apply head_bytes; [lia|apply zlen_nonneg]|]. rewrite Forall_forall in IH, OK.
    apply concat_bytes. intros x I. apply IH; auto.
  - destruct OK as [B OK]. apply ok_map in OK. apply bytes_ok_app. split; [apply head_bytes; [lia|apply zlen_nonneg]|]. rewrite Forall_forall in IH, OK.
    apply concat_bytes. intros [a b] I. destruct (IH _ I), (OK _ I). cbn [fst snd] in *. apply bytes_ok_app. auto.
  - apply bytes_ok_app. split; [apply head_bytes; [lia|apply OK]|apply IH, OK].
  - repeat constructor; destruct b; unfold byte_ok; lia.
  - repeat constructor; unfold byte_ok; lia.
Qed.
