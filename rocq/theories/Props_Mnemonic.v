(** Properties C16-C18: BIP-39 mnemonics.  [sha256] ranges over all functions of the shape of
    SHA-256 (32 bytes out); [word_at lang i] is the i-th word of a language's list. *)
From Verif Require Import Base BaseLemmas Model_Mnemonic Spec_Mnemonic Proof_Mnemonic.

(** C16: a generated phrase has the requested size, its words are those of its indexes, its
    checksum verifies, and it gives back exactly the random bytes it was made from. *)
Theorem C16_generate_round_trip : forall sha256, sha256_shape sha256 ->
  forall n lang ent, bip39_size n -> bytes_ok ent -> length ent = (4 * (n / 3))%nat ->
  exists m, generate sha256 n lang ent = Ok m /\
    length (m_idx m) = n /\ digits_ok 2048 (m_idx m) /\ m_words m = map (word_at lang) (m_idx m) /\
    verify_checksum sha256 m = Ok true /\ toSeed m = Ok ent /\
    toEntropy m = Ok (ent, leading_bits (n / 3) (sha256 ent)).
Proof. exact generate_round_trip. Qed.
Print Assumptions C16_generate_round_trip.

(** C16: the indexes are the BIP-39 groups of the entropy and its checksum. *)
Theorem C16_generate_is_bip39 : forall sha256, sha256_shape sha256 ->
  forall n lang ent, bip39_size n -> bytes_ok ent -> length ent = (4 * (n / 3))%nat ->
  exists idx, generate sha256 n lang ent = Ok {| m_words := map (word_at lang) idx; m_idx := idx |} /\
    length idx = n /\ is_bip39_split ent (leading_bits (n / 3) (sha256 ent)) idx.
Proof. exact generate_spec. Qed.
Print Assumptions C16_generate_is_bip39.

(** C16: unsupported sizes throw. *)
Theorem C16_generate_rejects : forall sha256 n lang ent, ~ bip39_size n ->
  generate sha256 n lang ent = Throw.
Proof. exact generate_rejects. Qed.
Print Assumptions C16_generate_rejects.

Example C16_nontrivial :
  sha256_shape (fun _ => repeat 197 32) /\ bip39_size 12 /\ bytes_ok (map Z.of_nat (seq 100 16)) /\
  omap m_idx (generate (fun _ => repeat 197 32) 12 English (map Z.of_nat (seq 100 16))) =
  Ok [803; 345; 1230; 1670; 1205; 429; 1421; 1390; 891; 1052; 740; 1852].
Proof.
  split; [intros x; split; [apply bytes_okb_spec|]; reflexivity|].
  split; [right; left; reflexivity|]. split; [apply bytes_okb_spec; reflexivity|vm_compute; reflexivity].
Qed.

(** C17: the entropy is the leading part of the concatenated 11-bit indexes, the checksum the rest. *)
Theorem C17_entropy_positional : forall m, bip39_size (length (m_idx m)) -> digits_ok 2048 (m_idx m) ->
  exists ent cs, toEntropy m = Ok (ent, cs) /\ is_bip39_split ent cs (m_idx m).
Proof. exact toEntropy_spec. Qed.
Print Assumptions C17_entropy_positional.

(** C17: and that split is unique. *)
Theorem C17_split_unique : forall ent cs ent' cs' idx,
  is_bip39_split ent cs idx -> is_bip39_split ent' cs' idx -> ent = ent' /\ cs = cs'.
Proof. exact split_unique. Qed.
Print Assumptions C17_split_unique.

(** C17: the checksum verifies iff the remaining bits are the leading bits of the hash. *)
Theorem C17_verify_checksum : forall sha256, sha256_shape sha256 ->
  forall m ent cs, bip39_size (length (m_idx m)) -> toEntropy m = Ok (ent, cs) ->
  verify_checksum sha256 m = Ok (leading_bits (length (m_idx m) / 3) (sha256 ent) =? cs).
Proof. exact verify_spec. Qed.
Print Assumptions C17_verify_checksum.

(** C17: equal entropy and valid checksums mean equal phrases. *)
Theorem C17_valid_phrases_injective : forall sha256, sha256_shape sha256 ->
  forall m m' ent c c',
  bip39_size (length (m_idx m)) -> bip39_size (length (m_idx m')) ->
  digits_ok 2048 (m_idx m) -> digits_ok 2048 (m_idx m') ->
  toEntropy m = Ok (ent, c) -> toEntropy m' = Ok (ent, c') ->
  verify_checksum sha256 m = Ok true -> verify_checksum sha256 m' = Ok true -> m_idx m = m_idx m'.
Proof. exact valid_inj. Qed.
Print Assumptions C17_valid_phrases_injective.

Example C17_nontrivial :
  toEntropy {| m_words := []; m_idx := [1; 2047; 3; 4; 5; 6; 7; 8; 9] |} =
  Ok ([0; 63; 252; 1; 128; 64; 10; 1; 128; 56; 8; 1], 1).
Proof. vm_compute. reflexivity. Qed.

(** C18: every language has 2048 distinct, non-empty words without a space. *)
Theorem C18_word_lists : forall lang,
  length (words_of lang) = 2048%nat /\ NoDup (words_of lang) /\
  forall w, In w (words_of lang) -> ~ In 32 w /\ w <> [] /\ bytes_ok w.
Proof. exact (fun lang => conj (words_length lang) (conj (words_distinct lang) (words_plain lang))). Qed.
Print Assumptions C18_word_lists.

(** Words of the published BIP-39 lists by position (0 and 2047: the first and the last; for Chinese also 9, which tells the scripts apart),
    in UTF-8, NFKD where accented. *)
Definition published_words (l : language) : list (nat * list Z) :=
  match l with
  | ChineseSimplified => [(0%nat, [231; 154; 132]); (9%nat, [232; 191; 153]); (2047%nat, [230; 173; 135])]
  | ChineseTraditional => [(0%nat, [231; 154; 132]); (9%nat, [233; 128; 153]); (2047%nat, [230; 173; 135])]
  | Czech => [(0%nat, str "abdikace"); (2047%nat, str "zvyk")]
  | English => [(0%nat, str "abandon"); (2047%nat, str "zoo")]
  | French => [(0%nat, str "abaisser"); (2047%nat, str "zoologie")]
  | Italian => [(0%nat, str "abaco"); (2047%nat, str "zuppa")]
  | Japanese => [(0%nat, [227; 129; 130; 227; 129; 132; 227; 129; 147; 227; 129; 143; 227; 129; 151; 227; 130; 147]); (2047%nat, [227; 130; 143; 227; 130; 140; 227; 130; 139])]
  | Korean => [(0%nat, [225; 132; 128; 225; 133; 161; 225; 132; 128; 225; 133; 167; 225; 134; 168]); (2047%nat, [225; 132; 146; 225; 133; 181; 225; 134; 183; 225; 132; 129; 225; 133; 165; 225; 134; 186])]
  | Portuguese => [(0%nat, str "abacate"); (2047%nat, str "zumbido")]
  | Spanish => [(0%nat, [97; 204; 129; 98; 97; 99; 111]); (2047%nat, str "zurdo")]
  end.
(** C18: each language has its own list, the published one (checked at its first and last words). *)
Theorem C18_languages : (forall l i w, In (i, w) (published_words l) -> nth_error (words_of l) i = Some w) /\
  (forall l l', words_of l = words_of l' -> l = l').
Proof.
  split.
  - intros l i w I. destruct l; cbn [published_words In] in I; repeat (destruct I as [I|I]; [injection I as <- <-; vm_compute; reflexivity|]); contradiction.
  - assert (K : forall l, In l [ChineseSimplified; ChineseTraditional; Czech; English; French; Italian; Japanese; Korean; Portuguese; Spanish]) by (intros []; cbn [In]; tauto).
    set (ls := [ChineseSimplified; ChineseTraditional; Czech; English; French; Italian; Japanese; Korean; Portuguese; Spanish]) in K.
    set (key := fun l => (nth 0 (words_of l) [], nth 9 (words_of l) [])). set (num := fun l : language => match l with ChineseSimplified => 0 | ChineseTraditional => 1 | Czech => 2 | English => 3 | French => 4 | Italian => 5 | Japanese => 6 | Korean => 7 | Portuguese => 8 | Spanish => 9 end).
    assert (T : forallb (fun l => forallb (fun l' => implb (zlist_eqb (fst (key l)) (fst (key l')) && zlist_eqb (snd (key l)) (snd (key l'))) (num l =? num l')) ls) ls = true) by (vm_compute; reflexivity).
    intros l l' E. rewrite forallb_forall in T. specialize (T l (K l)). cbv beta in T. rewrite forallb_forall in T. specialize (T l' (K l')). cbv beta in T.
    assert (E2 : key l = key l') by (unfold key; rewrite E; reflexivity). rewrite E2 in T.
    assert (R : forall a, zlist_eqb a a = true) by (intros a; apply zlist_eqb_spec; reflexivity). rewrite !R in T. cbn [andb implb] in T. apply Z.eqb_eq in T. destruct l, l'; try reflexivity; discriminate.
Qed.
Print Assumptions C18_languages.

(** C18: joining the words of any index list with spaces and reading the text gives it back. *)
Theorem C18_text_round_trip : forall lang idx, bip39_size (length idx) -> digits_ok 2048 idx ->
  Mnemonic_of_text (join_spaces (map (word_at lang) idx)) lang =
  Ok {| m_words := map (word_at lang) idx; m_idx := idx |}.
Proof. exact text_round_trip. Qed.
Print Assumptions C18_text_round_trip.

(** C18: conversely every accepted text is the join of the words of its indexes. *)
Theorem C18_text_accepts : forall lang s m, Mnemonic_of_text s lang = Ok m ->
  bip39_size (length (m_idx m)) /\ digits_ok 2048 (m_idx m) /\
  m_words m = map (word_at lang) (m_idx m) /\ s = join_spaces (m_words m).
Proof. exact text_accepts. Qed.
Print Assumptions C18_text_accepts.

Example C18_nontrivial :
  omap m_idx (Mnemonic_of_text (str "zoo zoo zoo zoo zoo zoo zoo zoo abandon") English) =
  Ok [2047; 2047; 2047; 2047; 2047; 2047; 2047; 2047; 0].
Proof. vm_compute. reflexivity. Qed.
