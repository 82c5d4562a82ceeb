(* C40 and C91: mnemonic sentences and the seeds made from them. *)
From Verif Require Import Base WireModel MerkleModel TextModel Bip39Words Bip39Model Bip39Spec Bip39Bits Bip39Proofs.
From Coq Require Import String List.
Import ListNotations.
Local Open Scope list_scope.
Local Open Scope N_scope.

(* C40: generated sentences are those of BIP 39, and valid accepts them *)
Theorem C40_word_list : good_words english_words.
Proof. exact english_good. Qed.
Print Assumptions C40_word_list.
Theorem C40_generate_exact : forall sha, (forall m, length (sha m) = 32%nat) -> forall e s,
  generate sha English e = Ret s <-> mnemonic sha english_words e s.
Proof. exact (fun sha S => generate_exact sha S english_words english_good). Qed.
Print Assumptions C40_generate_exact.
Theorem C40_generate_undefined : forall sha e, generate sha English e = Undef <-> ~ exists k, entropy_size e k.
Proof. exact (fun sha => generate_undefined sha english_words). Qed.
Print Assumptions C40_generate_undefined.
Theorem C40_generated_valid : forall sha, (forall m, length (sha m) = 32%nat) -> forall e s,
  generate sha English e = Ret s -> valid sha English s = Ret true.
Proof. exact (fun sha S => generated_valid sha S english_words english_good). Qed.
Print Assumptions C40_generated_valid.
Theorem C40_word_count : forall sha, (forall m, length (sha m) = 32%nat) -> forall e s, mnemonic sha english_words e s ->
  exists k idx, entropy_size e k /\ s = sentence english_words idx /\ length idx = (3 * k)%nat /\ Forall (fun i => (i < 2048)%nat) idx /\
    idx <> [] /\ index_bits idx = bits e ++ firstn k (bits (sha e)).
Proof. exact (fun sha S => mnemonic_facts sha S english_words). Qed.
Print Assumptions C40_word_count.
Theorem C40_determines_entropy : forall sha, (forall m, length (sha m) = 32%nat) -> forall e f s,
  mnemonic sha english_words e s -> mnemonic sha english_words f s -> e = f.
Proof. exact (fun sha S => mnemonic_inj sha S english_words english_good). Qed.
Print Assumptions C40_determines_entropy.
Theorem C40_distinct_sentences : forall a b, Forall (fun i => (i < 2048)%nat) a -> Forall (fun i => (i < 2048)%nat) b -> a <> [] -> b <> [] ->
  sentence english_words a = sentence english_words b -> a = b.
Proof. exact (fun a b => sentence_inj english_words a b english_good). Qed.
Print Assumptions C40_distinct_sentences.
(* of sentences with 12, 15, 18, 21 or 24 words, valid accepts those that generate can make and no others *)
Theorem C40_valid_standard : forall sha, (forall m, length (sha m) = 32%nat) -> forall s idx k, (4 <= k <= 8)%nat -> length idx = (3 * k)%nat ->
  Forall (fun i => (i < 2048)%nat) idx -> s = sentence english_words idx ->
  valid sha English s = Ret true <-> exists e, mnemonic sha english_words e s.
Proof. exact (fun sha S => valid_standard sha S english_words english_good). Qed.
Print Assumptions C40_valid_standard.
(* everything that valid accepts, whatever the number of words *)
Theorem C40_valid_exact : forall sha, (forall m, length (sha m) = 32%nat) -> forall s, valid sha English s = Ret true <->
  exists idx e c, idx <> [] /\ Forall (fun i => (i < 2048)%nat) idx /\ s = sentence english_words idx /\ index_bits idx = bits e ++ c /\ accepted sha e c.
Proof. exact (fun sha S => valid_exact sha S english_words english_good). Qed.
Print Assumptions C40_valid_exact.
(* from 27 words on, a shift by a negative number *)
Theorem C40_valid_undefined : forall sha, (forall m, length (sha m) = 32%nat) -> forall s, valid sha English s = Undef <->
  exists idx, (27 <= length idx)%nat /\ Forall (fun i => (i < 2048)%nat) idx /\ s = sentence english_words idx.
Proof. exact (fun sha S => valid_undefined sha S english_words english_good). Qed.
Print Assumptions C40_valid_undefined.
(* lengths that BIP 39 does not have are accepted: one word in eight is valid alone, for any hash *)
Theorem C40_length_refuted : forall sha, (forall m, length (sha m) = 32%nat) -> forall i, (i < 2048)%nat -> (i mod 8 = 0)%nat ->
  valid sha English (sentence english_words [i]) = Ret true.
Proof. exact (fun sha S => one_word_valid sha S english_words english_good). Qed.
Print Assumptions C40_length_refuted.
(* Japanese: nothing can be generated, and no text is valid *)
Theorem C40_japanese_refuted : forall sha, (forall e, generate sha Japanese e = Throw Unimplemented) /\ (forall s, valid sha Japanese s = Ret false).
Proof. exact (fun sha => conj (fun e => eq_refl) (japanese_invalid sha)). Qed.
Print Assumptions C40_japanese_refuted.
Example C40_example :
  generate (fun _ => x37 :: repeat x00 31) English (repeat x00 16) =
    Ret (text "abandon abandon abandon abandon abandon abandon abandon abandon abandon abandon abandon about") /\
  valid (fun _ => x37 :: repeat x00 31) English (text "abandon abandon abandon abandon abandon abandon abandon abandon abandon abandon abandon about") = Ret true /\
  valid (fun _ => x37 :: repeat x00 31) English (text "abandon abandon abandon abandon abandon abandon abandon abandon abandon abandon abandon abandon") = Ret false.
Proof. split; [vm_compute; reflexivity|]. split; vm_compute; reflexivity. Qed.

(* C91: seeds *)
Theorem C91_seed : forall pbkdf2 words passphrase,
  seed_read pbkdf2 English words passphrase = Ret (pbkdf2 words (text "mnemonic" ++ passphrase) 2048 64) /\
  seed_read pbkdf2 Japanese words passphrase = Throw Unimplemented.
Proof. exact (fun pbkdf2 words passphrase => conj eq_refl eq_refl). Qed.
Print Assumptions C91_seed.
(* seeds of different words or passphrases are values of PBKDF2 at different passwords or salts *)
Theorem C91_seed_separates : forall pbkdf2 words passphrase words' passphrase',
  seed_read pbkdf2 English words passphrase = seed_read pbkdf2 English words' passphrase' -> (words, passphrase) <> (words', passphrase') ->
  exists salt salt', (words, salt) <> (words', salt') /\ pbkdf2 words salt 2048 64 = pbkdf2 words' salt' 2048 64.
Proof. exact seed_separates. Qed.
Print Assumptions C91_seed_separates.
(* the words are not checked: a text that is not valid has a seed like any other *)
Theorem C91_unchecked_refuted : forall sha pbkdf2, valid sha English (text "abandon abandonn") = Ret false /\
  exists seed, seed_read pbkdf2 English (text "abandon abandonn") [] = Ret seed.
Proof. exact (fun sha pbkdf2 => conj eq_refl (ex_intro _ _ eq_refl)). Qed.
Print Assumptions C91_unchecked_refuted.
(* Electrum: words and passphrase run together, so that different ones have one seed, whatever PBKDF2 is *)
Theorem C91_electrum_refuted : forall pbkdf2 w q p,
  electrum_read pbkdf2 (w ++ text "electrum" ++ q) p = electrum_read pbkdf2 w (q ++ text "electrum" ++ p).
Proof. exact electrum_ambiguous. Qed.
Print Assumptions C91_electrum_refuted.
Theorem C91_electrum_exact : forall words passphrase words' passphrase',
  (forall pbkdf2, electrum_read pbkdf2 words passphrase = electrum_read pbkdf2 words' passphrase') <->
  words ++ text "electrum" ++ passphrase = words' ++ text "electrum" ++ passphrase'.
Proof. exact electrum_same. Qed.
Print Assumptions C91_electrum_exact.
Example C91_example : electrum_read (fun p s n k => p) (text "xelectrum") (text "y") = electrum_read (fun p s n k => p) (text "x") (text "electrumy") /\
  electrum_read (fun p s n k => p) (text "x") (text "y") <> electrum_read (fun p s n k => p) (text "x") (text "z").
Proof. split; [vm_compute; reflexivity|]. intros C. vm_compute in C. discriminate C. Qed.
