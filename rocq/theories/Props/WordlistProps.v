(** The word lists of the package: C101, C102 and C103.

    [nfkd] and [lower_] are any normalization and lower case obeying [unicode_laws].  For the examples, normalization is the
    decomposition of the characters in the table, and lower case is that of ASCII. *)
From Verif.Model Require Import Py Text Misc OldWords Mnemonic TxJson Wordlists Hashes.
From Verif.Spec Require Import MnemonicSpec WordlistSpec MiscSpec HashSpec.
From Verif.Proofs Require Import PyFacts TextFacts MiscFacts BitsFacts MnemonicFacts ElectrumFacts WordlistFacts WordFiles HashesFacts HashesWords HashesExact HmacFacts MessageFacts.
From Verif.Props Require Import MnemonicProps.
#[local] Opaque english_txt spanish_txt japanese_txt chinese_simplified_txt electrum_old_txt old_words sha256 sha512 hmac_sha512 pbkdf2_sha512.

Definition english_words : list pystr := file_words english_text.
Definition spanish_words : list pystr := file_words spanish_text.
Definition japanese_words : list pystr := file_words japanese_text.
Definition chinese_words : list pystr := file_words chinese_text.
Definition bip39_files : list (pystr * (bytes * list pystr)) :=
  [(txt "english.txt", (english_txt, english_words)); (txt "spanish.txt", (spanish_txt, spanish_words));
   (txt "japanese.txt", (japanese_txt, japanese_words)); (txt "chinese_simplified.txt", (chinese_simplified_txt, chinese_words))].
Lemma english_words_small w : In w english_words -> zlen w <= 8 /\ forall c, In c w -> 97 <= c <= 122.
Proof. exact (english_small w). Qed.
#[local] Opaque english_words spanish_words japanese_words chinese_words.

(** The laws are those of some functions. *)
Definition table_nfkd (t : pystr) : pystr := flat_map decompose t.
Lemma decompose_again c : flat_map decompose (decompose c) = decompose c.
Proof.
  unfold decompose at 2 3. destruct (find _ decompositions) as [[x l]|] eqn:E.
  - apply find_some in E as [HI _]. cbn in HI. repeat (destruct HI as [HI|HI]; [injection HI as <- <-; reflexivity|]). contradiction.
  - cbn [flat_map]. unfold decompose. rewrite E. reflexivity.
Qed.
Lemma table_laws : unicode_laws table_nfkd lower.
Proof.
  split.
  - destruct sample_laws as [_ L1 L2 L3]. split; [|exact L1|exact L2|exact L3]. intros a b. unfold table_nfkd. rewrite flat_map_app. reflexivity.
  - reflexivity.
  - intros t. unfold table_nfkd. induction t as [|c t IH]; [reflexivity|]. cbn [flat_map]. rewrite flat_map_app, IH, decompose_again. reflexivity.
  - intros t HC. apply map_fixed. intros c Hc. specialize (HC c Hc). unfold caseless in HC. unfold lower_char. destruct (Z.leb_spec 65 c), (Z.leb_spec c 90); cbn [andb]; lia.
Qed.

(** C101.  The bytes of each file are UTF-8; the file is its words in order, each followed by a newline; it is read as the
    normalized words, 2048 of them, all different, each its own normalization. *)
Lemma files_ok name b ws : In (name, (b, ws)) bip39_files -> read_data_file name = Ok (file_text b) /\ ws = file_words (file_text b) /\ check_file (file_text b) 2048 = true.
Proof.
  intros [H|[H|[H|[H|[]]]]]; injection H as <- <- <-; (split; [reflexivity|]); (split; [reflexivity|]); [exact english_ok|exact spanish_ok|exact japanese_ok|exact chinese_ok].
Qed.
Theorem C101_read nfkd lower_ name b ws : unicode_laws nfkd lower_ -> In (name, (b, ws)) bip39_files ->
  read_wordlist nfkd lower_ read_data_file name 2048 = Ok ws /\ nfkd (file_text b) = lines_of ws /\ zlen ws = 2048 /\ good_words nfkd lower_ ws.
Proof.
  intros U HI. destruct (files_ok name b ws HI) as (HR & -> & HC). destruct (file_good nfkd lower_ U _ _ HC) as (H1 & H2 & H3 & H4). unfold read_wordlist. rewrite HR. auto.
Qed.
Print Assumptions C101_read.
(** The bytes of the files are the UTF-8 of the text *)
Theorem C101_utf8 : forall name b, In (name, b) data_files -> utf8_encode (file_text b) = Ok b /\ bytes_ok b = true.
Proof.
  assert (forallb (fun p => match utf8_encode (file_text (snd p)) with Ok b => bytes_eqb b (snd p) && bytes_ok (snd p) | Err _ => false end) data_files = true) as HA by (vm_compute; reflexivity).
  rewrite forallb_forall in HA. intros name b HI. specialize (HA _ HI). cbn [snd] in HA. destruct (utf8_encode (file_text b)) as [b'|]; [|discriminate]. apply andb_true_iff in HA as [H1 H2]. apply bytes_eqb_eq in H1. subst b'. auto.
Qed.
Print Assumptions C101_utf8.
(** The words of the original Electrum list, in Model/OldWords.v, are those of its file. *)
Theorem C101_electrum nfkd lower_ : unicode_laws nfkd lower_ -> read_wordlist nfkd lower_ read_data_file (txt "electrum_old.txt") 1626 = Ok old_words /\ NoDup old_words.
Proof.
  intros U. split; [|apply indexes_NoDup; rewrite old_count; exact old_indexes].
  unfold read_wordlist. change (read_data_file (txt "electrum_old.txt")) with (Ok (file_text electrum_old_txt)). cbn [bind]. unfold text_to_wordlist.
  rewrite (ul_simple _ _ U); [|intros c Hc; apply simple_char_iff; pose proof electrum_simple as HS; rewrite forallb_forall in HS; auto].
  match goal with |- context [map lower_ ?l] => replace l with old_words by (symmetry; exact electrum_lines) end.
  assert (map lower_ old_words = old_words) as ->.
  { apply map_fixed. intros w Hw. apply (lower_small _ _ (ul_text _ _ U)). now apply old_small. }
  match goal with |- (if ?x then _ else _) = _ => destruct x eqn:EX end.
  - apply existsb_exists in EX as (w & Hw & EX). apply existsb_exists in EX as (c & Hc & EX). destruct (old_small w Hw) as [_ HS]. specialize (HS c Hc). lia.
  - pose proof old_count as HC. unfold pystr in *. now rewrite HC.
Qed.
Print Assumptions C101_electrum.
(** Each English word is known from its first four letters. *)
Lemma NoDup_map_inj {A B} (f : A -> B) l x y : NoDup (map f l) -> In x l -> In y l -> f x = f y -> x = y.
Proof.
  induction l as [|a l IH]; intros HN HX HY HE; [contradiction|]. inversion HN as [|u v HN1 HN2]; subst. destruct HX as [<-|HX], HY as [<-|HY]; try reflexivity.
  - exfalso. apply HN1. rewrite HE. now apply in_map.
  - exfalso. apply HN1. rewrite <- HE. now apply in_map.
  - now apply IH.
Qed.
Theorem C101_four_letters w w' : In w english_words -> In w' english_words -> firstn 4 w = firstn 4 w' -> w = w'.
Proof.
  apply NoDup_map_inj. apply distinct_words_NoDup. vm_compute. reflexivity.
Qed.
Print Assumptions C101_four_letters.
Example C101_ex : firstn 3 english_words = [txt "abandon"; txt "ability"; txt "able"] /\ znth english_words 2047 = Some (txt "zoo") /\
  hd [] spanish_words = [97; 0x301; 98; 97; 99; 111] /\ unicode_laws table_nfkd lower /\ read_data_file (txt "latin.txt") = Err FileNotFoundError.
Proof. split; [vm_compute; reflexivity|]. split; [vm_compute; reflexivity|]. split; [vm_compute; reflexivity|]. split; [exact table_laws|reflexivity]. Qed.

(** C102.  BIP39 with the lists of the package, SHA-256 and PBKDF2: C60 without assumptions on the list or the hash *)
Section C102.
  Context (nfkd lower_ : pystr -> pystr) (U : unicode_laws nfkd lower_).
  Context (name : pystr) (b : bytes) (wl : list pystr) (F : In (name, (b, wl)) bip39_files).
  Theorem C102_from_entropy e : bytes_ok e = true -> bip39_size (zlen e) ->
    exists ws m, bip39_from_entropy sha256 e wl = Ok m /\ spaced ws m /\ bip39_words sha256 wl e ws /\ zlen ws = 3 * zlen e / 4 /\ bip39_is_valid nfkd lower_ sha256 m wl = Ok true.
  Proof using All. destruct (C101_read nfkd lower_ name b wl U F) as (_ & _ & HL & HG). exact (C60_from_entropy nfkd lower_ (ul_text _ _ U) sha256 sha256_ok sha256_len wl HG HL e). Qed.
  Theorem C102_valid_exactly m : bip39_is_valid nfkd lower_ sha256 m wl = Ok true <->
    exists e, bytes_ok e = true /\ bip39_size (zlen e) /\ bip39_from_entropy sha256 e wl = Ok (bip39_normalize nfkd lower_ m).
  Proof using All. destruct (C101_read nfkd lower_ name b wl U F) as (_ & _ & HL & HG). exact (C60_valid_exactly nfkd lower_ (ul_text _ _ U) sha256 sha256_ok sha256_len wl HG HL m). Qed.
  Theorem C102_unique e e' m : bytes_ok e = true -> bip39_size (zlen e) -> bytes_ok e' = true -> bip39_size (zlen e') ->
    bip39_from_entropy sha256 e wl = Ok m -> bip39_from_entropy sha256 e' wl = Ok m -> e = e'.
  Proof using All. destruct (C101_read nfkd lower_ name b wl U F) as (_ & _ & HL & HG). exact (C60_unique nfkd lower_ (ul_text _ _ U) sha256 sha256_ok sha256_len wl HG HL e e' m). Qed.
  Theorem C102_generate urandom n : (forall n, bytes_ok (urandom n) = true) -> (forall n, zlen (urandom n) = n) ->
    (In n [128; 160; 192; 224; 256] -> exists m, bip39_generate sha256 urandom wl n = Ok m /\ bip39_is_valid nfkd lower_ sha256 m wl = Ok true /\ zlen (split_ws m) = (n + n / 32) / 11) /\
    (~ In n [128; 160; 192; 224; 256] -> bip39_generate sha256 urandom wl n = Err ValueError).
  Proof using All. destruct (C101_read nfkd lower_ name b wl U F) as (_ & _ & HL & HG). exact (C60_generate nfkd lower_ (ul_text _ _ U) sha256 sha256_ok sha256_len wl HG HL urandom n). Qed.
End C102.
Print Assumptions C102_from_entropy.
Print Assumptions C102_valid_exactly.
Print Assumptions C102_unique.
Print Assumptions C102_generate.
Example C102_ex : bip39_from_entropy sha256 (repeat 0x7f 16) english_words = Ok (txt "legal winner thank year wave sausage worth useful legal winner thank yellow").
Proof. vm_compute. reflexivity. Qed.

(** Seeds, with PBKDF2: exactly RFC 2898's of the UTF-8 of the normalized texts *)
Theorem C102_seed nfkd lower_ m p s : bip39_to_seed nfkd lower_ pbkdf2_sha512 m p = Ok s <->
  exists mb pb, utf8_encode (bip39_normalize nfkd lower_ m) = Ok mb /\ utf8_encode (nfkd p) = Ok pb /\
    pbkdf2_says (hmac_says sha512_says 128) mb (txt "mnemonic" ++ pb) 2048 s.
Proof.
  assert (forall mb pb, bytes_ok mb = true -> bytes_ok pb = true -> (pbkdf2_sha512 mb (txt "mnemonic" ++ pb) 2048 = s <-> pbkdf2_says (hmac_says sha512_says 128) mb (txt "mnemonic" ++ pb) 2048 s)) as HE.
  { intros mb pb HM HP. apply pbkdf2_exact; [exact HM|rewrite bytes_ok_app, HP; reflexivity|lia]. }
  unfold bip39_to_seed. split.
  - intros H. apply bind_Ok in H as (mb & H1 & H). apply bind_Ok in H as (pb & H2 & H). apply Ok_inj in H. exists mb, pb. split; [exact H1|]. split; [exact H2|]. apply HE; [exact (utf8_bytes _ _ H1)|exact (utf8_bytes _ _ H2)|exact H].
  - intros (mb & pb & H1 & H2 & H3). rewrite H1, H2. cbn [bind]. f_equal. apply HE; [exact (utf8_bytes _ _ H1)|exact (utf8_bytes _ _ H2)|exact H3].
Qed.
Print Assumptions C102_seed.

(** Different mnemonics do not always have different seeds: every English mnemonic of 12 words has, for every passphrase, the
    same seed as the text with a NUL character after it, which is not a valid mnemonic.  (HMAC fills short keys with zeros.) *)
Theorem C102_nul nfkd lower_ e m p : unicode_laws nfkd lower_ -> bytes_ok e = true -> zlen e = 16 -> bip39_from_entropy sha256 e english_words = Ok m ->
  bip39_to_seed nfkd lower_ pbkdf2_sha512 (m ++ [0]) p = bip39_to_seed nfkd lower_ pbkdf2_sha512 m p /\
  bip39_normalize nfkd lower_ m = m /\ bip39_normalize nfkd lower_ (m ++ [0]) = m ++ [0] /\
  bip39_is_valid nfkd lower_ sha256 (m ++ [0]) english_words = Err BadWords.
Proof.
  intros U HB HE HM. assert (In (txt "english.txt", (english_txt, english_words)) bip39_files) as HF by now left. assert (bip39_size (zlen e)) as HS by (unfold bip39_size; lia).
  destruct (C101_read nfkd lower_ _ _ _ U HF) as (_ & _ & HL & HG).
  destruct (C102_from_entropy nfkd lower_ U _ _ _ HF e HB HS) as (ws & m2 & HM2 & HSp & HW & HC & _). rewrite HM in HM2. apply Ok_inj in HM2. subst m2. clear HF HM.
  assert (zlen ws = 12) as HC12 by (rewrite HC, HE; reflexivity). assert (forall w, In w ws -> In w english_words) as HIn by exact (words_in sha256 english_words e ws HW).
  assert (ws <> []) as Hne by (intros ->; discriminate).
  assert (forall w, In w ws -> word w /\ zlen w <= 8 /\ forall c, In c w -> 97 <= c <= 122) as HWd by (intros w Hw; split; [exact (proj1 (proj2 HG w (HIn w Hw)))|exact (english_words_small w (HIn w Hw))]).
  assert (Forall word ws) as HFW by (apply Forall_forall; intros w Hw; now apply HWd).
  assert (forall c, In c m -> c = 32 \/ 97 <= c <= 122) as HCh.
  { intros c Hc. destruct (spaced_chars ws m HSp c Hc) as [->|(w & Hw & HcW)]; [now left|right]. now apply (HWd w Hw). }
  assert (zlen m < 128) as HLm by (pose proof (spaced_length 8 ws m ltac:(lia) HSp (fun w Hw => proj1 (proj2 (HWd w Hw)))); lia).
  set (ws' := removelast ws ++ [last ws [] ++ [0]]). assert (spaced ws' (m ++ [0])) as HSp' by now apply spaced_last.
  assert (In (last ws []) ws) as HLast by (rewrite (app_removelast_last [] Hne) at 2; apply in_or_app; right; now left).
  assert (Forall word ws') as HFW'.
  { apply Forall_app. split; [apply Forall_forall; intros w Hw; rewrite Forall_forall in HFW; apply HFW; rewrite (app_removelast_last [] Hne); apply in_or_app; now left|].
    constructor; [|constructor]. destruct (proj1 (HWd _ HLast)) as [H1 H2]. split; [destruct (last ws []); discriminate|]. intros c Hc. apply in_app_or in Hc as [Hc|[<-|[]]]; [auto|reflexivity]. }
  assert (forall c, In c (m ++ [0]) -> 0 <= c < 65 \/ 91 <= c < 128) as HCh' by (intros c Hc; apply in_app_or in Hc as [Hc|[<-|[]]]; [specialize (HCh c Hc)|]; lia).
  assert (bip39_normalize nfkd lower_ m = m) as N1 by (apply (ascii_normalize nfkd lower_ U ws); [exact HFW|exact HSp|intros c Hc; specialize (HCh c Hc); lia]).
  assert (bip39_normalize nfkd lower_ (m ++ [0]) = m ++ [0]) as N2 by (apply (ascii_normalize nfkd lower_ U ws'); assumption).
  split; [|split; [exact N1|split; [exact N2|]]].
  - unfold bip39_to_seed. rewrite N1, N2. rewrite (utf8_ascii m) by (intros c Hc; specialize (HCh c Hc); lia). rewrite (utf8_ascii (m ++ [0])) by (intros c Hc; specialize (HCh' c Hc); lia). cbn [bind]. destruct (utf8_encode (nfkd p)) as [pb|]; [|reflexivity]. cbn [bind]. f_equal. now apply pbkdf2_zero_key.
  - assert (split_ws (bip39_normalize nfkd lower_ (m ++ [0])) = ws') as HSW by (rewrite N2; exact (split_spaced ws' _ HSp' HFW')).
    assert (In (last ws [] ++ [0]) ws' /\ ~ In (last ws [] ++ [0]) english_words) as [HB1 HB2].
    { split; [apply in_or_app; right; now left|]. intros HX. apply english_words_small in HX as [_ HX]. specialize (HX 0 ltac:(apply in_or_app; right; now left)). lia. }
    destruct (is_valid_cases nfkd lower_ sha256 sha256_ok sha256_len (m ++ [0]) english_words HL) as [[HX _]|[(_ & _ & HX)|(_ & HX & _)]].
    + exfalso. apply HX. rewrite HSW. replace (zlen ws') with (zlen ws); [rewrite HC12; cbn; tauto|]. unfold ws'. rewrite (app_removelast_last [] Hne) at 1. rewrite !zlen_app. reflexivity.
    + exact HX.
    + exfalso. apply HB2. apply HX. rewrite HSW. exact HB1.
Qed.
Print Assumptions C102_nul.
Theorem C102_different_refuted nfkd lower_ : unicode_laws nfkd lower_ ->
  exists m m' , bip39_normalize nfkd lower_ m <> bip39_normalize nfkd lower_ m' /\ forall p, bip39_to_seed nfkd lower_ pbkdf2_sha512 m p = bip39_to_seed nfkd lower_ pbkdf2_sha512 m' p.
Proof.
  intros U. assert (In (txt "english.txt", (english_txt, english_words)) bip39_files) as HF by now left.
  destruct (C102_from_entropy nfkd lower_ U _ _ _ HF (repeat 0 16) eq_refl ltac:(change (zlen (repeat 0 16)) with 16; unfold bip39_size; lia)) as (ws & m & HM & _). exists m, (m ++ [0]). split.
  - destruct (C102_nul nfkd lower_ (repeat 0 16) m [] U eq_refl eq_refl HM) as (_ & -> & -> & _). intros HX. apply (f_equal zlen) in HX. rewrite zlen_app in HX. change (zlen [0]) with 1 in HX. lia.
  - intros p. destruct (C102_nul nfkd lower_ (repeat 0 16) m p U eq_refl eq_refl HM) as (-> & _). reflexivity.
Qed.
Print Assumptions C102_different_refuted.

(** C103.  The cache of word lists.  Whatever the files contain: answers to any sequence of calls are those of reading the file
    again each time, unless the Electrum file is asked for as a BIP39 list. *)
Section C103.
  Context (nfkd lower_ : pystr -> pystr) (read_file : pystr -> result pystr).
  Theorem C103_transparent_partial cs : ~ In (Bip39 (txt "electrum_old.txt")) cs ->
    wordlist_calls nfkd lower_ read_file [] cs = map (fun c => read_wordlist nfkd lower_ read_file (fst (call_args c)) (snd (call_args c))) cs.
  Proof using.
    clear. intros HN. apply (calls_answers nfkd lower_ read_file (fun f n => exists c, In c cs /\ call_args c = (f, n))); [intros f ws HX; discriminate|].
    intros c Hc. split; [exists c; split; [exact Hc|now destruct (call_args c)]|]. intros k (d & Hd & HE). destruct c as [|f], d as [|g]; cbn in *; injection HE; intros; subst; try reflexivity; contradiction.
  Qed.
  (** In every sequence of calls, what is returned is the list of words of the file, though perhaps not of the length promised. *)
  Theorem C103_words cs : Forall2 (fun c a => forall ws, a = Ok ws -> exists t, read_file (fst (call_args c)) = Ok t /\ text_to_wordlist nfkd lower_ t None = Ok ws)
    cs (wordlist_calls nfkd lower_ read_file [] cs).
  Proof using.
    clear. assert (cache_true nfkd lower_ read_file []) as HC by (intros f ws HX; discriminate). revert HC. generalize (@nil (pystr * list pystr)) as cache. induction cs as [|c cs IH]; intros cache HC; [constructor|]. cbn [wordlist_calls]. unfold wordlist_call.
    destruct (call_args c) as [f n] eqn:EC. destruct (cached_true nfkd lower_ read_file cache f n HC) as [H1 H2]. destruct (cached_wordlist nfkd lower_ read_file cache f n) as [a cache']. cbn [fst snd] in *. constructor; [rewrite EC; exact H2|now apply IH].
  Qed.
End C103.
Print Assumptions C103_transparent_partial.
Print Assumptions C103_words.
(** bip39_wordlist('electrum_old.txt') raises SyntaxError, but not once the Electrum list has been used: then it returns a list of
    1626 words. *)
Theorem C103_length_refuted nfkd lower_ : unicode_laws nfkd lower_ ->
  wordlist_calls nfkd lower_ read_data_file [] [Bip39 (txt "electrum_old.txt"); OriginalElectrum; Bip39 (txt "electrum_old.txt")] = [Err SyntaxError; Ok old_words; Ok old_words].
Proof.
  intros U. destruct (C101_electrum nfkd lower_ U) as [HE _].
  assert (read_wordlist nfkd lower_ read_data_file (txt "electrum_old.txt") 2048 = Err SyntaxError) as HB.
  { unfold read_wordlist in *. change (read_data_file (txt "electrum_old.txt")) with (Ok (file_text electrum_old_txt)) in *. cbn [bind] in *. destruct (text_to_wordlist nfkd lower_ (file_text electrum_old_txt) (Some 2048)) as [ws|x] eqn:EX.
    - exfalso. apply read_any in EX as [E1 L1]. apply read_any in HE as [E2 L2]. rewrite E1 in E2. apply Ok_inj in E2. unfold pystr in *. rewrite E2 in L1. lia.
    - f_equal. exact (C70_errors nfkd lower_ _ _ _ EX). }
  assert (old_words <> []) as HN by (intros HX; pose proof old_count as HC; rewrite HX in HC; discriminate HC). revert HE HN. generalize old_words as W. intros W HE HN.
  cbn [wordlist_calls]. unfold wordlist_call. cbn [call_args]. unfold cached_wordlist at 1. cbn [lookup]. rewrite HB. f_equal. unfold cached_wordlist at 1. cbn [lookup]. rewrite HE. f_equal.
  unfold cached_wordlist. rewrite lookup_cons. change (bytes_eqb (txt "electrum_old.txt") (txt "electrum_old.txt")) with true. cbv iota. destruct W as [|w W]; [contradiction|reflexivity].
Qed.
Print Assumptions C103_length_refuted.
Example C103_ex : map (fun a => match a with Ok ws => zlen ws | Err _ => -1 end)
  (wordlist_calls table_nfkd lower read_data_file [] [Bip39 (txt "english.txt"); OriginalElectrum; Bip39 (txt "latin.txt"); Bip39 (txt "english.txt")]) = [2048; 1626; -1; 2048].
Proof. vm_compute. reflexivity. Qed.
