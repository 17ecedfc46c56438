(** The files of word lists are read as the lists of their lines. *)
From Coq Require Import FMapPositive.
From Verif.Model Require Import Py Text OldWords Mnemonic TxJson Wordlists Hashes.
From Verif.Spec Require Import MnemonicSpec WordlistSpec.
From Verif.Proofs Require Import PyFacts TextFacts MiscFacts MnemonicFacts ElectrumFacts WordlistFacts.

Fixpoint distinct (m : PositiveMap.t unit) (l : list positive) : bool :=
  match l with [] => true | x :: r => match PositiveMap.find x m with Some _ => false | None => distinct (PositiveMap.add x tt m) r end end.
Lemma distinct_NoDup l : forall m, distinct m l = true -> NoDup l /\ forall x, In x l -> PositiveMap.find x m = None.
Proof.
  induction l as [|x l IH]; intros m H; [split; [constructor|intros y []]|]. cbn [distinct] in H. destruct (PositiveMap.find x m) eqn:E; [discriminate|]. destruct (IH _ H) as [HN HF].
  assert (~ In x l) as HX by (intros HI; specialize (HF x HI); rewrite PositiveMap.gss in HF; discriminate). split; [now constructor|].
  intros y [<-|HI]; [exact E|]. specialize (HF y HI). rewrite PositiveMap.gso in HF; [exact HF|]. intros ->. contradiction.
Qed.
Definition word_key (w : pystr) : positive := Z.to_pos (fold_left (fun k c => Z.lor (Z.shiftl k 16) c) w 1).
Definition distinct_words (ws : list pystr) : bool := distinct (PositiveMap.empty unit) (map word_key ws).
Lemma distinct_words_NoDup ws : distinct_words ws = true -> NoDup ws.
Proof. intros H. apply distinct_NoDup in H as [H _]. exact (NoDup_map_inv _ _ H). Qed.

(** The words of a file and what is checked of it *)
Definition file_words (text : pystr) : list pystr := map (flat_map decompose) (split_ws text).
Definition simple_char (c : Z) : bool := (0 <=? c) && (c <? 128) || existsb (Z.eqb c) [0xe1; 0xe9; 0xed; 0xf1; 0xf3; 0xfa] || (0x3041 <=? c) && (c <=? 0x3096) || (0x4e00 <=? c) && (c <=? 0x9fff).
Definition word_char (c : Z) : bool := (97 <=? c) && (c <=? 122) || (c =? 0x301) || (c =? 0x303) || (0x3041 <=? c) && (c <=? 0x309a) || (0x4e00 <=? c) && (c <=? 0x9fff).
Definition check_file (text : pystr) (n : Z) : bool :=
  let raws := split_ws text in
  let words := map (flat_map decompose) raws in
  forallb simple_char text && bytes_eqb text (lines_of raws) && forallb (fun w => negb (zlen w =? 0) && forallb word_char w) words && distinct_words words && (zlen words =? n).
Lemma simple_char_iff c : simple_char c = true <-> simple c.
Proof.
  unfold simple_char, simple. rewrite !orb_true_iff, !andb_true_iff, existsb_In, !Z.leb_le, Z.ltb_lt. tauto.
Qed.
Lemma word_char_space c : word_char c = true -> is_space_str c = false.
Proof. unfold word_char, is_space_str, is_space. lia. Qed.
Lemma word_char_caseless c : word_char c = true -> caseless c.
Proof. unfold word_char, caseless. lia. Qed.
Lemma decompose_10 : decompose 10 = [10]. Proof. reflexivity. Qed.
Lemma lines_flat raws : flat_map decompose (lines_of raws) = lines_of (map (flat_map decompose) raws).
Proof.
  unfold lines_of. induction raws as [|w l IH]; [reflexivity|]. cbn [flat_map map]. rewrite !flat_map_app, IH. reflexivity.
Qed.
Lemma lines_join ws : lines_of ws = join [10] (ws ++ [[]]).
Proof.
  induction ws as [|w ws IH]; [reflexivity|]. unfold lines_of in *. cbn [flat_map]. rewrite IH. cbn [app]. destruct ws; cbn [app join]; rewrite <- ?app_assoc; reflexivity.
Qed.
Section Read.
  Context (nfkd lower_ : pystr -> pystr) (U : unicode_laws nfkd lower_).
  Lemma file_good text n : check_file text n = true ->
    text_to_wordlist nfkd lower_ text (Some n) = Ok (file_words text) /\ good_words nfkd lower_ (file_words text) /\ zlen (file_words text) = n /\
    nfkd text = lines_of (file_words text).
  Proof using U.
    unfold check_file. rewrite !andb_true_iff. intros ((((HS & HE) & HW) & HD) & HL). fold (file_words text) in HW, HD, HL. rewrite forallb_forall in HS, HW. apply bytes_eqb_eq in HE. apply Z.eqb_eq in HL.
    assert (forall c, In c text -> simple c) as HS' by (intros c Hc; apply simple_char_iff; auto).
    assert (forall w, In w (file_words text) -> word w /\ lower_ w = w) as HF.
    { intros w Hw. specialize (HW w Hw). apply andb_true_iff in HW as [HZ HC]. rewrite forallb_forall in HC. split.
      - split; [intros ->; discriminate|]. intros c Hc. apply word_char_space. auto.
      - apply (ul_lower _ _ U). intros c Hc. apply word_char_caseless. auto. }
    assert (nfkd text = lines_of (file_words text)) as HN by (rewrite (ul_simple _ _ U _ HS'), HE at 1; apply lines_flat).
    assert (map lower_ (file_words text) = file_words text) as HM by (apply map_fixed; intros w Hw; now apply HF).
    split; [|split; [split; [now apply distinct_words_NoDup|]|split; [exact HL|exact HN]]].
    - rewrite (read_words nfkd lower_ (ul_text _ _ U) text (file_words text ++ [[]]) (file_words text) (Some n)).
      + unfold pystr in *. rewrite HL, Z.eqb_refl, HM. reflexivity.
      + rewrite HN. apply lines_join.
      + destruct (file_words text); discriminate.
      + apply Forall_app. split; [|repeat constructor; intros []]. apply Forall_forall. intros w Hw HI. destruct (HF w Hw) as [[_ HC] _]. specialize (HC 10 HI). discriminate.
      + assert (forall w, In w (file_words text) -> exists c r, w = c :: r /\ word w /\ c <> 35) as HQ.
        { intros w Hw. destruct (HF w Hw) as [HWd _]. destruct w as [|c r]; [destruct HWd; congruence|]. exists c, r. split; [reflexivity|]. split; [exact HWd|]. intros ->. specialize (HW _ Hw). discriminate. }
        clear - HQ. revert HQ. generalize (file_words text) as ws. induction ws as [|w ws IH]; intros HQ.
        * cbn [app]. apply wl_blank; [intros c []|constructor].
        * destruct (HQ w (or_introl eq_refl)) as (c & r & -> & HWd & Hc). cbn [app].
          replace (c :: r) with ([] ++ (c :: r) ++ []) at 1 by (cbn; now rewrite app_nil_r). apply wl_word; [intros x []|intros x []|exact HWd|exact Hc|]. apply IH. intros v Hv. apply HQ. now right.
    - intros w Hw. destruct (HF w Hw) as [H1 H2]. split; [exact H1|]. split; [|exact H2]. unfold file_words in Hw. apply in_map_iff in Hw as (v & <- & Hv).
      rewrite <- (ul_simple _ _ U v); [apply (ul_again _ _ U)|]. intros c Hc. apply HS'. rewrite HE. unfold lines_of. apply in_flat_map. exists v. split; [exact Hv|]. apply in_or_app. now left.
  Qed.
End Read.

Definition english_text : pystr := file_text english_txt.
Definition spanish_text : pystr := file_text spanish_txt.
Definition japanese_text : pystr := file_text japanese_txt.
Definition chinese_text : pystr := file_text chinese_simplified_txt.
Lemma english_ok : check_file english_text 2048 = true. Proof. vm_compute. reflexivity. Qed.
Lemma spanish_ok : check_file spanish_text 2048 = true. Proof. vm_compute. reflexivity. Qed.
Lemma japanese_ok : check_file japanese_text 2048 = true. Proof. vm_compute. reflexivity. Qed.
Lemma chinese_ok : check_file chinese_text 2048 = true. Proof. vm_compute. reflexivity. Qed.
Lemma electrum_lines : filter is_word_line (map strip (split_on 10 (flat_map decompose (file_text electrum_old_txt)))) = old_words.
Proof. vm_compute. reflexivity. Qed.
Lemma electrum_simple : forallb simple_char (file_text electrum_old_txt) = true.
Proof. vm_compute. reflexivity. Qed.

(** ** The cache *)
Section Cache.
  Context (nfkd lower_ : pystr -> pystr) (read_file : pystr -> result pystr).
  Lemma lookup_cons {A} (k : pystr) (v : A) l x : lookup ((k, v) :: l) x = if bytes_eqb k x then Some v else lookup l x.
  Proof using. reflexivity. Qed.
  (** Every entry was read with a count that some call gave for its file. *)
  Definition cache_from (counts : pystr -> Z -> Prop) (cache : wl_cache) : Prop :=
    forall f ws, lookup cache f = Some ws -> exists n, counts f n /\ read_wordlist nfkd lower_ read_file f n = Ok ws.
  Lemma cached_answer counts cache f n : cache_from counts cache -> counts f n -> (forall k, counts f k -> k = n) ->
    fst (cached_wordlist nfkd lower_ read_file cache f n) = read_wordlist nfkd lower_ read_file f n /\ cache_from counts (snd (cached_wordlist nfkd lower_ read_file cache f n)).
  Proof using.
    intros HC Hn HU. unfold cached_wordlist.
    assert (fst (match read_wordlist nfkd lower_ read_file f n with Ok words => (Ok words, (f, words) :: cache) | Err e => (Err e, cache) end) = read_wordlist nfkd lower_ read_file f n /\
            cache_from counts (snd (match read_wordlist nfkd lower_ read_file f n with Ok words => (Ok words, (f, words) :: cache) | Err e => (Err e, cache) end))) as HR.
    { destruct (read_wordlist nfkd lower_ read_file f n) as [ws|e] eqn:E; cbn [fst snd]; split; try reflexivity; [|exact HC]. intros g vs. rewrite lookup_cons. destruct (bytes_eqb f g) eqn:EF; [|apply HC]. apply bytes_eqb_eq in EF. subst g. intros HQ. injection HQ as <-. eauto. }
    destruct (lookup cache f) as [[|w ws]|] eqn:E; [exact HR| |exact HR]. cbn [fst snd]. split; [|exact HC]. destruct (HC f _ E) as (k & Hk & HK). rewrite (HU k Hk) in HK. symmetry. exact HK.
  Qed.
  Lemma calls_answers counts cs : forall cache, cache_from counts cache -> (forall c, In c cs -> counts (fst (call_args c)) (snd (call_args c)) /\ forall k, counts (fst (call_args c)) k -> k = snd (call_args c)) ->
    wordlist_calls nfkd lower_ read_file cache cs = map (fun c => read_wordlist nfkd lower_ read_file (fst (call_args c)) (snd (call_args c))) cs.
  Proof using.
    induction cs as [|c cs IH]; intros cache HC HS; [reflexivity|]. cbn [wordlist_calls map]. unfold wordlist_call. destruct (HS c (or_introl eq_refl)) as [H1 H2]. destruct (call_args c) as [f n]. cbn [fst snd] in *.
    destruct (cached_answer counts cache f n HC H1 H2) as [HA HC']. destruct (cached_wordlist nfkd lower_ read_file cache f n) as [a cache']. cbn [fst snd] in *. rewrite HA. f_equal. apply IH; [exact HC'|]. intros d Hd. apply HS. now right.
  Qed.
  (** Whatever the calls, a list that is returned is that of its file. *)
  Definition cache_true (cache : wl_cache) : Prop := forall f ws, lookup cache f = Some ws -> exists t, read_file f = Ok t /\ text_to_wordlist nfkd lower_ t None = Ok ws.
  Lemma read_any t n ws : text_to_wordlist nfkd lower_ t (Some n) = Ok ws -> text_to_wordlist nfkd lower_ t None = Ok ws /\ zlen ws = n.
  Proof using. unfold text_to_wordlist. destruct (existsb _ _); [discriminate|]. destruct (Z.eqb_spec (zlen (map lower_ (filter (fun line => match line with [] => false | c :: _ => negb (c =? 35) end) (map strip (split_on 10 (nfkd t)))))) n) as [E|]; [|discriminate]. intros H. split; [exact H|]. injection H as <-. exact E. Qed.
  Lemma cached_true cache f n : cache_true cache -> cache_true (snd (cached_wordlist nfkd lower_ read_file cache f n)) /\
    forall ws, fst (cached_wordlist nfkd lower_ read_file cache f n) = Ok ws -> exists t, read_file f = Ok t /\ text_to_wordlist nfkd lower_ t None = Ok ws.
  Proof using.
    intros HC. unfold cached_wordlist.
    assert (forall r, r = (match read_wordlist nfkd lower_ read_file f n with Ok words => (Ok words, (f, words) :: cache) | Err e => (Err e, cache) end) ->
      cache_true (snd r) /\ forall ws, fst r = Ok ws -> exists t, read_file f = Ok t /\ text_to_wordlist nfkd lower_ t None = Ok ws) as HR.
    { intros r ->. destruct (read_wordlist nfkd lower_ read_file f n) as [ws|e] eqn:E; cbn [fst snd]; [|split; [exact HC|discriminate]]. unfold read_wordlist in E. apply bind_Ok in E as (t & Ht & E). apply read_any in E as [E _]. split.
      - intros g vs. rewrite lookup_cons. destruct (bytes_eqb f g) eqn:EF; [|apply HC]. apply bytes_eqb_eq in EF. subst g. intros HQ. injection HQ as <-. eauto.
      - intros vs HQ. injection HQ as <-. eauto. }
    destruct (lookup cache f) as [[|w ws]|] eqn:E; [exact (HR _ eq_refl)| |exact (HR _ eq_refl)]. cbn [fst snd]. split; [exact HC|]. intros vs HQ. injection HQ as <-. exact (HC f _ E).
  Qed.
End Cache.

(** ** Zeros at the end of a key *)
Lemma hmac_zero_key H size key x : zlen key < size -> hmac H size (key ++ [0]) x = hmac H size key x.
Proof.
  intros HL. unfold hmac. rewrite zlen_app. change (zlen [0]) with 1. replace (size <? zlen key + 1) with false by lia. replace (size <? zlen key) with false by lia. rewrite zlen_app. change (zlen [0]) with 1.
  rewrite <- app_assoc. cbn [app]. replace (0 :: zrepeat 0 (size - (zlen key + 1))) with (zrepeat 0 (size - zlen key)); [reflexivity|].
  unfold zrepeat. replace (Z.to_nat (size - zlen key)) with (S (Z.to_nat (size - (zlen key + 1)))) by lia. reflexivity.
Qed.
Lemma pbkdf2_zero_key key salt c : zlen key < 128 -> pbkdf2_sha512 (key ++ [0]) salt c = pbkdf2_sha512 key salt c.
Proof.
  intros HL. assert (forall x, hmac_sha512 (key ++ [0]) x = hmac_sha512 key x) as HH by (intros x; now apply hmac_zero_key). unfold pbkdf2_sha512. rewrite HH. generalize (Z.to_nat (c - 1)) as n.
  generalize (hmac_sha512 key (salt ++ [0; 0; 0; 1])) at 1 3 as u. generalize (hmac_sha512 key (salt ++ [0; 0; 0; 1])) as a. intros a u n. revert a u. induction n as [|n IH]; intros a u; [reflexivity|]. cbn [pbkdf2_loop]. rewrite HH. apply IH.
Qed.
Lemma utf8_ascii t : (forall c, In c t -> 0 <= c < 128) -> utf8_encode t = Ok t.
Proof.
  intros HC. unfold utf8_encode. assert (mapM utf8_char t = Ok (map (fun c => [c]) t)) as ->.
  { induction t as [|c t IH]; [reflexivity|]. cbn [mapM map]. assert (utf8_char c = Ok [c]) as -> by (specialize (HC c (or_introl eq_refl)); unfold utf8_char; destruct (Z.ltb_spec c 0); [lia|]; destruct (Z.ltb_spec c 0x80); [reflexivity|lia]).
    cbn [bind]. rewrite IH by (intros d Hd; apply HC; now right). reflexivity. }
  cbn [bind]. f_equal. induction t as [|c t IH]; [reflexivity|]. cbn. f_equal. apply IH. intros d Hd. apply HC. now right.
Qed.
Section Ascii.
  Context (nfkd lower_ : pystr -> pystr) (U : unicode_laws nfkd lower_).
  Lemma ascii_nfkd t : (forall c, In c t -> 0 <= c < 128) -> nfkd t = t.
  Proof using U.
    intros HC. rewrite (ul_simple _ _ U) by (intros c Hc; specialize (HC c Hc); unfold simple; lia).
    induction t as [|c t IH]; [reflexivity|]. cbn [flat_map]. rewrite IH by (intros d Hd; apply HC; now right). specialize (HC c (or_introl eq_refl)).
    unfold decompose. destruct (find _ decompositions) as [[x l]|] eqn:E; [|reflexivity]. exfalso. apply find_some in E as [HI HE]. apply Z.eqb_eq in HE. subst x. cbn in HI. repeat (destruct HI as [HI|HI]; [injection HI as <- _; lia|]). contradiction.
  Qed.
  Lemma ascii_normalize ws t : Forall word ws -> spaced ws t -> (forall c, In c t -> 0 <= c < 65 \/ 91 <= c < 128) -> bip39_normalize nfkd lower_ t = t.
  Proof using U.
    intros HW HS HC. unfold bip39_normalize. rewrite ascii_nfkd by (intros c Hc; specialize (HC c Hc); lia). rewrite (split_spaced ws t HS HW). rewrite <- (proj1 (join_spaced ws t) HS). apply (ul_lower _ _ U). intros c Hc. specialize (HC c Hc). unfold caseless. lia.
  Qed.
End Ascii.
Lemma spaced_last ws t c : ws <> [] -> spaced ws t -> spaced (removelast ws ++ [last ws [] ++ [c]]) (t ++ [c]).
Proof.
  intros Hne HS. induction HS as [|w|w v ws t HS IH]; [congruence|cbn; constructor|].
  specialize (IH ltac:(discriminate)). replace ((w ++ 32 :: t) ++ [c]) with (w ++ 32 :: (t ++ [c])) by now rewrite <- app_assoc.
  change (removelast (w :: v :: ws)) with (w :: removelast (v :: ws)). change (last (w :: v :: ws) []) with (last (v :: ws) []). cbn [app].
  remember (removelast (v :: ws) ++ [last (v :: ws) [] ++ [c]]) as l eqn:El. destruct l as [|u l]; [destruct (removelast (v :: ws)); discriminate|]. constructor. exact IH.
Qed.
Lemma spaced_chars ws t : spaced ws t -> forall c, In c t -> c = 32 \/ exists w, In w ws /\ In c w.
Proof.
  induction 1 as [|w|w v ws t HS IH]; intros c Hc; [contradiction|right; exists w; split; [now left|exact Hc]|]. apply in_app_or in Hc as [Hc|[<-|Hc]]; [right; exists w; split; [now left|exact Hc]|now left|].
  destruct (IH c Hc) as [->|(u & Hu & HU)]; [now left|right]. exists u. split; [now right|exact HU].
Qed.
Lemma spaced_length k ws t : 0 <= k -> spaced ws t -> (forall w, In w ws -> zlen w <= k) -> zlen t <= (k + 1) * zlen ws.
Proof.
  intros Hk. induction 1 as [|w|w v ws t HS IH]; intros HW; [change (zlen (@nil pystr)) with 0; change (zlen (@nil Z)) with 0; lia|specialize (HW w (or_introl eq_refl)); change (zlen [w]) with 1; lia|].
  specialize (IH (fun u Hu => HW u (or_intror Hu))). specialize (HW w (or_introl eq_refl)). rewrite zlen_app, zlen_cons. rewrite (zlen_cons w). lia.
Qed.
Lemma english_small w : In w (file_words english_text) -> zlen w <= 8 /\ forall c, In c w -> 97 <= c <= 122.
Proof.
  assert (forallb (fun w => (zlen w <=? 8) && forallb (fun c => (97 <=? c) && (c <=? 122)) w) (file_words english_text) = true) as HA by (vm_compute; reflexivity).
  rewrite forallb_forall in HA. intros HI. specialize (HA w HI). apply andb_true_iff in HA as [H1 H2]. rewrite forallb_forall in H2. split; [lia|]. intros c Hc. specialize (H2 c Hc). lia.
Qed.
