(** Mnemonics: C60, C61, C62, C69, C70, C71 and C72.

    [nfkd] and [lower_] are any normalization and lower case obeying [text_laws]; [H] is any hash function of 32
    bytes.  For the examples, normalization does nothing and lower case is that of ASCII. *)
From Verif.Model Require Import Py Text Misc OldWords Mnemonic.
From Verif.Spec Require Import MnemonicSpec MiscSpec.
From Verif.Proofs Require Import PyFacts TextFacts MiscFacts BitsFacts MnemonicFacts ElectrumFacts WordlistFacts WordFiles.
From Verif.Props Require Import Base58Props.

Definition plain (s : pystr) : pystr := s.
Lemma lower_char_space c : is_space_str c = false -> is_space_str (lower_char c) = false.
Proof. unfold lower_char. destruct (Z.leb_spec 65 c), (Z.leb_spec c 90); cbn [andb]; try (intros HX; exact HX). intros _. unfold is_space_str, is_space. lia. Qed.
Lemma sample_laws : text_laws plain lower.
Proof.
  split; unfold plain, lower.
  - reflexivity.
  - intros a b. now rewrite map_app.
  - intros w [Hne HC]. split; [destruct w; [contradiction|discriminate]|]. intros c Hc. apply in_map_iff in Hc as (d & <- & Hd). apply lower_char_space. now apply HC.
  - intros w HW. apply map_fixed. intros c Hc. specialize (HW c Hc). unfold lower_char. destruct (Z.leb_spec 65 c), (Z.leb_spec c 90); cbn [andb]; lia.
Qed.
(** 2048 words of three letters *)
Definition sample_words : list pystr := map (fun i => [97 + i / 169; 97 + i / 13 mod 13; 97 + i mod 13]) (zrange 0 2048).
Lemma sample_words_good : good_words plain lower sample_words /\ zlen sample_words = 2048.
Proof.
  split; [|vm_compute; reflexivity]. split; [apply distinct_words_NoDup; vm_compute; reflexivity|].
  assert (HA : forallb (fun w => (zlen w =? 3) && forallb (fun c => (97 <=? c) && (c <=? 122)) w) sample_words = true) by (vm_compute; reflexivity). rewrite forallb_forall in HA. intros w HI. specialize (HA w HI). apply andb_true_iff in HA as [H1 H2]. rewrite forallb_forall in H2.
  assert (HC : forall c, In c w -> 97 <= c <= 122) by (intros c Hc; specialize (H2 c Hc); lia). split; [|split; [reflexivity|exact (lower_small _ _ sample_laws w HC)]]. split; [intros ->; discriminate|]. intros c Hc. specialize (HC c Hc). unfold is_space_str, is_space. lia.
Qed.

(** C60 *)
Section C60.
  Context (nfkd lower_ : pystr -> pystr) (T : text_laws nfkd lower_).
  Context (H : bytes -> bytes) (H_ok : forall x, bytes_ok (H x) = true) (H_len : forall x, zlen (H x) = 32).
  Context (wl : list pystr) (G : good_words nfkd lower_ wl) (L : zlen wl = 2048).

  Lemma words_in e ws : bip39_words H wl e ws -> forall w, In w ws -> In w wl.
  Proof using. clear. intros (ns & HF & _). induction HF as [|i w ns ws [_ Hi] HF IH]; intros v HV; [contradiction|]. destruct HV as [<-|HV]; [exact (znth_In _ _ _ Hi)|now apply IH]. Qed.
  (** The mnemonic of an entropy is made of the words BIP39 prescribes, the right number of them, and valid. *)
  Theorem C60_from_entropy e : bytes_ok e = true -> bip39_size (zlen e) ->
    exists ws m, bip39_from_entropy H e wl = Ok m /\ spaced ws m /\ bip39_words H wl e ws /\ zlen ws = 3 * zlen e / 4 /\ bip39_is_valid nfkd lower_ H m wl = Ok true.
  Proof using All.
    intros HB HS. destruct (from_entropy_total H H_ok H_len wl e L HS) as (m & HM). pose proof HM as HM2. apply from_entropy_spec in HM2 as (ws & HW & HSp); [|assumption..]. exists ws, m. pose proof (words_count H H_ok H_len wl e ws HB HS L HW) as HC.
    do 3 (split; [assumption|]). split; [exact HC|]. assert (Hne : ws <> []) by (intros ->; rewrite zlen_nil in HC; destruct (size_count e HS) as [_ HI]; rewrite <- HC in HI; cbn in HI; lia).
    destruct (normalize_good nfkd lower_ T wl ws m G (words_in e ws HW) HSp Hne) as [HN HSpl]. destruct (is_valid_cases nfkd lower_ H H_ok H_len m wl L) as [[HX _]|[(_ & (w & Hw & HX) & _)|(_ & _ & b & HV & _ & HT)]].
    - exfalso. apply HX. rewrite HN, HSpl, HC. now apply size_count.
    - exfalso. apply HX. rewrite HN, HSpl in Hw. exact (words_in e ws HW w Hw).
    - rewrite HV. f_equal. apply HT; [apply G|]. exists e. split; [exact HB|]. split; [exact HS|]. now rewrite HN, HSpl.
  Qed.
  (** A text is valid exactly if it is, after normalization, the mnemonic of an entropy. *)
  Theorem C60_valid_exactly m : bip39_is_valid nfkd lower_ H m wl = Ok true <->
    exists e, bytes_ok e = true /\ bip39_size (zlen e) /\ bip39_from_entropy H e wl = Ok (bip39_normalize nfkd lower_ m).
  Proof using All.
    pose proof (normalize_spaced nfkd lower_ T m) as HSp. split.
    - intros HV. destruct (is_valid_cases nfkd lower_ H H_ok H_len m wl L) as [[_ HX]|[(_ & _ & HX)|(_ & _ & b & HX & HT & _)]]; [congruence..|]. rewrite HV in HX. injection HX as <-. destruct (HT eq_refl) as (e & HB & HS & HW). exists e. split; [exact HB|]. split; [exact HS|]. apply from_entropy_spec; [assumption..|]. eauto.
    - intros (e & HB & HS & HE). apply from_entropy_spec in HE as (ws & HW & HSp2); [|assumption..]. pose proof (words_count H H_ok H_len wl e ws HB HS L HW) as HC.
      assert (HWd : Forall word ws) by (apply Forall_forall; intros w Hw; now apply G, (words_in e ws)). pose proof (split_spaced _ _ HSp2 HWd) as HSpl.
      destruct (is_valid_cases nfkd lower_ H H_ok H_len m wl L) as [[HX _]|[(_ & (w & Hw & HX) & _)|(_ & _ & b & HV & _ & HT)]].
      + exfalso. apply HX. rewrite HSpl, HC. now apply size_count.
      + exfalso. apply HX. rewrite HSpl in Hw. exact (words_in e ws HW w Hw).
      + rewrite HV. f_equal. apply HT; [apply G|]. exists e. rewrite HSpl. auto.
  Qed.
  Theorem C60_unique e e' m : bytes_ok e = true -> bip39_size (zlen e) -> bytes_ok e' = true -> bip39_size (zlen e') ->
    bip39_from_entropy H e wl = Ok m -> bip39_from_entropy H e' wl = Ok m -> e = e'.
  Proof using All.
    intros HB HS HB' HS' HE HE'. apply from_entropy_spec in HE as (ws & HW & HSp); [|assumption..]. apply from_entropy_spec in HE' as (ws' & HW' & HSp'); [|assumption..].
    assert (HWd : forall x l, bip39_words H wl x l -> Forall word l) by (intros x l HX; apply Forall_forall; intros w Hw; now apply G, (words_in x l)). assert (ws' = ws) as -> by (apply (spaced_inj _ _ m); eauto).
    pose proof (words_count H H_ok H_len wl e ws HB HS L HW) as HC. pose proof (words_count H H_ok H_len wl e' ws HB' HS' L HW') as HC'. apply numbers_spec in HW, HW'; try assumption.
    assert (HN : numbers H e = numbers H e').
    { destruct G as [HD _]. clear - HW HW' HD. revert HW'. generalize (numbers H e') as l. induction HW as [|i w l1 ws [Hi Hw] HW IH]; intros l HW'; inversion HW' as [|j x l2 y [Hj Hx] HF]; subst; [reflexivity|]. f_equal; [|now apply IH]. pose proof (index_of_NoDup wl i w HD Hw) as E1. pose proof (index_of_NoDup wl j w HD Hx) as E2. congruence. }
    assert (HR : Forall (fun x => 0 <= x < 2048) (numbers H e)) by now apply numbers_range.
    assert (HL : zlen (numbers H e) = 3 * zlen e / 4) by (rewrite <- HC; unfold zlen; f_equal; clear - HW; induction HW; cbn; congruence).
    assert (HC1 : code H e = code H e').
    { rewrite (proj1 (numbers_code H H_ok H_len e _ HB HS HL HR) eq_refl). symmetry. apply numbers_code; [assumption..| |assumption|now symmetry]. congruence. }
    apply (code_inj H H_ok H_len); try assumption. symmetry. apply size_inj; [assumption..|]. congruence.
  Qed.
  (** Everything else is reported: false for a wrong number of words or checksum, BadWords for unknown words. *)
  Theorem C60_invalid m x : bip39_is_valid nfkd lower_ H m wl = Err x -> x = BadWords /\ exists w, In w (split_ws (bip39_normalize nfkd lower_ m)) /\ ~ In w wl.
  Proof using H_ok H_len L. intros HX. destruct (is_valid_cases nfkd lower_ H H_ok H_len m wl L) as [[_ HY]|[(_ & HW & HY)|(_ & _ & b & HY & _)]]; [congruence| |congruence]. split; [congruence|exact HW]. Qed.
  (** [generate], for every random source *)
  Theorem C60_generate urandom b : (forall n, bytes_ok (urandom n) = true) -> (forall n, zlen (urandom n) = n) ->
    (In b [128; 160; 192; 224; 256] -> exists m, bip39_generate H urandom wl b = Ok m /\ bip39_is_valid nfkd lower_ H m wl = Ok true /\ zlen (split_ws m) = (b + b / 32) / 11) /\
    (~ In b [128; 160; 192; 224; 256] -> bip39_generate H urandom wl b = Err ValueError).
  Proof using All.
    intros HU HUL. unfold bip39_generate. rewrite L. cbn [Z.eqb Pos.eqb negb]. split; intros HI.
    - rewrite (proj2 (existsb_In b _) HI). cbn [negb]. assert (HS : bip39_size (zlen (urandom (b / 8))) /\ 3 * (b / 8) / 4 = (b + b / 32) / 11) by (rewrite HUL; unfold bip39_size; destruct HI as [<-|[<-|[<-|[<-|[<-|[]]]]]]; vm_compute; tauto).
      destruct HS as [HS HC]. destruct (C60_from_entropy (urandom (b / 8)) (HU _) HS) as (ws & m & HE & HSp & HW & HCn & HV). exists m. split; [exact HE|]. split; [exact HV|]. rewrite (split_spaced ws m HSp); [rewrite HCn, HUL; exact HC|]. apply Forall_forall. intros w Hw. apply G. exact (words_in _ _ HW w Hw).
    - destruct (existsb (Z.eqb b) _) eqn:E; [|reflexivity]. apply existsb_In in E. contradiction.
  Qed.
End C60.
Print Assumptions C60_from_entropy.
Print Assumptions C60_valid_exactly.
Print Assumptions C60_unique.
Print Assumptions C60_invalid.
Print Assumptions C60_generate.
Definition sample_entropy : bytes := map (fun i => i * 37 mod 256) (zrange 0 20).
Definition sample_mnemonic : pystr := txt "aab caa hem bmg hgc aam hic idd hce kmc dbe ebe aeg jje mal".
Example C60_ex : bip39_from_entropy toy_hash sample_entropy sample_words = Ok sample_mnemonic /\
  bip39_is_valid plain lower toy_hash (txt "  " ++ upper sample_mnemonic ++ [10]) sample_words = Ok true /\
  bip39_is_valid plain lower toy_hash (txt "aab caa hem bmg hgc aam hic idd hce kmc dbe ebe aeg jje mam") sample_words = Ok false /\
  bip39_is_valid plain lower toy_hash (txt "xyz caa hem bmg hgc aam hic idd hce kmc dbe ebe aeg jje mal") sample_words = Err BadWords.
Proof. vm_compute. repeat split. Qed.

(** C61 *)
#[local] Opaque old_words.
Section C61.
  Context (nfkd lower_ : pystr -> pystr) (T : text_laws nfkd lower_).
  (** A hexadecimal seed comes back, in lower case. *)
  Theorem C61_seed h : hexadecimal h -> zlen h = 32 \/ zlen h = 64 ->
    exists ws m, hex_seed_to_old h = Ok m /\ spaced ws m /\ zlen ws = 3 * zlen h / 8 /\ (forall w, In w ws -> In w old_words) /\ old_to_hex_seed lower_ m = Ok (lower h).
  Proof using All.
    intros HT HL. destruct (seed_to_mnemonic nfkd lower_ T h HT HL) as (ws & m & H1 & H2 & H3 & H4 & H5). exists ws, m. split; [exact H1|]. split; [exact H2|]. split; [apply (Z.div_unique _ _ _ 0); lia|]. split; [|exact H4].
    intros w Hw. unfold hex_seed_to_old in H1. destruct (existsb _ _); [|discriminate]. cbn [negb] in H1. apply bind_Ok in H1 as (cs & _ & H1). apply bind_Ok in H1 as (is & _ & H1). apply bind_Ok in H1 as (ws2 & HM & H1). injection H1 as H1.
    assert (HO : forall v, In v ws2 -> In v old_words) by exact (pyindex_words old_words _ _ HM).
    assert (HQ : ws2 = ws); [|rewrite <- HQ in Hw; exact (HO w Hw)]. rewrite <- H5, <- H1. symmetry. apply split_spaced; [now apply join_spaced|]. apply Forall_forall. intros v Hv. now apply old_small, HO.
  Qed.
  Theorem C61_lower_seed h : lower_hex h -> zlen h = 32 \/ zlen h = 64 -> exists m, hex_seed_to_old h = Ok m /\ old_to_hex_seed lower_ m = Ok h.
  Proof using All.
    intros HT HL. assert (HX : hexadecimal h) by (unfold lower_hex in HT; rewrite Forall_forall in HT; intros c Hc; specialize (HT c Hc); tauto). destruct (C61_seed h HX HL) as (ws & m & H1 & _ & _ & _ & H4). exists m. split; [exact H1|]. rewrite H4. f_equal. apply map_fixed.
    intros c Hc. unfold lower_hex in HT. rewrite Forall_forall in HT. specialize (HT c Hc). unfold lower_char. destruct (Z.leb_spec 65 c), (Z.leb_spec c 90); cbn [andb]; lia.
  Qed.
  (** A valid mnemonic comes back, normalized. *)
  Theorem C61_mnemonic m h : old_to_hex_seed lower_ m = Ok h -> lower_hex h /\ (zlen h = 32 \/ zlen h = 64) /\ hex_seed_to_old h = Ok (normalize_old lower_ m).
  Proof using. intros HX. destruct (mnemonic_to_seed lower_ m h HX) as (H1 & H2 & H3 & _). auto. Qed.
  (** Which texts are valid: normalized mnemonics of seeds, and seeds themselves (bytes.fromhex allows white space) *)
  Theorem C61_valid_exactly m : is_valid_old lower_ m = true <->
    (exists h, lower_hex h /\ (zlen h = 32 \/ zlen h = 64) /\ hex_seed_to_old h = Ok (normalize_old lower_ m)) \/ (exists b, from_hex m = Ok b /\ (zlen b = 16 \/ zlen b = 32)).
  Proof using All.
    unfold is_valid_old. split.
    - destruct (old_to_hex_seed lower_ m) as [h|e] eqn:E; intros HX; [left; exists h; now apply C61_mnemonic|right]. destruct (from_hex m) as [b|]; [|discriminate]. exists b. split; [reflexivity|]. apply existsb_In in HX. destruct HX as [HX|[HX|[]]]; auto.
    - intros [(h & H1 & H2 & H3)|(b & HB & HL)].
      + destruct (C61_lower_seed h H1 H2) as (t & HT & HS). rewrite H3 in HT. injection HT as <-. assert (HI : old_to_hex_seed lower_ m = Ok h); [|now rewrite HI].
        assert (HX : hexadecimal h) by (unfold lower_hex in H1; rewrite Forall_forall in H1; intros c Hc; specialize (H1 c Hc); tauto). destruct (seed_to_mnemonic nfkd lower_ T h HX H2) as (ws & t & HT & HSp & _ & HO & HSpl). rewrite H3 in HT. injection HT as <-.
        unfold old_to_hex_seed in HS |- *. assert (HN : split_ws (normalize_old lower_ (normalize_old lower_ m)) = split_ws (normalize_old lower_ m)); [|now rewrite <- HN].
        rewrite normalize_old_words. f_equal. apply (lower_spaced_old nfkd lower_ T ws); [|exact HSp].
        unfold hex_seed_to_old in H3. destruct (existsb _ _); [|discriminate]. cbn [negb] in H3. apply bind_Ok in H3 as (cs & _ & H3). apply bind_Ok in H3 as (is & _ & H3). apply bind_Ok in H3 as (ws2 & HM & H3). injection H3 as H3.
        assert (HO2 : forall v, In v ws2 -> In v old_words) by exact (pyindex_words old_words _ _ HM).
        assert (HQ : ws2 = ws); [|rewrite <- HQ; exact HO2]. rewrite <- HSpl, <- H3. symmetry. apply split_spaced; [now apply join_spaced|]. apply Forall_forall. intros v Hv. now apply old_small, HO2.
      + destruct (old_to_hex_seed lower_ m); [reflexivity|]. rewrite HB. apply existsb_In. cbn. lia.
  Qed.
End C61.
Print Assumptions C61_seed.
Print Assumptions C61_lower_seed.
Print Assumptions C61_mnemonic.
Print Assumptions C61_valid_exactly.
Example C61_ex : hex_seed_to_old (txt "acb740e454c3134901d7c8f16497cc1c") = Ok (txt "powerful random nobody notice nothing important anyway look away hidden message over") /\
  old_to_hex_seed lower (txt " Powerful random nobody notice nothing important  anyway look away hidden message OVER") = Ok (txt "acb740e454c3134901d7c8f16497cc1c") /\
  old_to_hex_seed lower (txt "like weary weapon like like like like like like like like like") = Err ValueError.
Proof. vm_compute. repeat split. Qed.

(** C62 *)
Section C62.
  Context (nfkd lower_ : pystr -> pystr) (hmac : bytes -> bytes -> bytes).
  (** Validity.  [word_count] and the random draws are anything; [fuel] is any bound on the number of draws and
      of mnemonics tried. *)
  Theorem C62_valid fuel draws word_count wl prefix b skip m : generate_new nfkd lower_ hmac fuel draws word_count wl prefix b skip = Ok m ->
    is_valid_new nfkd lower_ hmac m prefix = Ok true /\ (skip = true -> is_valid_old lower_ m = false).
  Proof using.
    unfold generate_new. destruct (b <? 132); [discriminate|]. destruct (zlen wl <? 2048); [discriminate|]. intros HG. apply bind_Ok in HG as ([v d] & _ & HG). apply search_spec in HG as (k & _ & _ & H1 & H2). auto.
  Qed.
  (** Size: the number drawn has exactly [n] digits, most significant not zero. *)
  Theorem C62_random fuel draws n size v d : 2 <= size -> 1 <= n -> random_integer fuel draws n size = Ok (v, d) -> size ^ (n - 1) <= v < size ^ n.
  Proof using.
    clear. intros Hs Hn HR. unfold random_integer in HR. apply random_spec in HR as [HR _]; [|apply Z.pow_pos_nonneg; lia]. replace (size ^ n / size) with (size ^ (n - 1)) in HR; [lia|].
    replace n with (Z.succ (n - 1)) at 2 by lia. rewrite Z.pow_succ_r by lia. rewrite Z.mul_comm, Z.div_mul by lia. reflexivity.
  Qed.
  Theorem C62_word_count wl v n : 2 <= zlen wl -> 1 <= n -> zlen wl ^ (n - 1) <= v < zlen wl ^ n ->
    exists ds ws m, electrum_from_entropy v wl = Ok m /\ spaced ws m /\ zlen ws = n /\ written (zlen wl) ds v /\ Forall2 (fun d w => znth wl d = Some w) ds ws.
  Proof using. clear. exact (word_count wl v n). Qed.
  (** The search does not change the number of words, unless it takes more than half the number of mnemonics of
      that many words. *)
  Theorem C62_search fuel draws n wl prefix b skip m : 1 <= n -> 2 * Z.of_nat fuel <= zlen wl ^ n - zlen wl ^ (n - 1) ->
    generate_new nfkd lower_ hmac fuel draws n wl prefix b skip = Ok m -> exists ws, spaced ws m /\ zlen ws = n /\ forall w, In w ws -> In w wl.
  Proof using.
    intros Hn HF. unfold generate_new. destruct (b <? 132); [discriminate|]. destruct (Z.ltb_spec (zlen wl) 2048) as [|HW]; [discriminate|]. intros HG. apply bind_Ok in HG as ([v d] & HR & HG). apply search_spec in HG as (k & Hk & HE & _).
    unfold random_integer in HR. apply random_spec in HR as [HR HD]; [|apply Z.pow_pos_nonneg; lia]. assert (HP : zlen wl ^ n / zlen wl = zlen wl ^ (n - 1)) by (replace n with (Z.succ (n - 1)) at 1 by lia; rewrite Z.pow_succ_r, Z.mul_comm, Z.div_mul by lia; reflexivity). rewrite HP in *.
    revert HF HR HD. set (P := zlen wl ^ (n - 1)). set (M := zlen wl ^ n). intros HF HR HD. pose proof (Z.div_mod (P + 1 + M) 2 ltac:(lia)) as DM. pose proof (Z.mod_pos_bound (P + 1 + M) 2 ltac:(lia)) as MB. set (mid := (P + 1 + M) / 2) in *.
    assert (HX : P <= v + Z.of_nat k * d < M) by (destruct HD as [[-> HD]|[-> HD]]; lia).
    destruct (word_count wl _ n ltac:(lia) Hn HX) as (ds & ws & t & HT & HS & HC & _ & HFo). rewrite HE in HT. injection HT as <-. exists ws. split; [exact HS|]. split; [exact HC|].
    clear - HFo. induction HFo as [|i w ds ws Hi HF IH]; intros x HX; [contradiction|]. destruct HX as [<-|HX]; [exact (znth_In _ _ _ Hi)|now apply IH].
  Qed.
  (** Different entropies give different mnemonics. *)
  Theorem C62_injective wl v v' m : 2 <= zlen wl -> NoDup wl -> Forall word wl -> 0 <= v -> 0 <= v' -> electrum_from_entropy v wl = Ok m -> electrum_from_entropy v' wl = Ok m -> v = v'.
  Proof using.
    clear. intros HB HN HW Hv Hv' HE HE'. destruct (from_entropy_words wl v HB Hv) as (ds & ws & t & HT & HS & HD & HF). destruct (from_entropy_words wl v' HB Hv') as (ds' & ws' & t' & HT' & HS' & HD' & HF'). assert (t = m) as -> by congruence. assert (t' = m) as -> by congruence.
    assert (HI : forall ds ws, Forall2 (fun d w => znth wl d = Some w) ds ws -> Forall word ws). { clear - HW. intros ds ws HF. rewrite Forall_forall in HW. induction HF as [|d w ds ws Hd HF IH]; constructor; [|exact IH]. apply HW. exact (znth_In _ _ _ Hd). }
    assert (ws' = ws) as -> by (apply (spaced_inj _ _ m); eauto). assert (ds' = ds) as ->.
    { clear - HF HF' HN. revert ds' HF'. induction HF as [|d w ds ws Hd HF IH]; intros ds' HF'; inversion HF' as [|d' x l y Hd' HFl]; subst; [reflexivity|]. f_equal; [|now apply IH]. pose proof (index_of_NoDup wl d w HN Hd) as E1. pose proof (index_of_NoDup wl d' w HN Hd') as E2. congruence. }
    clear - HD HD'. revert v' HD'. induction HD as [|d ds v Hd HD IH Hp]; intros v' HD'; inversion HD'; subst; [reflexivity|]. f_equal. f_equal. now apply IH.
  Qed.
End C62.
Print Assumptions C62_valid.
Print Assumptions C62_random.
Print Assumptions C62_word_count.
Print Assumptions C62_search.
Print Assumptions C62_injective.
Definition sample_draws (i : nat) : bytes := map (fun j => (j * 37 + Z.of_nat i) mod 256) (zrange 0 19).
(** An hmac depending on the whole text, so that the first mnemonic tried is not valid *)
Definition toy_hmac (k m : bytes) : bytes := [fold_left (fun a x => (3 * a + x) mod 8) m 0; 5].
Example C62_ex : exists m, generate_new plain lower toy_hmac 20 sample_draws 12 sample_words (txt "01") 132 true = Ok m /\ zlen (split_ws m) = 12 /\
  generate_new plain lower toy_hmac 1 sample_draws 12 sample_words (txt "01") 132 true = Err OutOfFuel.
Proof. eexists. vm_compute. repeat split. Qed.

(** C69.  The seed: texts with the same normalization have the same seed; if the key derivation is injective,
    only those (and passphrases normalizing to the same text). *)
Theorem C69_same nfkd lower_ pbkdf2 m m' p p' : bip39_normalize nfkd lower_ m = bip39_normalize nfkd lower_ m' -> nfkd p = nfkd p' ->
  bip39_to_seed nfkd lower_ pbkdf2 m p = bip39_to_seed nfkd lower_ pbkdf2 m' p'.
Proof. unfold bip39_to_seed. now intros -> ->. Qed.
Theorem C69_different nfkd lower_ (pbkdf2 : bytes -> bytes -> Z -> bytes) m m' p p' s : (forall a b a' b', pbkdf2 a b 2048 = pbkdf2 a' b' 2048 -> a = a' /\ b = b') ->
  bip39_to_seed nfkd lower_ pbkdf2 m p = Ok s -> bip39_to_seed nfkd lower_ pbkdf2 m' p' = Ok s -> bip39_normalize nfkd lower_ m = bip39_normalize nfkd lower_ m' /\ nfkd p = nfkd p'.
Proof.
  intros HI HA HB. unfold bip39_to_seed in HA, HB. apply bind_Ok in HA as (a & HA1 & HA). apply bind_Ok in HA as (b & HA2 & HA). apply bind_Ok in HB as (a' & HB1 & HB). apply bind_Ok in HB as (b' & HB2 & HB).
  assert (HE : pbkdf2 a (txt "mnemonic" ++ b) 2048 = pbkdf2 a' (txt "mnemonic" ++ b') 2048) by congruence. apply HI in HE as [-> HE]. apply app_inv_head in HE. subst b'. split; eapply utf8_encode_inj; eassumption.
Qed.
(** Words, case and white space only: texts with the same words in the same order *)
Theorem C69_words nfkd lower_ pbkdf2 m m' p : split_ws (nfkd m) = split_ws (nfkd m') -> bip39_to_seed nfkd lower_ pbkdf2 m p = bip39_to_seed nfkd lower_ pbkdf2 m' p.
Proof. intros HE. apply C69_same; [|reflexivity]. unfold bip39_normalize. now rewrite HE. Qed.
Print Assumptions C69_same.
Print Assumptions C69_different.
Print Assumptions C69_words.
Definition toy_pbkdf2 (a b : bytes) (n : Z) : bytes := zlen a :: a ++ b.
Example C69_ex : (forall a b a' b', toy_pbkdf2 a b 2048 = toy_pbkdf2 a' b' 2048 -> a = a' /\ b = b') /\
  bip39_to_seed plain lower toy_pbkdf2 (txt " cat  DOG ") (txt "x") = Ok (7 :: txt "cat dogmnemonicx") /\ bip39_to_seed plain lower toy_pbkdf2 [0xd800] [] = Err ValueError.
Proof.
  split; [|vm_compute; repeat split]. intros a b a' b' HE. injection HE as HL HE. unfold zlen in HL. apply Nat2Z.inj in HL. clear - HL HE. revert a' HL HE. induction a as [|x a IH]; intros [|y a'] HL HE; try discriminate; [auto|]. injection HE as -> HE. injection HL as HL. destruct (IH a' HL HE) as [-> ->]. auto.
Qed.

(** C70.  Word lists *)
Theorem C70_read nfkd lower_ text lines words n : text_laws nfkd lower_ -> nfkd text = join [10] lines -> lines <> [] -> Forall (fun l => ~ In 10 l) lines -> word_lines lines words ->
  text_to_wordlist nfkd lower_ text n = match n with Some k => if zlen words =? k then Ok (map lower_ words) else Err SyntaxError | None => Ok (map lower_ words) end.
Proof. intros T. exact (read_words nfkd lower_ T text lines words n). Qed.
Theorem C70_sound nfkd lower_ text n ws : text_to_wordlist nfkd lower_ text n = Ok ws -> (forall w, In w ws -> ~ In 32 w) /\ (forall k, n = Some k -> zlen ws = k).
Proof. exact (read_sound nfkd lower_ text n ws). Qed.
Theorem C70_errors nfkd lower_ text n e : text_to_wordlist nfkd lower_ text n = Err e -> e = SyntaxError.
Proof. unfold text_to_wordlist. destruct (existsb _ _); [congruence|]. destruct n as [k|]; [destruct (_ =? _)|]; congruence. Qed.
Print Assumptions C70_read.
Print Assumptions C70_sound.
Print Assumptions C70_errors.
Example C70_ex : text_to_wordlist plain lower (txt "# A wordlist" ++ [10; 13; 10] ++ txt " CAT " ++ [13; 10] ++ txt "dog" ++ [10; 10]) (Some 2) = Ok [txt "cat"; txt "dog"] /\
  text_to_wordlist plain lower (txt "cat dog") None = Err SyntaxError /\
  (* only the space is looked for: a tab within a word is accepted *) text_to_wordlist plain lower (txt "cat" ++ [9] ++ txt "dog") None = Ok [txt "cat" ++ [9] ++ txt "dog"].
Proof. vm_compute. repeat split. Qed.
Example C70_ex_lines : word_lines [txt "# A wordlist"; [13]; txt " CAT " ++ [13]; txt "dog"; []; []] [txt "CAT"; txt "dog"].
Proof.
  apply (wl_comment [] (txt " A wordlist")); [intros c []|]. apply wl_blank; [intros c [<-|[]]; reflexivity|]. apply (wl_word (txt " ") 67 (txt "AT") [32; 13]); [intros c [<-|[]]; reflexivity|intros c [<-|[<-|[]]]; reflexivity|split; [discriminate|intros c [<-|[<-|[<-|[]]]]; reflexivity]|lia|].
  apply (wl_word [] 100 (txt "og") []); [intros c []|intros c []|split; [discriminate|intros c [<-|[<-|[<-|[]]]]; reflexivity]|lia|]. apply wl_blank; [intros c []|]. apply wl_blank; [intros c []|]. constructor.
Qed.

(** C71.  Seeds made by generate_old_seed *)
Theorem C71_old_seed nfkd lower_ urandom n : text_laws nfkd lower_ -> (forall n, bytes_ok (urandom n) = true) -> (forall n, zlen (urandom n) = n) ->
  (n = 12 \/ n = 24 -> exists h ws m, generate_old_seed urandom n = Ok h /\ hex_seed_to_old h = Ok m /\ spaced ws m /\ zlen ws = n /\ old_to_hex_seed lower_ m = Ok h /\ is_valid_old lower_ m = true /\ is_valid_old lower_ h = true) /\
  (n <> 12 -> n <> 24 -> generate_old_seed urandom n = Err ValueError).
Proof.
  intros T HU HUL. unfold generate_old_seed. split; intros Hn.
  - assert (HI : existsb (Z.eqb n) [12; 24] = true) by (apply existsb_In; cbn; lia). rewrite HI. cbn [negb]. set (b := urandom (n * 4 / 3)). assert (HB : bytes_ok b = true) by apply HU. assert (HL : zlen b = 16 \/ zlen b = 32) by (unfold b; rewrite HUL; destruct Hn as [-> | ->]; vm_compute; tauto).
    assert (HLn : 3 * zlen (to_hex b) / 8 = n) by (rewrite to_hex_length; unfold b; rewrite HUL; destruct Hn as [-> | ->]; reflexivity).
    assert (HX : lower_hex (to_hex b)) by (apply Forall_forall; intros c Hc; exact (to_hex_chars b c HB Hc)). assert (HX2 : hexadecimal (to_hex b)) by (intros c Hc; pose proof (to_hex_chars b c HB Hc); tauto).
    assert (HZ : zlen (to_hex b) = 32 \/ zlen (to_hex b) = 64) by (rewrite to_hex_length; lia). destruct (C61_seed nfkd lower_ T (to_hex b) HX2 HZ) as (ws & m & H1 & H2 & H3 & _). destruct (C61_lower_seed nfkd lower_ T (to_hex b) HX HZ) as (m2 & H4 & H5). rewrite H1 in H4. injection H4 as <-.
    exists (to_hex b), ws, m. split; [reflexivity|]. split; [exact H1|]. split; [exact H2|]. split; [now rewrite H3|]. split; [exact H5|]. split; [unfold is_valid_old; now rewrite H5|].
    apply (C61_valid_exactly nfkd lower_ T). right. exists b. split; [now apply from_hex_to_hex|exact HL].
  - intros Hn2. destruct (existsb (Z.eqb n) [12; 24]) eqn:E; [|reflexivity]. apply existsb_In in E. cbn in E. lia.
Qed.
Print Assumptions C71_old_seed.
Example C71_ex : generate_old_seed (fun n => map (fun i => i * 16) (zrange 0 n)) 12 = Ok (txt "00102030405060708090a0b0c0d0e0f0").
Proof. vm_compute. reflexivity. Qed.

(** C72.  hex_seed_to_old accepts text that is not hexadecimal, as int() does: signs, 0x, underscores, white space. *)
Theorem C72_not_hexadecimal_refuted : exists h m, ~ hexadecimal h /\ hex_seed_to_old h = Ok m /\ old_to_hex_seed lower m <> Ok h.
Proof.
  exists (txt "0x00_1_2   +77  -000000112345678"), (txt "into into into wonder wonder wonder weary weapon unseen memory string board").
  split; [intros HX; specialize (HX 120 ltac:(cbn; tauto)); lia|]. split; [vm_compute; reflexivity|]. vm_compute. discriminate.
Qed.
(** Other lengths are refused, and only ValueError is raised. *)
Theorem C72_length_partial h m : hex_seed_to_old h = Ok m -> zlen h = 32 \/ zlen h = 64.
Proof. unfold hex_seed_to_old. destruct (existsb (Z.eqb (zlen h)) [32; 64]) eqn:E; [|discriminate]. intros _. apply existsb_In in E. destruct E as [E|[E|[]]]; auto. Qed.
Print Assumptions C72_not_hexadecimal_refuted.
Print Assumptions C72_length_partial.
