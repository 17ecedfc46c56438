(** The size of new Electrum mnemonics: C107.

    The logarithm is any with a relative error of at most 2^-50 ([accurate]), which math.log(n, 2) is: two logarithms correct to one unit of
    the last place and a division. *)
From Coq Require Import Lia ZArith List.
From Verif.Model Require Import Py Text Misc Mnemonic Floats ElectrumSize.
From Verif.Spec Require Import FloatSpec LogSpec MnemonicSpec.
From Verif.Proofs Require Import PyFacts MnemonicFacts ElectrumFacts ElectrumSizeFacts.
From Verif.Props Require Import MnemonicProps.

(** There are such logarithms, of every number of words *)
Theorem C107_accurate n : 2048 <= n < 2 ^ 32 -> exists m e, accurate m e n.
Proof. exact (accurate_exists n). Qed.
Print Assumptions C107_accurate.

(** The number of words.  The numbers of that many words are enough for the bits, and one word less would not be, up to 2^-48 of the bits. *)
Theorem C107_word_count m e n bits w : accurate m e n -> 2048 <= n <= 2 ^ 63 -> 132 <= bits -> electrum_word_count (mk_double m e) bits = Ok w ->
  1 <= w /\ 2 ^ (bits * (2 ^ 48 - 1)) <= n ^ (w * 2 ^ 48) /\ n ^ ((w - 1) * 2 ^ 48) <= 2 ^ (bits * (2 ^ 48 + 1)).
Proof. exact (word_count_bounds m e n bits w). Qed.
Print Assumptions C107_word_count.
(** So it is exactly the least number that is enough, if the numbers of that many words and of one less are not that close to 2^bits *)
Theorem C107_least m e n bits w w0 : accurate m e n -> 2048 <= n <= 2 ^ 63 -> 132 <= bits -> electrum_word_count (mk_double m e) bits = Ok w -> 1 <= w0 ->
  n ^ ((w0 - 1) * 2 ^ 48) < 2 ^ (bits * (2 ^ 48 - 1)) -> 2 ^ (bits * (2 ^ 48 + 1)) < n ^ (w0 * 2 ^ 48) -> w = w0.
Proof.
  intros HA Hn Hb HW H1 H2 H3. destruct (word_count_bounds m e n bits w HA Hn Hb HW) as (W1 & W2 & W3). assert (exists K, K = 2 ^ 48) as [K HK] by eauto. rewrite <- HK in *. assert (0 < K) as HP by lia. clear HK.
  assert (n ^ ((w0 - 1) * K) < n ^ (w * K)) as L1 by lia. assert (n ^ ((w - 1) * K) < n ^ (w0 * K)) as L2 by lia. apply Z.pow_lt_mono_r_iff in L1; [|lia|nia]. apply Z.pow_lt_mono_r_iff in L2; [|lia|nia].
  apply Z.mul_lt_mono_pos_r in L1; [|exact HP]. apply Z.mul_lt_mono_pos_r in L2; [|exact HP]. lia.
Qed.
Print Assumptions C107_least.
(** If the number of words is a power of two and its logarithm is exact, then the number is exactly bits divided by it, rounded up *)
Theorem C107_exact m e k bits : 1 <= k <= bits -> bits + k <= 2 ^ 53 -> m * 2 ^ (e + 1074) = k * 2 ^ 1074 ->
  exists w, electrum_word_count (mk_double m e) bits = Ok w /\ k * (w - 1) < bits <= k * w.
Proof.
  intros Hk Hb HQ. exists ((bits + k - 1) / k). split; [exact (word_count_exact m e k bits Hk Hb HQ)|]. pose proof (Z.div_mod (bits + k - 1) k ltac:(lia)) as D1. pose proof (Z.mod_pos_bound (bits + k - 1) k ltac:(lia)) as D2. lia.
Qed.
Print Assumptions C107_exact.
(** The only error is OverflowError, for bits that are too big for a float *)
Theorem C107_errors m e n bits x : accurate m e n -> 2048 <= n <= 2 ^ 63 -> 132 <= bits ->
  (electrum_word_count (mk_double m e) bits = Err x <-> x = OverflowError /\ 2 ^ 1024 - 2 ^ 970 <= bits).
Proof. exact (word_count_errors m e n bits x). Qed.
Print Assumptions C107_errors.

(** The draws.  For mnemonics of up to 2^46 bits at least 2^15 times as many byte strings can be drawn as there are numbers of w words, *)
Theorem C107_size m e n w l : accurate m e n -> 2048 <= n <= 2 ^ 63 -> 1 <= w -> 0 < l <= 2 ^ 46 -> n ^ w <= 2 ^ l ->
  exists size, random_size (mk_double m e) w = Ok size /\ n ^ w * 2 ^ 15 <= 256 ^ size <= n ^ w * 2 ^ 25.
Proof.
  intros HA Hn Hw Hl HB. destruct (size_ok m e n w l HA Hn Hw Hl HB) as [size HS]. exists size. split; [exact HS|]. exact (size_bounds m e n w l size HA Hn Hw Hl HB HS).
Qed.
Print Assumptions C107_size.
(** and every number comes of as many of them, but for one: no number is more than 1 + 2^-15 times as likely as another *)
Theorem C107_uniform m e n w l size : accurate m e n -> 2048 <= n <= 2 ^ 63 -> 1 <= w -> 0 < l <= 2 ^ 46 -> n ^ w <= 2 ^ l -> random_size (mk_double m e) w = Ok size ->
  exists least, 2 ^ 15 <= least /\ forall v, 0 <= v < n ^ w ->
    exists c, number_of (fun s => bytes_ok s = true /\ zlen s = size /\ be_bytes_to_int s mod n ^ w = v) c /\ least <= c <= least + 1.
Proof.
  intros HA Hn Hw Hl HB HS. destruct (size_bounds m e n w l size HA Hn Hw Hl HB HS) as [H1 _]. assert (0 < n ^ w) as HP by (apply Z.pow_pos_nonneg; lia). exists (256 ^ size / n ^ w). split.
  - apply Z.div_le_lower_bound; lia.
  - intros v Hv. apply draws_count; [|exact Hv|lia]. destruct (Z.lt_ge_cases size 0) as [HN|HN]; [|exact HN]. rewrite (Z.pow_neg_r 256) in H1 by exact HN. lia.
Qed.
Print Assumptions C107_uniform.
(** What is drawn is the first number of the allowed range *)
Theorem C107_first fuel draws n w v d : 2 <= n -> 1 <= w -> random_integer fuel draws w n = Ok (v, d) ->
  exists i, (i < fuel)%nat /\ v = be_bytes_to_int (draws i) mod n ^ w /\ n ^ (w - 1) + 1 < v < n ^ w /\
    forall j, (j < i)%nat -> be_bytes_to_int (draws j) mod n ^ w <= n ^ (w - 1) + 1.
Proof.
  intros Hn Hw HR. unfold random_integer in HR. cbv zeta in HR. assert (n ^ w / n = n ^ (w - 1)) as HP by (replace w with (Z.succ (w - 1)) at 1 by lia; rewrite Z.pow_succ_r, Z.mul_comm, Z.div_mul by lia; reflexivity). rewrite HP in HR.
  assert (forall f i, random_loop f draws i (n ^ w) (n ^ (w - 1) + 1) = Ok (v, d) -> exists j, (i <= j < i + f)%nat /\ v = be_bytes_to_int (draws j) mod n ^ w /\ n ^ (w - 1) + 1 < v < n ^ w /\
    forall k, (i <= k < j)%nat -> be_bytes_to_int (draws k) mod n ^ w <= n ^ (w - 1) + 1) as HG.
  { clear HR. induction f as [|f IH]; intros i HR; [discriminate|]. cbn [random_loop] in HR. destruct (Z.leb_spec (be_bytes_to_int (draws i) mod n ^ w) (n ^ (w - 1) + 1)) as [HL|HL].
    - destruct (IH _ HR) as (j & Hj & HV & HB & HA). exists j. split; [lia|]. split; [exact HV|]. split; [exact HB|]. intros k Hk. destruct (Nat.eq_dec k i) as [->|]; [exact HL|]. apply HA. lia.
    - injection HR as <- <-. exists i. split; [lia|]. split; [reflexivity|]. split; [|lia]. split; [lia|]. apply Z.mod_pos_bound. apply Z.pow_pos_nonneg; lia. }
  destruct (HG _ _ HR) as (j & Hj & HV & HB & HA). exists j. split; [lia|]. split; [exact HV|]. split; [exact HB|]. intros k Hk. apply HA. lia.
Qed.
Print Assumptions C107_first.

(** The whole function *)
Section Whole.
  Context (nfkd lower_ : pystr -> pystr) (hmac : bytes -> bytes -> bytes).
  Lemma generate_words log2 urandom fuel wl prefix bits skip t : accurate (mant (log2 (zlen wl))) (expo (log2 (zlen wl))) (zlen wl) -> zlen wl <= 2 ^ 63 ->
    generate_new_mnemonic nfkd lower_ hmac log2 urandom fuel wl prefix bits skip = Ok t ->
    exists w v, 132 <= bits /\ 2048 <= zlen wl /\ 1 <= w /\ electrum_word_count (log2 (zlen wl)) bits = Ok w /\ electrum_from_entropy v wl = Ok t /\
      (2 * Z.of_nat fuel <= zlen wl ^ w - zlen wl ^ (w - 1) -> zlen wl ^ (w - 1) <= v < zlen wl ^ w) /\
      is_valid_new nfkd lower_ hmac t prefix = Ok true /\ (skip = true -> is_valid_old lower_ t = false).
  Proof using.
    intros HA HL HG. unfold generate_new_mnemonic in HG. destruct (Z.ltb_spec bits 132); [discriminate|]. destruct (Z.ltb_spec (zlen wl) 2048); [discriminate|].
    apply bind_Ok in HG as (w & HW & HG). apply bind_Ok in HG as (size & HS & HG). unfold generate_new in HG. destruct (Z.ltb_spec bits 132); [discriminate|]. destruct (Z.ltb_spec (zlen wl) 2048); [discriminate|]. apply bind_Ok in HG as ([v d] & HR & HG). apply search_spec in HG as (k & Hk & HE & HV & HO).
    assert (1 <= w) as Hw. { destruct (log2 (zlen wl)) as [m e]. cbn [mant expo] in HA. exact (proj1 (word_count_bounds m e (zlen wl) bits w HA ltac:(lia) ltac:(lia) HW)). }
    exists w, (v + Z.of_nat k * d). repeat (split; [first [assumption|lia]|]). split; [|split; assumption]. intros HF.
    unfold random_integer in HR. apply random_spec in HR as [HR HD]; [|apply Z.pow_pos_nonneg; lia]. assert (HP : zlen wl ^ w / zlen wl = zlen wl ^ (w - 1)) by (replace w with (Z.succ (w - 1)) at 1 by lia; rewrite Z.pow_succ_r, Z.mul_comm, Z.div_mul by lia; reflexivity). rewrite HP in *.
    clear HE HV HO HA HW HS HP. revert HF HR HD. set (P := zlen wl ^ (w - 1)). set (M := zlen wl ^ w). intros HF HR HD. pose proof (Z.div_mod (P + 1 + M) 2 ltac:(lia)) as DM. pose proof (Z.mod_pos_bound (P + 1 + M) 2 ltac:(lia)) as MB. set (mid := (P + 1 + M) / 2) in *.
    destruct HD as [[-> HD]|[-> HD]]; lia.
  Qed.
End Whole.
(** A mnemonic returned has exactly that many words of the list, is valid and, if asked for, not an old one; [fuel], the number of draws and
    mnemonics tried, is any number up to half the number of mnemonics. *)
Theorem C107_generate nfkd lower_ hmac log2 urandom fuel wl prefix bits skip t : accurate (mant (log2 (zlen wl))) (expo (log2 (zlen wl))) (zlen wl) -> zlen wl <= 2 ^ 63 ->
  (forall w, electrum_word_count (log2 (zlen wl)) bits = Ok w -> 2 * Z.of_nat fuel <= zlen wl ^ w - zlen wl ^ (w - 1)) ->
  generate_new_mnemonic nfkd lower_ hmac log2 urandom fuel wl prefix bits skip = Ok t ->
  exists w ws, electrum_word_count (log2 (zlen wl)) bits = Ok w /\ spaced ws t /\ zlen ws = w /\ (forall x, In x ws -> In x wl) /\
    is_valid_new nfkd lower_ hmac t prefix = Ok true /\ (skip = true -> is_valid_old lower_ t = false).
Proof.
  intros HA HL HF HG. destruct (generate_words nfkd lower_ hmac log2 urandom fuel wl prefix bits skip t HA HL HG) as (w & v & Hb & Hn & Hw & HW & HE & HR & HV & HO). specialize (HR (HF w HW)).
  destruct (word_count wl v w ltac:(lia) Hw HR) as (ds & ws & t' & HT & HS & HC & _ & HFo). rewrite HE in HT. injection HT as <-. exists w, ws. split; [exact HW|]. split; [exact HS|]. split; [exact HC|]. split; [|split; assumption].
  clear - HFo. induction HFo as [|i w ds ws Hi HF IH]; intros x HX; [contradiction|]. destruct HX as [<-|HX]; [exact (znth_In _ _ _ Hi)|now apply IH].
Qed.
Print Assumptions C107_generate.
(** Which one it is: the first draw above the minimum decides the number to start with and, by the half it is in, the direction; the mnemonic is
    the first acceptable one from there. *)
Section Which.
  Context (nfkd lower_ : pystr -> pystr) (hmac : bytes -> bytes -> bytes).
  Definition acceptable (prefix : pystr) (skip : bool) (t : pystr) : Prop :=
    is_valid_new nfkd lower_ hmac t prefix = Ok true /\ (skip = true -> is_valid_old lower_ t = false).
  Lemma search_first f wl prefix skip : forall v d t, search_new nfkd lower_ hmac f wl prefix skip v d = Ok t ->
    exists k, (k < f)%nat /\ electrum_from_entropy (v + Z.of_nat k * d) wl = Ok t /\ acceptable prefix skip t /\
      forall j, (j < k)%nat -> exists u, electrum_from_entropy (v + Z.of_nat j * d) wl = Ok u /\ ~ acceptable prefix skip u.
  Proof using.
    induction f as [|f IH]; intros v d t HS; [discriminate|]. cbn [search_new] in HS. apply bind_Ok in HS as (m & HM & HS). apply bind_Ok in HS as (b & HV & HS). destruct (b && negb (skip && is_valid_old lower_ m)) eqn:E.
    - injection HS as ->. apply andb_true_iff in E as [-> E]. exists 0%nat. split; [lia|]. split; [rewrite <- HM; f_equal; lia|]. split; [|lia]. split; [exact HV|]. intros ->. cbn in E. now apply negb_true_iff in E.
    - apply IH in HS as (k & Hk & HE & HR & HF). exists (S k). split; [lia|]. split; [rewrite <- HE; f_equal; lia|]. split; [exact HR|]. intros [|j] Hj.
      + exists m. split; [rewrite <- HM; f_equal; lia|]. intros [HA HO]. rewrite HV in HA. injection HA as ->. cbn in E. apply negb_false_iff, andb_true_iff in E as [-> E]. rewrite (HO eq_refl) in E. discriminate.
      + destruct (HF j ltac:(lia)) as (u & HU & HN). exists u. split; [rewrite <- HU; f_equal; lia|exact HN].
  Qed.
End Which.
Theorem C107_draw nfkd lower_ hmac log2 urandom fuel wl prefix bits skip t : accurate (mant (log2 (zlen wl))) (expo (log2 (zlen wl))) (zlen wl) -> zlen wl <= 2 ^ 63 ->
  generate_new_mnemonic nfkd lower_ hmac log2 urandom fuel wl prefix bits skip = Ok t ->
  exists w size i k d, let n := zlen wl in let drawn j := be_bytes_to_int (urandom j size) mod n ^ w in
    electrum_word_count (log2 n) bits = Ok w /\ random_size (log2 n) w = Ok size /\
    (forall j, (j < i)%nat -> drawn j <= n ^ (w - 1) + 1) /\ n ^ (w - 1) + 1 < drawn i /\
    (d = 1 /\ 2 * drawn i < n ^ (w - 1) + n ^ w \/ d = -1 /\ n ^ (w - 1) + n ^ w <= 2 * drawn i) /\
    electrum_from_entropy (drawn i + Z.of_nat k * d) wl = Ok t /\ acceptable nfkd lower_ hmac prefix skip t /\
    forall j, (j < k)%nat -> exists u, electrum_from_entropy (drawn i + Z.of_nat j * d) wl = Ok u /\ ~ acceptable nfkd lower_ hmac prefix skip u.
Proof.
  intros HA HL HG. unfold generate_new_mnemonic in HG. destruct (Z.ltb_spec bits 132); [discriminate|]. destruct (Z.ltb_spec (zlen wl) 2048); [discriminate|].
  apply bind_Ok in HG as (w & HW & HG). apply bind_Ok in HG as (size & HS & HG). unfold generate_new in HG. destruct (Z.ltb_spec bits 132); [discriminate|]. destruct (Z.ltb_spec (zlen wl) 2048); [discriminate|].
  apply bind_Ok in HG as ([v d] & HR & HG). assert (1 <= w) as Hw. { destruct (log2 (zlen wl)) as [m e]. cbn [mant expo] in HA. exact (proj1 (word_count_bounds m e (zlen wl) bits w HA ltac:(lia) ltac:(lia) HW)). }
  destruct (C107_first fuel (fun i => urandom i size) (zlen wl) w v d ltac:(lia) Hw HR) as (i & _ & HV & HB & HF). unfold random_integer in HR. apply random_spec in HR as [_ HD]; [|apply Z.pow_pos_nonneg; lia].
  assert (HP : zlen wl ^ w / zlen wl = zlen wl ^ (w - 1)) by (replace w with (Z.succ (w - 1)) at 1 by lia; rewrite Z.pow_succ_r, Z.mul_comm, Z.div_mul by lia; reflexivity). rewrite HP in HD.
  apply search_first in HG as (k & _ & HE & HK & HN). exists w, size, i, k, d. cbv beta zeta. cbv beta in HV, HF. rewrite <- HV.
  split; [exact HW|]. split; [exact HS|]. split; [exact HF|]. split; [lia|]. split; [|split; [exact HE|split; assumption] ].
  clear - HD. revert HD. set (P := zlen wl ^ (w - 1)). set (M := zlen wl ^ w). intros HD. pose proof (Z.div_mod (P + 1 + M) 2 ltac:(lia)) as DM. pose proof (Z.mod_pos_bound (P + 1 + M) 2 ltac:(lia)) as MB. set (mid := (P + 1 + M) / 2) in *. lia.
Qed.
Print Assumptions C107_draw.
(** The words of a number are taken from the list with the number modulo its length: of an empty list that is a division by zero. *)
Theorem C107_no_words v : v <> 0 -> electrum_from_entropy v [] = Err ZeroDivisionError.
Proof.
  intros HV. unfold electrum_from_entropy. assert (0 < Py.bit_length v) as HL by (unfold Py.bit_length; destruct (Z.eqb_spec v 0); [contradiction|]; pose proof (Z.log2_nonneg (Z.abs v)); lia).
  destruct (Z.to_nat (Py.bit_length v)) as [|f] eqn:E; [exfalso; revert HL E; generalize (Py.bit_length v); intros; lia|].
  cbn [entropy_words]. destruct (Z.eqb_spec v 0); [contradiction|]. reflexivity.
Qed.
Print Assumptions C107_no_words.

(** Few bits or words are refused, always with ValueError *)
Theorem C107_refused nfkd lower_ hmac log2 urandom fuel wl prefix bits skip : bits < 132 \/ zlen wl < 2048 ->
  generate_new_mnemonic nfkd lower_ hmac log2 urandom fuel wl prefix bits skip = Err ValueError.
Proof.
  unfold generate_new_mnemonic. intros H. destruct (Z.ltb_spec bits 132); [reflexivity|]. destruct (Z.ltb_spec (zlen wl) 2048); [reflexivity|]. lia.
Qed.
Print Assumptions C107_refused.

(** "with the given bits of entropy" (mnemonic.py:206): there are not 2^bits mnemonics to choose from.  With 2048 words and 132 bits, whatever is
    drawn, fewer than 2^132 - 2^121 different mnemonics can be returned: the last word is never the first of the list.  (Of these only those
    with the prefix are returned.) *)
Theorem C107_entropy_refuted : exists bits, 132 <= bits /\ forall nfkd lower_ hmac log2 wl prefix skip, zlen wl = 2048 -> log2 2048 = mk_double (11 * 2 ^ 49) (-49) ->
  forall ts, NoDup ts -> (forall t, In t ts -> exists urandom fuel, Z.of_nat fuel < 2 ^ 130 /\ generate_new_mnemonic nfkd lower_ hmac log2 urandom fuel wl prefix bits skip = Ok t) -> zlen ts <= 2 ^ bits - 2 ^ 121.
Proof.
  exists 132. split; [lia|]. intros nfkd lower_ hmac log2 wl prefix skip Hn HL ts HN HT.
  assert (forall t, In t ts -> exists v, 2048 ^ 11 <= v < 2048 ^ 12 /\ electrum_from_entropy v wl = Ok t) as HV.
  { intros t Ht. destruct (HT t Ht) as (urandom & fuel & HF & HG). destruct (generate_words nfkd lower_ hmac log2 urandom fuel wl prefix 132 skip t) as (w & v & _ & _ & _ & HW & HE & HR & _); [rewrite Hn, HL; exact accurate_2048|rewrite Hn; lia|exact HG|].
    rewrite Hn in *. rewrite HL in HW. replace w with 12 in *; [|vm_compute in HW; congruence]. exists v. split; [|exact HE]. apply HR. change (2048 ^ 12 - 2048 ^ (12 - 1)) with (2 ^ 132 - 2 ^ 121). lia. }
  assert (2 ^ 132 - 2 ^ 121 = 2048 ^ 12 - 2048 ^ 11) as -> by reflexivity. apply (distinct_range (fun v t => electrum_from_entropy v wl = Ok t)); [lia|congruence|exact HN|exact HV].
Qed.
Print Assumptions C107_entropy_refuted.

(** 132 bits of 2048 words whose logarithm is 11.0 are 12 words, drawn with 19 bytes.  If the logarithm were the float before 11.0, it
    would be 13 words. *)
Example C107_ex : electrum_word_count (mk_double (11 * 2 ^ 49) (-49)) 132 = Ok 12 /\ random_size (mk_double (11 * 2 ^ 49) (-49)) 12 = Ok 19 /\
  electrum_word_count (mk_double (11 * 2 ^ 49 - 1) (-49)) 132 = Ok 13 /\ electrum_word_count (mk_double (11 * 2 ^ 49) (-49)) 133 = Ok 13 /\
  electrum_word_count (mk_double (11 * 2 ^ 49) (-49)) (2 ^ 1024) = Err OverflowError /\ accurate (11 * 2 ^ 49) (-49) 2048 /\ accurate (11 * 2 ^ 49 - 1) (-49) 2048.
Proof.
  repeat (split; [vm_compute; reflexivity|]). split; [exact accurate_2048|]. split; [unfold finite_double; lia|]. intros a b Ha Hb. change 2048 with (2 ^ 11). rewrite <- Z.pow_mul_r by lia. change (-49 + 1074) with 1025. change (2 ^ 1074) with (2 ^ 49 * 2 ^ 1025). assert (0 < 2 ^ 1025) as HP by (apply Z.pow_pos_nonneg; lia).
  split; intros HL; apply Z.pow_le_mono_r_iff in HL; try lia; revert HP; generalize (2 ^ 1025) as s; intros s HP; rewrite !Z.mul_assoc; apply Z.mul_le_mono_nonneg_r; lia.
Qed.
(** A mnemonic of 12 words *)
Example C107_generate_ex : exists t, generate_new_mnemonic plain lower toy_hmac (fun _ => mk_double (11 * 2 ^ 49) (-49)) (fun i size => ztake size (sample_draws i ++ sample_draws i)) 20 sample_words (txt "01") 132 true = Ok t /\ zlen (split_ws t) = 12.
Proof. eexists. vm_compute. repeat split. Qed.
