(** The limit on the digits of int(). *)
From Verif.Model Require Import Py Text Packing Misc Signature Script Bip32 IntLimit.
From Verif.Spec Require Import Numbers ScriptSpec Bip32Spec IntLimitSpec.
From Verif.Proofs Require Import PyFacts PackingFacts NumbersFacts ScriptFacts ScriptTheorems TextFacts HexFacts AsmFacts Bip32Facts.

Lemma is_digit_iff c : is_digit c = true <-> decimal_digit c.
Proof. unfold is_digit, decimal_digit. lia. Qed.
Lemma digits_iff w : forallb is_digit w = true <-> Forall decimal_digit w.
Proof. rewrite forallb_forall, Forall_forall. split; intros HA c Hc; apply is_digit_iff, HA, Hc. Qed.
Lemma filter_digits w : Forall decimal_digit w -> filter is_digit w = w.
Proof. induction 1 as [|c w Hc HF IH]; [reflexivity|]. cbn [filter]. apply is_digit_iff in Hc. now rewrite Hc, IH. Qed.
Lemma isdigit_iff w : isdigit w = true <-> w <> [] /\ Forall decimal_digit w.
Proof. destruct w as [|c w]; [cbn; split; [discriminate|intros [HN _]; contradiction]|]. change (isdigit (c :: w)) with (forallb is_digit (c :: w)). rewrite digits_iff. split; [split; [discriminate|assumption]|now intros [_ H]]. Qed.

Lemma limited_plain limit w : ~ long_numeral limit w -> asm_word_limited limit w = asm_word_to_bytes w.
Proof.
  intros HN. unfold asm_word_limited, asm_word_to_bytes. destruct (starts_with w (txt "OP_")); [reflexivity|].
  assert (HL : isdigit w = true \/ (exists r, w = 45 :: r /\ isdigit r = true) -> int_limited limit w = Ok (int_of_word w)).
  { intros HD. unfold int_limited. destruct (Z.ltb_spec limit (zlen (filter is_digit w))) as [Hlt|]; [|reflexivity]. exfalso. apply HN. destruct HD as [HD|(r & -> & HD)]; apply isdigit_iff in HD as [_ HD].
    - rewrite filter_digits in Hlt by exact HD. exists w. auto.
    - cbn [filter] in Hlt. change (is_digit 45) with false in Hlt. cbv iota in Hlt. rewrite filter_digits in Hlt by exact HD. exists r. auto. }
  destruct (isdigit w) eqn:Ed; cbn [bind]; [rewrite HL by auto; reflexivity|].
  destruct w as [|c r]; [reflexivity|]. rewrite pyindex_0. cbn [bind]. rewrite take1. destruct (Z.eqb_spec c 45) as [->|]; [|reflexivity]. cbn [andb].
  destruct (isdigit r) eqn:Er; [|reflexivity]. rewrite HL by eauto. reflexivity.
Qed.
Lemma limited_long limit w : 0 <= limit -> long_numeral limit w -> asm_word_limited limit w = Err ValueError.
Proof.
  intros H0 (ds & HF & HW & HL). unfold asm_word_limited. assert (Hne : ds <> []) by (intros ->; rewrite zlen_nil in HL; lia).
  assert (HC : forall c, In c ds -> 48 <= c <= 57) by (intros c Hc; rewrite Forall_forall in HF; now apply HF).
  destruct HW as [->| ->].
  - rewrite digit_not_op; [|exact Hne|intros c Hc; specialize (HC c Hc); lia]. rewrite (proj2 (isdigit_iff ds)) by auto. cbn [bind]. unfold int_limited. rewrite filter_digits by exact HF.
    now replace (limit <? zlen ds) with true by lia.
  - rewrite digit_not_op; [|discriminate|intros c [<-|Hc]; [lia|specialize (HC c Hc); lia]]. change (isdigit (45 :: ds)) with (is_digit 45 && forallb is_digit ds). change (is_digit 45) with false. cbn [andb].
    rewrite pyindex_0. cbn [bind]. rewrite take1. change (45 =? 45) with true. cbn [andb]. rewrite (proj2 (isdigit_iff ds)) by auto. unfold int_limited. cbn [filter]. change (is_digit 45) with false. cbv iota.
    rewrite filter_digits by exact HF. now replace (limit <? zlen ds) with true by lia.
Qed.
Lemma long_numeral_dec limit w : {long_numeral limit w} + {~ long_numeral limit w}.
Proof.
  destruct (forallb is_digit w) eqn:E1; [destruct (Z_lt_le_dec limit (zlen w)) as [HL|HL]|].
  - left. apply digits_iff in E1. exists w. auto.
  - right. intros (ds & HF & [->| ->] & HD); [lia|]. cbn in E1. discriminate.
  - destruct w as [|c r]; [discriminate|]. destruct (Z.eq_dec c 45) as [->|Hc]; [destruct (forallb is_digit r) eqn:E2; [destruct (Z_lt_le_dec limit (zlen r)) as [HL|HL]|]|].
    + left. apply digits_iff in E2. exists r. auto.
    + right. intros (ds & HF & [<-|HE] & HD); [apply digits_iff in HF; congruence|]. injection HE as ->. lia.
    + right. intros (ds & HF & [<-|HE] & HD); [apply digits_iff in HF; congruence|]. injection HE as ->. apply digits_iff in HF. congruence.
    + right. intros (ds & HF & [<-|HE] & HD); [apply digits_iff in HF; congruence|]. injection HE as -> ->. contradiction.
Qed.
Lemma limited_Ok limit w b : 0 <= limit -> asm_word_limited limit w = Ok b <-> ~ long_numeral limit w /\ asm_word_to_bytes w = Ok b.
Proof.
  intros H0. destruct (long_numeral_dec limit w) as [HL|HL].
  - rewrite (limited_long limit w H0 HL). split; [discriminate|tauto].
  - rewrite (limited_plain limit w HL). tauto.
Qed.
Lemma mapM_limited limit ws : 0 <= limit -> forall bs, mapM (asm_word_limited limit) ws = Ok bs <-> Forall (fun w => ~ long_numeral limit w) ws /\ mapM asm_word_to_bytes ws = Ok bs.
Proof.
  intros H0. induction ws as [|w ws IH]; intros bs; cbn [mapM]; [split; [split; [constructor|assumption]|tauto]|]. split.
  - intros HB. apply bind_Ok in HB as (b & Hb & HB). apply bind_Ok in HB as (bs' & Hbs & HB). apply (limited_Ok limit w b H0) in Hb as [HN ->]. apply IH in Hbs as [HF ->]. split; [now constructor|exact HB].
  - intros [HF HB]. inversion HF; subst. rewrite limited_plain by assumption. apply bind_Ok in HB as (b & -> & HB). apply bind_Ok in HB as (bs' & HX & HB). cbn [bind]. rewrite (proj2 (IH bs')) by auto. exact HB.
Qed.
Lemma from_asm_limited_Ok limit a s : 0 <= limit -> from_asm_limited limit a = Ok s <-> Forall (fun w => ~ long_numeral limit w) (split_ws a) /\ from_asm a = Ok s.
Proof.
  intros H0. unfold from_asm_limited, from_asm. split.
  - intros HB. apply bind_Ok in HB as (bs & HM & HB). apply (mapM_limited limit _ H0) in HM as [HF ->]. auto.
  - intros [HF HB]. apply bind_Ok in HB as (bs & HM & HB). rewrite (proj2 (mapM_limited limit _ H0 bs)) by auto. exact HB.
Qed.
(** The first word that does not convert decides. *)
Lemma from_asm_long limit ws w ws' bs a : 0 <= limit -> split_ws a = ws ++ w :: ws' -> mapM (asm_word_limited limit) ws = Ok bs -> long_numeral limit w -> from_asm_limited limit a = Err ValueError.
Proof.
  intros H0 HS HM HL. unfold from_asm_limited. rewrite HS. clear HS. revert bs HM. induction ws as [|x ws IH]; intros bs HM; cbn [app mapM] in *.
  - rewrite (limited_long limit w H0 HL). reflexivity.
  - apply bind_Ok in HM as (b & -> & HM). apply bind_Ok in HM as (bs' & HM & _). cbn [bind]. specialize (IH bs' HM). destruct (mapM _ (ws ++ w :: ws')) as [l|e]; [discriminate|]. exact IH.
Qed.
Lemma push_item_err d e : push_item d = Err e -> 2 ^ 32 <= zlen d.
Proof. intros HE. destruct (Z_lt_le_dec (zlen d) (2 ^ 32)) as [HL|]; [|assumption]. destruct (push_item_total d HL) as (p & HP). congruence. Qed.
Lemma from_hex_length w : forall b, from_hex w = Ok b -> zlen b <= zlen w.
Proof.
  assert (HG : forall n w, (length w <= n)%nat -> forall b, from_hex w = Ok b -> zlen b <= zlen w).
  { clear. induction n as [|n IH]; intros [|c w] HL b HB; try (cbn in HL; lia); try (injection HB as <-; rewrite zlen_nil; lia).
    - cbn [length] in HL. cbn [from_hex] in HB. destruct (is_space c); [apply IH in HB; [rewrite zlen_cons; lia|lia]|]. destruct w as [|c' w]; [destruct (hex_val c); discriminate|].
      destruct (hex_val c); [|discriminate]. destruct (hex_val c'); [|discriminate]. apply bind_Ok in HB as (r & HR & HB). injection HB as <-. apply IH in HR; [rewrite !zlen_cons; lia|cbn [length] in HL; lia]. }
  intros b. now apply (HG (length w)).
Qed.
Lemma four_bytes v : Z.abs v <= 2147483647 -> exists d, number d v /\ bytes_ok d = true /\ zlen d = 4.
Proof.
  intros Hv. set (n := Z.abs v) in *. assert (Hn : 0 <= n) by (unfold n; lia). set (x := n / 256 / 256 / 256).
  assert (HX : 0 <= x < 128) by (unfold x; rewrite !Z.div_div by lia; split; [apply Z.div_pos; lia|apply Z.div_lt_upper_bound; lia]).
  assert (HV : val_le (le_digits 3 n) + 256 ^ zlen (le_digits 3 n) * x = n).
  { rewrite val_le_int, zlen_le_digits. change (256 ^ Z.of_nat 3) with 16777216. unfold x. cbn [le_digits le_int].
    pose proof (Z.div_mod n 256 ltac:(lia)). pose proof (Z.div_mod (n / 256) 256 ltac:(lia)). pose proof (Z.div_mod (n / 256 / 256) 256 ltac:(lia)). lia. }
  destruct (Z_lt_le_dec v 0) as [Hneg|Hpos].
  - exists (le_digits 3 n ++ [x + 128]). split; [|split; [|rewrite zlen_app, zlen_le_digits; reflexivity]].
    + right. exists (le_digits 3 n), (x + 128). split; [reflexivity|]. right. split; [lia|]. replace (x + 128 - 128) with x by lia. rewrite HV. unfold n. lia.
    + rewrite bytes_ok_app, le_digits_ok, bytes_ok_cons, (proj2 (byte_ok_iff (x + 128))) by lia. reflexivity.
  - exists (le_digits 3 n ++ [x]). split; [|split; [|rewrite zlen_app, zlen_le_digits; reflexivity]].
    + right. exists (le_digits 3 n), x. split; [reflexivity|]. left. split; [lia|]. rewrite HV. unfold n. lia.
    + rewrite bytes_ok_app, le_digits_ok, bytes_ok_cons, (proj2 (byte_ok_iff x)) by lia. reflexivity.
Qed.
Lemma push_int_no_err v e : Z.abs v <= 2147483647 -> push_int v <> Err e.
Proof.
  intros Hv HP. destruct (push_int_item v) as (item & _ & _ & HI & HS). destruct (four_bytes v Hv) as (d & HN & HB & HL). specialize (HS d HB HN). rewrite HI in HP. apply push_item_err in HP. lia.
Qed.
Lemma asm_word_err w e : w <> [] -> zlen w < 2 ^ 32 -> asm_word_to_bytes w = Err e -> e = ScriptError.
Proof.
  intros Hne HL. unfold asm_word_to_bytes. destruct (starts_with w (txt "OP_")).
  - destruct (value_of w ops_members) as [v|] eqn:E; [|now injection 1]. intros HP. exfalso. revert HP.
    assert (HV : 0 <= v < 256).
    { assert (HA : forall l, (forall p, In p l -> 0 <= snd p < 256) -> value_of w l = Some v -> 0 <= v < 256).
      { clear. induction l as [|[n x] l IH]; intros HA HV; [discriminate|]. cbn [value_of] in HV. destruct (bytes_eqb _ _); [injection HV as <-; apply (HA (n, x)); now left|]. apply IH; [|exact HV]. intros p Hp. apply HA. now right. }
      apply (HA ops_members); [|exact E]. assert (HB : forallb (fun p => (0 <=? snd p) && (snd p <? 256)) ops_members = true) by (vm_compute; reflexivity). rewrite forallb_forall in HB. intros p Hp. specialize (HB p Hp). lia. }
    rewrite pack_byte_ok by lia. discriminate.
  - assert (HH : forall e', match from_hex w with Ok b => push_item b | Err ValueError => Err ScriptError | Err e => Err e end = Err e' -> e' = ScriptError).
    { intros e'. destruct (from_hex w) as [b|x] eqn:E; [|apply from_hex_err in E; subst; now injection 1]. intros HP. apply push_item_err in HP. apply from_hex_length in E. lia. }
    assert (HI : forall v e', (if Z.abs v <=? 2147483647 then push_int v else match from_hex w with Ok b => push_item b | Err ValueError => Err ScriptError | Err e => Err e end) = Err e' -> e' = ScriptError).
    { intros v e'. destruct (Z.leb_spec (Z.abs v) 2147483647) as [Hv|]; [|apply HH]. intros HP. exfalso. exact (push_int_no_err v e' Hv HP). }
    destruct (isdigit w); cbn [bind]; [apply HI|].
    destruct w as [|c r]; [contradiction|]. rewrite pyindex_0. cbn [bind]. destruct (_ && _); [apply HI|apply HH].
Qed.

(** The words of a text are not empty and not longer than it. *)
Lemma split_ws_words a : forall w, In w (split_ws a) -> w <> [] /\ zlen w <= zlen a.
Proof.
  assert (HR : forall c (acc : pystr), rev (c :: acc) <> []) by (intros c acc HE; apply (f_equal (@length Z)) in HE; rewrite rev_length in HE; discriminate).
  assert (HG : forall a acc w, In w (split_ws_aux acc a) -> w <> [] /\ zlen w <= zlen a + zlen acc).
  { clear a. induction a as [|c a' IH]; intros acc w HI; cbn [split_ws_aux] in HI.
    - destruct acc as [|x acc]; [destruct HI|]. destruct HI as [<-|[]]. split; [apply HR|]. rewrite zlen_rev, zlen_nil. lia.
    - rewrite zlen_cons. destruct (is_space_str c).
      + pose proof (zlen_nonneg acc). pose proof (zlen_nonneg a'). destruct acc as [|x acc]; [apply IH in HI; rewrite zlen_nil in *; destruct HI; split; [assumption|lia]|]. destruct HI as [<-|HI]; [split; [apply HR|rewrite zlen_rev; lia]|]. apply IH in HI. rewrite zlen_nil in HI. destruct HI. split; [assumption|lia].
      + apply IH in HI. rewrite zlen_cons in HI. destruct HI. split; [assumption|lia]. }
  intros w HI. apply HG in HI. rewrite zlen_nil in HI. destruct HI. split; [assumption|lia].
Qed.
Lemma mapM_err {A B} (f : A -> result B) l e : mapM f l = Err e -> exists x, In x l /\ f x = Err e.
Proof.
  induction l as [|x l IH]; cbn [mapM]; [discriminate|]. destruct (f x) as [b|e'] eqn:E; cbn [bind]; [|intros [= ->]; exists x; split; [now left|exact E]].
  destruct (mapM f l) as [bs|e']; cbn [bind]; [discriminate|]. intros [= ->]. destruct (IH eq_refl) as (y & Hy & HE). exists y. split; [now right|exact HE].
Qed.
Lemma from_asm_limited_err limit a e : 0 <= limit -> zlen a < 2 ^ 32 -> from_asm_limited limit a = Err e ->
  e = ScriptError \/ (e = ValueError /\ exists w, In w (split_ws a) /\ long_numeral limit w).
Proof.
  intros H0 HL HE. unfold from_asm_limited in HE. destruct (mapM _ _) as [bs|x] eqn:E; [discriminate|]. injection HE as ->. apply mapM_err in E as (w & HI & HE). destruct (split_ws_words a w HI) as [Hne Hw].
  destruct (long_numeral_dec limit w) as [HN|HN].
  - rewrite (limited_long limit w H0 HN) in HE. injection HE as <-. right. eauto.
  - rewrite (limited_plain limit w HN) in HE. left. apply (asm_word_err w); auto. lia.
Qed.
Lemma from_asm_err a e : zlen a < 2 ^ 32 -> from_asm a = Err e -> e = ScriptError.
Proof.
  intros HL HE. unfold from_asm in HE. destruct (mapM _ _) as [bs|x] eqn:E; [discriminate|]. injection HE as ->. apply mapM_err in E as (w & HI & HE). destruct (split_ws_words a w HI) as [Hne Hw]. apply (asm_word_err w); auto. lia.
Qed.

(** The words of a script *)
Lemma dec_digits_length f : forall n acc, zlen (dec_digits f n acc) <= Z.of_nat f + zlen acc.
Proof. induction f as [|f IH]; intros n acc; cbn [dec_digits]; [lia|]. destruct (_ =? _); [rewrite zlen_cons; lia|]. specialize (IH (n / 10) ((48 + n mod 10) :: acc)). rewrite zlen_cons in IH. lia. Qed.
Lemma word_long limit der_ok p o w : 31 <= limit -> encodes p o -> bytes_ok p = true -> op_to_asm_word der_ok o false = Ok w -> (long_numeral limit w <-> long_decimal limit o).
Proof.
  intros H10 HE HB HW. destruct o as [c|d]; cbn [op_to_asm_word long_decimal] in *.
  - split; [|contradiction]. intros (ds & HF & HD & HL). exfalso.
    assert (H79 : exists r, w = 79 :: r).
    { destruct (name_of c ops_members) as [n|] eqn:E.
      - injection HW as <-. assert (HA : forall l, (forall q, In q l -> exists r, fst q = 79 :: r) -> name_of c l = Some n -> exists r, n = 79 :: r).
        { clear. induction l as [|[m x] l IH]; intros HA HN; [discriminate|]. cbn [name_of] in HN. destruct (x =? c); [injection HN as <-; exact (HA _ (or_introl eq_refl))|]. apply IH; [|exact HN]. intros q Hq. apply HA. now right. }
        apply (HA ops_members); [|exact E]. assert (HT : forallb (fun q => match fst q with x :: _ => x =? 79 | [] => false end) ops_members = true) by (vm_compute; reflexivity). rewrite forallb_forall in HT.
        intros q Hq. specialize (HT q Hq). destruct (fst q) as [|x r]; [discriminate|]. apply Z.eqb_eq in HT. subst x. eauto.
      - injection HW as <-. destruct (c =? 255); eexists; reflexivity. }
    destruct H79 as (r & ->). destruct HD as [<-|HD]; [|discriminate]. inversion HF as [|? ? HX]. unfold decimal_digit in HX. lia.
  - assert (HBd : bytes_ok d = true).
    { remember (Data d) as o eqn:Ho. destruct HE; try discriminate; try (injection Ho as Ho); subst; rewrite ?bytes_ok_cons in HB; auto; repeat (apply andb_true_iff in HB as [? HB]); auto.
      rewrite bytes_ok_cons. rewrite (proj2 (byte_ok_iff n)) by lia. reflexivity. }
    destruct (Z.leb_spec (zlen d) 4) as [H4|H4].
    + split; [|lia]. destruct (item_to_int_number d HBd) as (v & Hv & HN). rewrite Hv in HW. injection HW as <-. intros (ds & HF & HD & HL). exfalso.
      assert (Hva : Z.abs v <= 2147483647).
      { destruct d as [|x d']; [destruct HN as [[_ ->]|(b & y & E & _)]; [lia|now destruct b]|]. pose proof (number_bound _ v HBd HN ltac:(discriminate)) as HLb. pose proof (zlen_nonneg d').
        assert (256 ^ (zlen (x :: d') - 1) <= 256 ^ 3) by (apply Z.pow_le_mono_r; lia). change (256 ^ 3) with 16777216 in *. lia. }
      assert (HS : forall n, 0 <= n <= 2147483647 -> zlen (str_of_nonneg n) <= 31).
      { intros n Hn. unfold str_of_nonneg. pose proof (dec_digits_length (Z.to_nat (Z.log2 n + 1)) n []) as HX. rewrite zlen_nil in HX. pose proof (Z.log2_nonneg n). assert (Z.log2 n <= Z.log2 2147483647) by (apply Z.log2_le_mono; lia). change (Z.log2 2147483647) with 30 in *. lia. }
      assert (HLs : zlen (str_of_int v) <= 31 \/ exists r, str_of_int v = 45 :: r /\ zlen r <= 31).
      { unfold str_of_int. destruct (Z.ltb_spec v 0); [right; eexists; split; [reflexivity|apply HS; lia]|left; apply HS; lia]. }
      destruct HLs as [HLs|(r & HLs & Hr)]; destruct HD as [HD|HD].
      * rewrite HD in HLs. lia.
      * rewrite HD, zlen_cons in HLs. lia.
      * rewrite HLs in HD. subst ds. inversion HF as [|? ? HX]. unfold decimal_digit in HX. lia.
      * rewrite HLs in HD. injection HD as ->. lia.
    + destruct d as [|b0 d']; [rewrite zlen_nil in H4; lia|]. rewrite pyindex_0 in HW. cbn [bind andb] in HW. remember (b0 :: d') as d eqn:Hd. injection HW as <-.
      assert (HDig : Forall decimal_digit (to_hex d) <-> looks_decimal d) by (rewrite <- digits_iff; apply to_hex_digits; exact HBd). split.
      * intros (ds & HF & [<-|HD] & HL); [rewrite to_hex_length in HL; tauto|]. exfalso. pose proof (to_hex_chars d 45 HBd) as HC. rewrite HD in HC. specialize (HC (or_introl eq_refl)). lia.
      * intros (_ & HD & HL). exists (to_hex d). split; [now apply HDig|]. split; [auto|]. now rewrite to_hex_length.
Qed.
Lemma words_long limit der_ok parts l : 31 <= limit -> Forall2 encodes parts l -> bytes_ok (concat parts) = true -> forall ws, mapM (fun o => op_to_asm_word der_ok o false) l = Ok ws ->
  (Forall (fun w => ~ long_numeral limit w) ws <-> Forall (fun o => ~ long_decimal limit o) l).
Proof.
  intros H31 HF. induction HF as [|p o parts l HE HF IH]; intros HB ws HM; cbn [mapM] in HM; [injection HM as <-; split; constructor|].
  cbn [concat] in HB. rewrite bytes_ok_app in HB. apply andb_true_iff in HB as [HBp HB]. apply bind_Ok in HM as (w & Hw & HM). apply bind_Ok in HM as (ws' & Hws & HM). injection HM as <-.
  pose proof (word_long limit der_ok p o w H31 HE HBp Hw) as HL. specialize (IH HB ws' Hws). rewrite !Forall_cons_iff, IH, HL. reflexivity.
Qed.
Lemma limited_roundtrip limit der_ok s : 31 <= limit -> bytes_ok s = true -> exists a, to_asm der_ok s false = Ok a /\
  (from_asm_limited limit a = Ok s <-> exists parts l, s = concat parts /\ Forall2 encodes parts l /\ Forall2 asm_safe parts l /\ Forall (fun o => ~ long_decimal limit o) l).
Proof.
  intros H31 HB. destruct (asm_roundtrip der_ok s HB) as (a & HA & HR). exists a. split; [exact HA|]. rewrite from_asm_limited_Ok, HR by lia.
  unfold to_asm in HA. destruct (parse_total s HB) as (parts & l & tail & Hs & HF & HO).
  assert (HBp : bytes_ok (concat parts) = true) by (rewrite Hs, bytes_ok_app in HB; now apply andb_true_iff in HB).
  destruct (asm_words der_ok parts l HF HBp) as (ws & HM & HW & _ & _). pose proof (words_long limit der_ok parts l H31 HF HBp ws HM) as HL.
  destruct HO as [[-> HO]|[HC HO]]; rewrite HO, HM in HA; cbn [bind] in HA; injection HA as <-.
  - rewrite (split_join ws HW). rewrite app_nil_r in Hs. split.
    + intros [HN (parts' & l' & Hs' & HF' & HS)]. exists parts', l'. repeat split; auto. assert (l' = l) as ->; [|now apply HL].
      pose proof (parse_whole _ _ HF') as H1. rewrite <- Hs', Hs, (parse_whole _ _ HF) in H1. now injection H1.
    + intros (parts' & l' & Hs' & HF' & HS & HN). assert (l' = l) as ->.
      { pose proof (parse_whole _ _ HF') as H1. rewrite <- Hs', Hs, (parse_whole _ _ HF) in H1. now injection H1. }
      split; [now apply HL|]. exists parts', l. auto.
  - split; [intros [_ (parts' & l' & Hs' & HF' & _)]|intros (parts' & l' & Hs' & HF' & _)]; rewrite Hs', (parse_whole _ _ HF') in HO; discriminate.
Qed.
(** One long push, however it was written *)
Lemma push_long limit der_ok p d : 31 <= limit -> bytes_ok p = true -> encodes p (Data d) -> long_decimal limit (Data d) -> exists a, to_asm der_ok p false = Ok a /\ from_asm_limited limit a = Err ValueError.
Proof.
  intros H31 HB HE HL. destruct (asm_word der_ok p (Data d) HE HB) as (w & Hw & HW & _ & _). pose proof (parse_whole [p] [Data d] ltac:(repeat constructor; exact HE)) as HO. cbn [concat] in HO. rewrite app_nil_r in HO.
  exists w. unfold to_asm. rewrite HO. cbn [mapM]. rewrite Hw. cbn [bind join]. split; [reflexivity|].
  apply (from_asm_long limit [] w [] []); [lia| |reflexivity|]; [|now apply (word_long limit der_ok p (Data d))].
  change w with (join [32] [w]) at 1. rewrite split_join; [reflexivity|]. now constructor.
Qed.

(** Chain strings *)
Lemma int_of_digits ds : forallb is_digit ds = true -> int_of_word ds = dec_value ds.
Proof. intros HF. destruct ds as [|c r]; [reflexivity|]. cbn [forallb] in HF. apply andb_true_iff in HF as [Hc _]. apply is_digit_iff in Hc. unfold int_of_word, decimal_digit in *. now replace (c =? 45) with false by lia. Qed.
Lemma many_iff limit part ds : part_match part = Some ds -> (many_digits limit part <-> limit < zlen ds).
Proof.
  intros HM. apply part_match_spec in HM as (_ & HF & t & -> & Ht). apply digits_iff in HF. split; [|intros HL; exists ds, t; auto].
  intros (es & rest & HE & HX & HL). assert (HI : (length es <= length ds)%nat); [|unfold zlen in *; lia].
  destruct (Nat.le_gt_cases (length es) (length ds)) as [|HG]; [assumption|exfalso].
  assert (HS : es = ds ++ skipn (length ds) es).
  { rewrite <- (firstn_skipn (length ds) es) at 1. f_equal. apply (f_equal (firstn (length ds))) in HX. rewrite firstn_app, firstn_all, Nat.sub_diag, firstn_O, app_nil_r in HX. rewrite firstn_app in HX. replace (length ds - length es)%nat with 0%nat in HX by lia. rewrite firstn_O, app_nil_r in HX. now symmetry. }
  rewrite HS, <- app_assoc in HX. apply app_inv_head in HX. destruct (skipn (length ds) es) as [|c r] eqn:E; [rewrite app_nil_r in HS; rewrite HS in HG; lia|].
  rewrite HS in HE. apply Forall_app in HE as [_ HE]. inversion HE as [|? ? Hc]. unfold decimal_digit in Hc. destruct Ht as [->|[->|[->| ->]]]; try discriminate HX; injection HX as HX _; lia.
Qed.
Lemma chain_part_limited_Ok limit part n : chain_part_limited limit part = Ok n <-> chain_part part = Ok n /\ ~ many_digits limit part.
Proof.
  unfold chain_part_limited, chain_part. destruct (part_match part) as [ds|] eqn:E; [|split; [discriminate|intros [? _]; discriminate]].
  rewrite (many_iff limit part ds E). apply part_match_spec in E as (_ & HF & _). unfold int_limited. rewrite filter_digits by (now apply digits_iff). rewrite (int_of_digits ds HF).
  destruct (Z.ltb_spec limit (zlen ds)) as [HL|HL]; cbn [bind]; [split; [discriminate|tauto]|]. split; [intros HX; split; [exact HX|lia]|tauto].
Qed.
Lemma chain_part_limited_err limit part e : chain_part_limited limit part = Err e -> e = ValueError.
Proof.
  unfold chain_part_limited. destruct (part_match part) as [ds|] eqn:E; [|now injection 1]. unfold int_limited. destruct (_ <? _) eqn:HL; cbn [bind]; [now injection 1|].
  intros HX. apply (chain_part_err part). unfold chain_part. rewrite E. cbv zeta. apply part_match_spec in E as (_ & HF & _). rewrite <- (int_of_digits ds HF). exact HX.
Qed.
Lemma mapM_Forall2 {A B} (f : A -> result B) l bs : mapM f l = Ok bs <-> Forall2 (fun a b => f a = Ok b) l bs.
Proof.
  revert bs. induction l as [|a l IH]; intros bs; cbn [mapM]; split.
  - intros [= <-]. constructor.
  - intros HF. inversion HF. reflexivity.
  - intros HB. apply bind_Ok in HB as (b & Hb & HB). apply bind_Ok in HB as (bs' & Hbs & HB). injection HB as <-. constructor; [exact Hb|now apply IH].
  - intros HF. inversion HF as [|? b ? bs' Hb HF']; subst. rewrite Hb. cbn [bind]. rewrite (proj2 (IH bs') HF'). reflexivity.
Qed.
Lemma decompose_limited_spec limit s ns : decompose_limited limit s = Ok ns <->
  exists parts, slashed s (txt "m" :: parts) /\ Forall2 part_reads parts ns /\ Forall (fun p => ~ many_digits limit p) parts.
Proof.
  split.
  - unfold decompose_limited. intros HD. assert (HM : exists parts, split_on 47 s = txt "m" :: parts /\ mapM (chain_part_limited limit) parts = Ok ns).
    { destruct (split_on 47 s) as [|m parts]; [discriminate|]. destruct (bytes_eqb m (txt "m")) eqn:E; [|discriminate]. apply bytes_eqb_eq in E. subst m. eauto. }
    destruct HM as (parts & HS & HM). apply mapM_Forall2 in HM.
    assert (HO : bip32_decompose_chain_string s = Ok ns).
    { unfold bip32_decompose_chain_string. rewrite HS. change (negb (bytes_eqb (txt "m") (txt "m"))) with false. cbv iota. apply mapM_Forall2. clear HS HD. induction HM as [|? ? ? ? HX]; constructor; [now apply chain_part_limited_Ok in HX|assumption]. }
    apply decompose_spec in HO as (parts' & HSl & HF). exists parts'. split; [exact HSl|]. split; [exact HF|].
    assert (HP : split_on 47 s = txt "m" :: parts') by (destruct HSl as (_ & HN & ->); apply split_join_on; [discriminate|exact HN]). rewrite HS in HP. injection HP as ->.
    clear -HM. induction HM as [|? ? ? ? HX]; constructor; [now apply chain_part_limited_Ok in HX|assumption].
  - intros (parts & HSl & HF & HN). assert (HP : split_on 47 s = txt "m" :: parts) by (destruct HSl as (_ & HX & ->); apply split_join_on; [discriminate|exact HX]).
    unfold decompose_limited. rewrite HP. change (negb (bytes_eqb (txt "m") (txt "m"))) with false. cbv iota. apply mapM_Forall2. clear -HF HN. induction HF as [|p n parts ns HR HF IH]; constructor.
    + inversion HN; subst. apply chain_part_limited_Ok. split; [now apply chain_part_spec|assumption].
    + inversion HN; subst. now apply IH.
Qed.
Lemma decompose_limited_err limit s e : decompose_limited limit s = Err e -> e = ValueError.
Proof.
  unfold decompose_limited. destruct (split_on 47 s) as [|m parts]; [now injection 1|]. destruct (negb _); [now injection 1|]. intros HE. apply mapM_err in HE as (p & _ & HE). now apply chain_part_limited_err in HE.
Qed.
