(** Electrum mnemonics, old and new, and UTF-8 *)
From Verif.Model Require Import Py Text Misc OldWords Mnemonic.
From Verif.Spec Require Import MnemonicSpec MiscSpec.
From Verif.Proofs Require Import PyFacts TextFacts MiscFacts BitsFacts MnemonicFacts.

(** The old list *)
Lemma old_count : zlen old_words = 1626.
Proof. vm_compute. reflexivity. Qed.
Lemma old_small w : In w old_words -> word w /\ forall c, In c w -> 97 <= c <= 122.
Proof.
  assert (HA : forallb (fun w => negb (zlen w =? 0) && forallb (fun c => (97 <=? c) && (c <=? 122)) w) old_words = true) by (vm_compute; reflexivity).
  rewrite forallb_forall in HA. intros HI. specialize (HA w HI). apply andb_true_iff in HA as [H1 H2]. rewrite forallb_forall in H2. assert (HC : forall c, In c w -> 97 <= c <= 122) by (intros c Hc; specialize (H2 c Hc); lia).
  split; [|exact HC]. split; [intros ->; discriminate|]. intros c Hc. specialize (HC c Hc). unfold is_space_str, is_space. lia.
Qed.
Lemma old_indexes : map (index_of old_words) old_words = map Some (zrange 0 1626).
Proof. vm_compute. reflexivity. Qed.
#[local] Opaque old_words.
Lemma znth_zrange a n i : 0 <= i < Z.of_nat n -> znth (zrange_nat a n) i = Some (a + i).
Proof.
  revert a i. induction n as [|n IH]; intros a i Hi; [lia|]. cbn [zrange_nat znth]. destruct (Z.eqb_spec i 0) as [->|Hne]; [f_equal; lia|]. destruct (Z.ltb_spec i 0); [lia|]. rewrite IH by lia. f_equal. lia.
Qed.
Lemma Some_inj {A} {x y : A} : Some x = Some y -> x = y.
Proof. now intros [= ->]. Qed.
Lemma old_index i w : znth old_words i = Some w -> index_of old_words w = Some i.
Proof.
  intros HZ. pose proof (znth_Some _ _ _ HZ) as Hi. rewrite old_count in Hi. pose proof (f_equal (fun l => znth l i) old_indexes) as HE. cbv beta in HE. rewrite !znth_map, HZ in HE. unfold zrange in HE. rewrite znth_zrange in HE by (change (Z.of_nat (Z.to_nat (1626 - 0))) with 1626; lia). cbn [option_map] in HE. exact (Some_inj HE).
Qed.

(** Hexadecimal numbers *)
Definition digit_of (c : Z) : Z := match hex_val c with Some d => d | None => 0 end.
Definition hex_value (s : pystr) : Z := fold_left (fun a c => 16 * a + digit_of c) s 0.
Lemma hex_val_text c : 48 <= c <= 57 \/ 97 <= c <= 102 \/ 65 <= c <= 70 -> hex_val c = Some (digit_of c) /\ 0 <= digit_of c < 16 /\ hex_char (digit_of c) = lower_char c.
Proof.
  intros HC. unfold digit_of, hex_val, hex_char, lower_char. destruct (Z.leb_spec 48 c), (Z.leb_spec c 57), (Z.leb_spec 97 c), (Z.leb_spec c 102), (Z.leb_spec 65 c), (Z.leb_spec c 70), (Z.leb_spec c 90); cbn [andb]; try lia;
    (split; [reflexivity|]; split; [lia|]; match goal with |- context[?a <? ?b] => destruct (Z.ltb_spec a b) end; lia).
Qed.
Lemma hex_digits_text s : forall acc us some, hexadecimal s -> (s <> [] \/ some = true) -> hex_digits s acc us some = Ok (fold_left (fun a c => 16 * a + digit_of c) s acc).
Proof.
  induction s as [|c s IH]; intros acc us some HT HS; cbn [hex_digits fold_left].
  - destruct HS as [HS| ->]; [contradiction|reflexivity].
  - assert (HC := HT c (or_introl eq_refl)). destruct (Z.eqb_spec c 95); [lia|]. destruct (hex_val_text c HC) as [-> _]. apply IH; [intros x Hx; apply HT; now right|now right].
Qed.
Lemma lstrip_int_text s : hexadecimal s -> lstrip_int s = s.
Proof. intros HT. destruct s as [|c s]; [reflexivity|]. cbn [lstrip_int]. specialize (HT c (or_introl eq_refl)). unfold is_space. destruct (Z.leb_spec 9 c), (Z.leb_spec c 13), (Z.eqb_spec c 32); cbn; try reflexivity; lia. Qed.
Lemma int_base16_text s : hexadecimal s -> s <> [] -> int_base16 s = Ok (hex_value s).
Proof.
  intros HT Hne. unfold int_base16, strip_int. rewrite (lstrip_int_text s HT). assert (HR : hexadecimal (rev s)) by (intros c Hc; apply HT; now apply in_rev). rewrite (lstrip_int_text _ HR), rev_involutive.
  destruct s as [|c s]; [contradiction|]. assert (HC := HT c (or_introl eq_refl)).
  assert (HG : int_sign (c :: s) = (false, c :: s)) by (cbn; destruct (Z.eqb_spec c 45); [lia|]; destruct (Z.eqb_spec c 43); [lia|reflexivity]). rewrite HG.
  assert (HG2 : int_prefix (c :: s) = None).
  { destruct s as [|d s]; [reflexivity|]. assert (HD := HT d (or_intror (or_introl eq_refl))). cbn. destruct (Z.eqb_spec d 120); [lia|]. destruct (Z.eqb_spec d 88); [lia|]. now rewrite andb_false_r. }
  rewrite HG2, hex_digits_text by (assumption || (left; discriminate)). reflexivity.
Qed.
Lemma list8 {A} (l : list A) : zlen l = 8 -> exists a b c d e f g h, l = [a; b; c; d; e; f; g; h].
Proof.
  intros HL. unfold zlen in HL. do 8 (destruct l as [|? l]; [cbn in HL; lia|]). destruct l; [|cbn in HL; lia]. do 8 eexists. reflexivity.
Qed.
Lemma hex8_value s : hexadecimal s -> zlen s = 8 -> 0 <= hex_value s < 2 ^ 32 /\ hex8 (hex_value s) = lower s.
Proof.
  intros HT HL. destruct (list8 s HL) as (c1 & c2 & c3 & c4 & c5 & c6 & c7 & c8 & ->). unfold hex_value. cbn [fold_left].
  destruct (hex_val_text c1) as (_ & R1 & E1); [apply HT; cbn; tauto|]. destruct (hex_val_text c2) as (_ & R2 & E2); [apply HT; cbn; tauto|]. destruct (hex_val_text c3) as (_ & R3 & E3); [apply HT; cbn; tauto|]. destruct (hex_val_text c4) as (_ & R4 & E4); [apply HT; cbn; tauto|].
  destruct (hex_val_text c5) as (_ & R5 & E5); [apply HT; cbn; tauto|]. destruct (hex_val_text c6) as (_ & R6 & E6); [apply HT; cbn; tauto|]. destruct (hex_val_text c7) as (_ & R7 & E7); [apply HT; cbn; tauto|]. destruct (hex_val_text c8) as (_ & R8 & E8); [apply HT; cbn; tauto|].
  unfold lower. cbn [map]. rewrite <- E1, <- E2, <- E3, <- E4, <- E5, <- E6, <- E7, <- E8. clear - R1 R2 R3 R4 R5 R6 R7 R8.
  revert R1 R2 R3 R4 R5 R6 R7 R8. generalize (digit_of c1) as d1, (digit_of c2) as d2, (digit_of c3) as d3, (digit_of c4) as d4, (digit_of c5) as d5, (digit_of c6) as d6, (digit_of c7) as d7, (digit_of c8) as d8. intros.
  split; [lia|]. set (b := [16 * d7 + d8; 16 * d5 + d6; 16 * d3 + d4; 16 * d1 + d2]). replace (16 * _ + d8) with (le_int b) by (unfold b; cbn [le_int]; lia).
  unfold hex8. rewrite (le_digits_int b 4); [|unfold b, bytes_ok, forallb, byte_ok; lia|reflexivity]. unfold b. cbn [rev app to_hex].
  assert (HD : forall x y, 0 <= x < 16 -> 0 <= y < 16 -> (16 * x + y) / 16 = x /\ (16 * x + y) mod 16 = y) by (clear; intros; split; [symmetry; apply (Z.div_unique _ _ _ y); lia|symmetry; apply (Z.mod_unique _ _ x); lia]).
  destruct (HD d1 d2 R1 R2) as [-> ->]. destruct (HD d3 d4 R3 R4) as [-> ->]. destruct (HD d5 d6 R5 R6) as [-> ->]. destruct (HD d7 d8 R7 R8) as [-> ->]. reflexivity.
Qed.
Lemma hex8_text v : hexadecimal (hex8 v) /\ zlen (hex8 v) = 8 /\ lower (hex8 v) = hex8 v /\ lower_hex (hex8 v).
Proof.
  assert (HB : bytes_ok (rev (le_digits 4 v)) = true) by (rewrite bytes_ok_rev; apply le_digits_ok).
  assert (HC : forall c, In c (hex8 v) -> 48 <= c <= 57 \/ 97 <= c <= 102) by (intros c Hc; exact (to_hex_chars _ _ HB Hc)).
  split; [intros c Hc; specialize (HC c Hc); tauto|]. split; [unfold hex8; rewrite to_hex_length, zlen_rev, zlen_le_digits; reflexivity|]. split; [|apply Forall_forall; exact HC].
  apply map_fixed. intros c Hc. specialize (HC c Hc). unfold lower_char. destruct (Z.leb_spec 65 c), (Z.leb_spec c 90); cbn [andb]; lia.
Qed.
Lemma hex8_inj v w : 0 <= v < 2 ^ 32 -> 0 <= w < 2 ^ 32 -> hex8 v = hex8 w -> v = w.
Proof.
  intros Hv Hw HE. unfold hex8 in HE. apply (f_equal from_hex) in HE. rewrite !from_hex_to_hex in HE by (rewrite bytes_ok_rev; apply le_digits_ok). assert (HR : rev (le_digits 4 v) = rev (le_digits 4 w)) by congruence. apply (f_equal (@rev Z)) in HR. rewrite !rev_involutive in HR.
  apply (f_equal le_int) in HR. now rewrite !le_int_digits in HR.
Qed.
Lemma hex_value_hex8 v : 0 <= v < 2 ^ 32 -> hex_value (hex8 v) = v.
Proof.
  intros Hv. destruct (hex8_text v) as (H1 & H2 & H3 & _). destruct (hex8_value (hex8 v) H1 H2) as [HR HE]. apply hex8_inj; [assumption..|]. congruence.
Qed.

(** Chunks of 8 *)
Lemma chunks8 (cs : list pystr) : Forall (fun c => zlen c = 8) cs -> chunks (concat cs) 8 = Ok cs.
Proof.
  intros HF. unfold chunks. cbn [Z.eqb Pos.eqb Z.ltb Z.compare]. f_equal.
  assert (HG : forall (cs : list pystr) l f i, Forall (fun c => zlen c = 8) cs -> 0 <= i -> zdrop i l = concat cs -> i + 8 * zlen cs = zlen l -> (length cs <= f)%nat -> chunks_from f l 8 i = cs).
  { clear. intros cs. induction cs as [|c cs IH]; intros l f i HF Hi HD HL Hf.
    - change (zlen (@nil pystr)) with 0 in HL. destruct f as [|f]; [reflexivity|]. cbn [chunks_from]. destruct (Z.ltb_spec i (zlen l)); [lia|reflexivity].
    - destruct f as [|f]; [cbn in Hf; lia|]. inversion HF as [|x y Hc HF']. subst. rewrite zlen_cons in HL. pose proof (zlen_nonneg cs). cbn [chunks_from]. destruct (Z.ltb_spec i (zlen l)); [|lia].
      cbn [concat] in HD. f_equal.
      + rewrite pyslice_nonneg by lia. rewrite HD. replace (i + 8 - i) with 8 by lia. apply ztake_app_exact. now symmetry.
      + apply IH; [exact HF'|lia| |lia|cbn in Hf; lia]. replace (i + 8) with (8 + i) by lia. rewrite <- zdrop_zdrop by lia. rewrite HD. apply zdrop_app_exact. now symmetry. }
  apply HG; [exact HF|lia|apply zdrop_0; lia| |].
  - clear HG. induction HF as [|c cs Hc HF IH]; [reflexivity|]. cbn [concat]. rewrite zlen_app, zlen_cons. lia.
  - clear HG. induction HF as [|c cs Hc HF IH]; [cbn; lia|]. cbn [concat length]. rewrite app_length. unfold zlen in Hc. lia.
Qed.
Lemma cut8 (k : nat) (h : pystr) : zlen h = 8 * Z.of_nat k -> exists cs, concat cs = h /\ Forall (fun c => zlen c = 8) cs /\ length cs = k.
Proof.
  revert h. induction k as [|k IH]; intros h HL; [exists []; split; [symmetry; apply zlen_0_nil; lia|]; split; [constructor|reflexivity]|].
  destruct (IH (zdrop 8 h)) as (cs & HC & HF & HK); [rewrite zlen_zdrop; lia|]. exists (ztake 8 h :: cs). split; [cbn; rewrite HC; apply ztake_zdrop|]. split; [constructor; [rewrite zlen_ztake; lia|exact HF]|cbn; now rewrite HK].
Qed.

(** Three indices and a number of 32 bits *)
Definition three (v : Z) : list Z := let i1 := v mod 1626 in let i2 := (v / 1626 mod 1626 + i1) mod 1626 in [i1; i2; (v / 1626 / 1626 + i2) mod 1626].
Definition part3 (i1 i2 i3 : Z) : Z := i1 + 1626 * ((i2 - i1) mod 1626 + 1626 * ((i3 - i2) mod 1626)).
Lemma three_part v : 0 <= v < 2 ^ 32 -> exists i1 i2 i3, three v = [i1; i2; i3] /\ 0 <= i1 < 1626 /\ 0 <= i2 < 1626 /\ 0 <= i3 < 1626 /\ part3 i1 i2 i3 = v.
Proof.
  intros Hv. unfold three. do 3 eexists. split; [reflexivity|]. do 3 (split; [apply Z.mod_pos_bound; lia|]). unfold part3.
  set (i1 := v mod 1626). set (q := v / 1626). set (a := q mod 1626). set (b := q / 1626). assert (Hb : 0 <= b < 1626) by (unfold b, q; split; [apply Z.div_pos; [apply Z.div_pos; lia|lia]|apply Z.div_lt_upper_bound; [lia|]; apply Z.div_lt_upper_bound; lia]).
  assert (Ha : 0 <= a < 1626) by (apply Z.mod_pos_bound; lia). assert (Hi : 0 <= i1 < 1626) by (apply Z.mod_pos_bound; lia).
  assert (H1 : forall x y, 0 <= x < 1626 -> 0 <= y < 1626 -> ((x + y) mod 1626 - y) mod 1626 = x).
  { clear. intros x y Hx Hy. rewrite Zminus_mod_idemp_l. replace (x + y - y) with x by lia. apply Z.mod_small. lia. }
  rewrite (H1 a i1) by assumption. rewrite (H1 b) by (assumption || (apply Z.mod_pos_bound; lia)).
  pose proof (Z.div_mod v 1626 ltac:(lia)) as D1. pose proof (Z.div_mod q 1626 ltac:(lia)) as D2. fold q i1 in D1. fold a b in D2. lia.
Qed.
Lemma part_three i1 i2 i3 : 0 <= i1 < 1626 -> 0 <= i2 < 1626 -> 0 <= i3 < 1626 -> three (part3 i1 i2 i3) = [i1; i2; i3] /\ 0 <= part3 i1 i2 i3.
Proof.
  intros R1 R2 R3. unfold part3. set (a := (i2 - i1) mod 1626). set (b := (i3 - i2) mod 1626). assert (Ha : 0 <= a < 1626) by (apply Z.mod_pos_bound; lia). assert (Hb : 0 <= b < 1626) by (apply Z.mod_pos_bound; lia).
  split; [|lia]. unfold three. replace ((i1 + 1626 * (a + 1626 * b)) mod 1626) with i1 by (apply (Z.mod_unique _ _ (a + 1626 * b)); lia). replace ((i1 + 1626 * (a + 1626 * b)) / 1626) with (a + 1626 * b) by (apply (Z.div_unique _ _ _ i1); lia).
  replace ((a + 1626 * b) mod 1626) with a by (apply (Z.mod_unique _ _ b); lia). replace ((a + 1626 * b) / 1626) with b by (apply (Z.div_unique _ _ _ a); lia).
  assert (H1 : forall x y, 0 <= x < 1626 -> 0 <= y < 1626 -> ((x - y) mod 1626 + y) mod 1626 = x).
  { clear. intros x y Hx Hy. rewrite Zplus_mod_idemp_l. replace (x - y + y) with x by lia. apply Z.mod_small. lia. }
  unfold a, b. rewrite (H1 i2 i1) by assumption. rewrite (H1 i3 i2) by assumption. reflexivity.
Qed.
Lemma old_parts_three vs : Forall (fun v => 0 <= v < 2 ^ 32) vs -> old_parts 1626 (flat_map three vs) = Ok vs.
Proof.
  intros HF. induction HF as [|v vs Hv HF IH]; [reflexivity|]. cbn [flat_map]. destruct (three_part v Hv) as (i1 & i2 & i3 & -> & R1 & R2 & R3 & HP). cbn [app old_parts]. fold (part3 i1 i2 i3). rewrite HP. destruct (Z.leb_spec 4294967296 v) as [HX|HX]; [change (2 ^ 32) with 4294967296 in Hv; lia|]. rewrite IH. reflexivity.
Qed.
Lemma old_parts_inv is ps : Forall (fun i => 0 <= i < 1626) is -> old_parts 1626 is = Ok ps -> is = flat_map three ps /\ Forall (fun v => 0 <= v < 2 ^ 32) ps.
Proof.
  remember (length is) as n eqn:Hn. assert (HN : (length is <= n)%nat) by lia. clear Hn. revert is ps HN. induction n as [|n IH]; intros is ps HN HF HP; [destruct is; [|cbn in HN; lia]; injection HP as <-; split; constructor|].
  destruct is as [|i1 [|i2 [|i3 is]]]; [injection HP as <-; split; constructor|discriminate..|]. cbn [old_parts] in HP. fold (part3 i1 i2 i3) in HP. destruct (Z.leb_spec 4294967296 (part3 i1 i2 i3)) as [HX|HX]; [discriminate|]. apply bind_Ok in HP as (rest & HR & HP). injection HP as <-.
  inversion HF as [|x l R1 HF1]. subst. inversion HF1 as [|x l R2 HF2]. subst. inversion HF2 as [|x l R3 HF3]. subst. destruct (part_three i1 i2 i3 R1 R2 R3) as [HT H0]. apply IH in HR as [-> HR]; [|cbn in HN; lia|exact HF3].
  cbn [flat_map]. rewrite HT. split; [reflexivity|]. constructor; [|exact HR]. change (2 ^ 32) with 4294967296. lia.
Qed.
Lemma old_indices_three c : hexadecimal c -> zlen c = 8 -> old_indices 1626 c = Ok (three (hex_value c)).
Proof. intros HT HL. unfold old_indices. rewrite int_base16_text; [reflexivity|exact HT|intros ->; discriminate]. Qed.

(** Numbers of words and words *)
Definition index_in (W : list pystr) (w : pystr) : result Z := match index_of W w with Some i => Ok i | None => Err ValueError end.
Lemma words_indices_in (W : list pystr) (HC : zlen W = 1626) (HW : forall i w, znth W i = Some w -> index_of W w = Some i) is ws : Forall (fun i => 0 <= i < 1626) is -> (mapM (pyindex W) is = Ok ws <-> mapM (index_in W) ws = Ok is).
Proof.
  intros HR. assert (HI : forall i w, 0 <= i < 1626 -> (pyindex W i = Ok w <-> index_in W w = Ok i)).
  { intros i w Hi. unfold pyindex, index_in. destruct (Z.ltb_spec i 0); [lia|]. split; intros HX.
    - destruct (znth W i) as [w'|] eqn:E; [|discriminate]. injection HX as ->. now rewrite (HW i w E).
    - destruct (index_of W w) as [j|] eqn:E; [|discriminate]. injection HX as ->. apply index_of_Some in E as [-> _]. reflexivity. }
  rewrite !mapM_Ok_iff. split; intros HX.
  - induction HX as [|i w is ws Hi HX IH]; constructor; inversion HR; subst; [now apply HI|auto].
  - revert HR. induction HX as [|w i ws is Hi HX IH]; intros HR; constructor; inversion HR; subst; [now apply HI|auto].
Qed.
Lemma indices_range_in (W : list pystr) (HC : zlen W = 1626) is ws : mapM (index_in W) ws = Ok is -> Forall (fun i => 0 <= i < 1626) is /\ forall w, In w ws -> In w W.
Proof.
  rewrite mapM_Ok_iff. intros HX. induction HX as [|w i ws is Hi HX [IH1 IH2]]; [split; [constructor|contradiction]|]. unfold index_in in Hi. destruct (index_of W w) as [j|] eqn:E; [|discriminate]. injection Hi as ->. apply index_of_Some in E as [HZ Hj]. rewrite HC in Hj.
  split; [constructor; assumption|]. intros v [<-|Hv]; [exact (znth_In _ _ _ HZ)|now apply IH2].
Qed.
Lemma words_exist_in (W : list pystr) (HC : zlen W = 1626) is : Forall (fun i => 0 <= i < 1626) is -> exists ws, mapM (pyindex W) is = Ok ws.
Proof.
  intros HF. apply mapM_total. intros i Hi. rewrite Forall_forall in HF. specialize (HF i Hi). rewrite <- HC in HF. destruct (znth_is_Some W i HF) as (w & Hw). exists w. unfold pyindex. destruct (Z.ltb_spec i 0); [lia|]. now rewrite Hw.
Qed.
Lemma pyindex_words (W : list pystr) is ws : mapM (pyindex W) is = Ok ws -> forall v, In v ws -> In v W.
Proof.
  rewrite mapM_Ok_iff. intros HM. induction HM as [|i v is ws Hi HM IH]; intros x HX; [contradiction|]. destruct HX as [<-|HX]; [|now apply IH]. unfold pyindex in Hi.
  destruct (znth W _) eqn:E; [|discriminate]. injection Hi as ->. exact (znth_In _ _ _ E).
Qed.
Notation get_index := (index_in old_words).
Definition words_indices := words_indices_in old_words old_count old_index.
Definition indices_range := indices_range_in old_words old_count.
Definition words_exist := words_exist_in old_words old_count.
Lemma three_range vs : Forall (fun i => 0 <= i < 1626) (flat_map three vs) /\ length (flat_map three vs) = (3 * length vs)%nat.
Proof.
  induction vs as [|v vs [IH1 IH2]]; [split; constructor|]. cbn [flat_map]. split; [apply Forall_app; split; [|exact IH1]; unfold three; repeat constructor; apply Z.mod_pos_bound; lia|]. rewrite app_length, IH2. cbn. lia.
Qed.

Section OldMnemonics.
  Context (nfkd lower_ : pystr -> pystr) (T : text_laws nfkd lower_).
  Lemma normalize_old_words m : split_ws (normalize_old lower_ m) = split_ws (lower_ m).
  Proof using. unfold normalize_old. apply split_spaced; [now apply join_spaced|apply split_words]. Qed.
  Lemma lower_spaced_old ws t : (forall w, In w ws -> In w old_words) -> spaced ws t -> lower_ t = t.
  Proof using T.
    intros HI HS. destruct ws as [|w ws]; [inversion HS; apply (lower_small _ _ T); contradiction|]. assert (HN : w :: ws <> []) by (clear; discriminate). pose proof (map_spaced lower_ _ _ (lower_space _ _ T) HN HS) as HM.
    rewrite map_fixed in HM. { apply join_spaced in HM. apply join_spaced in HS. congruence. } intros x Hx. apply (lower_small _ _ T). now apply old_small, HI.
  Qed.
  Lemma seed_to_mnemonic h : hexadecimal h -> zlen h = 32 \/ zlen h = 64 ->
    exists ws t, hex_seed_to_old h = Ok t /\ spaced ws t /\ 8 * zlen ws = 3 * zlen h /\ old_to_hex_seed lower_ t = Ok (lower h) /\ split_ws t = ws.
  Proof using T.
    intros HT HL. destruct (cut8 (if zlen h =? 32 then 4 else 8) h) as (cs & HC & HF & HK); [destruct HL as [-> | ->]; reflexivity|]. subst h.
    assert (HTc : Forall hexadecimal cs) by (apply Forall_forall; intros c Hc x Hx; apply HT; apply in_concat; eauto).
    set (vs := map hex_value cs). assert (HV : Forall (fun v => 0 <= v < 2 ^ 32) vs) by (unfold vs; apply Forall_map; apply Forall_forall; intros c Hc; rewrite Forall_forall in HF, HTc; apply hex8_value; auto).
    assert (HM : mapM (old_indices 1626) cs = Ok (map three vs)).
    { apply mapM_Ok_iff. unfold vs. clear - HF HTc. induction cs as [|c cs IH]; [constructor|]. inversion HF; inversion HTc; subst. constructor; [now apply old_indices_three|now apply IH]. }
    destruct (words_exist (flat_map three vs) (proj1 (three_range vs))) as (ws & HW). exists ws, (join (txt " ") ws).
    assert (HS : spaced ws (join (txt " ") ws)) by now apply join_spaced. pose proof HW as HW2. apply words_indices in HW2; [|apply three_range]. pose proof (proj2 (indices_range _ _ HW2)) as HO.
    assert (HWd : Forall word ws) by (apply Forall_forall; intros w Hw; now apply old_small, HO). pose proof (split_spaced _ _ HS HWd) as HSp.
    assert (HLw : zlen ws = 3 * Z.of_nat (length cs)). { apply mapM_length in HW2. rewrite (proj2 (three_range vs)) in HW2. unfold vs in HW2. rewrite map_length in HW2. clear - HW2. unfold zlen. rewrite <- HW2, Nat2Z.inj_mul. reflexivity. }
    assert (HCl : zlen (concat cs) = 8 * Z.of_nat (length cs)) by (clear - HF; induction HF as [|c cs Hc HF IH]; [reflexivity|]; cbn [concat length]; rewrite zlen_app; lia).
    assert (HZ : existsb (Z.eqb (zlen (concat cs))) [32; 64] = true) by (apply existsb_In; destruct HL as [-> | ->]; cbn; tauto).
    split; [|split; [exact HS|split; [lia|split; [|exact HSp]]]].
    - unfold hex_seed_to_old. rewrite HZ. cbn [negb]. rewrite (chunks8 cs HF). cbn [bind]. rewrite old_count, HM. cbn [bind]. rewrite <- flat_map_concat_map. rewrite HW. reflexivity.
    - unfold old_to_hex_seed. rewrite normalize_old_words, (lower_spaced_old ws _ HO HS), HSp. assert (HZ2 : existsb (Z.eqb (zlen ws)) [12; 24] = true) by (apply existsb_In; rewrite HCl in HL; cbn; lia). rewrite HZ2. cbn [negb].
      change (mapM _ ws) with (mapM get_index ws). rewrite HW2. cbn [bind]. rewrite old_count, (old_parts_three vs HV). cbn [bind]. f_equal. unfold vs. clear - HF HTc. unfold lower. rewrite concat_map. f_equal. rewrite map_map. apply map_ext_in. intros c Hc. rewrite Forall_forall in HF, HTc. apply hex8_value; auto.
  Qed.
  Lemma mnemonic_to_seed m h : old_to_hex_seed lower_ m = Ok h ->
    lower_hex h /\ (zlen h = 32 \/ zlen h = 64) /\ hex_seed_to_old h = Ok (normalize_old lower_ m) /\ 8 * zlen (split_ws (lower_ m)) = 3 * zlen h.
  Proof using.
    unfold old_to_hex_seed. rewrite normalize_old_words. set (ws := split_ws (lower_ m)). destruct (existsb (Z.eqb (zlen ws)) [12; 24]) eqn:EZ; [|discriminate]. apply existsb_In in EZ. cbn [negb]. change (mapM _ ws) with (mapM get_index ws).
    intros HX. apply bind_Ok in HX as (is & HI & HX). apply bind_Ok in HX as (ps & HP & HX). injection HX as <-. rewrite old_count in HP. destruct (indices_range _ _ HI) as [HR _]. destruct (old_parts_inv _ _ HR HP) as [HE HV].
    assert (HF : Forall (fun c => zlen c = 8) (map hex8 ps)) by (apply Forall_map, Forall_forall; intros p _; apply hex8_text).
    assert (HLc : zlen (concat (map hex8 ps)) = 8 * zlen ps) by (clear; induction ps as [|p ps IH]; [reflexivity|]; cbn [map concat]; rewrite zlen_app, zlen_cons, IH; destruct (hex8_text p) as (_ & -> & _); lia).
    assert (HLp : zlen ws = 3 * zlen ps). { apply mapM_length in HI. rewrite HE in HI. rewrite (proj2 (three_range ps)) in HI. unfold zlen. lia. }
    assert (HL2 : zlen (concat (map hex8 ps)) = 32 \/ zlen (concat (map hex8 ps)) = 64) by (rewrite HLc; destruct EZ as [E|[E|[]]]; lia).
    split; [|split; [exact HL2|split; [|lia]]].
    - unfold lower_hex. apply Forall_concat. apply Forall_map, Forall_forall. intros p _. apply hex8_text.
    - unfold hex_seed_to_old. assert (HZ : existsb (Z.eqb (zlen (concat (map hex8 ps)))) [32; 64] = true) by (apply existsb_In; destruct HL2 as [-> | ->]; cbn; tauto). rewrite HZ. cbn [negb]. rewrite (chunks8 _ HF). cbn [bind]. rewrite old_count.
      assert (HM : mapM (old_indices 1626) (map hex8 ps) = Ok (map three ps)).
      { apply mapM_Ok_iff. clear - HV. induction HV as [|p ps Hp HV IH]; [constructor|]. cbn [map]. constructor; [|exact IH]. destruct (hex8_text p) as (HA & HB & _). rewrite old_indices_three by assumption. now rewrite hex_value_hex8. }
      rewrite HM. cbn [bind]. rewrite <- flat_map_concat_map, <- HE. apply words_indices in HI; [|exact HR]. rewrite HI. reflexivity.
  Qed.
  Lemma old_to_hex_seed_err m e : old_to_hex_seed lower_ m = Err e -> e = ValueError.
  Proof using.
    unfold old_to_hex_seed. destruct (existsb _ _) eqn:EZ; cbn [negb]; [|congruence]. intros HX. apply bind_Err in HX as [HX|(is & HI & HX)].
    - clear EZ. revert HX. generalize (split_ws (normalize_old lower_ m)) as l. induction l as [|w l IH]; intros HX; [discriminate|]. cbn [mapM] in HX. apply bind_Err in HX as [HX|(i & _ & HX)]; [destruct (index_of old_words w); congruence|]. apply bind_Err in HX as [HX|(y & _ & HX)]; [now apply IH|discriminate].
    - apply bind_Err in HX as [HX|(y & _ & HX)]; [|discriminate]. clear - HX. revert HX. generalize (zlen old_words) as n. intros n. remember (length is) as k eqn:Hk. assert (HK : (length is <= k)%nat) by lia. clear Hk. revert is HK. induction k as [|k IH]; intros is HK HX; [destruct is; [discriminate|cbn in HK; lia]|].
      destruct is as [|i1 [|i2 [|i3 is]]]; cbn [old_parts] in HX; [discriminate|congruence..|]. destruct (_ <=? _); [congruence|]. apply bind_Err in HX as [HX|(y & _ & HX)]; [|discriminate]. apply (IH is); [cbn in HK; lia|exact HX].
  Qed.
End OldMnemonics.

(** New mnemonics *)
Lemma entropy_words_spec wl : 2 <= zlen wl -> forall f v, 0 <= v < 2 ^ Z.of_nat f ->
  exists ds ws, entropy_words f v wl = Ok ws /\ written (zlen wl) ds v /\ Forall2 (fun d w => znth wl d = Some w) ds ws.
Proof.
  intros HB. induction f as [|f IH]; intros v Hv.
  - assert (v = 0) as -> by (cbn in Hv; lia). exists [], []. split; [reflexivity|]. split; constructor.
  - cbn [entropy_words]. destruct (Z.eqb_spec v 0) as [->|Hne]; [exists [], []; split; [reflexivity|]; split; constructor|]. destruct (Z.eqb_spec (zlen wl) 0); [lia|].
    assert (HM := Z.mod_pos_bound v (zlen wl) ltac:(lia)). rewrite Nat2Z.inj_succ, Z.pow_succ_r in Hv by lia.
    destruct (IH (v / zlen wl)) as (ds & ws & HW & HD & HF); [split; [apply Z.div_pos; lia|apply Z.div_lt_upper_bound; [lia|]; nia]|].
    destruct (znth_is_Some wl (v mod zlen wl) HM) as (w & Hw). exists (v mod zlen wl :: ds), (w :: ws). unfold pyindex. destruct (Z.ltb_spec (v mod zlen wl) 0); [lia|]. rewrite Hw, HW. split; [reflexivity|].
    pose proof (Z.div_mod v (zlen wl) ltac:(lia)) as HDM. split; [|now constructor]. assert (HE : v = v mod zlen wl + zlen wl * (v / zlen wl)) by lia. rewrite HE at 2. constructor; [exact HM|exact HD|]. rewrite <- HE. lia.
Qed.
Lemma written_nonneg b ds v : 0 < b -> written b ds v -> 0 <= v.
Proof. intros Hb HW. destruct HW; lia. Qed.
Lemma written_fun b ds es v : 1 < b -> written b ds v -> written b es v -> ds = es.
Proof.
  intros Hb HW. revert es. induction HW as [|d ds v Hd HW IH Hp]; intros es HE; inversion HE as [HZ1 HZ2|e es' u He HU Hq Hes Hv]; subst; try reflexivity; try lia.
  assert (H1 : d = e /\ v = u).
  { pose proof (written_nonneg b ds v ltac:(lia) HW). pose proof (written_nonneg b es' u ltac:(lia) HU). assert (u = v) by nia. subst. lia. }
  destruct H1 as [-> ->]. f_equal. now apply IH.
Qed.
Lemma written_length b ds v : 1 < b -> written b ds v -> v < b ^ zlen ds /\ (ds <> [] -> b ^ (zlen ds - 1) <= v).
Proof.
  intros Hb HW. induction HW as [|d ds v Hd HW [IH1 IH2] Hp]; [split; [reflexivity|contradiction]|]. rewrite zlen_cons. pose proof (zlen_nonneg ds). split.
  - rewrite Z.add_1_l, Z.pow_succ_r by lia. nia.
  - intros _. replace (1 + zlen ds - 1) with (zlen ds) by lia. destruct ds as [|d2 ds2]; [inversion HW; subst; change (b ^ zlen (@nil Z)) with 1; lia|]. specialize (IH2 ltac:(discriminate)). replace (zlen (d2 :: ds2)) with (Z.succ (zlen (d2 :: ds2) - 1)) by lia. rewrite zlen_cons in *. pose proof (zlen_nonneg ds2). rewrite Z.pow_succ_r by lia. nia.
Qed.
Lemma bit_length_bound v : 0 <= v -> v < 2 ^ Z.of_nat (Z.to_nat (bit_length v)).
Proof.
  intros Hv. unfold bit_length. destruct (Z.eqb_spec v 0) as [->|Hne]; [reflexivity|]. rewrite Z.abs_eq by lia. pose proof (Z.log2_nonneg v). rewrite Z2Nat.id by lia. pose proof (Z.log2_spec v ltac:(lia)). lia.
Qed.
Lemma from_entropy_words wl v : 2 <= zlen wl -> 0 <= v -> exists ds ws t, electrum_from_entropy v wl = Ok t /\ spaced ws t /\ written (zlen wl) ds v /\ Forall2 (fun d w => znth wl d = Some w) ds ws.
Proof.
  intros HB Hv. destruct (entropy_words_spec wl HB (Z.to_nat (bit_length v)) v) as (ds & ws & HW & HD & HF); [split; [exact Hv|now apply bit_length_bound]|].
  exists ds, ws, (join (txt " ") ws). split; [unfold electrum_from_entropy; now rewrite HW|]. split; [now apply join_spaced|auto].
Qed.
Lemma power_between b n m v : 1 < b -> 0 <= m -> 1 <= n -> b ^ (n - 1) <= v < b ^ n -> (1 <= m -> b ^ (m - 1) <= v) -> v < b ^ m -> m = n.
Proof.
  intros Hb Hm Hn [H1 H2] H3 H4. assert (n - 1 < m) by (apply (Z.pow_lt_mono_r_iff b); lia). specialize (H3 ltac:(lia)). assert (m - 1 < n) by (apply (Z.pow_lt_mono_r_iff b); lia). lia.
Qed.
Lemma word_count wl v n : 2 <= zlen wl -> 1 <= n -> zlen wl ^ (n - 1) <= v < zlen wl ^ n -> exists ds ws t, electrum_from_entropy v wl = Ok t /\ spaced ws t /\ zlen ws = n /\ written (zlen wl) ds v /\ Forall2 (fun d w => znth wl d = Some w) ds ws.
Proof.
  intros HB Hn Hv. assert (Hp : 0 < zlen wl ^ (n - 1)) by (apply Z.pow_pos_nonneg; lia). destruct (from_entropy_words wl v HB ltac:(lia)) as (ds & ws & t & HE & HS & HD & HF). exists ds, ws, t. split; [exact HE|]. split; [exact HS|].
  assert (HL : zlen ws = zlen ds) by (unfold zlen; f_equal; clear - HF; induction HF; cbn; congruence). destruct (written_length (zlen wl) ds v ltac:(lia) HD) as [H1 H2]. split; [|auto]. rewrite HL. pose proof (zlen_nonneg ds).
  apply (power_between (zlen wl) n (zlen ds) v); try assumption; try lia. intros Hds. apply H2. intros ->. rewrite zlen_nil in Hds. lia.
Qed.
Lemma random_spec f draws : forall i modulus min_value v d, 0 < modulus -> random_loop f draws i modulus min_value = Ok (v, d) ->
  min_value < v < modulus /\ (d = 1 /\ v < (min_value + modulus) / 2 \/ d = -1 /\ (min_value + modulus) / 2 <= v).
Proof.
  induction f as [|f IH]; intros i M m v d HM HR; [discriminate|]. cbn [random_loop] in HR. destruct (Z.leb_spec (be_bytes_to_int (draws i) mod M) m) as [HL|HL]; [exact (IH _ _ _ _ _ HM HR)|].
  injection HR as <- <-. pose proof (Z.mod_pos_bound (be_bytes_to_int (draws i)) M HM). split; [lia|]. destruct (Z.ltb_spec (be_bytes_to_int (draws i) mod M) ((m + M) / 2)); [left|right]; lia.
Qed.
Section NewMnemonics.
  Context (nfkd lower_ : pystr -> pystr) (hmac : bytes -> bytes -> bytes).
  Lemma search_spec f wl prefix skip : forall v d t, search_new nfkd lower_ hmac f wl prefix skip v d = Ok t ->
    exists k, (k < f)%nat /\ electrum_from_entropy (v + Z.of_nat k * d) wl = Ok t /\ is_valid_new nfkd lower_ hmac t prefix = Ok true /\ (skip = true -> is_valid_old lower_ t = false).
  Proof using.
    induction f as [|f IH]; intros v d t HS; [discriminate|]. cbn [search_new] in HS. apply bind_Ok in HS as (m & HM & HS). apply bind_Ok in HS as (b & HV & HS). destruct (b && negb (skip && is_valid_old lower_ m)) eqn:E.
    - injection HS as ->. apply andb_true_iff in E as [-> E]. exists 0%nat. split; [lia|]. split; [rewrite <- HM; f_equal; lia|]. split; [exact HV|]. intros ->. cbn in E. now apply negb_true_iff in E.
    - apply IH in HS as (k & Hk & HE & HR). exists (S k). split; [lia|]. split; [|exact HR]. rewrite <- HE. f_equal. lia.
  Qed.
End NewMnemonics.

(** UTF-8 is injective. *)
Lemma utf8_char_inj c d a b x y : utf8_char c = Ok a -> utf8_char d = Ok b -> a ++ x = b ++ y -> c = d /\ x = y.
Proof.
  unfold utf8_char. intros HA HB HE.
  repeat match type of HA with (if ?t then _ else _) = _ => destruct t eqn:? end; try discriminate;
  repeat match type of HB with (if ?t then _ else _) = _ => destruct t eqn:? end; try discriminate;
  injection HA as <-; injection HB as <-; cbn [app] in HE; injection HE as; subst;
  repeat match goal with H : (_ && _) = _ |- _ => clear H end;
  (split; [|reflexivity || assumption]) || idtac; try reflexivity.
  all: try (exfalso; clear - Heqb0 Heqb1 Heqb2 Heqb3 Heqb4 Heqb5 H H0; lia).
  all: lia.
Qed.
Lemma utf8_encode_inj s t b : utf8_encode s = Ok b -> utf8_encode t = Ok b -> s = t.
Proof.
  unfold utf8_encode. intros HS HT. apply bind_Ok in HS as (ls & HS & ES). apply bind_Ok in HT as (lt & HT & ET). assert (HE : concat ls = concat lt) by congruence. clear ES ET b.
  rewrite mapM_Ok_iff in HS, HT. revert t lt HT HE. induction HS as [|c a s ls Hc HS IH]; intros t lt HT HE; destruct HT as [|d b t lt Hd HT].
  - reflexivity.
  - exfalso. cbn in HE. clear - Hd HE. unfold utf8_char in Hd. repeat match type of Hd with (if ?t then _ else _) = _ => destruct t eqn:? end; try discriminate; injection Hd as <-; discriminate.
  - exfalso. cbn in HE. clear - Hc HE. unfold utf8_char in Hc. repeat match type of Hc with (if ?t then _ else _) = _ => destruct t eqn:? end; try discriminate; injection Hc as <-; discriminate.
  - cbn [concat] in HE. destruct (utf8_char_inj _ _ _ _ _ _ Hc Hd HE) as [-> HX]. f_equal. exact (IH _ _ HT HX).
Qed.

(** Reading word lists *)
Lemma lstrip_word w : word w -> lstrip w = w.
Proof. intros [Hne HC]. destruct w as [|c w]; [contradiction|]. cbn [lstrip]. now rewrite (HC c (or_introl eq_refl)). Qed.
Lemma word_rev w : word w -> word (rev w).
Proof. intros [Hne HC]. split; [intros HE; apply Hne; rewrite <- (rev_involutive w), HE; reflexivity|]. intros c Hc. apply HC. now apply in_rev. Qed.
Lemma strip_word w : word w -> strip w = w.
Proof. intros HW. unfold strip. rewrite (lstrip_word w HW), (lstrip_word _ (word_rev w HW)). apply rev_involutive. Qed.
Lemma indexes_NoDup l : map (index_of l) l = map Some (zrange 0 (zlen l)) -> NoDup l.
Proof.
  intros HE. apply NoDup_nth_error. intros i j Hi Hij. assert (HG : forall k w, (k < length l)%nat -> nth_error l k = Some w -> index_of l w = Some (Z.of_nat k)).
  { intros k w Hk Hw. pose proof (f_equal (fun m => znth m (Z.of_nat k)) HE) as HX. cbv beta in HX. rewrite !znth_map in HX. rewrite (znth_nth_error l (Z.of_nat k)), Nat2Z.id, Hw in HX by lia. unfold zrange in HX. rewrite znth_zrange in HX by (unfold zlen; lia). exact (Some_inj HX). }
  destruct (nth_error l i) as [w|] eqn:E; [|apply nth_error_None in E; lia]. assert (Hj : (j < length l)%nat) by (apply nth_error_Some; congruence). pose proof (HG i w Hi E) as G1. pose proof (HG j w Hj (eq_sym Hij)) as G2. rewrite G1 in G2. apply Some_inj in G2. lia.
Qed.
