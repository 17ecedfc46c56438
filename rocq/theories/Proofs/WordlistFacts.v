(** Reading word lists *)
From Verif.Model Require Import Py Text Mnemonic.
From Verif.Spec Require Import MnemonicSpec.
From Verif.Proofs Require Import PyFacts TextFacts Bip32Facts MnemonicFacts ElectrumFacts.

Lemma lstrip_blank s t : blank s -> lstrip (s ++ t) = lstrip t.
Proof. induction s as [|c s IH]; intros HB; [reflexivity|]. cbn [app lstrip]. rewrite (HB c (or_introl eq_refl)). apply IH. intros x Hx. apply HB. now right. Qed.
Lemma blank_rev s : blank s -> blank (rev s).
Proof. intros HB c Hc. apply HB. now apply in_rev. Qed.
Lemma strip_blank s : blank s -> strip s = [].
Proof. intros HB. unfold strip. rewrite <- (app_nil_r s). now rewrite lstrip_blank. Qed.
Lemma strip_padded s w t : blank s -> blank t -> word w -> strip (s ++ w ++ t) = w.
Proof.
  intros HS HT HW. unfold strip. rewrite lstrip_blank by exact HS. assert (HL : lstrip (w ++ t) = w ++ t) by (destruct HW as [Hne HC]; destruct w as [|c w]; [contradiction|]; cbn [app lstrip]; now rewrite (HC c (or_introl eq_refl))).
  rewrite HL, rev_app_distr, lstrip_blank by now apply blank_rev. rewrite (lstrip_word _ (word_rev w HW)). apply rev_involutive.
Qed.
Lemma lstrip_suffix s : exists a, s = a ++ lstrip s /\ blank a.
Proof.
  induction s as [|c s (a & HE & HB)]; [exists []; split; [reflexivity|intros c []]|]. cbn [lstrip]. destruct (is_space_str c) eqn:E; [|exists []; split; [reflexivity|intros x []]].
  exists (c :: a). split; [cbn; now rewrite <- HE|]. intros x [<-|Hx]; [exact E|now apply HB].
Qed.
Lemma strip_comment s text : blank s -> exists r, strip (s ++ 35 :: text) = 35 :: r.
Proof.
  intros HS. unfold strip. rewrite lstrip_blank by exact HS. cbn [lstrip]. change (is_space_str 35) with false. cbv iota. destruct (lstrip_suffix (rev (35 :: text))) as (a & HE & HB). apply (f_equal (@rev Z)) in HE. rewrite rev_involutive, rev_app_distr in HE.
  destruct (rev (lstrip (rev (35 :: text)))) as [|x r] eqn:ER; [|exists r; cbn in HE; congruence]. cbn [app] in HE. assert (H35 : is_space_str 35 = true) by (apply HB, in_rev; rewrite <- HE; now left). discriminate.
Qed.
Definition is_word_line (line : pystr) : bool := match line with [] => false | c :: _ => negb (c =? 35) end.
Lemma lines_words lines words : word_lines lines words -> filter is_word_line (map strip lines) = words.
Proof.
  intros HW. induction HW as [|s lines words HB HW IH|s text lines words HB HW IH|s c w t lines words HS HT HWd Hc HW IH]; cbn [map filter]; [reflexivity|rewrite (strip_blank s HB); exact IH| |].
  - destruct (strip_comment s text HB) as (r & ->). exact IH.
  - rewrite strip_padded by assumption. cbn [is_word_line]. destruct (Z.eqb_spec c 35); [contradiction|]. cbn [negb]. now rewrite IH.
Qed.
Section Lists.
  Context (nfkd lower_ : pystr -> pystr) (T : text_laws nfkd lower_).
  Lemma no_space w : word w -> existsb (fun c => c =? 32) w = false.
  Proof using.
    clear. intros [_ HC]. destruct (existsb (fun c => c =? 32) w) eqn:E; [|reflexivity]. apply existsb_exists in E as (c & HI & HE). apply Z.eqb_eq in HE. subst. specialize (HC 32 HI). discriminate.
  Qed.
  Lemma lines_are_words lines words : word_lines lines words -> Forall word words.
  Proof using. clear. intros HW. induction HW; [constructor|assumption..|now constructor]. Qed.
  Lemma read_words text lines words n : nfkd text = join [10] lines -> lines <> [] -> Forall (fun l => ~ In 10 l) lines -> word_lines lines words ->
    text_to_wordlist nfkd lower_ text n = match n with Some k => if zlen words =? k then Ok (map lower_ words) else Err SyntaxError | None => Ok (map lower_ words) end.
  Proof using T.
    intros HN Hne HF HW. unfold text_to_wordlist. rewrite HN, split_join_on by assumption. set (x := map lower_ _). assert (HL : x = map lower_ words) by (unfold x; apply (f_equal (map lower_)); exact (lines_words _ _ HW)). clearbody x. subst x.
    assert (HE : existsb (fun word => existsb (fun c => c =? 32) word) (map lower_ words) = false).
    { apply not_true_is_false. intros E. apply existsb_exists in E as (w & HI & HE). apply in_map_iff in HI as (v & <- & HI). rewrite no_space in HE; [discriminate|]. apply (lower_word _ _ T). pose proof (lines_are_words _ _ HW) as HX. rewrite Forall_forall in HX. now apply HX. }
    rewrite HE. destruct n as [k|]; [|reflexivity]. rewrite zlen_map. reflexivity.
  Qed.
  Lemma read_sound text n ws : text_to_wordlist nfkd lower_ text n = Ok ws -> (forall w, In w ws -> ~ In 32 w) /\ (forall k, n = Some k -> zlen ws = k).
  Proof using.
    unfold text_to_wordlist. set (l := map lower_ _). match goal with |- (if ?b then _ else _) = _ -> _ => destruct b eqn:E end; [discriminate|]. clearbody l. intros HX. assert (HE : ws = l /\ forall k, n = Some k -> zlen l = k).
    { destruct n as [k|]; [|split; [congruence|discriminate]]. destruct (Z.eqb_spec (zlen l) k) as [HK|HK]; [|discriminate]. split; [congruence|]. intros j [= <-]. exact HK. }
    destruct HE as [-> HK]. split; [|exact HK]. intros w HI H32. apply not_true_iff_false in E. apply E. apply existsb_exists. exists w. split; [exact HI|]. apply existsb_exists. exists 32. split; [exact H32|reflexivity].
  Qed.
End Lists.
