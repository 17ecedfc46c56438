(** ASM text (C40). *)
From Verif.Model Require Import Py Text Packing Misc Signature Script.
From Verif.Spec Require Import Numbers ScriptSpec.
From Verif.Proofs Require Import PyFacts PackingFacts NumbersFacts ScriptFacts ScriptTheorems TextFacts.

Lemma name_table : forallb (fun c =>
  match name_of c ops_members with
  | Some n => match value_of n ops_members with Some v => v =? c | None => false end && starts_with n (txt "OP_")
              && forallb (fun x => negb (is_space_str x)) n
  | None => negb ((c =? 80) || ((97 <=? c) && (c <=? 185)))
  end) (zrange 0 256) = true.
Proof. vm_compute. reflexivity. Qed.
Lemma name_range : forallb (fun c =>
  match name_of c ops_members with Some _ => (c =? 80) || (c <? 97) || (c <=? 185) | None => true end) (zrange 0 256) = true.
Proof. vm_compute. reflexivity. Qed.

Lemma name_known c : c = 80 \/ 97 <= c <= 185 -> exists n, name_of c ops_members = Some n /\ value_of n ops_members = Some c /\
  starts_with n (txt "OP_") = true /\ word_ok n.
Proof.
  intros Hc. pose proof (zrange_all _ _ _ name_table c ltac:(lia)) as HT. cbv beta in HT.
  destruct (name_of c ops_members) as [n|]; [|lia]. exists n. split; [reflexivity|].
  destruct (value_of n ops_members) as [v|]; [|discriminate].
  apply andb_true_iff in HT as [HT H3]. apply andb_true_iff in HT as [H1 H2]. apply Z.eqb_eq in H1 as ->. repeat split; auto. now destruct n.
Qed.
Lemma name_unknown c : 185 < c <= 255 -> name_of c ops_members = None.
Proof.
  intros Hc. pose proof (zrange_all _ _ _ name_range c ltac:(lia)) as HT. cbv beta in HT. destruct (name_of c ops_members); [lia|reflexivity].
Qed.

Lemma digit_not_op w : w <> [] -> (forall c, In c w -> c <> 79) -> starts_with w (txt "OP_") = false.
Proof.
  intros Hne HC. destruct w as [|c w]; [contradiction|]. change (txt "OP_") with [79; 80; 95]. cbn [starts_with].
  specialize (HC c (or_introl eq_refl)). now replace (c =? 79) with false by lia.
Qed.
Lemma digits_chars w : forallb is_digit w = true -> forall c, In c w -> 48 <= c <= 57.
Proof. intros HF c Hc. rewrite forallb_forall in HF. specialize (HF c Hc). unfold is_digit in HF. lia. Qed.

Lemma asm_number v : Z.abs v <= 2147483647 -> asm_word_to_bytes (str_of_int v) = push_int v /\ word_ok (str_of_int v).
Proof.
  intros Hv. unfold str_of_int. destruct (Z.ltb_spec v 0) as [Hneg|Hpos].
  - destruct (str_of_nonneg_ok (- v) ltac:(lia)) as (Hne & Hd & HV & _). pose proof (digits_chars _ Hd) as HC. split.
    + unfold asm_word_to_bytes. rewrite digit_not_op; [|discriminate|intros c [<-|Hc]; [lia|specialize (HC c Hc); lia]].
      change (isdigit (45 :: str_of_nonneg (- v))) with (is_digit 45 && forallb is_digit (str_of_nonneg (- v))). change (is_digit 45) with false. cbn [andb].
      rewrite pyindex_0. cbn [bind]. rewrite take1. change (45 =? 45) with true. cbn [andb].
      assert (isdigit (str_of_nonneg (- v)) = true) as -> by (destruct (str_of_nonneg (- v)); [contradiction|exact Hd]).
      unfold int_of_word. change (45 =? 45) with true. cbv iota. rewrite HV, Z.opp_involutive. now replace (Z.abs v <=? 2147483647) with true by lia.
    + apply (word_chars (fun c => c = 45 \/ 48 <= c <= 57)); [discriminate|intros c [<-|Hc]; auto|].
      intros c Hc. unfold is_space_str, is_space. lia.
  - destruct (str_of_nonneg_ok v ltac:(lia)) as (Hne & Hd & HV & _). pose proof (digits_chars _ Hd) as HC. split.
    + unfold asm_word_to_bytes. rewrite digit_not_op; [|assumption|intros c Hc; specialize (HC c Hc); lia].
      assert (isdigit (str_of_nonneg v) = true) as -> by (destruct (str_of_nonneg v); [contradiction|exact Hd]). cbn [bind].
      assert (int_of_word (str_of_nonneg v) = v) as ->.
      { unfold int_of_word. destruct (str_of_nonneg v) as [|c r]; [contradiction|]. specialize (HC c (or_introl eq_refl)).
        replace (c =? 45) with false by lia. exact HV. }
      now replace (Z.abs v <=? 2147483647) with true by lia.
    + apply (word_chars (fun c => 48 <= c <= 57)); [assumption|assumption|]. intros c Hc. unfold is_space_str, is_space. lia.
Qed.

Lemma looks_decimal_dec d : {looks_decimal d} + {~ looks_decimal d}.
Proof.
  unfold looks_decimal. induction d as [|x d [IH|IH]].
  - left. intros b [].
  - destruct (Z_le_gt_dec (x / 16) 9), (Z_le_gt_dec (x mod 16) 9); [left|right|right|right].
    + intros b [<-|Hb]; auto.
    + intros HA. destruct (HA x (or_introl eq_refl)). lia.
    + intros HA. destruct (HA x (or_introl eq_refl)). lia.
    + intros HA. destruct (HA x (or_introl eq_refl)). lia.
  - right. intros HA. apply IH. intros b Hb. apply HA. now right.
Qed.
Lemma decimal_nonneg d : bytes_ok d = true -> 0 <= decimal_reading d.
Proof.
  unfold decimal_reading. assert (HG : forall a, 0 <= a -> bytes_ok d = true -> 0 <= fold_left (fun a b => 100 * a + 10 * (b / 16) + b mod 16) d a).
  { induction d as [|x d IH]; intros a Ha HB; [assumption|]. rewrite bytes_ok_cons in HB. apply andb_true_iff in HB as [Hx HB]. apply byte_ok_iff in Hx.
    destruct (byte_halves x Hx). cbn [fold_left]. apply IH; [lia|assumption]. }
  apply HG. lia.
Qed.

Lemma asm_hex d : bytes_ok d = true -> d <> [] ->
  word_ok (to_hex d) /\
  (looks_decimal d /\ decimal_reading d <= 2147483647 -> asm_word_to_bytes (to_hex d) = push_int (decimal_reading d)) /\
  (~ (looks_decimal d /\ decimal_reading d <= 2147483647) -> asm_word_to_bytes (to_hex d) = push_item d).
Proof.
  intros HB Hne. assert (HC := fun c => to_hex_chars d c HB). assert (Hh : to_hex d <> []) by (now destruct d).
  split; [|].
  { apply (word_chars (fun c => 48 <= c <= 57 \/ 97 <= c <= 102)); [assumption|assumption|]. intros c Hc. unfold is_space_str, is_space. lia. }
  assert (Hop : starts_with (to_hex d) (txt "OP_") = false).
  { apply digit_not_op; [assumption|]. intros c Hc. specialize (HC c Hc). lia. }
  assert (Hminus : (c <- pyindex (to_hex d) 0 ;; Ok ((c =? 45) && isdigit (slice_from (to_hex d) 1))) = Ok false).
  { destruct (to_hex d) as [|c r]; [contradiction|]. rewrite pyindex_0. cbn [bind]. specialize (HC c (or_introl eq_refl)).
    replace (c =? 45) with false by lia. reflexivity. }
  assert (Hdig : isdigit (to_hex d) = true <-> looks_decimal d).
  { rewrite <- (to_hex_digits d HB). destruct (to_hex d); [contradiction|reflexivity]. }
  unfold asm_word_to_bytes. rewrite Hop, Hminus, (from_hex_to_hex d HB). destruct (isdigit (to_hex d)) eqn:Ed; cbn [bind].
  - assert (HL : looks_decimal d) by now apply Hdig.
    assert (HV : int_of_word (to_hex d) = decimal_reading d).
    { unfold decimal_reading. rewrite <- (to_hex_value d HB HL). unfold int_of_word. destruct (to_hex d) as [|c r]; [contradiction|].
      specialize (HC c (or_introl eq_refl)). now replace (c =? 45) with false by lia. }
    rewrite HV. pose proof (decimal_nonneg d HB). rewrite Z.abs_eq by assumption. split.
    + intros [_ HM]. now replace (decimal_reading d <=? 2147483647) with true by lia.
    + intros HN. replace (decimal_reading d <=? 2147483647) with false; [reflexivity|]. symmetry. apply Z.leb_gt. destruct (Z.lt_ge_cases 2147483647 (decimal_reading d)); [assumption|].
      exfalso. apply HN. auto.
  - split; [|reflexivity]. intros [HL _]. apply Hdig in HL. discriminate.
Qed.

Lemma shortest_push_iff p d : bytes_ok d = true -> encodes p (Data d) -> (shortest_push p d <-> push_item d = Ok p).
Proof.
  intros HB HE. assert (Hbound : zlen d < 2 ^ 32).
  { remember (Data d) as o eqn:Ho. destruct HE; try discriminate; try (injection Ho as Ho); subst; rewrite ?zlen_cons, ?zlen_nil; cbn; try lia. }
  destruct (push_item_total d Hbound) as (q & HQ). split.
  - intros [_ HS]. destruct (push_item_encodes d q HQ) as [HQE _]. specialize (HS q HQE).
    destruct (push_item_shortest_enc d q p HQ HE) as [HL HEq]. rewrite HQ. f_equal. apply HEq. lia.
  - intros HP. rewrite HP in HQ. injection HQ as <-. split; [exact HE|]. intros q' HQ'. now apply (push_item_shortest_enc d p q').
Qed.

Lemma asm_word der_ok p o : encodes p o -> bytes_ok p = true -> exists w, op_to_asm_word der_ok o false = Ok w /\ word_ok w /\
  (forall q, asm_word_to_bytes w = Ok q -> exists o', encodes q o') /\ (asm_word_to_bytes w = Ok p <-> asm_safe p o).
Proof.
  intros HE HB. destruct o as [c|d].
  - assert (HP : p = [c] /\ (c = 80 \/ 97 <= c <= 255)).
    { remember (Code c) as o eqn:Ho. destruct HE; try discriminate. injection Ho as ->. auto. }
    destruct HP as [-> Hc]. cbn [op_to_asm_word]. destruct (Z.le_gt_cases c 185) as [Hk|Hk].
    + destruct (name_known c ltac:(lia)) as (n & -> & HV & HS & HW). exists n. split; [reflexivity|]. split; [exact HW|].
      unfold asm_word_to_bytes. rewrite HS, HV, pack_byte_ok by lia. split.
      * intros q [= <-]. exists (Code c). constructor. lia.
      * split; [|reflexivity]. intros _. constructor. lia.
    + rewrite (name_unknown c) by lia. exists (if c =? 255 then txt "OP_INVALIDOPCODE" else txt "OP_UNKNOWN"). split; [reflexivity|].
      assert (HA : asm_word_to_bytes (if c =? 255 then txt "OP_INVALIDOPCODE" else txt "OP_UNKNOWN") = Err ScriptError) by (destruct (c =? 255); reflexivity).
      split; [destruct (c =? 255); (split; [discriminate|reflexivity])|]. rewrite HA. split; [discriminate|]. split; [discriminate|].
      intros HS. remember (Code c) as o eqn:Ho. destruct HS; try discriminate. injection Ho as ->. lia.
  - assert (HBd : bytes_ok d = true).
    { remember (Data d) as o eqn:Ho. destruct HE; try discriminate; try (injection Ho as Ho); subst; rewrite ?bytes_ok_cons in HB; auto;
        repeat (apply andb_true_iff in HB as [? HB]); auto.
      rewrite bytes_ok_cons. rewrite (proj2 (byte_ok_iff n)) by lia. reflexivity. }
    cbn [op_to_asm_word]. destruct (Z.leb_spec (zlen d) 4) as [H4|H4].
    + destruct (item_to_int_number d HBd) as (v & -> & HN). cbn [bind]. exists (str_of_int v). split; [reflexivity|].
      assert (Hv : Z.abs v <= 2147483647).
      { destruct d as [|x d']; [destruct HN as [[_ ->]|(b & y & E & _)]; [lia|now destruct b]|].
        pose proof (number_bound _ v HBd HN ltac:(discriminate)) as HL. pose proof (zlen_nonneg d').
        assert (256 ^ (zlen (x :: d') - 1) <= 256 ^ 3) by (apply Z.pow_le_mono_r; lia). change (256 ^ 3) with 16777216 in *. lia. }
      destruct (asm_number v Hv) as [HA HW]. split; [exact HW|]. rewrite HA.
      destruct (push_int_item v) as (item & HI). pose proof HI as (HIB & HIN & HIP & HIS). rewrite HIP. split.
      * intros q HQ. exists (Data item). now apply push_item_encodes in HQ.
      * split.
        -- intros HQ. pose proof (push_item_ops _ _ HQ) as HO. rewrite <- (app_nil_r p), (ops_cons _ _ _ HE) in HO. cbn in HO. injection HO as ->.
           apply safe_number; [assumption| |]; [exists v; auto|]. apply shortest_push_iff; assumption.
        -- intros HS. remember (Data d) as o eqn:Ho. destruct HS as [c Hc|p d0 H4' (w & HNw & HSN) HSP|p d0 H4' _ _]; [discriminate| |injection Ho as ->; lia].
           injection Ho as ->. rewrite (number_fun _ _ _ HNw HN) in *. apply (shortest_push_iff p d HBd HE) in HSP.
           rewrite (number_item_unique v item d HI HBd HN); [assumption|]. now apply HSN.
    + destruct d as [|b0 d']; [rewrite zlen_nil in H4; lia|]. rewrite pyindex_0. cbn [bind andb]. remember (b0 :: d') as d eqn:Hd.
      exists (to_hex d). split; [reflexivity|]. assert (Hne : d <> []) by (rewrite Hd; discriminate). destruct (asm_hex d HBd Hne) as (HW & HDec & HHex). split; [exact HW|].
      assert (HD : {looks_decimal d /\ decimal_reading d <= 2147483647} + {~ (looks_decimal d /\ decimal_reading d <= 2147483647)}).
      { destruct (looks_decimal_dec d) as [HL|HL]; [|right; tauto]. destruct (Z_le_gt_dec (decimal_reading d) 2147483647); [left; auto|right; lia]. }
      destruct HD as [HD|HD].
      * rewrite (HDec HD). destruct (push_int_item (decimal_reading d)) as (item & HI). pose proof HI as (HIB & HIN & HIP & HIS). rewrite HIP. split.
        { intros q HQ. exists (Data item). now apply push_item_encodes in HQ. }
        split.
        -- intros HQ. exfalso. pose proof (push_item_ops _ _ HQ) as HO. rewrite <- (app_nil_r p), (ops_cons _ _ _ HE) in HO. cbn in HO. injection HO as ->.
           pose proof (decimal_nonneg item HBd) as HNN. destruct HD as [_ HM]. set (n := decimal_reading item) in *.
           assert (HF : number (le_digits 4 n) n).
           { right. exists (le_digits 3 n), (n / 256 / 256 / 256). split.
             - change (le_digits 4 n) with (le_digits 3 n ++ [n / 256 / 256 / 256 mod 256]). rewrite (Z.mod_small (n / 256 / 256 / 256)); [reflexivity|].
               rewrite !Z.div_div by lia. split; [apply Z.div_pos; lia|apply Z.div_lt_upper_bound; lia].
             - left. split; [rewrite !Z.div_div by lia; apply Z.div_lt_upper_bound; lia|]. rewrite val_le_int. cbn [le_digits le_int]. change (256 ^ zlen _) with 16777216.
               pose proof (Z.div_mod n 256 ltac:(lia)). pose proof (Z.div_mod (n / 256) 256 ltac:(lia)). pose proof (Z.div_mod (n / 256 / 256) 256 ltac:(lia)). lia. }
           specialize (HIS _ (le_digits_ok 4 n) HF). rewrite zlen_le_digits in HIS. lia.
        -- intros HS. exfalso. remember (Data d) as o eqn:Ho. clear Hd. destruct HS as [c Hc|p d0 H4' _ _|p d0 H4' HND _]; [discriminate|injection Ho as ->; lia|injection Ho as ->; contradiction].
      * rewrite (HHex HD). split; [intros q HQ; exists (Data d); now apply push_item_encodes in HQ|]. split.
        -- intros HQ. apply safe_hex; auto. now apply shortest_push_iff.
        -- intros HS. clear Hd. remember (Data d) as o eqn:Ho. destruct HS as [c Hc|p d0 H4' _ _|p d0 H4' HND HSP]; [discriminate|injection Ho as ->; lia|injection Ho as ->].
           now apply shortest_push_iff.
Qed.

Lemma encodes_concat_inj parts l parts' l' : Forall2 encodes parts l -> Forall2 encodes parts' l' -> concat parts = concat parts' -> parts = parts'.
Proof.
  intros HF. revert parts' l'. induction HF as [|p o parts l HE HF IH]; intros parts' l' HF' HC.
  - destruct HF' as [|q o' parts' l' HE' HF']; [reflexivity|]. apply encodes_nonempty in HE'. destruct q; [cbn in HE'; lia|discriminate].
  - destruct HF' as [|q o' parts' l' HE' HF']; [apply encodes_nonempty in HE; destruct p; [cbn in HE; lia|discriminate]|].
    cbn [concat] in HC. pose proof (next_op_enc _ _ (concat parts) HE) as H1. pose proof (next_op_enc _ _ (concat parts') HE') as H2.
    rewrite HC, H2 in H1. injection H1 as _ HR. f_equal; [|now apply IH with l']. rewrite HR in HC. now apply app_inv_tail in HC.
Qed.

Definition asm_safe_script (s : bytes) : Prop := exists parts l, s = concat parts /\ Forall2 encodes parts l /\ Forall2 asm_safe parts l.

Lemma asm_words der_ok parts l : Forall2 encodes parts l -> bytes_ok (concat parts) = true ->
  exists ws, mapM (fun o => op_to_asm_word der_ok o false) l = Ok ws /\ Forall word_ok ws /\
   (forall qs, mapM asm_word_to_bytes ws = Ok qs -> exists l', Forall2 encodes qs l') /\
   (mapM asm_word_to_bytes ws = Ok parts <-> Forall2 asm_safe parts l).
Proof.
  induction 1 as [|p o parts l HE HF IH]; intros HB.
  - exists []. repeat split; auto. intros qs [= <-]. exists []. constructor.
  - cbn [concat] in HB. rewrite bytes_ok_app in HB. apply andb_true_iff in HB as [HBp HB]. destruct (IH HB) as (ws & HM & HW & HQ & HS).
    destruct (asm_word der_ok p o HE HBp) as (w & Hw & Hok & Hq & Hs). exists (w :: ws). cbn [mapM]. rewrite Hw. cbn [bind]. rewrite HM. split; [reflexivity|].
    split; [now constructor|]. split.
    + intros qs HA. apply bind_Ok in HA as (q & Hq1 & HA). apply bind_Ok in HA as (qs' & Hq2 & HA). injection HA as <-.
      destruct (Hq q Hq1) as (o' & Ho'). destruct (HQ qs' Hq2) as (l' & Hl'). exists (o' :: l'). now constructor.
    + split.
      * intros HA. apply bind_Ok in HA as (q & Hq1 & HA). apply bind_Ok in HA as (qs' & Hq2 & HA). injection HA as -> ->. constructor; [now apply Hs|now apply HS].
      * intros HA. inversion HA; subst. rewrite (proj2 Hs) by assumption. cbn [bind]. rewrite (proj2 HS) by assumption. reflexivity.
Qed.

Lemma asm_roundtrip der_ok s : bytes_ok s = true -> exists a, to_asm der_ok s false = Ok a /\ (from_asm a = Ok s <-> asm_safe_script s).
Proof.
  intros HB. unfold to_asm. destruct (parse_total s HB) as (parts & l & tail & Hs & HF & HO).
  assert (HBp : bytes_ok (concat parts) = true) by (rewrite Hs, bytes_ok_app in HB; now apply andb_true_iff in HB).
  destruct (asm_words der_ok parts l HF HBp) as (ws & HM & HW & HQ & HS). destruct HO as [[-> HO]|[HC HO]]; rewrite HO, HM; cbn [bind].
  - exists (join [32] ws). split; [reflexivity|]. rewrite app_nil_r in Hs. unfold from_asm. rewrite (split_join ws HW). split.
    + intros HA. apply bind_Ok in HA as (qs & Hqs & HA). injection HA as HA. rewrite Hs in HA. destruct (HQ qs Hqs) as (l' & Hl').
      pose proof (encodes_concat_inj _ _ _ _ Hl' HF HA) as ->. exists parts, l. split; [assumption|]. split; [assumption|]. now apply HS.
    + intros (parts' & l' & Hs' & HF' & HSafe). assert (parts' = parts) as -> by (eapply encodes_concat_inj; eauto; congruence).
      assert (l' = l) as ->. { pose proof (parse_whole _ _ HF) as H1. rewrite (parse_whole _ _ HF') in H1. now injection H1. }
      rewrite (proj2 HS HSafe). cbn [bind]. now rewrite Hs.
  - exists (txt "[error]"). split; [reflexivity|]. change (from_asm (txt "[error]")) with (@Err bytes ScriptError). split; [discriminate|].
    intros (parts' & l' & Hs' & HF' & _). rewrite Hs', (parse_whole _ _ HF') in HO. discriminate.
Qed.
