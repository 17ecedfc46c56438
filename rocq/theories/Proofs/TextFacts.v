(** Decimal and hexadecimal text, splitting and joining. *)
From Verif.Model Require Import Py Text.
From Verif.Proofs Require Import PyFacts.

(** Decimal digits *)
Lemma dec_value_app a b : dec_value (a ++ b) = dec_value a * 10 ^ zlen b + dec_value b.
Proof.
  unfold dec_value. rewrite fold_left_app. generalize (fold_left (fun a c => 10 * a + (c - 48)) a 0) as x.
  induction b as [|c b IH] using rev_ind; intros x; cbn [fold_left]; [change (10 ^ zlen []) with 1; lia|].
  rewrite !fold_left_app. cbn [fold_left]. rewrite IH. rewrite zlen_app. change (zlen [c]) with 1. pose proof (zlen_nonneg b).
  rewrite Z.pow_add_r by lia. change (10 ^ 1) with 10. ring.
Qed.
Lemma dec_digits_ok f : forall n acc, (0 < f)%nat -> 0 <= n < 2 ^ Z.of_nat f ->
  exists ds, dec_digits f n acc = ds ++ acc /\ ds <> [] /\ forallb is_digit ds = true /\ dec_value ds = n /\ (0 < n -> nth_error ds 0 <> Some 48).
Proof.
  induction f as [|f IH]; intros n acc Hf Hn; [lia|]. cbn [dec_digits].
  pose proof (Z.div_mod n 10 ltac:(lia)) as HD. pose proof (Z.mod_pos_bound n 10 ltac:(lia)) as HM.
  destruct (Z.eqb_spec (n / 10) 0) as [E|E].
  - exists [48 + n mod 10]. split; [reflexivity|]. split; [discriminate|]. split; [cbn; unfold is_digit; lia|]. split; [cbn; lia|].
    intros Hp. cbn. intros [= H]. lia.
  - assert (Hlt : 0 <= n / 10 < 2 ^ Z.of_nat f).
    { split; [apply Z.div_pos; lia|]. apply Z.div_lt_upper_bound; [lia|]. rewrite Nat2Z.inj_succ, Z.pow_succ_r in Hn by lia. lia. }
    assert (0 < f)%nat. { destruct f; [change (2 ^ Z.of_nat 0) with 1 in Hlt; lia|lia]. }
    destruct (IH (n / 10) (48 + n mod 10 :: acc) H Hlt) as (ds & Hds & Hne & Hdig & Hval & Hz).
    exists (ds ++ [48 + n mod 10]). rewrite Hds, <- app_assoc. split; [reflexivity|]. split; [now destruct ds|].
    split; [rewrite forallb_app, Hdig; cbn; unfold is_digit; lia|]. split.
    + rewrite dec_value_app, Hval. change (10 ^ zlen [_]) with 10. cbn. lia.
    + intros _. rewrite nth_error_app1 by (destruct ds; [contradiction|cbn; lia]). apply Hz. lia.
Qed.
Lemma str_of_nonneg_ok n : 0 <= n -> str_of_nonneg n <> [] /\ forallb is_digit (str_of_nonneg n) = true /\ dec_value (str_of_nonneg n) = n
  /\ (0 < n -> nth_error (str_of_nonneg n) 0 <> Some 48).
Proof.
  intros Hn. unfold str_of_nonneg. assert (HL : 0 <= n < 2 ^ Z.of_nat (Z.to_nat (Z.log2 n + 1))).
  { pose proof (Z.log2_nonneg n). rewrite Z2Nat.id by lia. split; [lia|]. destruct (Z.eq_dec n 0) as [->|]; [reflexivity|].
    apply (Z.log2_spec n). lia. }
  pose proof (Z.log2_nonneg n). destruct (dec_digits_ok (Z.to_nat (Z.log2 n + 1)) n [] ltac:(lia) HL) as (ds & -> & H1 & H2 & H3 & H4). now rewrite app_nil_r.
Qed.

(** Hexadecimal digits *)
Lemma hex_char_digit d : 0 <= d < 16 -> is_digit (hex_char d) = (d <=? 9).
Proof. intros Hd. unfold is_digit, hex_char. destruct (Z.ltb_spec d 10); lia. Qed.
Lemma hex_char_range d : 0 <= d < 16 -> 48 <= hex_char d <= 57 \/ 97 <= hex_char d <= 102.
Proof. intros Hd. unfold hex_char. destruct (Z.ltb_spec d 10); lia. Qed.
Lemma byte_halves b : 0 <= b < 256 -> 0 <= b / 16 < 16 /\ 0 <= b mod 16 < 16.
Proof. intros Hb. split; [split; [apply Z.div_pos; lia|apply Z.div_lt_upper_bound; lia]|apply Z.mod_pos_bound; lia]. Qed.
Lemma to_hex_digits d : bytes_ok d = true -> (forallb is_digit (to_hex d) = true <-> forall b, In b d -> b / 16 <= 9 /\ b mod 16 <= 9).
Proof.
  induction d as [|x d IH]; intros HB; [cbn; firstorder|]. rewrite bytes_ok_cons in HB. apply andb_true_iff in HB as [Hx HB]. apply byte_ok_iff in Hx.
  destruct (byte_halves x Hx) as [H1 H2]. cbn [to_hex forallb]. rewrite !hex_char_digit by assumption. rewrite !andb_true_iff, (IH HB), !Z.leb_le. cbn [In]. split.
  - intros (E1 & E2 & E3) b [<-|Hb]; auto.
  - intros HA. split; [apply HA; now left|]. split; [apply HA; now left|]. intros b Hb. apply HA. now right.
Qed.
Lemma to_hex_value d : bytes_ok d = true -> (forall b, In b d -> b / 16 <= 9 /\ b mod 16 <= 9) ->
  dec_value (to_hex d) = fold_left (fun a b => 100 * a + 10 * (b / 16) + b mod 16) d 0.
Proof.
  unfold dec_value. generalize 0 as a. induction d as [|x d IH]; intros a HB HD; [reflexivity|]. rewrite bytes_ok_cons in HB. apply andb_true_iff in HB as [Hx HB].
  apply byte_ok_iff in Hx. destruct (HD x (or_introl eq_refl)) as [H1 H2]. destruct (byte_halves x Hx) as [H3 H4].
  cbn [to_hex fold_left]. unfold hex_char. replace (x / 16 <? 10) with true by lia. replace (x mod 16 <? 10) with true by lia.
  rewrite IH; [|assumption|intros b Hb; apply HD; now right]. f_equal. lia.
Qed.
Lemma to_hex_chars d c : bytes_ok d = true -> In c (to_hex d) -> 48 <= c <= 57 \/ 97 <= c <= 102.
Proof.
  induction d as [|x d IH]; intros HB HI; [contradiction|]. rewrite bytes_ok_cons in HB. apply andb_true_iff in HB as [Hx HB]. apply byte_ok_iff in Hx.
  destruct (byte_halves x Hx) as [H1 H2]. cbn [to_hex In] in HI. destruct HI as [<-|[<-|HI]]; [now apply hex_char_range|now apply hex_char_range|now apply IH].
Qed.
Lemma to_hex_length d : zlen (to_hex d) = 2 * zlen d.
Proof. induction d as [|x d IH]; [reflexivity|]. cbn [to_hex]. rewrite !zlen_cons, IH. lia. Qed.

(** Words *)
Definition word_ok (w : pystr) : Prop := w <> [] /\ forallb (fun c => negb (is_space_str c)) w = true.
Lemma split_word w rest cur : forallb (fun c => negb (is_space_str c)) w = true -> split_ws_aux cur (w ++ rest) = split_ws_aux (rev w ++ cur) rest.
Proof.
  revert cur. induction w as [|c w IH]; intros cur HW; [reflexivity|]. cbn [forallb] in HW. apply andb_true_iff in HW as [Hc HW].
  cbn [app split_ws_aux rev]. apply negb_true_iff in Hc. rewrite Hc, (IH _ HW), <- app_assoc. reflexivity.
Qed.
Lemma split_join words : Forall word_ok words -> split_ws (join [32] words) = words.
Proof.
  unfold split_ws. intros HF. induction HF as [|w words [Hne Hw] HF IH]; [reflexivity|]. destruct words as [|w2 words].
  - cbn [join]. rewrite <- (app_nil_r w) at 1. rewrite (split_word w [] [] Hw). cbn [split_ws_aux]. rewrite app_nil_r.
    destruct (rev w) as [|x r] eqn:E; [|now rewrite <- E, rev_involutive]. apply (f_equal (@rev Z)) in E. rewrite rev_involutive in E. now subst.
  - change (join [32] (w :: w2 :: words)) with (w ++ [32] ++ join [32] (w2 :: words)). rewrite (split_word w _ [] Hw), app_nil_r. cbn [app split_ws_aux].
    change (is_space_str 32) with true. cbv iota. rewrite IH.
    destruct (rev w) as [|x r] eqn:E; [|now rewrite <- E, rev_involutive]. apply (f_equal (@rev Z)) in E. rewrite rev_involutive in E. now subst.
Qed.
Lemma word_chars (P : Z -> Prop) w : w <> [] -> (forall c, In c w -> P c) -> (forall c, P c -> is_space_str c = false) -> word_ok w.
Proof. intros Hne HP HS. split; [exact Hne|]. apply forallb_forall. intros c Hc. rewrite (HS c (HP c Hc)). reflexivity. Qed.
