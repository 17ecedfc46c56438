(** Comparison and printing. *)
From Verif.Model Require Import Py Text Packing Misc Curve Coin Base58 Script Keys Bip32 Address Tx Objects.
From Verif.Spec Require Import Numbers KeysSpec CurveSpec TxSpec ObjectsSpec.
From Verif.Proofs Require Import PyFacts NumbersFacts TextFacts ScriptFacts CurveFacts KeysFacts TxJsonFacts.

(** ** Numerals *)
Lemma hex_value_app a b : hex_value (a ++ b) = fold_left (fun a c => 16 * a + (if c <? 58 then c - 48 else c - 87)) b (hex_value a).
Proof. unfold hex_value. apply fold_left_app. Qed.
Definition hex_digit (c : Z) : Prop := 48 <= c <= 57 \/ 97 <= c <= 102.
Lemma hex_char_ok d : 0 <= d < 16 -> hex_digit (hex_char d) /\ (if hex_char d <? 58 then hex_char d - 48 else hex_char d - 87) = d.
Proof. intros Hd. unfold hex_digit, hex_char. destruct (Z.ltb_spec d 10); [destruct (Z.ltb_spec (48 + d) 58)|destruct (Z.ltb_spec (87 + d) 58)]; lia. Qed.
Lemma hex_digits_ok f : forall n acc, (0 < f)%nat -> 0 <= n < 2 ^ Z.of_nat f ->
  exists ds, hex_digits f n acc = ds ++ acc /\ Forall hex_digit ds /\ hex_value ds = n /\ ds <> [].
Proof.
  induction f as [|f IH]; intros n acc Hf Hn; [lia|]. cbn [hex_digits]. destruct (hex_char_ok (n mod 16) ltac:(lia)) as [HC HV]. destruct (Z.eqb_spec (n / 16) 0) as [E|E].
  - exists [hex_char (n mod 16)]. split; [reflexivity|]. split; [constructor; [exact HC|constructor]|]. split; [|discriminate]. unfold hex_value. cbn [fold_left]. rewrite HV. lia.
  - assert (Hlt : 0 <= n / 16 < 2 ^ Z.of_nat f) by (rewrite Nat2Z.inj_succ, Z.pow_succ_r in Hn by lia; lia).
    assert (Hf' : (0 < f)%nat) by (destruct f; [change (2 ^ Z.of_nat 0) with 1 in Hlt; lia|lia]).
    destruct (IH (n / 16) (hex_char (n mod 16) :: acc) Hf' Hlt) as (ds & -> & HD & HN & _). exists (ds ++ [hex_char (n mod 16)]). split; [now rewrite <- app_assoc|].
    split; [apply Forall_app; split; [exact HD|constructor; [exact HC|constructor]]|]. split; [|now destruct ds]. rewrite hex_value_app, HN. cbn [fold_left]. rewrite HV. lia.
Qed.
Lemma hex_of_nonneg_ok n : 0 <= n -> Forall hex_digit (hex_of_nonneg n) /\ hex_value (hex_of_nonneg n) = n /\ hex_of_nonneg n <> [].
Proof.
  intros Hn. unfold hex_of_nonneg. assert (HL : 0 <= n < 2 ^ Z.of_nat (Z.to_nat (Z.log2 n + 1))).
  { pose proof (Z.log2_nonneg n). rewrite Z2Nat.id by lia. split; [lia|]. destruct (Z.eq_dec n 0) as [->|]; [reflexivity|]. apply (Z.log2_spec n). lia. }
  pose proof (Z.log2_nonneg n). destruct (hex_digits_ok (Z.to_nat (Z.log2 n + 1)) n [] ltac:(lia) HL) as (ds & -> & H1 & H2 & H3). now rewrite app_nil_r.
Qed.
(** Characters of printed numbers and of hexadecimal text *)
Definition plain (c : Z) : Prop := c = 45 \/ hex_digit c.
Lemma hex_of_int_plain n : Forall plain (hex_of_int n).
Proof.
  assert (HP : forall s, Forall hex_digit s -> Forall plain s) by (intros s; apply Forall_impl; now right). unfold hex_of_int. destruct (Z.ltb_spec n 0).
  - constructor; [now left|]. apply HP, hex_of_nonneg_ok. lia.
  - apply HP, hex_of_nonneg_ok. lia.
Qed.
Lemma hex_of_int_inj a b : hex_of_int a = hex_of_int b -> a = b.
Proof.
  assert (HP : forall n s, 0 <= n -> hex_of_nonneg n = 45 :: s -> False).
  { intros n s Hn HE. destruct (hex_of_nonneg_ok n Hn) as [HF _]. rewrite HE in HF. inversion HF as [|? ? HC]; subst. unfold hex_digit in HC. lia. }
  unfold hex_of_int. destruct (Z.ltb_spec a 0), (Z.ltb_spec b 0); intros HE.
  - injection HE as HE. apply (f_equal hex_value) in HE. rewrite !(fun n Hn => proj1 (proj2 (hex_of_nonneg_ok n Hn))) in HE by lia. lia.
  - exfalso. exact (HP b _ ltac:(lia) (eq_sym HE)).
  - exfalso. exact (HP a _ ltac:(lia) HE).
  - apply (f_equal hex_value) in HE. now rewrite !(fun n Hn => proj1 (proj2 (hex_of_nonneg_ok n Hn))) in HE by lia.
Qed.
Lemma str_digits n : 0 <= n -> Forall hex_digit (str_of_nonneg n).
Proof.
  intros Hn. destruct (str_of_nonneg_ok n Hn) as (_ & HD & _). rewrite forallb_forall in HD. apply Forall_forall. intros c Hc. specialize (HD c Hc). unfold is_digit in HD. unfold hex_digit. lia.
Qed.
Lemma str_of_int_plain n : Forall plain (str_of_int n).
Proof.
  assert (HP : forall s, Forall hex_digit s -> Forall plain s) by (intros s; apply Forall_impl; now right). unfold str_of_int. destruct (Z.ltb_spec n 0).
  - constructor; [now left|]. apply HP, str_digits. lia.
  - apply HP, str_digits. lia.
Qed.
Lemma str_of_int_inj a b : str_of_int a = str_of_int b -> a = b.
Proof.
  assert (HP : forall n s, 0 <= n -> str_of_nonneg n = 45 :: s -> False).
  { intros n s Hn HE. pose proof (str_digits n Hn) as HF. rewrite HE in HF. inversion HF as [|? ? HC]; subst. unfold hex_digit in HC. lia. }
  assert (HV : forall n, 0 <= n -> dec_value (str_of_nonneg n) = n) by (intros n Hn; apply (str_of_nonneg_ok n Hn)).
  unfold str_of_int. destruct (Z.ltb_spec a 0), (Z.ltb_spec b 0); intros HE.
  - injection HE as HE. apply (f_equal dec_value) in HE. rewrite !HV in HE by lia. lia.
  - exfalso. exact (HP b _ ltac:(lia) (eq_sym HE)).
  - exfalso. exact (HP a _ ltac:(lia) HE).
  - apply (f_equal dec_value) in HE. now rewrite !HV in HE by lia.
Qed.
Lemma to_hex_plain b : bytes_ok b = true -> Forall plain (to_hex b).
Proof.
  induction b as [|x b IH]; intros HB; [constructor|]. rewrite bytes_ok_cons in HB. apply andb_true_iff in HB as [Hx HB]. apply byte_ok_iff in Hx. destruct (byte_halves x Hx) as [H1 H2].
  cbn [to_hex]. constructor; [right; now apply hex_char_ok|]. constructor; [right; now apply hex_char_ok|auto].
Qed.
Lemma bytes_ok_rev b : bytes_ok b = true -> bytes_ok (rev b) = true.
Proof. unfold bytes_ok. rewrite !forallb_forall. intros HB x Hx. apply HB. now apply in_rev. Qed.
Lemma hash_hex_plain b : bytes_ok b = true -> Forall plain (hash_to_hex_str b).
Proof. intros HB. apply to_hex_plain. now apply bytes_ok_rev. Qed.
Lemma hash_hex_inj a b : bytes_ok a = true -> bytes_ok b = true -> hash_to_hex_str a = hash_to_hex_str b -> a = b.
Proof. intros Ha Hb HE. apply to_hex_inj in HE; [|now apply bytes_ok_rev|now apply bytes_ok_rev]. rewrite <- (rev_involutive a), HE. apply rev_involutive. Qed.
(** A field ends at the first character that is not plain *)
Lemma field_end (a b : pystr) x r y s : Forall plain a -> Forall plain b -> ~ plain x -> ~ plain y -> a ++ x :: r = b ++ y :: s -> a = b /\ x :: r = y :: s.
Proof.
  revert b. induction a as [|c a IH]; intros [|d b] Ha Hb Hx Hy HE; cbn [app] in HE; inversion Ha; inversion Hb; subst.
  - auto.
  - injection HE as -> _. contradiction.
  - injection HE as -> _. contradiction.
  - injection HE as -> HE. destruct (IH b) as [-> E]; auto.
Qed.
Lemma not_plain c : c = 44 \/ c = 41 \/ c = 34 \/ c = 32 -> ~ plain c.
Proof. unfold plain, hex_digit. lia. Qed.
Definition stops (t : string) : Prop := exists c q, txt t = c :: q /\ ~ plain c.
Lemma field_txt t a b r s : stops t -> Forall plain a -> Forall plain b -> a ++ txt t ++ r = b ++ txt t ++ s -> a = b /\ r = s.
Proof.
  intros (c & q & HT & HC) Ha Hb HE. rewrite HT in HE. cbn [app] in HE. apply field_end in HE as [-> HE]; try assumption. split; [reflexivity|]. injection HE as HE. now apply app_inv_head in HE.
Qed.

(** Decimal digits read as hexadecimal *)
Lemma fold_more ds : forall a b, forallb is_digit ds = true -> 0 <= b <= a ->
  b + (a - b) <= a /\ fold_left (fun a c => 10 * a + (c - 48)) ds b <= fold_left (fun a c => 16 * a + (if c <? 58 then c - 48 else c - 87)) ds a /\
  (b < a -> fold_left (fun a c => 10 * a + (c - 48)) ds b < fold_left (fun a c => 16 * a + (if c <? 58 then c - 48 else c - 87)) ds a).
Proof.
  induction ds as [|c ds IH]; intros a b HD Hab; cbn [fold_left forallb] in *; [lia|]. apply andb_true_iff in HD as [Hc HD]. unfold is_digit in Hc. destruct (Z.ltb_spec c 58); [|lia].
  destruct (IH (16 * a + (c - 48)) (10 * b + (c - 48)) HD ltac:(lia)) as (_ & H1 & H2). split; [lia|]. split; [exact H1|]. intros Hlt. apply H2. lia.
Qed.
Lemma hex_of_decimal n : 0 <= n -> hex_value (str_of_int n) = n <-> n < 10.
Proof.
  intros Hn. destruct (Z_lt_dec n 10) as [HS|HL].
  - split; [lia|intros _]. assert (HF : forallb (fun n => hex_value (str_of_int n) =? n) (zrange 0 10) = true) by (vm_compute; reflexivity). apply Z.eqb_eq. exact (zrange_all _ _ _ HF n ltac:(lia)).
  - split; [|lia]. unfold str_of_int. destruct (Z.ltb_spec n 0); [lia|]. destruct (str_of_nonneg_ok n Hn) as (HE & HD & HV & HZ). destruct (str_of_nonneg n) as [|c [|d ds]]; [contradiction| |].
    + cbn [forallb] in HD. unfold is_digit in HD. unfold dec_value in HV. cbn [fold_left] in HV. lia.
    + cbn [forallb] in HD. apply andb_true_iff in HD as [Hc HD]. apply andb_true_iff in HD as [Hd HD]. unfold is_digit in Hc, Hd. unfold dec_value in HV. cbn [fold_left] in HV. unfold hex_value. cbn [fold_left].
      destruct (Z.ltb_spec c 58); [|lia]. destruct (Z.ltb_spec d 58); [|lia].
      assert (Hc0 : c <> 48). { intros ->. exact (HZ ltac:(lia) eq_refl). }
      destruct (fold_more ds (16 * (16 * 0 + (c - 48)) + (d - 48)) (10 * (10 * 0 + (c - 48)) + (d - 48)) HD ltac:(lia)) as (_ & _ & HS). specialize (HS ltac:(lia)). lia.
Qed.
