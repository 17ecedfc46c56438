(** The calendar. *)
From Verif.Model Require Import Py Text Packing Misc Curve Coin Base58 Script Keys Bip32 Address Tx TxJson.
From Verif.Spec Require Import CalendarSpec.
From Verif.Proofs Require Import PyFacts TextFacts ScriptFacts.

Definition before_year (y : Z) : Z := 365 * (y - 1) + (y - 1) / 4 - (y - 1) / 100 + (y - 1) / 400.
Definition year_length (lp : bool) : Z := if lp then 366 else 365.
Definition mlen (lp : bool) (m : Z) : Z := if m =? 2 then (if lp then 29 else 28) else if (m =? 4) || (m =? 6) || (m =? 9) || (m =? 11) then 30 else 31.
Definition before_month (lp : bool) (m : Z) : Z := fold_right Z.add 0 (map (mlen lp) (zrange 1 m)).
Definition day_no (x : Z * Z * Z) : Z := let '(y, m, d) := x in before_year y + before_month (leap y) m + d.
Definition valid_date (x : Z * Z * Z) : Prop := let '(y, m, d) := x in 1 <= y /\ 1 <= m <= 12 /\ 1 <= d <= month_length y m.

Lemma leap_step y : before_year (y + 1) = before_year y + year_length (leap y).
Proof.
  unfold before_year, leap. replace (y + 1 - 1) with y by lia.
  assert (H4 : y / 4 = (y - 1) / 4 + (if y mod 4 =? 0 then 1 else 0)).
  { destruct (Z.eqb_spec (y mod 4) 0); lia. }
  assert (H100 : y / 100 = (y - 1) / 100 + (if y mod 100 =? 0 then 1 else 0)) by (destruct (Z.eqb_spec (y mod 100) 0); lia).
  assert (H400 : y / 400 = (y - 1) / 400 + (if y mod 400 =? 0 then 1 else 0)) by (destruct (Z.eqb_spec (y mod 400) 0); lia).
  rewrite H4, H100, H400. unfold year_length. destruct (Z.eqb_spec (y mod 4) 0), (Z.eqb_spec (y mod 100) 0), (Z.eqb_spec (y mod 400) 0); cbn [negb andb orb]; lia.
Qed.
(** Within a year *)
Definition in_year (lp : bool) (n : Z) : Z * Z :=
  let month := Z.shiftr (n + 50) 5 in
  let preceding := month_entry days_before_month month + (if (2 <? month) && lp then 1 else 0) in
  let '(month, preceding) :=
    if n <? preceding
    then (month - 1, preceding - (month_entry days_in_month (month - 1) + (if (month - 1 =? 2) && lp then 1 else 0)))
    else (month, preceding) in
  (month, n - preceding + 1).
Lemma in_year_ok lp n : 0 <= n < year_length lp -> let '(m, d) := in_year lp n in 1 <= m <= 12 /\ 1 <= d <= mlen lp m /\ before_month lp m + d = n + 1.
Proof.
  intros Hn. pose (f := fun n => let '(m, d) := in_year lp n in (1 <=? m) && (m <=? 12) && (1 <=? d) && (d <=? mlen lp m) && (before_month lp m + d =? n + 1)).
  assert (HF : forallb f (zrange 0 (year_length lp)) = true) by (destruct lp; vm_compute; reflexivity). pose proof (zrange_all _ _ _ HF n Hn) as HX. unfold f in HX. destruct (in_year lp n) as [m d]. lia.
Qed.
Lemma in_year_inv lp m d : 1 <= m <= 12 -> 1 <= d <= mlen lp m -> in_year lp (before_month lp m + d - 1) = (m, d) /\ 0 <= before_month lp m + d - 1 < year_length lp.
Proof.
  intros Hm Hd. pose (f := fun m => forallb (fun d => let '(m', d') := in_year lp (before_month lp m + d - 1) in (m' =? m) && (d' =? d) && (0 <=? before_month lp m + d - 1) && (before_month lp m + d - 1 <? year_length lp)) (zrange 1 (mlen lp m + 1))).
  assert (HF : forallb f (zrange 1 13) = true) by (destruct lp; vm_compute; reflexivity). pose proof (zrange_all _ _ _ HF m ltac:(lia)) as HX. unfold f in HX. pose proof (zrange_all _ _ _ HX d ltac:(lia)) as HY. cbv beta in HY.
  destruct (in_year lp (before_month lp m + d - 1)) as [m' d']. split; [f_equal|]; lia.
Qed.
Lemma month_length_mlen y m : month_length y m = mlen (leap y) m.
Proof. reflexivity. Qed.
Lemma ord2ymd_eq n : ord2ymd n =
  let n := n - 1 in let n400 := n / 146097 in let n := n mod 146097 in let n100 := n / 36524 in let n := n mod 36524 in let n4 := n / 1461 in let n := n mod 1461 in let n1 := n / 365 in let n := n mod 365 in
  let year := n400 * 400 + 1 + n100 * 100 + n4 * 4 + n1 in
  if (n1 =? 4) || (n100 =? 4) then (year - 1, 12, 31)
  else let '(m, d) := in_year ((n1 =? 3) && (negb (n4 =? 24) || (n100 =? 3))) n in (year, m, d).
Proof. unfold ord2ymd, in_year. cbv zeta. destruct (_ || _); [reflexivity|]. destruct (_ <? _); reflexivity. Qed.
Lemma ord2ymd_ok n : 1 <= n -> valid_date (ord2ymd n) /\ day_no (ord2ymd n) = n.
Proof.
  intros Hn. rewrite ord2ymd_eq. cbv zeta. set (k := n - 1). set (a := k / 146097). set (r := k mod 146097). set (b := r / 36524). set (r2 := r mod 36524). set (c := r2 / 1461). set (r3 := r2 mod 1461). set (e := r3 / 365). set (r4 := r3 mod 365).
  assert (Ha : k = 146097 * a + r /\ 0 <= r < 146097 /\ 0 <= a) by (unfold a, r, k; lia).
  assert (Hb : r = 36524 * b + r2 /\ 0 <= r2 < 36524 /\ 0 <= b <= 4) by (unfold b, r2; lia).
  assert (Hc : r2 = 1461 * c + r3 /\ 0 <= r3 < 1461 /\ 0 <= c <= 24) by (unfold c, r3; lia).
  assert (He : r3 = 365 * e + r4 /\ 0 <= r4 < 365 /\ 0 <= e <= 4) by (unfold e, r4; lia).
  clearbody a r b r2 c r3 e r4. assert (HK : n = k + 1) by (unfold k; lia). clearbody k. destruct Ha as (Ha & Ha1 & Ha2), Hb as (Hb & Hb1 & Hb2), Hc as (Hc & Hc1 & Hc2), He as (He & He1 & He2).
  destruct ((e =? 4) || (b =? 4)) eqn:E4.
  - set (y := a * 400 + 1 + b * 100 + c * 4 + e - 1).
    assert (HL : leap y = true /\ before_year y + 366 = n).
    { unfold leap, before_year, y. destruct (Z.eqb_spec b 4) as [->|Hb4].
      - assert (r2 = 0) by lia. assert (c = 0) by lia. assert (e = 0) by lia. subst c e. split.
        + replace (a * 400 + 1 + 4 * 100 + 0 * 4 + 0 - 1) with (400 * (a + 1)) by lia. lia.
        + lia.
      - destruct (Z.eqb_spec e 4) as [->|]; [|cbn in E4; discriminate E4]. assert (r4 = 0) by lia. assert (Hcb : c <> 24 \/ b = 3) by lia. split; [|lia].
        assert (H1 : (a * 400 + 1 + b * 100 + c * 4 + 4 - 1) mod 4 = 0) by lia. rewrite H1. change (0 =? 0) with true. cbn [andb].
        destruct (Z.eqb_spec ((a * 400 + 1 + b * 100 + c * 4 + 4 - 1) mod 100) 0) as [H2|H2]; [|reflexivity]. cbn [negb orb]. apply Z.eqb_eq. lia. }
    destruct HL as [HL1 HL2]. assert (HY : 1 <= y). { unfold y. lia. }
    unfold valid_date, day_no. change (month_length y 12) with 31. rewrite HL1. change (before_month true 12) with 335. lia.
  - apply orb_false_iff in E4 as [E4 B4]. apply Z.eqb_neq in E4, B4. set (y := a * 400 + 1 + b * 100 + c * 4 + e).
    assert (HL : leap y = (e =? 3) && (negb (c =? 24) || (b =? 3))).
    { unfold leap, y. replace ((a * 400 + 1 + b * 100 + c * 4 + e) mod 4) with ((1 + e) mod 4) by lia.
      replace ((a * 400 + 1 + b * 100 + c * 4 + e) mod 100) with ((1 + c * 4 + e) mod 100) by lia. replace ((a * 400 + 1 + b * 100 + c * 4 + e) mod 400) with ((1 + b * 100 + c * 4 + e) mod 400) by lia.
      destruct (Z.eqb_spec e 3), (Z.eqb_spec c 24), (Z.eqb_spec b 3), (Z.eqb_spec ((1 + e) mod 4) 0), (Z.eqb_spec ((1 + c * 4 + e) mod 100) 0), (Z.eqb_spec ((1 + b * 100 + c * 4 + e) mod 400) 0); cbn; try reflexivity; exfalso; lia. }
    rewrite <- HL. assert (HR : 0 <= r4 < year_length (leap y)) by (unfold year_length; destruct (leap y); lia).
    pose proof (in_year_ok (leap y) r4 HR) as HI. destruct (in_year (leap y) r4) as [m d]. destruct HI as (HM & HD & HS). unfold valid_date, day_no. rewrite month_length_mlen.
    assert (HB : before_year y + r4 = k). { unfold before_year, y. lia. }
    split; [split; [unfold y; lia|auto]|lia].
Qed.
Lemma before_month_step lp m : 1 <= m <= 12 -> before_month lp m + mlen lp m = if m =? 12 then year_length lp else before_month lp (m + 1).
Proof.
  intros Hm. assert (HF : forallb (fun m => before_month lp m + mlen lp m =? if m =? 12 then year_length lp else before_month lp (m + 1)) (zrange 1 13) = true) by (destruct lp; vm_compute; reflexivity).
  pose proof (zrange_all _ _ _ HF m ltac:(lia)) as HX. cbv beta in HX. lia.
Qed.
Lemma next_day_ok x : valid_date x -> valid_date (next_day x) /\ day_no (next_day x) = day_no x + 1.
Proof.
  destruct x as [[y m] d]. intros (Hy & Hm & Hd). unfold next_day. pose proof (before_month_step (leap y) m Hm) as HS. rewrite month_length_mlen in *.
  assert (HP : forall y m, 1 <= month_length y m). { intros y' m'. unfold month_length. destruct (m' =? 2); [destruct (leap y'); lia|]. destruct ((m' =? 4) || (m' =? 6) || (m' =? 9) || (m' =? 11)); lia. }
  destruct (Z.ltb_spec d (mlen (leap y) m)) as [H|H].
  - unfold valid_date, day_no. rewrite month_length_mlen. lia.
  - destruct (Z.ltb_spec m 12) as [H2|H2].
    + replace (m =? 12) with false in HS by lia. unfold valid_date, day_no. pose proof (HP y (m + 1)). split; [lia|]. lia.
    + replace (m =? 12) with true in HS by lia. unfold valid_date, day_no. pose proof (HP (y + 1) 1). rewrite leap_step. change (before_month (leap (y + 1)) 1) with 0. lia.
Qed.
Lemma before_year_mono y y' : y < y' -> before_year y + year_length (leap y) <= before_year y'.
Proof. intros Hy. rewrite <- leap_step. unfold before_year. lia. Qed.
Lemma day_no_inj x x' : valid_date x -> valid_date x' -> day_no x = day_no x' -> x = x'.
Proof.
  destruct x as [[y m] d], x' as [[y' m'] d']. intros (Hy & Hm & Hd) (Hy' & Hm' & Hd') HE. unfold day_no in HE. rewrite month_length_mlen in *.
  destruct (in_year_inv (leap y) m d Hm Hd) as [E R]. destruct (in_year_inv (leap y') m' d' Hm' Hd') as [E' R'].
  assert (y = y'). { destruct (Z.lt_trichotomy y y') as [H|[H|H]]; [|exact H|]; apply before_year_mono in H; lia. }
  subst y'. assert (HX : before_month (leap y) m + d = before_month (leap y) m' + d') by lia. rewrite HX in E. rewrite E in E'. injection E' as -> ->. reflexivity.
Qed.
Lemma date_of_ok n : valid_date (date_of n) /\ day_no (date_of n) = 719163 + Z.of_nat n.
Proof.
  induction n as [|n [IH1 IH2]]; [split; vm_compute; intuition congruence|]. change (date_of (S n)) with (next_day (date_of n)). destruct (next_day_ok _ IH1) as [H1 H2]. split; [exact H1|]. lia.
Qed.
(** The model's calendar is the calendar. *)
Lemma ord2ymd_date n : ord2ymd (Z.of_nat n + 719163) = date_of n.
Proof. destruct (date_of_ok n) as [H1 H2]. destruct (ord2ymd_ok (Z.of_nat n + 719163) ltac:(lia)) as [H3 H4]. apply day_no_inj; [assumption|assumption|lia]. Qed.
Lemma date_of_inj n m : date_of n = date_of m -> n = m.
Proof. intros HE. destruct (date_of_ok n) as [_ H1], (date_of_ok m) as [_ H2]. rewrite HE in H1. lia. Qed.
