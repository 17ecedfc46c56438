(** Relative errors of the floats of [ElectrumSize], and counting the draws that give a number. *)
From Coq Require Import Lia ZArith List.
From Verif.Model Require Import Py Text Misc Mnemonic Floats ElectrumSize.
From Verif.Spec Require Import FloatSpec LogSpec MiscSpec.
From Verif.Proofs Require Import PyFacts NumbersFacts MiscFacts KeysFacts DerFacts CipherFacts FloatFacts.

(** 2^1074, not to be computed with: every double is an integer divided by it *)
Definition unit_ : Z := 2 ^ 1074.
Lemma unit_pos : 0 < unit_. Proof. apply Z.pow_pos_nonneg; lia. Qed.
Lemma unit_2 : 2 ^ 2148 = unit_ * unit_. Proof. unfold unit_. rewrite <- Z.pow_add_r by lia. reflexivity. Qed.
Lemma unit_big : 2 ^ 54 < unit_. Proof. vm_compute. reflexivity. Qed.
Lemma unit_one : 2 ^ 52 * 2 ^ (-52 + 1074) = unit_. Proof. vm_compute. reflexivity. Qed.
Lemma distance_unit a b m e : distance a b m e = Z.abs (a * unit_ - b * (m * 2 ^ (e + 1074))). Proof. reflexivity. Qed.
Lemma ceil_unit d : float_ceil d = - (- scaled d / unit_). Proof. reflexivity. Qed.
Lemma accurate_unit m e n : accurate m e n <-> finite_double m e /\ forall a b, 0 < a -> 0 < b ->
    (2 ^ a <= n ^ b -> a * (2 ^ 50 - 1) * unit_ <= b * 2 ^ 50 * (m * 2 ^ (e + 1074))) /\
    (n ^ b <= 2 ^ a -> b * 2 ^ 50 * (m * 2 ^ (e + 1074)) <= a * (2 ^ 50 + 1) * unit_).
Proof. reflexivity. Qed.
#[local] Opaque unit_.

(** A quotient of 1 or more has a relative error of 2^-53 *)
Lemma divide_error a b d : 0 < b -> b <= a -> true_divide a b = Ok d ->
  b * scaled d * (2 ^ 53 - 1) <= a * unit_ * 2 ^ 53 <= b * scaled d * (2 ^ 53 + 1).
Proof.
  intros Hb Ha HD. pose proof (true_divide_exact a b ltac:(lia) Hb) as HX. rewrite HD in HX. destruct HX as (_ & [(He & Hm & HN) _] & HE). rewrite distance_unit in HE. fold (scaled d) in HE.
  assert (0 < 2 ^ (expo d + 1074)) as HU by (apply Z.pow_pos_nonneg; lia). assert (scaled d = mant d * 2 ^ (expo d + 1074)) as HS by reflexivity. pose proof unit_big as H0.
  assert (2 ^ 52 <= mant d \/ 2 ^ (expo d + 1074) = 1) as HN' by (destruct HN as [HN|HN]; [now left|right; now rewrite HN]). clear HN He HD.
  revert HE HU HS H0 HN'. generalize (2 ^ (expo d + 1074)) as u. generalize (unit_) as s. generalize (scaled d) as x. revert Hm. generalize (mant d) as m. intros m Hm x s u HE HU HS H0 HN.
  assert (b * s <= a * s) as HA by (apply Z.mul_le_mono_nonneg_r; lia).
  assert (2 ^ 52 * u <= x) as HM.
  { destruct HN as [HN| ->]; [subst x; apply Z.mul_le_mono_nonneg_r; lia|]. exfalso. assert (x < 2 ^ 53) by lia. assert (b * (2 ^ 53 + 1) < b * s) by (apply Z.mul_lt_mono_pos_l; lia). assert (b * x <= b * 2 ^ 53) by (apply Z.mul_le_mono_nonneg_l; lia). lia. }
  assert (b * (2 ^ 52 * u) <= b * x) as HB by (apply Z.mul_le_mono_nonneg_l; lia). replace (b * (2 ^ 52 * u)) with (2 ^ 52 * (b * u)) in HB by ring. clear HS HM HA. rewrite Z.mul_sub_distr_l, Z.mul_add_distr_l, Z.mul_1_r. lia.
Qed.
(** The result of dividing is at least the greatest integer below it, one power of two at least *)
Lemma divide_ge a b d : 0 < b -> b <= a -> true_divide a b = Ok d -> unit_ <= scaled d.
Proof.
  intros Hb Ha HD. pose proof (true_divide_exact a b ltac:(lia) Hb) as HX. rewrite HD in HX. destruct HX as (_ & [HF HN] & _).
  destruct (Z.le_gt_cases (unit_) (scaled d)) as [|HL]; [assumption|]. exfalso. assert (finite_double (2 ^ 52) (-52)) as HO by (unfold finite_double; lia).
  specialize (HN _ _ HO). rewrite !distance_unit in HN. fold (scaled d) in HN. rewrite unit_one in HN.
  assert (b * unit_ <= a * unit_) as HA by (apply Z.mul_le_mono_nonneg_r; [pose proof unit_pos; lia|lia]). assert (b * scaled d < b * unit_) as HB by (apply Z.mul_lt_mono_pos_l; lia).
  revert HA HB HN. generalize (unit_) as s. intros s HA HB HN. lia.
Qed.

(** Rounding up *)
Lemma ceil_spec d : (float_ceil d - 1) * unit_ < scaled d <= float_ceil d * unit_.
Proof.
  rewrite ceil_unit. pose proof unit_pos as HP. revert HP. generalize (unit_) as s. intros s HP. pose proof (Z.div_mod (- scaled d) s ltac:(lia)) as H1. pose proof (Z.mod_pos_bound (- scaled d) s HP) as H2.
  set (q := - scaled d / s) in *. nia.
Qed.

(** A quotient below [Q * k], written with the error of two roundings *)
Lemma two_errors N X Q W s : 0 < s -> 0 < Q -> 0 <= X -> 0 <= W ->
  X * (2 ^ 53 - 1) <= N * s * 2 ^ 53 <= X * (2 ^ 53 + 1) -> Q * W * (2 ^ 53 - 1) <= X * s * 2 ^ 53 <= Q * W * (2 ^ 53 + 1) ->
  Q * W * (2 ^ 53 - 1) * (2 ^ 53 - 1) <= N * s * s * 2 ^ 53 * 2 ^ 53 <= Q * W * (2 ^ 53 + 1) * (2 ^ 53 + 1).
Proof.
  intros Hs HQ HX HW [A1 A2] [B1 B2]. split.
  - apply (Z.le_trans _ (X * s * 2 ^ 53 * (2 ^ 53 - 1))); [apply Z.mul_le_mono_nonneg_r; [lia|exact B1]|].
    replace (X * s * 2 ^ 53 * (2 ^ 53 - 1)) with (X * (2 ^ 53 - 1) * (s * 2 ^ 53)) by ring. replace (N * s * s * 2 ^ 53 * 2 ^ 53) with (N * s * 2 ^ 53 * (s * 2 ^ 53)) by ring. apply Z.mul_le_mono_nonneg_r; [lia|exact A1].
  - apply (Z.le_trans _ (X * s * 2 ^ 53 * (2 ^ 53 + 1))); [|apply Z.mul_le_mono_nonneg_r; [lia|exact B2]].
    replace (X * s * 2 ^ 53 * (2 ^ 53 + 1)) with (X * (2 ^ 53 + 1) * (s * 2 ^ 53)) by ring. replace (N * s * s * 2 ^ 53 * 2 ^ 53) with (N * s * 2 ^ 53 * (s * 2 ^ 53)) by ring. apply Z.mul_le_mono_nonneg_r; [lia|exact A2].
Qed.

(** The logarithm is between 10 and 64 *)
Lemma log_bounds m e n : accurate m e n -> 2048 <= n <= 2 ^ 63 -> 10 * unit_ <= m * 2 ^ (e + 1074) <= 64 * unit_.
Proof.
  intros HA Hn. rewrite accurate_unit in HA. destruct HA as [_ HA]. destruct (HA 11 1 ltac:(lia) ltac:(lia)) as [H1 _]. destruct (HA 63 1 ltac:(lia) ltac:(lia)) as [_ H2]. rewrite Z.pow_1_r in H1, H2. specialize (H1 ltac:(change (2 ^ 11) with 2048; lia)). specialize (H2 ltac:(lia)).
  pose proof unit_pos as HP. revert H1 H2 HP. generalize (unit_) as s. generalize (m * 2 ^ (e + 1074)) as q. intros. lia.
Qed.
Lemma word_count_bounds m e n bits w : accurate m e n -> 2048 <= n <= 2 ^ 63 -> 132 <= bits -> electrum_word_count (mk_double m e) bits = Ok w ->
  1 <= w /\ 2 ^ (bits * (2 ^ 48 - 1)) <= n ^ (w * 2 ^ 48) /\ n ^ ((w - 1) * 2 ^ 48) <= 2 ^ (bits * (2 ^ 48 + 1)).
Proof.
  intros HA Hn Hb HW. pose proof (log_bounds _ _ _ HA Hn) as HQ. rewrite accurate_unit in HA. destruct HA as [_ HA]. unfold electrum_word_count in HW. apply bind_Ok in HW as (d & HD & HW). injection HW as <-. unfold int_div_float in HD. apply bind_Ok in HD as (x & HX & HD). unfold float_of_int in HX.
  pose proof (ceil_spec d) as HC. set (w := float_ceil d) in *. change (scaled (mk_double m e)) with (m * 2 ^ (e + 1074)) in HD. set (Q := m * 2 ^ (e + 1074)) in *.
  pose proof unit_pos as HP. pose proof (divide_error bits 1 x ltac:(lia) ltac:(lia) HX) as EX. rewrite Z.mul_1_l in EX.
  assert (Q <= scaled x) as HL. { revert EX HP HQ. generalize (unit_) as s. generalize (scaled x) as X. intros X s EX HP HQ. assert (132 * s <= bits * s) by (apply Z.mul_le_mono_nonneg_r; lia). lia. }
  assert (0 < Q) as HQp by (revert HQ HP; generalize (unit_) as s; intros; lia). pose proof (divide_error (scaled x) Q d HQp HL HD) as ED. pose proof (divide_ge (scaled x) Q d HQp HL HD) as HG.
  assert (0 <= scaled x) as HX0 by lia. assert (0 <= scaled d) as HD0 by (revert HG HP; generalize (unit_) as s; intros; lia). pose proof (two_errors bits (scaled x) Q (scaled d) (unit_) HP HQp HX0 HD0 EX ED) as [T1 T2]. clear EX ED HL HX HD HX0.
  assert (1 <= w) as Hw. { revert HG HP HC. generalize (unit_) as s. clear. intros s HG HP HC. assert (0 < w * s) by lia. nia. }
  split; [exact Hw|]. split.
  - apply Z.nlt_ge. intros HL. destruct (HA (bits * (2 ^ 48 - 1)) (w * 2 ^ 48) ltac:(lia) ltac:(lia)) as [_ H]. specialize (H ltac:(lia)). clear HL HA HG HQ. fold Q in H. revert HP HC T1 T2 H HD0. generalize (unit_) as s. generalize (scaled d) as W. clearbody w Q. clear m e. intros W s HP HC T1 T2 H HD0.
    assert (Q * W <= Q * (w * s)) as H1 by (apply Z.mul_le_mono_nonneg_l; lia). 
    assert (bits * s * s * 2 ^ 53 * 2 ^ 53 <= Q * (w * s) * (2 ^ 53 + 1) * (2 ^ 53 + 1)) as H2 by lia. clear T1 T2 HC H1. replace (Q * (w * s)) with (Q * w * s) in H2 by ring.
    assert (bits * s * 2 ^ 53 * 2 ^ 53 <= Q * w * (2 ^ 53 + 1) * (2 ^ 53 + 1)) as H3. { apply (Z.mul_le_mono_pos_r _ _ s HP). lia. }
    assert (Q * w * 2 ^ 98 <= bits * s * ((2 ^ 48 - 1) * (2 ^ 50 + 1))) as H4 by lia. assert (0 < bits * s) as HU by (apply Z.mul_pos_pos; lia). revert H3 H4 HU. clear. generalize (bits * s) as u. generalize (Q * w) as v. intros. lia.
  - apply Z.nlt_ge. intros HL. destruct (Z.eq_dec w 1) as [E|E]. { rewrite E in HL. change ((1 - 1) * 2 ^ 48) with 0 in HL. rewrite Z.pow_0_r in HL. assert (0 < 2 ^ (bits * (2 ^ 48 + 1))) by (apply Z.pow_pos_nonneg; lia). lia. }
    destruct (HA (bits * (2 ^ 48 + 1)) ((w - 1) * 2 ^ 48) ltac:(lia) ltac:(lia)) as [H _]. specialize (H ltac:(lia)). clear HL HA HG HQ. fold Q in H. revert HP HC T1 T2 H HD0. generalize (unit_) as s. generalize (scaled d) as W. clearbody w Q. clear m e. intros W s HP HC T1 T2 H HD0.
    assert (Q * ((w - 1) * s) <= Q * W) as H1 by (apply Z.mul_le_mono_nonneg_l; lia). replace (Q * ((w - 1) * s)) with (Q * (w - 1) * s) in H1 by ring.
    assert (Q * (w - 1) * s * (2 ^ 53 - 1) * (2 ^ 53 - 1) <= bits * s * s * 2 ^ 53 * 2 ^ 53) as H2 by lia. clear T1 T2 HC H1.
    assert (Q * (w - 1) * (2 ^ 53 - 1) * (2 ^ 53 - 1) <= bits * s * 2 ^ 53 * 2 ^ 53) as H3. { apply (Z.mul_le_mono_pos_r _ _ s HP). lia. }
    assert (bits * s * ((2 ^ 48 + 1) * (2 ^ 50 - 1)) <= Q * (w - 1) * 2 ^ 98) as H4 by lia. assert (0 < bits * s) as HU by (apply Z.mul_pos_pos; lia). revert H3 H4 HU. clear. generalize (bits * s) as u. generalize (Q * (w - 1)) as v. intros. lia.
Qed.

(** Enough bytes are drawn *)
Lemma size_bounds m e n w l size : accurate m e n -> 2048 <= n <= 2 ^ 63 -> 1 <= w -> 0 < l <= 2 ^ 46 -> n ^ w <= 2 ^ l -> random_size (mk_double m e) w = Ok size ->
  n ^ w * 2 ^ 15 <= 256 ^ size /\ 256 ^ size <= n ^ w * 2 ^ 25.
Proof.
  intros HA Hn Hw Hl HB HS. pose proof (log_bounds _ _ _ HA Hn) as HQ. rewrite accurate_unit in HA. destruct HA as [_ HA]. unfold random_size in HS. apply bind_Ok in HS as (d & HD & HS). cbv zeta in HS. apply Ok_inj in HS. unfold int_mul_float in HD. apply bind_Ok in HD as (x & HX & HD). unfold float_of_int in HX.
  pose proof (ceil_spec d) as HC. set (c := float_ceil d) in *. change (scaled (mk_double m e)) with (m * 2 ^ (e + 1074)) in HD. set (Q := m * 2 ^ (e + 1074)) in *.
  pose proof unit_pos as HP. pose proof (divide_error w 1 x ltac:(lia) ltac:(lia) HX) as EX. rewrite Z.mul_1_l in EX. pose proof (divide_ge w 1 x ltac:(lia) ltac:(lia) HX) as GX.
  destruct (HA l w ltac:(lia) ltac:(lia)) as [_ HU]. specialize (HU HB). fold Q in HU. clear HB.
  rewrite unit_2 in HD.
  assert (unit_ * unit_ <= scaled x * Q) as HL. { revert HQ HP GX. generalize (unit_) as s. intros s HQ HP GX. apply Z.mul_le_mono_nonneg; lia. }
  pose proof (divide_error (scaled x * Q) (unit_ * unit_) d (Z.mul_pos_pos _ _ HP HP) HL HD) as ED. pose proof (divide_ge (scaled x * Q) (unit_ * unit_) d (Z.mul_pos_pos _ _ HP HP) HL HD) as GD. clear HL HD HX.
  assert (Q * w * 2 ^ 106 <= scaled d * ((2 ^ 53 + 1) * (2 ^ 53 + 1)) /\ scaled d * ((2 ^ 53 - 1) * (2 ^ 53 - 1)) <= Q * w * 2 ^ 106) as [T1 T2].
  { revert EX ED HP GX GD HQ. generalize (unit_) as s. generalize (scaled d) as W. generalize (scaled x) as X. clearbody Q. clear - Hw. intros X W s EX ED HP GX GD HQ.
    assert (s * W * (2 ^ 53 - 1) <= X * Q * 2 ^ 53 <= s * W * (2 ^ 53 + 1)) as [B1 B2] by (split; apply (Z.mul_le_mono_pos_r _ _ s HP); lia). clear ED. destruct EX as [A1 A2]. split; apply (Z.mul_le_mono_pos_r _ _ s HP).
    - assert (w * s * 2 ^ 53 * Q <= X * (2 ^ 53 + 1) * Q) as A3 by (apply Z.mul_le_mono_nonneg_r; lia). lia.
    - assert (X * (2 ^ 53 - 1) * Q <= w * s * 2 ^ 53 * Q) as A3 by (apply Z.mul_le_mono_nonneg_r; lia). lia. }
  clear EX ED GX HQ. assert (1 <= c) as Hc. { revert GD HP HC. generalize (unit_) as s. clear. intros s HG HP HC. assert (0 < c * s) by lia. nia. }
  assert (l * unit_ <= 2 ^ 46 * unit_) as HLs by (apply Z.mul_le_mono_nonneg_r; lia).
  assert (n ^ w <= 2 ^ (c + 1)) as K1.
  { apply Z.nlt_ge. intros HL. destruct (HA (c + 1) w ltac:(lia) ltac:(lia)) as [H _]. specialize (H ltac:(lia)). fold Q in H. clear HL HA HS. revert HP HC T1 T2 H HU GD HLs. generalize (unit_) as s. generalize (scaled d) as W. clearbody c Q. clear. intros W s HP HC T1 T2 H HU GD HLs. lia. }
  assert (2 ^ (c - 2) <= n ^ w) as K2.
  { destruct (Z.le_gt_cases c 2) as [Hc2|Hc2]. { apply (Z.le_trans _ 1); [change 1 with (2 ^ 0); apply Z.pow_le_mono_r; lia|]. assert (0 < n ^ w) by (apply Z.pow_pos_nonneg; lia). lia. }
    apply Z.nlt_ge. intros HL. destruct (HA (c - 2) w ltac:(lia) ltac:(lia)) as [_ H]. specialize (H ltac:(lia)). fold Q in H. clear HL HA HS. revert HP HC T1 T2 H HU GD HLs. generalize (unit_) as s. generalize (scaled d) as W. clearbody c Q. clear. intros W s HP HC T1 T2 H HU GD HLs. lia. }
  clear - K1 K2 HS Hc Hw Hn. pose proof (Z.div_mod (c + 16 + 7) 8 ltac:(lia)) as D1. pose proof (Z.mod_pos_bound (c + 16 + 7) 8 ltac:(lia)) as D2. rewrite HS in D1. change 256 with (2 ^ 8). rewrite <- Z.pow_mul_r by lia. split.
  - apply (Z.le_trans _ (2 ^ (c + 1) * 2 ^ 15)); [apply Z.mul_le_mono_nonneg_r; lia|]. rewrite <- Z.pow_add_r by lia. apply Z.pow_le_mono_r; lia.
  - destruct (Z.le_gt_cases c 2) as [Hc2|Hc2].
    + apply (Z.le_trans _ (1 * 2 ^ 25)); [change (1 * 2 ^ 25) with (2 ^ 25); apply Z.pow_le_mono_r; lia|]. apply Z.mul_le_mono_nonneg_r; [lia|]. assert (0 < n ^ w) by (apply Z.pow_pos_nonneg; lia). lia.
    + apply (Z.le_trans _ (2 ^ (c - 2) * 2 ^ 25)); [|apply Z.mul_le_mono_nonneg_r; lia]. rewrite <- Z.pow_add_r by lia. apply Z.pow_le_mono_r; lia.
Qed.

(** A quotient that is a double is found exactly *)
Lemma divide_representable a b d m e : 0 <= a -> 0 < b -> finite_double m e -> a * unit_ = b * (m * 2 ^ (e + 1074)) -> true_divide a b = Ok d -> scaled d = m * 2 ^ (e + 1074).
Proof.
  intros Ha Hb HF HE HD. pose proof (true_divide_exact a b Ha Hb) as HX. rewrite HD in HX. destruct HX as (_ & [_ HN] & _). specialize (HN m e HF). rewrite !distance_unit in HN. fold (scaled d) in HN. rewrite HE in HN. revert HN. generalize (m * 2 ^ (e + 1074)) as y. generalize (scaled d) as x. clear - Hb. intros x y HN.
  assert (b * y = b * x) as HE by lia. apply Z.mul_reg_l in HE; lia.
Qed.
Lemma integer_double n : 0 < n < 2 ^ 53 -> exists m e, finite_double m e /\ m * 2 ^ (e + 1074) = n * unit_.
Proof.
  intros Hn. pose proof (Z.log2_spec n ltac:(lia)) as [H1 H2]. pose proof (Z.log2_nonneg n) as H0. assert (Z.log2 n < 53) as H3 by (apply Z.log2_lt_pow2; lia). set (k := Z.log2 n) in *. exists (n * 2 ^ (52 - k)), (k - 52). split.
  - assert (0 < 2 ^ (52 - k)) as HP by (apply Z.pow_pos_nonneg; lia). assert (2 ^ k * 2 ^ (52 - k) = 2 ^ 52) as E by (rewrite <- Z.pow_add_r by lia; f_equal; lia). assert (2 ^ Z.succ k * 2 ^ (52 - k) = 2 ^ 53) as E' by (rewrite <- Z.pow_add_r by lia; f_equal; lia).
    assert (2 ^ k * 2 ^ (52 - k) <= n * 2 ^ (52 - k)) by (apply Z.mul_le_mono_nonneg_r; lia). assert (n * 2 ^ (52 - k) < 2 ^ Z.succ k * 2 ^ (52 - k)) by (apply Z.mul_lt_mono_pos_r; lia). unfold finite_double. lia.
  - rewrite <- Z.mul_assoc, <- Z.pow_add_r by lia. apply (f_equal (Z.mul n)). replace (52 - k + (k - 52 + 1074)) with 1074 by lia. reflexivity.
Qed.
Lemma not_too_big a b : 0 < b -> a < b * 2 ^ 1000 -> ~ too_big a b.
Proof.
  unfold too_big. intros Hb Ha HX. assert (b * 2 ^ 1000 <= b * (2 ^ 1024 - 2 ^ 970)) as HL; [|lia]. apply Z.mul_le_mono_nonneg_l; [lia|]. vm_compute. discriminate.
Qed.
Lemma divide_ok a b : 0 <= a -> 0 < b -> a < b * 2 ^ 1000 -> exists d, true_divide a b = Ok d.
Proof. intros Ha Hb HL. pose proof (true_divide_exact a b Ha Hb) as HX. destruct (true_divide a b) as [d|x]; [eauto|]. exfalso. now apply (not_too_big a b Hb HL). Qed.

(** The logarithm of a power of two, if it is exact *)
Lemma word_count_exact m e k bits : 1 <= k <= bits -> bits + k <= 2 ^ 53 -> m * 2 ^ (e + 1074) = k * unit_ -> electrum_word_count (mk_double m e) bits = Ok ((bits + k - 1) / k).
Proof.
  intros Hk Hb HQ. unfold electrum_word_count, int_div_float, float_of_int. change (scaled (mk_double m e)) with (m * 2 ^ (e + 1074)). rewrite HQ. pose proof unit_pos as HP.
  destruct (divide_ok bits 1 ltac:(lia) ltac:(lia)) as [x HX]. { rewrite Z.mul_1_l. apply (Z.lt_trans _ (2 ^ 53)); [lia|vm_compute; reflexivity]. } rewrite HX. cbn [bind].
  destruct (integer_double bits ltac:(lia)) as (mb & eb & HFb & HEb). pose proof (divide_representable bits 1 x mb eb ltac:(lia) ltac:(lia) HFb ltac:(rewrite Z.mul_1_l; congruence) HX) as HS. rewrite HEb in HS. rewrite HS. clear x HX HS.
  assert (0 < k * unit_) as HK by (apply Z.mul_pos_pos; lia). assert (0 <= bits * unit_) as HB0 by (apply Z.mul_nonneg_nonneg; lia).
  destruct (divide_ok (bits * unit_) (k * unit_) HB0 HK) as [d HD].
  { assert (bits * unit_ < 2 ^ 1000 * unit_) as H1 by (apply Z.mul_lt_mono_pos_r; [exact HP|]; apply (Z.lt_trans _ (2 ^ 53)); [lia|vm_compute; reflexivity]). assert (1 * unit_ <= k * unit_) as H2 by (apply Z.mul_le_mono_nonneg_r; lia).
    assert (0 < 2 ^ 1000) as H3 by (apply Z.pow_pos_nonneg; lia). revert H1 H2 H3. generalize (2 ^ 1000) as u. generalize (unit_) as s. clear. intros s u H1 H2 H3. assert (1 * s * u <= k * s * u) by (apply Z.mul_le_mono_nonneg_r; lia). lia. }
  rewrite HD. cbn [bind]. f_equal. assert (k * unit_ <= bits * unit_) as HL by (apply Z.mul_le_mono_nonneg_r; lia). pose proof (divide_error _ _ d HK HL HD) as HE. pose proof (ceil_spec d) as HC. set (w := float_ceil d) in *.
  pose proof (Z.div_mod (bits + k - 1) k ltac:(lia)) as D1. pose proof (Z.mod_pos_bound (bits + k - 1) k ltac:(lia)) as D2. set (c := (bits + k - 1) / k) in *. set (r := (bits + k - 1) mod k) in *. assert (1 <= c) as Hc by (apply Z.div_le_lower_bound; lia).
  assert (k * c <= 2 ^ 53) as Hck by lia. assert (k * (c - 1) < 2 ^ 53) as Hck1 by lia.
  destruct (Z.eq_dec bits (k * c)) as [HX|HX].
  - assert (c < 2 ^ 53) as Hc2 by (clear - Hk HX Hb Hc; nia). destruct (integer_double c ltac:(lia)) as (mc & ec & HFc & HEc). assert (scaled d = c * unit_) as HS. { rewrite <- HEc. apply (divide_representable _ _ d mc ec HB0 HK HFc); [|exact HD]. rewrite HEc, HX. ring. }
    rewrite HS in HC. clear - HC HP. revert HC HP. generalize (unit_) as s. intros s [H1 H2] HP. apply Z.mul_lt_mono_pos_r in H1; [|exact HP]. apply Z.mul_le_mono_pos_r in H2; [|exact HP]. lia.
  - assert (k * (c - 1) + 1 <= bits <= k * c - 1) as [B1 B2] by lia. clear HD HB0 HL HK HEb HQ HX. revert HE HC HP. generalize (unit_) as s. generalize (scaled d) as W. clearbody c w r. clear - B1 B2 Hb Hk Hc Hck Hck1. intros W s [E1 E2] [C1 C2] HP.
    assert (k * W * (2 ^ 53 - 1) <= bits * s * 2 ^ 53 <= k * W * (2 ^ 53 + 1)) as [F1 F2] by (split; apply (Z.mul_le_mono_pos_r _ _ s HP); lia). clear E1 E2.
    assert (W <= c * s) as U1.
    { apply Z.nlt_ge. intros HN. assert (k * (c * s + 1) <= k * W) as G1 by (apply Z.mul_le_mono_nonneg_l; lia). assert (bits * s <= (k * c - 1) * s) as G2 by (apply Z.mul_le_mono_nonneg_r; lia). assert (k * c * s <= 2 ^ 53 * s) as G3 by (apply Z.mul_le_mono_nonneg_r; lia). lia. }
    assert ((c - 1) * s < W) as U2.
    { apply Z.nle_gt. intros HN. assert (k * W <= k * ((c - 1) * s)) as G1 by (apply Z.mul_le_mono_nonneg_l; lia). assert ((k * (c - 1) + 1) * s <= bits * s) as G2 by (apply Z.mul_le_mono_nonneg_r; lia). assert (k * (c - 1) * s < 2 ^ 53 * s) as G3 by (apply Z.mul_lt_mono_pos_r; lia). lia. }
    assert ((w - 1) * s < c * s) as V1 by lia. assert ((c - 1) * s < w * s) as V2 by lia. apply Z.mul_lt_mono_pos_r in V1; [|exact HP]. apply Z.mul_lt_mono_pos_r in V2; [|exact HP]. lia.
Qed.

(** The only error is that the number of bits is too big for a float *)
Lemma word_count_errors m e n bits x : accurate m e n -> 2048 <= n <= 2 ^ 63 -> 132 <= bits -> (electrum_word_count (mk_double m e) bits = Err x <-> x = OverflowError /\ 2 ^ 1024 - 2 ^ 970 <= bits).
Proof.
  intros HA Hn Hb. pose proof (log_bounds _ _ _ HA Hn) as HQ. clear HA. unfold electrum_word_count, int_div_float, float_of_int. change (scaled (mk_double m e)) with (m * 2 ^ (e + 1074)). pose proof (true_divide_exact bits 1 ltac:(lia) ltac:(lia)) as HX. unfold too_big in HX. rewrite Z.mul_1_l in HX.
  destruct (true_divide bits 1) as [d|y]; cbn [bind].
  - destruct HX as (H1 & [(He & Hm & _) _] & _). assert (scaled d <= 2 ^ 53 * 2 ^ (971 + 1074)) as HS. { unfold scaled. apply Z.mul_le_mono_nonneg; [lia|lia|apply Z.pow_nonneg; lia|apply Z.pow_le_mono_r; lia]. }
    rewrite <- Z.pow_add_r in HS by lia. change (53 + (971 + 1074)) with 2098 in HS. set (Q := m * 2 ^ (e + 1074)) in *. pose proof unit_pos as HP. assert (0 < Q) as HQp by (revert HQ HP; generalize (unit_) as s; intros; lia).
    assert (0 <= scaled d) as H0 by (unfold scaled; apply Z.mul_nonneg_nonneg; [lia|apply Z.pow_nonneg; lia]).
    assert (~ too_big (scaled d) Q) as HT.
    { unfold too_big. intros HT. assert (10 * unit_ * (2 ^ 1024 - 2 ^ 970) <= Q * (2 ^ 1024 - 2 ^ 970)) as HL by (apply Z.mul_le_mono_nonneg_r; [vm_compute; discriminate|lia]). assert (2 ^ 2098 < 10 * unit_ * (2 ^ 1024 - 2 ^ 970)) as HV by (vm_compute; reflexivity). lia. }
    pose proof (true_divide_exact (scaled d) Q H0 HQp) as HD. destruct (true_divide (scaled d) Q) as [d'|y]; cbn [bind]; [|now destruct HD]. split; [discriminate|]. intros [_ HX]. contradiction.
  - destruct HX as [-> HX]. split; [intros HY; injection HY as <-; auto|]. intros [-> _]. reflexivity.
Qed.
Lemma size_ok m e n w l : accurate m e n -> 2048 <= n <= 2 ^ 63 -> 1 <= w -> 0 < l <= 2 ^ 46 -> n ^ w <= 2 ^ l -> exists size, random_size (mk_double m e) w = Ok size.
Proof.
  intros HA Hn Hw Hl HB. pose proof (log_bounds _ _ _ HA Hn) as HQ. rewrite accurate_unit in HA. destruct HA as [_ HA]. destruct (HA l w ltac:(lia) ltac:(lia)) as [_ HU]. specialize (HU HB). clear HA HB.
  unfold random_size, int_mul_float, float_of_int. change (scaled (mk_double m e)) with (m * 2 ^ (e + 1074)). set (Q := m * 2 ^ (e + 1074)) in *. pose proof unit_pos as HP.
  assert (w < 2 ^ 47) as Hw2.
  { assert (l * unit_ <= 2 ^ 46 * unit_) as HLs by (apply Z.mul_le_mono_nonneg_r; lia). clear Hl. revert HQ HU HP HLs. generalize (unit_) as s. clearbody Q. intros s HQ HU HP HLs. assert (w * (10 * s) <= w * Q) as H1 by (apply Z.mul_le_mono_nonneg_l; lia).
    assert (w * s < 2 ^ 47 * s) as H2 by lia. apply Z.mul_lt_mono_pos_r in H2; assumption. }
  destruct (divide_ok w 1 ltac:(lia) ltac:(lia)) as [x HX]. { rewrite Z.mul_1_l. apply (Z.lt_trans _ (2 ^ 47)); [lia|vm_compute; reflexivity]. }
  rewrite HX. cbn [bind]. pose proof (divide_error w 1 x ltac:(lia) ltac:(lia) HX) as [EX _]. rewrite Z.mul_1_l in EX.
  assert (0 <= scaled x) as HX0. { pose proof (divide_ge w 1 x ltac:(lia) ltac:(lia) HX) as GX. lia. }
  assert (scaled x <= 2 ^ 48 * unit_) as HX1. { revert EX HP. generalize (unit_) as s. intros s EX HP. assert (w * s <= 2 ^ 47 * s) by (apply Z.mul_le_mono_nonneg_r; lia). lia. }
  assert (scaled x * Q <= 2 ^ 48 * unit_ * (64 * unit_)) as HM by (apply Z.mul_le_mono_nonneg; lia).
  destruct (divide_ok (scaled x * Q) (2 ^ 2148)) as [d HD].
  - apply Z.mul_nonneg_nonneg; lia.
  - apply Z.pow_pos_nonneg; lia.
  - apply (Z.le_lt_trans _ _ _ HM). vm_compute. reflexivity.
  - rewrite HD. cbn [bind]. eauto.
Qed.

(** There are accurate logarithms *)
Lemma accurate_from K t m e n : 0 < K -> 2 ^ 50 <= t -> 0 < n -> 2 ^ t <= n ^ K -> n ^ K < 2 ^ (t + 1) -> finite_double m e -> m * 2 ^ (e + 1074) * K = t * unit_ -> accurate m e n.
Proof.
  intros HK Ht Hn H1 H2 HF HE. rewrite accurate_unit. split; [exact HF|]. intros a b Ha Hb. set (Q := m * 2 ^ (e + 1074)) in *. pose proof unit_pos as HP. split; intros HL; apply (Z.mul_le_mono_pos_r _ _ K HK).
  - replace (b * 2 ^ 50 * Q * K) with (b * 2 ^ 50 * (Q * K)) by ring. rewrite HE. assert (a * K < (t + 1) * b) as HA.
    { apply (Z.pow_lt_mono_r_iff 2); [lia|lia|]. rewrite !Z.pow_mul_r by lia. apply (Z.le_lt_trans _ ((n ^ b) ^ K)); [apply Z.pow_le_mono_l; split; [apply Z.pow_nonneg; lia|exact HL]|]. rewrite <- Z.pow_mul_r, Z.mul_comm, Z.pow_mul_r by lia. apply Z.pow_lt_mono_l; [lia|]. split; [apply Z.pow_nonneg; lia|exact H2]. }
    replace (a * (2 ^ 50 - 1) * unit_ * K) with (a * K * (2 ^ 50 - 1) * unit_) by ring. rewrite Z.mul_assoc. apply Z.mul_le_mono_nonneg_r; [lia|]. clear HE HP HF H1 H2 HL. clearbody Q. assert (b * 2 ^ 50 <= b * t) by (apply Z.mul_le_mono_nonneg_l; lia). lia.
  - replace (b * 2 ^ 50 * Q * K) with (b * 2 ^ 50 * (Q * K)) by ring. rewrite HE. assert (t * b <= a * K) as HA.
    { apply (Z.pow_le_mono_r_iff 2); [lia|apply Z.mul_nonneg_nonneg; lia|]. rewrite !Z.pow_mul_r by lia. apply (Z.le_trans _ ((n ^ K) ^ b)); [apply Z.pow_le_mono_l; split; [apply Z.pow_nonneg; lia|exact H1]|]. rewrite <- Z.pow_mul_r, (Z.mul_comm K), Z.pow_mul_r by lia. apply Z.pow_le_mono_l. split; [apply Z.pow_nonneg; lia|exact HL]. }
    replace (a * (2 ^ 50 + 1) * unit_ * K) with (a * K * (2 ^ 50 + 1) * unit_) by ring. rewrite Z.mul_assoc. apply Z.mul_le_mono_nonneg_r; [lia|]. clear - HA Ht Hb. assert (0 <= t * b) by (apply Z.mul_nonneg_nonneg; lia). lia.
Qed.
Lemma accurate_exists n : 2048 <= n < 2 ^ 32 -> exists m e, accurate m e n.
Proof.
  intros Hn. assert (exists K, K = 2 ^ 48) as [K HK] by eauto. pose proof (Z.log2_spec (n ^ K) ltac:(apply Z.pow_pos_nonneg; lia)) as [H1 H2]. pose proof (Z.log2_nonneg (n ^ K)) as H0. set (t := Z.log2 (n ^ K)) in *. replace (Z.succ t) with (t + 1) in H2 by lia.
  assert (11 * K <= t) as T1. { unfold t. apply Z.log2_le_pow2; [apply Z.pow_pos_nonneg; lia|]. rewrite Z.pow_mul_r by lia. apply Z.pow_le_mono_l. lia. }
  assert (t < 32 * K) as T2. { unfold t. apply Z.log2_lt_pow2; [apply Z.pow_pos_nonneg; lia|]. rewrite Z.pow_mul_r by lia. apply Z.pow_lt_mono_l; lia. }
  clearbody t. assert (2 ^ (-49 + 1074) * 2 ^ 49 = unit_) as E1 by (vm_compute; reflexivity). assert (2 ^ (-48 + 1074) * 2 ^ 48 = unit_) as E2 by (vm_compute; reflexivity).
  destruct (Z.lt_ge_cases t (2 ^ 52)) as [HC|HC].
  - exists (2 * t), (-49). apply (accurate_from K t); [lia|lia|lia|exact H1|exact H2|unfold finite_double; lia|]. rewrite <- E1, HK. change (2 ^ 49) with (2 * 2 ^ 48). ring.
  - exists t, (-48). apply (accurate_from K t); [lia|lia|lia|exact H1|exact H2|unfold finite_double; lia|]. rewrite <- E2, HK. ring.
Qed.
Lemma accurate_2048 : accurate (11 * 2 ^ 49) (-49) 2048.
Proof.
  rewrite accurate_unit. split; [unfold finite_double; lia|]. intros a b Ha Hb. change (-49 + 1074) with 1025. change 2048 with (2 ^ 11). rewrite <- Z.pow_mul_r by lia. assert (11 * 2 ^ 49 * 2 ^ 1025 = 11 * unit_) as -> by (vm_compute; reflexivity). pose proof unit_pos as HP.
  clear - HP Ha Hb; split; intros HL; apply Z.pow_le_mono_r_iff in HL; try lia; [assert (a * unit_ <= 11 * b * unit_) by (apply Z.mul_le_mono_nonneg_r; lia); assert (0 <= a * unit_) by (apply Z.mul_nonneg_nonneg; lia)|assert (11 * b * unit_ <= a * unit_) by (apply Z.mul_le_mono_nonneg_r; lia); assert (0 <= a * unit_) by (apply Z.mul_nonneg_nonneg; lia)]; lia.
Qed.

(** The draws of [size] bytes that give v modulo M: as many as numbers v, v + M, v + 2 M, ... below 256^size *)
Lemma zrange_NoDup k : forall a, NoDup (zrange_nat a k).
Proof.
  induction k as [|k IH]; intros a; cbn [zrange_nat]; constructor; [|apply IH]. intros HI. apply zrange_nat_in in HI. lia.
Qed.
Lemma zrange_nat_all r k : forall a, a <= r < a + Z.of_nat k -> In r (zrange_nat a k).
Proof. induction k as [|k IH]; intros a Hr; [lia|]. cbn [zrange_nat]. destruct (Z.eq_dec a r) as [->|]; [now left|]. right. apply IH. lia. Qed.
Lemma zrange_nat_length k : forall a, length (zrange_nat a k) = k.
Proof. induction k as [|k IH]; intros a; cbn [zrange_nat length]; congruence. Qed.
Lemma draws_count size M v : 0 <= size -> 0 <= v < M -> M <= 256 ^ size ->
  exists c, number_of (fun s => bytes_ok s = true /\ zlen s = size /\ be_bytes_to_int s mod M = v) c /\ 256 ^ size / M <= c <= 256 ^ size / M + 1.
Proof.
  intros Hs Hv HM. set (N := 256 ^ size) in *. set (c := (N - v + (M - 1)) / M). pose proof (Z.div_mod (N - v + (M - 1)) M ltac:(lia)) as D1. pose proof (Z.mod_pos_bound (N - v + (M - 1)) M ltac:(lia)) as D2. fold c in D1.
  pose proof (Z.div_mod N M ltac:(lia)) as D3. pose proof (Z.mod_pos_bound N M ltac:(lia)) as D4. assert (N / M <= c <= N / M + 1) as HC by nia. assert (0 <= c) as Hc by (assert (0 <= N / M) by (apply Z.div_pos; lia); lia). exists c. split; [|exact HC].
  assert (forall i, 0 <= i < c -> 0 <= v + M * i < N) as HR by (intros i Hi; nia). assert (forall i, 0 <= i -> v + M * i < N -> i < c) as HR' by (intros i Hi HL; nia). clear D1 D2 D3 D4 HC.
  assert (forall x, 0 <= x < N -> exists b, to_bytes_be x size = Ok b /\ bytes_ok b = true /\ zlen b = size /\ be_int b = x) as HB.
  { intros x Hx. destruct (to_bytes_le_spec x size Hs) as [H1 _]. destruct (H1 Hx) as (b & HE & HB & HL & HV). exists (rev b). pose proof (be_of_le x (Some size)) as HO. unfold int_to_be_bytes, int_to_le_bytes in HO. rewrite HE in HO. split; [exact HO|]. rewrite bytes_ok_rev, zlen_rev. split; [exact HB|]. split; [exact HL|]. rewrite <- val_be_int, val_be_rev, rev_involutive. first [exact HV|rewrite <- val_le_int; exact HV]. }
  set (f := fun i => match to_bytes_be (v + M * i) size with Ok b => b | Err _ => [] end).
  assert (forall i, 0 <= i < c -> bytes_ok (f i) = true /\ zlen (f i) = size /\ be_int (f i) = v + M * i) as HF. { intros i Hi. unfold f. destruct (HB _ (HR i Hi)) as (b & -> & HX). exact HX. }
  exists (map f (zrange_nat 0 (Z.to_nat c))). split; [|split].
  - assert (forall i, In i (zrange_nat 0 (Z.to_nat c)) -> 0 <= i < c) as HI by (intros i HI; apply zrange_nat_in in HI; lia). pose proof (zrange_NoDup (Z.to_nat c) 0) as HN. revert HI HN. generalize (zrange_nat 0 (Z.to_nat c)) as l. intros l HI HN. induction HN as [|i l Hi HN IH]; cbn [map]; constructor.
    + intros HX. apply in_map_iff in HX as (j & HE & Hj). apply (f_equal be_int) in HE. rewrite (proj2 (proj2 (HF j (HI j (or_intror Hj))))), (proj2 (proj2 (HF i (HI i (or_introl eq_refl))))) in HE. apply Hi. replace i with j by (clear - HE Hv; nia). exact Hj.
    + apply IH. intros j Hj. apply HI. now right.
  - intros s. rewrite in_map_iff. split.
    + intros (i & <- & HI). apply zrange_nat_in in HI. destruct (HF i ltac:(lia)) as (H1 & H2 & H3). split; [exact H1|]. split; [exact H2|]. unfold be_bytes_to_int. rewrite H3, Z.mul_comm, Z_mod_plus_full. apply Z.mod_small. lia.
    + intros (H1 & H2 & H3). unfold be_bytes_to_int in H3. pose proof (be_int_bound s H1) as H4. rewrite H2, Z.pow_mul_r in H4 by lia. change (2 ^ 8) with 256 in H4. fold N in H4. pose proof (Z.div_mod (be_int s) M ltac:(lia)) as D. rewrite H3 in D. assert (0 <= be_int s / M) as Hq by (apply Z.div_pos; [exact (proj1 H4)|clear - Hv; lia]).
      set (i := be_int s / M) in *. assert (i < c) as Hi by (apply HR'; [exact Hq|clear - D H4; lia]). exists i. split; [|apply zrange_nat_all; clear - Hq Hi; lia]. destruct (HF i (conj Hq Hi)) as (F1 & F2 & F3). apply be_int_inj; [exact F1|exact H1|congruence|rewrite F3, D; apply Z.add_comm].
  - rewrite map_length, zrange_nat_length. lia.
Qed.

(** Pigeonholes *)
Lemma distinct_range {A} (R : Z -> A -> Prop) a b l : a <= b -> (forall v x y, R v x -> R v y -> x = y) -> NoDup l -> (forall x, In x l -> exists v, a <= v < b /\ R v x) -> zlen l <= b - a.
Proof.
  intros Hab HR HN HL. assert (exists vs, length vs = length l /\ NoDup vs /\ (forall v, In v vs -> a <= v < b /\ exists x, In x l /\ R v x)) as (vs & HV1 & HV2 & HV3).
  { clear Hab. induction HN as [|x l Hx HN IH]; [exists []; repeat split; [constructor|contradiction..]|]. destruct IH as (vs & H1 & H2 & H3); [intros y Hy; apply HL; now right|]. destruct (HL x (or_introl eq_refl)) as (v & Hv & Hr). exists (v :: vs). split; [cbn [length]; congruence|]. split.
    - constructor; [|exact H2]. intros HI. destruct (H3 v HI) as (_ & y & Hy & Hry). rewrite (HR _ _ _ Hr Hry) in Hx. contradiction.
    - intros u [<-|Hu]; [split; [exact Hv|]; exists x; split; [now left|exact Hr]|]. destruct (H3 u Hu) as (HB & y & Hy & Hry). split; [exact HB|]. exists y. split; [now right|exact Hry]. }
  assert (length vs <= length (zrange_nat a (Z.to_nat (b - a))))%nat as HI. { apply NoDup_incl_length; [exact HV2|]. intros v Hv. apply zrange_nat_all. destruct (HV3 v Hv) as [HB _]. lia. }
  rewrite zrange_nat_length in HI. unfold zlen. lia.
Qed.
