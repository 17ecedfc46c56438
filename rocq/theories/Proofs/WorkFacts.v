(** Facts about compact difficulty encoding. *)
From Verif.Model Require Import Py Packing Bits Coin Work.
From Verif.Spec Require Import WorkSpec.
From Verif.Proofs Require Import PyFacts.

Lemma lor_shiftl_add a b k : 0 <= k -> 0 <= a < 2 ^ k -> 0 <= b -> Z.lor a (Z.shiftl b k) = a + 2 ^ k * b.
Proof.
  intros Hk Ha Hb.
  assert (HL : Z.land a (Z.shiftl b k) = 0).
  { apply Z.bits_inj'. intros n Hn. rewrite Z.land_spec, Z.bits_0.
    destruct (Z.lt_ge_cases n k).
    - rewrite (Z.shiftl_spec_low b k n) by lia. apply andb_false_r.
    - destruct (Z.eq_dec a 0) as [->|Hn0]; [now rewrite Z.bits_0|].
      rewrite (Z.bits_above_log2 a n); [reflexivity|lia|].
      apply Z.lt_le_trans with k; [|lia]. apply Z.log2_lt_pow2; lia. }
  rewrite <- Z.lxor_lor by exact HL. rewrite <- Z.add_nocarry_lxor by exact HL.
  rewrite Z.shiftl_mul_pow2 by lia. lia.
Qed.

Lemma land_bit23 w : 0 <= w < 2 ^ 24 -> (Z.land w 0x00800000 =? 0) = (w <? 2 ^ 23).
Proof.
  intros Hw. destruct (Z.ltb_spec w (2 ^ 23)) as [Hl|Hl].
  - apply Z.eqb_eq. apply Z.bits_inj'. intros n Hn. rewrite Z.land_spec, Z.bits_0.
    change 0x00800000 with (2 ^ 23). rewrite Z.pow2_bits_eqb by lia.
    destruct (Z.eqb_spec 23 n) as [<-|]; [|apply andb_false_r].
    rewrite andb_true_r. destruct (Z.eq_dec w 0) as [->|]; [apply Z.bits_0|].
    apply Z.bits_above_log2; [lia|]. apply Z.log2_lt_pow2; lia.
  - apply Z.eqb_neq. intros HE.
    assert (HT : Z.testbit (Z.land w 0x00800000) 23 = true).
    { rewrite Z.land_spec. change 0x00800000 with (2 ^ 23). rewrite Z.pow2_bits_true by lia.
      rewrite andb_true_r. apply Z.testbit_true; [lia|].
      assert (w / 2 ^ 23 = 1) as -> by (symmetry; apply Z.div_unique with (w - 2 ^ 23); lia). reflexivity. }
    rewrite HE, Z.bits_0 in HT. discriminate.
Qed.

Lemma bits_split b : 0 <= b -> Z.land b 0x00ffffff = b mod 2 ^ 24 /\ Z.shiftr b 24 = b / 2 ^ 24.
Proof.
  intros Hb. split.
  - change 0x00ffffff with (Z.ones 24). now rewrite Z.land_ones by lia.
  - now rewrite Z.shiftr_div_pow2 by lia.
Qed.

Lemma pow256_8 k : 0 <= k -> 2 ^ (8 * k) = 256 ^ k.
Proof. intros. now rewrite Z.pow_mul_r by lia. Qed.

Lemma compact_nonneg b t : compact b t -> 0 <= t.
Proof.
  intros [[_ ->]|(_ & m & e & _ & Hm & He & HE)]; [lia|].
  assert (0 < 256 ^ e) by (apply Z.pow_pos_nonneg; lia). nia.
Qed.

Lemma bits_to_target_spec b t : bits_to_target b = Ok t <-> compact b t.
Proof.
  unfold bits_to_target.
  destruct ((0 <=? b) && (b <=? 0x2100ffff)) eqn:HR; cbn [negb].
  2:{ split; [discriminate|]. intros [[-> _]|(HB & _)]; lia. }
  destruct (bits_split b ltac:(lia)) as [-> ->].
  set (m := b mod 2 ^ 24). set (e := b / 2 ^ 24).
  assert (Hbm : b = m + 2 ^ 24 * e) by (subst m e; pose proof (Z.div_mod b (2 ^ 24)); lia).
  assert (Hm : 0 <= m < 2 ^ 24) by (apply Z.mod_pos_bound; lia).
  assert (He : 0 <= e) by (apply Z.div_pos; lia).
  clearbody m e.
  destruct (Z.eqb_spec b 0) as [->|Hb0].
  { assert (m = 0) as -> by lia. assert (e = 0) as -> by lia.
    cbn. split; [intros [= <-]; left; split; reflexivity|]. intros [[_ ->]|(HB & _)]; [reflexivity|lia]. }
  cbn [negb]. rewrite andb_true_r.
  destruct ((0x8000 <=? m) && (m <=? 0x7fffff)) eqn:HM; cbn [negb].
  2:{ split; [discriminate|]. intros [[-> _]|(HB & m' & e' & HE & Hm' & He' & _)]; [lia|].
      assert (m = m') by lia. lia. }
  assert (HC : compact b t <-> t * 256 ^ 3 = m * 256 ^ e).
  { split.
    - intros [[-> _]|(HB & m' & e' & HE & Hm' & He' & HT)]; [lia|].
      assert (e = e') as -> by lia. assert (m = m') as -> by lia. exact HT.
    - intros HT. right. split; [lia|]. exists m, e. repeat split; lia. }
  rewrite HC. clear HC.
  destruct (Z.leb_spec (8 * (e - 3)) 0) as [Hs|Hs].
  - replace (- (8 * (e - 3))) with (8 * (3 - e)) by lia.
    rewrite Z.shiftr_div_pow2, pow256_8 by lia.
    rewrite Z.shiftl_mul_pow2, pow256_8 by lia.
    assert (HP : 256 ^ 3 = 256 ^ (3 - e) * 256 ^ e) by (rewrite <- Z.pow_add_r by lia; f_equal; lia).
    assert (0 < 256 ^ e) by (apply Z.pow_pos_nonneg; lia).
    assert (0 < 256 ^ (3 - e)) by (apply Z.pow_pos_nonneg; lia).
    destruct (Z.eqb_spec (m / 256 ^ (3 - e) * 256 ^ (3 - e)) m) as [HE|HE]; cbn [negb].
    + split.
      * intros [= <-]. rewrite HP. rewrite Z.mul_assoc, HE. reflexivity.
      * intros HT. rewrite HP, Z.mul_assoc in HT. apply Z.mul_reg_r in HT; [|lia].
        rewrite <- HT. rewrite Z.div_mul by lia. reflexivity.
    + split; [discriminate|]. intros HT. rewrite HP, Z.mul_assoc in HT. apply Z.mul_reg_r in HT; [|lia].
      rewrite <- HT in HE. rewrite Z.div_mul in HE by lia. congruence.
  - rewrite Z.shiftl_mul_pow2, pow256_8 by lia.
    assert (HP : 256 ^ e = 256 ^ (e - 3) * 256 ^ 3) by (rewrite <- Z.pow_add_r by lia; f_equal; lia).
    rewrite HP. split.
    + intros [= <-]. lia.
    + intros HT. rewrite Z.mul_assoc in HT. apply Z.mul_reg_r in HT; [|lia]. now subst.
Qed.

Lemma bits_to_target_err b e : bits_to_target b = Err e -> e = ValueError.
Proof.
  unfold bits_to_target. repeat match goal with |- context [if ?c then _ else _] => destruct c end; congruence.
Qed.

Lemma target_to_bits_err t e : target_to_bits t = Err e -> e = ValueError.
Proof.
  unfold target_to_bits. repeat match goal with |- context [if ?c then _ else _] => destruct c end; congruence.
Qed.

Lemma byte_size t : 0 < t -> let s := (bit_length t + 7) / 8 in 1 <= s /\ 256 ^ (s - 1) <= t < 256 ^ s.
Proof.
  intros Ht. cbv zeta. assert (bit_length t = Z.log2 t + 1) as ->.
  { unfold bit_length. destruct (Z.eqb_spec t 0); [lia|]. now rewrite Z.abs_eq by lia. }
  pose proof (Z.log2_spec t Ht) as [H1 H2]. pose proof (Z.log2_nonneg t).
  set (L := Z.log2 t) in *. set (s := (L + 1 + 7) / 8).
  assert (8 * (s - 1) <= L < 8 * s) by (subst s; lia).
  split; [lia|]. rewrite <- !pow256_8 by lia. split.
  - apply Z.le_trans with (2 ^ L); [apply Z.pow_le_mono_r; lia|lia].
  - apply Z.lt_le_trans with (2 ^ (Z.succ L)); [lia|apply Z.pow_le_mono_r; lia].
Qed.

Lemma bit_length_256 t : 0 <= t -> (256 <? bit_length t) = (2 ^ 256 <=? t).
Proof.
  intros Ht. unfold bit_length. destruct (Z.eqb_spec t 0) as [->|]; [reflexivity|]. rewrite Z.abs_eq by lia.
  destruct (Z.leb_spec (2 ^ 256) t) as [Hl|Hl].
  - apply Z.log2_le_pow2 in Hl; [|lia]. lia.
  - apply Z.log2_lt_pow2 in Hl; [|lia]. lia.
Qed.

(** The mantissa and exponent that target_to_bits computes. *)
Lemma target_to_bits_core t : 0 < t < 2 ^ 256 ->
  exists m e, target_to_bits t = Ok (m + 2 ^ 24 * e) /\ 2 ^ 15 <= m < 2 ^ 23 /\ 1 <= e <= 33 /\
    (e = 33 -> m < 2 ^ 16) /\ m * 256 ^ e <= t * 256 ^ 3 < (m + 1) * 256 ^ e /\
    exists r, r * 256 ^ 3 = m * 256 ^ e.
Proof.
  intros Ht. unfold target_to_bits. rewrite bit_length_256 by lia.
  assert ((t <? 0) || (2 ^ 256 <=? t) = false) as -> by lia.
  destruct (byte_size t ltac:(lia)) as (Hs1 & Hs2 & Hs3).
  set (s := (bit_length t + 7) / 8) in *. clearbody s.
  assert (Hs : s <= 32).
  { destruct (Z.le_gt_cases s 32); [assumption|].
    assert (256 ^ 32 <= 256 ^ (s - 1)) by (apply Z.pow_le_mono_r; lia). lia. }
  set (w := if 8 * (s - 3) <=? 0 then _ else _).
  assert (HW : 2 ^ 16 <= w < 2 ^ 24 /\ w * 256 ^ s <= t * 256 ^ 3 < (w + 1) * 256 ^ s /\
               (s <= 3 -> w = t * 256 ^ (3 - s))).
  { subst w. destruct (Z.leb_spec (8 * (s - 3)) 0) as [Hc|Hc].
    - replace (- (8 * (s - 3))) with (8 * (3 - s)) by lia. rewrite Z.shiftl_mul_pow2, pow256_8 by lia.
      assert (s = 1 \/ s = 2 \/ s = 3) as [->|[->| ->]] by lia; cbn in *; lia.
    - rewrite Z.shiftr_div_pow2, pow256_8 by lia.
      set (Q := 256 ^ (s - 3)).
      assert (HQ : 0 < Q) by (apply Z.pow_pos_nonneg; lia).
      assert (HE : 256 ^ s = Q * 256 ^ 3) by (unfold Q; rewrite <- Z.pow_add_r by lia; f_equal; lia).
      assert (HE2 : 256 ^ (s - 1) = Q * 256 ^ 2) by (unfold Q; rewrite <- Z.pow_add_r by lia; f_equal; lia).
      rewrite HE in *. rewrite HE2 in *. clearbody Q.
      pose proof (Z.mul_div_le t Q HQ). pose proof (Z.mul_succ_div_gt t Q HQ).
      split; [|split; [|lia]].
      + split; [apply Z.div_le_lower_bound; lia|apply Z.div_lt_upper_bound; lia].
      + set (q := t / Q) in *. clearbody q. split; nia. }
  clearbody w. destruct HW as (Hw & Hwt & Hw3).
  rewrite land_bit23 by lia. destruct (Z.ltb_spec w (2 ^ 23)) as [Hl|Hl]; cbn [negb].
  - exists w, s. rewrite lor_shiftl_add by lia.
    split; [reflexivity|]. split; [lia|]. split; [lia|]. split; [lia|]. split; [lia|].
    destruct (Z.le_gt_cases s 3).
    + exists t. rewrite Hw3 by lia. rewrite <- Z.mul_assoc, <- Z.pow_add_r by lia. do 2 f_equal. lia.
    + exists (w * 256 ^ (s - 3)). rewrite <- Z.mul_assoc, <- Z.pow_add_r by lia. do 2 f_equal. lia.
  - rewrite Z.shiftr_div_pow2 by lia. change (2 ^ 8) with 256.
    assert (2 ^ 15 <= w / 256 < 2 ^ 16) by lia.
    exists (w / 256), (s + 1). rewrite lor_shiftl_add by lia.
    split; [reflexivity|]. split; [lia|]. split; [lia|]. split; [lia|].
    rewrite Z.pow_add_r by lia. change (256 ^ 1) with 256.
    split.
    + assert (HP : 0 < 256 ^ s) by (apply Z.pow_pos_nonneg; lia). set (P := 256 ^ s) in *. clearbody P.
      assert (256 * (w / 256) <= w < 256 * (w / 256) + 256) by lia.
      set (q := w / 256) in *. clearbody q. nia.
    + assert (s = 1 \/ s = 2 \/ 3 <= s) as [->|[->|Hs4]] by lia.
      * exists t. rewrite Hw3 by lia. change (256 ^ (3 - 1)) with (256 * 256). change (256 ^ 1) with 256.
        replace (t * (256 * 256)) with (t * 256 * 256) by lia. rewrite Z.div_mul by lia. lia.
      * exists t. rewrite Hw3 by lia. change (256 ^ (3 - 2)) with 256. rewrite Z.div_mul by lia. lia.
      * exists (w / 256 * 256 ^ (s - 2)).
        replace (256 ^ s * 256) with (256 ^ (s - 2) * 256 ^ 3); [lia|].
        replace (256 ^ s * 256) with (256 ^ (s + 1)) by (rewrite Z.pow_add_r by lia; reflexivity).
        rewrite <- Z.pow_add_r by lia. f_equal. lia.
Qed.

Lemma target_to_bits_0 : target_to_bits 0 = Ok 0.
Proof. reflexivity. Qed.

(** Comparing encodings. *)
Lemma pow_double_gap m e m' e' : 2 ^ 15 <= m -> m' < 2 ^ 23 -> 0 <= e' < e -> 0 <= m' ->
  m' * 256 ^ e' < m * 256 ^ e.
Proof.
  intros Hm Hm' He Hm0.
  assert (HP : 256 ^ e = 256 ^ (e - e' - 1) * (256 * 256 ^ e')).
  { rewrite Z.mul_assoc. replace (256 ^ (e - e' - 1) * 256) with (256 ^ (e - e')).
    - rewrite <- Z.pow_add_r by lia. f_equal. lia.
    - replace (e - e') with ((e - e' - 1) + 1) at 1 by lia. rewrite Z.pow_add_r by lia. reflexivity. }
  assert (0 < 256 ^ e') by (apply Z.pow_pos_nonneg; lia).
  assert (0 < 256 ^ (e - e' - 1)) by (apply Z.pow_pos_nonneg; lia).
  rewrite HP. set (P := 256 ^ e') in *. set (R := 256 ^ (e - e' - 1)) in *. clearbody P R.
  assert (m' * P < m * (256 * P)) by nia. nia.
Qed.

(** The greatest encodable value not above a target. *)
Lemma compact_below m e T b' r' : 2 ^ 15 <= m < 2 ^ 23 -> 0 <= e -> 
  T < (m + 1) * 256 ^ e -> compact b' r' -> r' * 256 ^ 3 <= T -> r' * 256 ^ 3 <= m * 256 ^ e.
Proof.
  intros Hm He HT HC Hle. destruct HC as [[_ ->]|(_ & m' & e' & _ & Hm' & He' & HE)].
  { assert (0 < 256 ^ e) by (apply Z.pow_pos_nonneg; lia). nia. }
  rewrite HE in *. assert (HPe : 0 < 256 ^ e) by (apply Z.pow_pos_nonneg; lia).
  destruct (Z.lt_trichotomy e' e) as [Hlt|[->|Hgt]].
  - pose proof (pow_double_gap m e m' e' ltac:(lia) ltac:(lia) ltac:(lia) ltac:(lia)). lia.
  - set (P := 256 ^ e) in *. clearbody P. assert (m' < m + 1) by nia. nia.
  - (* e' > e : m' * 256^e' is a multiple of 256^e below (m+1)*256^e *)
    assert (HP : 256 ^ e' = 256 ^ (e' - e) * 256 ^ e) by (rewrite <- Z.pow_add_r by lia; f_equal; lia).
    rewrite HP, Z.mul_assoc in *. set (P := 256 ^ e) in *. set (q := m' * 256 ^ (e' - e)) in *. clearbody P q.
    assert (q < m + 1) by nia. nia.
Qed.

Lemma compact_inj_r b b' r : compact b r -> compact b' r -> b = b'.
Proof.
  intros HC HC'. assert (HP : forall k, 0 <= k -> 0 < 256 ^ k) by (intros; apply Z.pow_pos_nonneg; lia).
  destruct HC as [[-> ->]|(_ & m & e & -> & Hm & He & HE)], HC' as [[-> HZ]|(_ & m' & e' & -> & Hm' & He' & HE')].
  - reflexivity.
  - specialize (HP e' He'). nia.
  - subst r. specialize (HP e He). nia.
  - destruct (Z.lt_trichotomy e e') as [Hlt|[->|Hgt]].
    + pose proof (pow_double_gap m' e' m e ltac:(lia) ltac:(lia) ltac:(lia) ltac:(lia)). lia.
    + rewrite HE in HE'. specialize (HP e' He'). apply Z.mul_reg_r in HE'; [lia|lia].
    + pose proof (pow_double_gap m e m' e' ltac:(lia) ltac:(lia) ltac:(lia) ltac:(lia)). lia.
Qed.

Lemma compact_fun b r r' : compact b r -> compact b r' -> r = r'.
Proof. intros H1 H2. apply bits_to_target_spec in H1. apply bits_to_target_spec in H2. congruence. Qed.

Lemma target_to_bits_rounds t : 0 <= t < 2 ^ 256 ->
  exists b r, target_to_bits t = Ok b /\ compact b r /\ r <= t /\ (t - r) * 2 ^ 15 <= r /\
    (forall b' r', compact b' r' -> r' <= t -> r' <= r) /\ Z.testbit b 23 = false.
Proof.
  intros Ht. destruct (Z.eq_dec t 0) as [->|Hn].
  { exists 0, 0. rewrite target_to_bits_0. repeat split; try lia. now left. }
  destruct (target_to_bits_core t ltac:(lia)) as (m & e & HB & Hm & He & H33 & (Hlo & Hhi) & r & Hr).
  exists (m + 2 ^ 24 * e), r. split; [exact HB|].
  assert (HPe : 0 < 256 ^ e) by (apply Z.pow_pos_nonneg; lia).
  split; [|split; [lia|split; [|split]]].
  - right. split.
    + destruct (Z.eq_dec e 33) as [->|]; [specialize (H33 eq_refl)|]; lia.
    + exists m, e. repeat split; lia.
  - (* loss *) set (P := 256 ^ e) in *. clearbody P. nia.
  - intros b' r' HC Hle. pose proof (compact_below m e (t * 256 ^ 3) b' r' ltac:(lia) ltac:(lia) Hhi HC ltac:(lia)). lia.
  - apply Z.testbit_false; [lia|].
    replace ((m + 2 ^ 24 * e) / 2 ^ 23) with (2 * e); [rewrite Z.mul_comm; apply Z.mod_mul; lia|].
    apply Z.div_unique with m; lia.
Qed.

Lemma compact_range b t : compact b t -> 0 <= t < 2 ^ 256.
Proof.
  intros HC. split; [now apply compact_nonneg in HC|].
  destruct HC as [[_ ->]|(HB & m & e & HE & Hm & He & HT)]; [lia|].
  assert (e <= 33) by lia.
  destruct (Z.eq_dec e 33) as [->|].
  - assert (m < 2 ^ 16) by lia. cbn in HT. lia.
  - assert (256 ^ e <= 256 ^ 32) by (apply Z.pow_le_mono_r; lia).
    assert (256 ^ 32 = 2 ^ 256) by reflexivity. change (256 ^ 3) with (2 ^ 24) in HT.
    set (P := 256 ^ e) in *. clearbody P. nia.
Qed.

Lemma target_to_bits_compact b t : compact b t -> target_to_bits t = Ok b.
Proof.
  intros HC. pose proof (compact_range b t HC) as HR.
  destruct (target_to_bits_rounds t HR) as (b' & r & HB & HC' & Hle & _ & Hmax & _).
  specialize (Hmax b t HC ltac:(lia)). assert (r = t) as -> by lia.
  rewrite HB. f_equal. eapply compact_inj_r; eauto.
Qed.

Lemma target_to_bits_Ok_iff t b : target_to_bits t = Ok b <-> 0 <= t < 2 ^ 256 /\ rounds_to t b.
Proof.
  split.
  - intros HB. assert (HR : 0 <= t < 2 ^ 256).
    { unfold target_to_bits in HB. destruct (Z.ltb_spec t 0); [discriminate|].
      rewrite bit_length_256 in HB by lia. destruct (Z.leb_spec (2 ^ 256) t); [discriminate|lia]. }
    split; [exact HR|].
    destruct (target_to_bits_rounds t HR) as (b' & r & HB' & HC & Hle & _ & Hmax & _).
    rewrite HB in HB'. injection HB' as <-. exists r. auto.
  - intros (HR & r & HC & Hle & Hmax).
    destruct (target_to_bits_rounds t HR) as (b' & r' & HB' & HC' & Hle' & _ & Hmax' & _).
    rewrite HB'. f_equal. assert (r = r') as -> by (apply Z.le_antisymm; eauto).
    eapply compact_inj_r; eauto.
Qed.

Lemma target_to_bits_range_err t : target_to_bits t = Err ValueError <-> t < 0 \/ 2 ^ 256 <= t.
Proof.
  split.
  - intros HE. destruct (Z.lt_ge_cases t 0); [now left|]. destruct (Z.le_gt_cases (2 ^ 256) t); [now right|].
    destruct (target_to_bits_rounds t ltac:(lia)) as (b & r & HB & _). congruence.
  - intros HR. destruct (target_to_bits t) as [b|e] eqn:HE.
    + apply target_to_bits_Ok_iff in HE. lia.
    + now apply target_to_bits_err in HE as ->.
Qed.

Lemma compact_mono b r b' r' : compact b r -> compact b' r' -> r <= r' <-> b <= b'.
Proof.
  (* enough: r < r' -> b < b' *)
  assert (HX : forall b r b' r', compact b r -> compact b' r' -> r < r' -> b < b').
  { clear. intros b r b' r' HC HC' Hlt.
    destruct HC as [[-> ->]|(_ & m & e & -> & Hm & He & HE)], HC' as [[-> HZ]|(_ & m' & e' & -> & Hm' & He' & HE')];
      [lia|lia| |].
    - assert (HP : 0 < 256 ^ e) by (apply Z.pow_pos_nonneg; lia). subst. exfalso. clear - Hm HP HE Hlt. nia.
    - destruct (Z.lt_trichotomy e e') as [Hl|[->|Hgt]].
      + nia.
      + assert (HP : 0 < 256 ^ e') by (apply Z.pow_pos_nonneg; lia). set (P := 256 ^ e') in *. clearbody P.
        assert (m < m') by nia. lia.
      + pose proof (pow_double_gap m e m' e' ltac:(lia) ltac:(lia) ltac:(lia) ltac:(lia)). lia. }
  intros HC HC'. split.
  - intros Hle. destruct (Z.eq_dec r r') as [->|]; [|apply Z.lt_le_incl; eapply HX; eauto; lia].
    rewrite (compact_inj_r _ _ _ HC HC'). lia.
  - intros Hle. destruct (Z.le_gt_cases r r'); [assumption|].
    pose proof (HX _ _ _ _ HC' HC ltac:(lia)). lia.
Qed.

Lemma target_to_bits_mono t t' b b' : target_to_bits t = Ok b -> target_to_bits t' = Ok b' -> t <= t' -> b <= b'.
Proof.
  intros HB HB' Hle. apply target_to_bits_Ok_iff in HB as (_ & r & HC & Hr & _).
  apply target_to_bits_Ok_iff in HB' as (_ & r' & HC' & Hr' & Hmax).
  apply (compact_mono b r b' r' HC HC'). apply (Hmax b r HC). lia.
Qed.

Lemma bits_to_work_spec b w : bits_to_work b = Ok w <->
  exists t, compact b t /\ w * (t + 1) <= 2 ^ 256 < (w + 1) * (t + 1).
Proof.
  unfold bits_to_work. change (Z.shiftl 1 256) with (2 ^ 256). split.
  - intros HW. apply bind_Ok in HW as (a & E & HW). apply bits_to_target_spec in E. exists a. split; [exact E|].
    pose proof (compact_nonneg _ _ E). injection HW as <-.
    pose proof (Z.mul_div_le (2 ^ 256) (a + 1) ltac:(lia)). pose proof (Z.mul_succ_div_gt (2 ^ 256) (a + 1) ltac:(lia)).
    nia.
  - intros (t & HC & Hw). pose proof (compact_nonneg _ _ HC). apply bits_to_target_spec in HC. rewrite HC. cbn [bind].
    f_equal. symmetry. apply Z.div_unique with (2 ^ 256 - w * (t + 1)); lia.
Qed.

Lemma bits_to_work_range b w : bits_to_work b = Ok w -> 1 <= w <= 2 ^ 256.
Proof.
  intros HW. apply bits_to_work_spec in HW as (t & HC & Hw). pose proof (compact_range _ _ HC). nia.
Qed.

Lemma bits_to_work_anti b b' t t' w w' : compact b t -> compact b' t' ->
  bits_to_work b = Ok w -> bits_to_work b' = Ok w' -> t <= t' -> w' <= w.
Proof.
  intros HC HC' HW HW' Hle.
  apply bits_to_work_spec in HW as (u & HU & Hw). apply bits_to_work_spec in HW' as (u' & HU' & Hw').
  rewrite (compact_fun _ _ _ HU HC) in *. rewrite (compact_fun _ _ _ HU' HC') in *.
  pose proof (compact_nonneg _ _ HC). destruct (Z.le_gt_cases w' w); [assumption|].
  assert (0 <= w) by nia. pose proof (Z.mul_le_mono_nonneg (w + 1) w' (t + 1) (t' + 1)). lia.
Qed.
