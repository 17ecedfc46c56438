(** The difficulty of headers, a float: C104. *)
From Coq Require Import Lia ZArith.
From Verif.Model Require Import Py Bits Coin Floats.
From Verif.Spec Require Import FloatSpec WorkSpec.
From Verif.Proofs Require Import PyFacts WorkFacts FloatFacts.

(** C104.  Division of natural numbers gives the nearest double, with the even mantissa if two are as near; OverflowError exactly for
    quotients too big for that. *)
Theorem C104_division a b : 0 <= a -> 0 < b ->
  (forall m e, true_divide a b = Ok (mk_double m e) <-> ~ too_big a b /\ nearest a b m e) /\
  (forall x, true_divide a b = Err x <-> x = OverflowError /\ too_big a b).
Proof.
  intros Ha Hb. pose proof (true_divide_exact a b Ha Hb) as HE. destruct (true_divide a b) as [[m0 e0]|x0]; cbn [mant expo] in HE.
  - destruct HE as (HB & HN & _). split.
    + intros m e. split; [intros HX; injection HX as <- <-; auto|]. intros [_ HN']. f_equal.
      destruct (proj2 HN m e (proj1 HN')) as [HL|[HL HR]]; destruct (proj2 HN' m0 e0 (proj1 HN)) as [HL'|[HL' HR']]; try lia.
      destruct HR as [HR|[HR1 HR2]]; [injection HR as -> ->; reflexivity|]. destruct HR' as [HR'|[HR1' HR2']]; [injection HR' as -> ->; reflexivity|]. contradiction.
    + intros x. split; [discriminate|]. intros [_ HX]. contradiction.
  - destruct HE as [-> HB]. split; [intros m e; split; [discriminate|intros [HX _]; contradiction]|]. intros x. split; [intros HX; injection HX as <-; auto|]. intros [-> _]. reflexivity.
Qed.
Print Assumptions C104_division.

(** The difficulty of bits that stand for a target other than zero is the nearest double to max_target / target.  For zero it is
    ZeroDivisionError, for other bits the ValueError of bits_to_target. *)
Theorem C104_difficulty bits : (forall t m e, compact bits t -> 0 < t -> (bits_to_difficulty bits = Ok (mk_double m e) <-> nearest (0xffff * 2 ^ 208) t m e)) /\
  (forall t, compact bits t -> 0 < t -> exists m e, bits_to_difficulty bits = Ok (mk_double m e)) /\
  (bits_to_difficulty bits = Err ZeroDivisionError <-> bits = 0) /\ (bits_to_difficulty bits = Err ValueError <-> ~ exists t, compact bits t).
Proof.
  assert (bits_to_difficulty bits = t <- bits_to_target bits ;; true_divide (0xffff * 2 ^ 208) t) as HB by reflexivity. rewrite HB. clear HB.
  assert (forall t, 0 < t -> ~ too_big (0xffff * 2 ^ 208) t) as HT.
  { intros t Ht HX. unfold too_big in HX. assert (1 * (2 ^ 1024 - 2 ^ 970) <= t * (2 ^ 1024 - 2 ^ 970)) as HY by (apply Z.mul_le_mono_nonneg_r; lia). apply (Z.le_trans _ _ _ HY) in HX. vm_compute in HX. now apply HX. }
  assert (0 <= 0xffff * 2 ^ 208) as H0 by (vm_compute; discriminate). assert (forall t m e, compact bits t -> 0 < t -> (t <- bits_to_target bits ;; true_divide (0xffff * 2 ^ 208) t) = Ok (mk_double m e) <-> nearest (0xffff * 2 ^ 208) t m e) as H1.
  { intros t m e HC Ht. apply bits_to_target_spec in HC. rewrite HC. cbn [bind]. rewrite (proj1 (C104_division _ t H0 Ht)). specialize (HT t Ht). tauto. }
  split; [exact H1|]. split; [|split].
  - intros t HC Ht. apply bits_to_target_spec in HC. rewrite HC. cbn [bind]. destruct (true_divide (0xffff * 2 ^ 208) t) as [[m e]|x] eqn:E; [eauto|]. exfalso. apply (proj2 (C104_division _ t H0 Ht)) in E. now apply (HT t Ht).
  - split.
    + destruct (bits_to_target bits) as [t|x] eqn:EB; cbn [bind]; [|rewrite (bits_to_target_err _ _ EB); discriminate]. intros HX. apply bits_to_target_spec in EB. pose proof (compact_nonneg _ _ EB). destruct (Z.eq_dec t 0) as [->|].
      * destruct EB as [[-> _]|(_ & m & e & _ & Hm & He & HE)]; [reflexivity|]. exfalso. assert (0 < 256 ^ e) by (apply Z.pow_pos_nonneg; lia). nia.
      * exfalso. apply (proj2 (C104_division _ t H0 ltac:(lia))) in HX as [HX _]. discriminate.
    + intros ->. reflexivity.
  - split.
    + intros HX (t & HC). pose proof (compact_nonneg _ _ HC). pose proof HC as HC'. apply bits_to_target_spec in HC. rewrite HC in HX. cbn [bind] in HX. destruct (Z.eq_dec t 0) as [->|]; [discriminate|]. apply (proj2 (C104_division _ t H0 ltac:(lia))) in HX as [HX _]. discriminate.
    + intros HN. destruct (bits_to_target bits) as [t|x] eqn:EB; cbn [bind]; [|now rewrite (bits_to_target_err _ _ EB)]. exfalso. apply HN. exists t. now apply bits_to_target_spec.
Qed.
Print Assumptions C104_difficulty.

(** Rounding never hides a difference: a harder target has a greater difficulty, equal difficulties mean equal bits. *)
Lemma targets_apart b s b' t : compact b s -> compact b' t -> 0 < s -> s < t -> s * (2 ^ 53 + 1) < t * (2 ^ 53 - 1).
Proof.
  intros [[_ ->]|(_ & m & e & _ & Hm & He & HE)] [[_ ->]|(_ & m' & e' & _ & Hm' & He' & HE')] Hs Hst; try lia.
  assert (s < 2 ^ 23 * (t - s)) as HG; [|lia]. apply (Z.mul_lt_mono_pos_r (256 ^ 3)); [lia|]. rewrite <- Z.mul_assoc, Z.mul_sub_distr_r, HE, HE'. assert (m * 256 ^ e < m' * 256 ^ e') as HL by (rewrite <- HE, <- HE'; apply Z.mul_lt_mono_pos_r; lia). clear HE HE' Hs Hst.
  destruct (Z.le_ge_cases e e') as [HC|HC].
  - replace e' with (e + (e' - e)) in * by lia. rewrite Z.pow_add_r in * by lia. assert (0 < 256 ^ e) as HP by (apply Z.pow_pos_nonneg; lia). set (p := 256 ^ e) in *. set (q := 256 ^ (e' - e)) in *. clearbody p q.
    replace (m' * (p * q)) with (m' * q * p) in * by ring. apply Z.mul_lt_mono_pos_r in HL; [|exact HP]. assert (1 * p <= (m' * q - m) * p) by (apply Z.mul_le_mono_nonneg_r; lia). assert (m * p < 2 ^ 23 * p) by (apply Z.mul_lt_mono_pos_r; lia). lia.
  - replace e with (e' + (e - e')) in * by lia. rewrite Z.pow_add_r in * by lia. assert (0 < 256 ^ e') as HP by (apply Z.pow_pos_nonneg; lia). set (p := 256 ^ e') in *. set (q := 256 ^ (e - e')) in *. clearbody p q.
    replace (m * (p * q)) with (m * q * p) in * by ring. apply Z.mul_lt_mono_pos_r in HL; [|exact HP]. assert (1 * p <= (m' - m * q) * p) by (apply Z.mul_le_mono_nonneg_r; lia). assert (m' * p < 2 ^ 23 * p) by (apply Z.mul_lt_mono_pos_r; lia). lia.
Qed.
Theorem C104_monotone b s b' t m e m' e' : compact b s -> compact b' t -> bits_to_difficulty b = Ok (mk_double m e) -> bits_to_difficulty b' = Ok (mk_double m' e') ->
  (less m' e' m e <-> s < t).
Proof.
  intros HC HC' HD HD'. assert (forall b s m e, compact b s -> bits_to_difficulty b = Ok (mk_double m e) -> 0 < s /\ finite_double m e /\ 2 * distance (0xffff * 2 ^ 208) s m e <= s * 2 ^ (e + 1074)) as HA.
  { clear. intros b s m e HC HD. pose proof (compact_nonneg _ _ HC). change (bits_to_difficulty b) with (t <- bits_to_target b ;; true_divide (0xffff * 2 ^ 208) t) in HD. apply bits_to_target_spec in HC. rewrite HC in HD. cbn [bind] in HD.
    destruct (Z.eq_dec s 0) as [->|]; [discriminate|]. assert (0 < s) as Hs by lia. pose proof (true_divide_exact (0xffff * 2 ^ 208) s ltac:(vm_compute; discriminate) Hs) as HX. rewrite HD in HX. cbn [mant expo] in HX. split; [exact Hs|]. split; [apply HX|apply HX]. }
  assert (forall b s m e b' t m' e', compact b s -> compact b' t -> bits_to_difficulty b = Ok (mk_double m e) -> bits_to_difficulty b' = Ok (mk_double m' e') -> s < t -> less m' e' m e) as HM.
  { clear - HA. intros b s m e b' t m' e' HC HC' HD HD' HL. destruct (HA _ _ _ _ HC HD) as (Hs & HF & HX). destruct (HA _ _ _ _ HC' HD') as (Ht & HF' & HX'). pose proof (compact_range _ _ HC') as HR.
    apply (near_less (0xffff * 2 ^ 208) s t m e m' e'); try assumption; [vm_compute; reflexivity|exact (targets_apart _ _ _ _ HC HC' Hs HL)|]. apply (Z.le_trans _ (2 ^ 256 * 2 ^ 53)); [apply Z.mul_le_mono_nonneg_r; lia|vm_compute; discriminate]. }
  split; [|eauto]. intros HL. destruct (Z.lt_trichotomy s t) as [|[HE|HE]]; [assumption|exfalso|exfalso].
  - subst t. rewrite (compact_inj_r _ _ _ HC HC') in HD. rewrite HD in HD'. injection HD' as <- <-. unfold less in HL. lia.
  - pose proof (HM _ _ _ _ _ _ _ _ HC' HC HD' HD HE) as HX. unfold less in *. lia.
Qed.
Print Assumptions C104_monotone.
Theorem C104_injective b b' d : bits_to_difficulty b = Ok d -> bits_to_difficulty b' = Ok d -> b = b'.
Proof.
  assert (forall b d, bits_to_difficulty b = Ok d -> exists t, compact b t) as HA.
  { clear. intros b d HD. destruct (bits_to_target b) as [t|x] eqn:E; [exists t; now apply bits_to_target_spec|]. exfalso. change (bits_to_difficulty b) with (t <- bits_to_target b ;; true_divide (0xffff * 2 ^ 208) t) in HD. rewrite E in HD. discriminate. }
  destruct d as [m e]. intros H1 H2. destruct (HA _ _ H1) as [s HS]. destruct (HA _ _ H2) as [t HT]. pose proof (C104_monotone _ _ _ _ _ _ _ _ HS HT H1 H2) as M1. pose proof (C104_monotone _ _ _ _ _ _ _ _ HT HS H2 H1) as M2. unfold less in *.
  assert (s = t) as -> by lia. exact (compact_inj_r _ _ _ HS HT).
Qed.
Print Assumptions C104_injective.
(** Exactly 1.0 for the easiest target *)
Theorem C104_one : bits_to_difficulty 0x1d00ffff = Ok (mk_double (2 ^ 52) (-52)).
Proof. vm_compute. reflexivity. Qed.
(** 16307.420938523983, and 860221984436.2223 (tests/test_work.py:115) *)
Example C104_ex : bits_to_difficulty 0x1b0404cb = Ok (mk_double 8965099470472465 (-39)) /\ bits_to_difficulty 0x18014735 = Ok (mk_double 7046938496501533 (-13)) /\
  bits_to_difficulty 0 = Err ZeroDivisionError /\ true_divide 1 3 = Ok (mk_double 6004799503160661 (-54)) /\ true_divide 1 (2 ^ 1074) = Ok (mk_double 1 (-1074)) /\ true_divide 3 (2 ^ 1075) = Ok (mk_double 2 (-1074)) /\
  true_divide 1 (2 ^ 1075) = Ok (mk_double 0 (-1074)) /\ true_divide (2 ^ 1024 - 2 ^ 970) 1 = Err OverflowError /\ true_divide (2 ^ 1024 - 2 ^ 970 - 1) 1 = Ok (mk_double (2 ^ 53 - 1) 971).
Proof. vm_compute. repeat split; reflexivity. Qed.
Print Assumptions C104_one.
