(** Difficulty encoding and difficulty rules: properties C13-C20. *)
From Verif.Model Require Import Py Packing Bits Coin Work.
From Verif.Spec Require Import Numbers WorkSpec.
From Verif.Proofs Require Import WorkFacts RequiredBitsFacts.

Theorem C13_bits_to_target : forall b t, bits_to_target b = Ok t <-> compact b t.
Proof. exact bits_to_target_spec. Qed.
Print Assumptions C13_bits_to_target.
Theorem C13_round_trip : forall b t, bits_to_target b = Ok t -> target_to_bits t = Ok b.
Proof. intros b t HB. apply target_to_bits_compact. now apply bits_to_target_spec. Qed.
Print Assumptions C13_round_trip.
Theorem C13_injective : forall b b' t, bits_to_target b = Ok t -> bits_to_target b' = Ok t -> b = b'.
Proof. intros b b' t HB HB'. apply bits_to_target_spec in HB, HB'. eapply compact_inj_r; eauto. Qed.
Print Assumptions C13_injective.
Theorem C13_domain : forall b, (exists t, bits_to_target b = Ok t) <-> (exists t, target_to_bits t = Ok b).
Proof.
  intros b. split.
  - intros (t & HB). exists t. now apply C13_round_trip.
  - intros (t & HB). apply target_to_bits_Ok_iff in HB as (_ & r & HC & _). exists r. now apply bits_to_target_spec.
Qed.
Print Assumptions C13_domain.
Theorem C13_error : forall b, bits_to_target b = Err ValueError \/ exists t, bits_to_target b = Ok t.
Proof.
  intros b. destruct (bits_to_target b) as [t|e] eqn:HB; [right; eauto|left]. now rewrite (bits_to_target_err _ _ HB).
Qed.
Print Assumptions C13_error.
Example C13_example : bits_to_target 0x1d00ffff = Ok (0xffff * 2 ^ 208) /\ compact 0x03123456 0x123456 /\
  bits_to_target 0x1d800000 = Err ValueError /\ bits_to_target 0x01008000 = Err ValueError /\
  bits_to_target 0x1d007fff = Err ValueError.
Proof.
  split; [vm_compute; reflexivity|]. split; [|repeat split; vm_compute; reflexivity].
  right. split; [lia|]. exists 0x123456, 3. repeat split; lia.
Qed.

Theorem C14_rounds_down : forall t b, target_to_bits t = Ok b <-> 0 <= t < 2 ^ 256 /\ rounds_to t b.
Proof. exact target_to_bits_Ok_iff. Qed.
Print Assumptions C14_rounds_down.
Theorem C14_total : forall t, 0 <= t < 2 ^ 256 ->
  exists b r, target_to_bits t = Ok b /\ compact b r /\ r <= t /\ (t - r) * 2 ^ 15 <= r /\
    (forall b' r', compact b' r' -> r' <= t -> r' <= r) /\ Z.testbit b 23 = false.
Proof. exact target_to_bits_rounds. Qed.
Print Assumptions C14_total.
Theorem C14_error : forall t, target_to_bits t = Err ValueError <-> t < 0 \/ 2 ^ 256 <= t.
Proof. exact target_to_bits_range_err. Qed.
Print Assumptions C14_error.
Theorem C14_monotone : forall t t' b b', target_to_bits t = Ok b -> target_to_bits t' = Ok b' ->
  t <= t' -> b <= b'.
Proof. exact target_to_bits_mono. Qed.
Print Assumptions C14_monotone.
Theorem C14_order : forall b r b' r', compact b r -> compact b' r' -> (r <= r' <-> b <= b').
Proof. exact compact_mono. Qed.
Print Assumptions C14_order.
Example C14_example : target_to_bits 0x12345678 = Ok 0x04123456 /\ target_to_bits 0x92345678 = Ok 0x05009234 /\
  target_to_bits (2 ^ 256 - 1) = Ok 0x2100ffff.
Proof. repeat split; vm_compute; reflexivity. Qed.

Theorem C15_work : forall b w, bits_to_work b = Ok w <-> exists t, compact b t /\ work_of_target t w.
Proof. exact bits_to_work_spec. Qed.
Print Assumptions C15_work.
Theorem C15_range : forall b w, bits_to_work b = Ok w -> 1 <= w <= 2 ^ 256.
Proof. exact bits_to_work_range. Qed.
Print Assumptions C15_range.
Theorem C15_decreasing : forall b b' t t' w w', compact b t -> compact b' t' ->
  bits_to_work b = Ok w -> bits_to_work b' = Ok w' -> t <= t' -> w' <= w.
Proof. exact bits_to_work_anti. Qed.
Print Assumptions C15_decreasing.
Example C15_example : bits_to_work 0x1d00ffff = Ok 4295032833 /\ bits_to_work 0 = Ok (2 ^ 256) /\
  bits_to_work 0x2100ffff = Ok 1.
Proof. repeat split; vm_compute; reflexivity. Qed.

(** C16.  [limit] is coin.max_target. *)
Theorem C16_genesis : forall raw_at gb limit, required_bits_fortnightly raw_at gb limit 0 = Ok gb.
Proof. exact fortnightly_0. Qed.
Print Assumptions C16_genesis.
Theorem C16_keep : forall raw_at ts bits gb limit h,
  h <> 0 -> h mod 2016 <> 0 -> chain_data raw_at ts bits (h - 1) h ->
  required_bits_fortnightly raw_at gb limit h = Ok (bits (h - 1)).
Proof. exact fortnightly_keep. Qed.
Print Assumptions C16_keep.
Theorem C16_retarget : forall raw_at ts bits gb limit h T,
  0 < h -> h mod 2016 = 0 -> chain_data raw_at ts bits (h - 2016) h ->
  compact (bits (h - 1)) T -> 0 <= limit < 2 ^ 256 ->
  exists b, required_bits_fortnightly raw_at gb limit h = Ok b /\
    rounds_to (Z.min limit (T * clamp 302400 4838400 (ts (h - 1) - ts (h - 2016)) / 1209600)) b.
Proof. exact fortnightly_retarget. Qed.
Print Assumptions C16_retarget.
(** So the unrounded target is within a factor of four of the old one. *)
Theorem C16_bounds : forall T x, 0 <= T -> T / 4 <= T * clamp 302400 4838400 x / 1209600 <= 4 * T.
Proof. exact retarget_bounds. Qed.
Print Assumptions C16_bounds.
(** Bitcoin before the EDA fork. *)
Theorem C16_mainnet : forall raw_at ts bits h t T,
  0 < h < 478558 -> chain_data raw_at ts bits (h - 2016) h -> compact (bits (h - 1)) T ->
  exists b, coin_required_bits Bitcoin raw_at h t = Ok b /\
    (if h mod 2016 =? 0
     then rounds_to (Z.min (0xffff * 2 ^ 208)
            (T * clamp 302400 4838400 (ts (h - 1) - ts (h - 2016)) / 1209600)) b
     else b = bits (h - 1)).
Proof.
  intros raw_at ts bits h t T Hh HD HC. unfold coin_required_bits.
  destruct (coins_limit Bitcoin) as [-> ->]; [now left|]. cbn [bind c_rule Bitcoin required_bits_by_rule].
  unfold required_bits_mainnet. destruct (Z.ltb_spec h 478558); [|lia].
  destruct (Z.eqb_spec (h mod 2016) 0).
  - apply (fortnightly_retarget raw_at ts bits); auto; lia.
  - exists (bits (h - 1)). split; [|reflexivity]. apply (fortnightly_keep raw_at ts bits); auto; try lia.
    eapply chain_data_mono; [| |exact HD]; lia.
Qed.
Print Assumptions C16_mainnet.
Definition toy_ts (h : Z) : Z := 1500000000 + 500 * h.
Definition toy_bits (h : Z) : Z := 0x1c123456.
Example C16_example :
  chain_data (fun h => Ok (toy_raw (toy_ts h) (toy_bits h))) toy_ts toy_bits 0 500000 /\
  compact (toy_bits 2015) (0x123456 * 256 ^ 25) /\
  required_bits_fortnightly (fun h => Ok (toy_raw (toy_ts h) (toy_bits h))) 0x1d00ffff (0xffff * 2 ^ 208) 2016
    = Ok 0x1c0f29af.
Proof.
  split; [apply toy_chain_data; unfold toy_ts, toy_bits; lia|]. split; [|vm_compute; reflexivity].
  right. split; [unfold toy_bits; lia|]. exists 0x123456, 28. repeat split; try lia; reflexivity.
Qed.

(** C17.  The hypothesis on targets: at least 2 and no easier than the limit, which is no easier than
    that of every coin defined in coin.py. *)
Theorem C17_DAA : forall raw_at ts bits limit h (target work : Z -> Z),
  chain_data raw_at ts bits (h - 147) h ->
  (forall k, h - 147 <= k < h -> compact (bits k) (target k) /\ work_of_target (target k) (work k) /\
     2 <= target k <= limit) ->
  limit <= 0xffff * 2 ^ 208 ->
  exists s e b, median3 ts (h - 144) s /\ median3 ts h e /\
    required_bits_DAA raw_at limit h = Ok b /\
    let W := sum_from work (s + 1) (Z.to_nat (e - s)) in
    let Wn := W * 600 / clamp 43200 172800 (ts e - ts s) in
    0 < Wn <= 2 ^ 256 /\ rounds_to (Z.min limit (2 ^ 256 / Wn - 1)) b.
Proof. exact DAA_Ok. Qed.
Print Assumptions C17_DAA.
(** [median3] determines the header, so the right-hand side above is unique. *)
Theorem C17_median_unique : forall ts h m m', median3 ts h m -> median3 ts h m' -> m = m'.
Proof. exact median3_unique. Qed.
Print Assumptions C17_median_unique.
Theorem C17_mainnet : forall raw_at ts bits h t (target work : Z -> Z),
  504031 < h -> chain_data raw_at ts bits (h - 147) h ->
  (forall k, h - 147 <= k < h -> compact (bits k) (target k) /\ work_of_target (target k) (work k) /\
     2 <= target k <= 0xffff * 2 ^ 208) ->
  exists b r, coin_required_bits Bitcoin raw_at h t = Ok b /\ bits_to_target b = Ok r /\
    0 <= r <= 0xffff * 2 ^ 208.
Proof.
  intros raw_at ts bits h t target work Hh HD HT. unfold coin_required_bits.
  destruct (coins_limit Bitcoin) as [-> ->]; [now left|]. cbn [bind c_rule Bitcoin required_bits_by_rule].
  unfold required_bits_mainnet. destruct (Z.ltb_spec h 478558); [lia|]. destruct (Z.leb_spec h 504031); [lia|].
  destruct (DAA_Ok raw_at ts bits (0xffff * 2 ^ 208) h target work HD HT) as (s & e & b & _ & _ & HB & _ & r & HC & Hr & _); [lia|].
  exists b, r. split; [exact HB|]. split; [now apply bits_to_target_spec|].
  pose proof (compact_nonneg _ _ HC). lia.
Qed.
Print Assumptions C17_mainnet.
Definition toy_target (h : Z) : Z := 0x123456 * 256 ^ 25.
Definition toy_work (h : Z) : Z := 2 ^ 256 / (0x123456 * 256 ^ 25 + 1).
Example C17_example :
  (forall k, 1000 - 147 <= k < 1000 ->
     compact (toy_bits k) (toy_target k) /\ work_of_target (toy_target k) (toy_work k) /\
     2 <= toy_target k <= 0xffff * 2 ^ 208) /\
  required_bits_DAA (fun h => Ok (toy_raw (toy_ts h) (toy_bits h))) (0xffff * 2 ^ 208) 1000 = Ok 0x1c0f2b9d.
Proof.
  split; [|vm_compute; reflexivity]. intros k Hk. split.
  - right. split; [unfold toy_bits; lia|]. exists 0x123456, 28. repeat split; try lia; reflexivity.
  - unfold toy_work, toy_target, work_of_target. set (t := 0x123456 * 256 ^ 25).
    split; [|vm_compute; split; discriminate].
    split; vm_compute; [discriminate|reflexivity].
Qed.
Definition swapped_ts (h : Z) : Z := if h =? 854 then 85299 else if h =? 998 then 99901 else 100 * h.
(** The lower bound 2 on targets is needed: a chain of headers of target 1 makes the rule raise
    ValueError (the new target would be -1). *)
Theorem C17_tiny_targets_refuted : exists raw_at ts bits h, chain_data raw_at ts bits (h - 147) h /\
  (forall k, compact (bits k) 1) /\ required_bits_DAA raw_at (0xffff * 2 ^ 208) h = Err ValueError.
Proof.
  exists (fun h => Ok (toy_raw (swapped_ts h) 0x01010000)), swapped_ts, (fun _ => 0x01010000), 1000.
  split; [apply toy_chain_data; intros h Hh; unfold swapped_ts; destruct (h =? 854), (h =? 998); lia|]. split; [|vm_compute; reflexivity].
  intros k. right. split; [lia|]. exists 0x010000, 1. repeat split; lia.
Qed.
Print Assumptions C17_tiny_targets_refuted.
(** The bound on the limit is needed: with a limit near 2^256 the rule divides by zero. *)
Theorem C17_easy_limit_refuted : exists raw_at ts bits h, chain_data raw_at ts bits (h - 147) h /\
  (forall k, compact (bits k) (0xffff * 2 ^ 240)) /\
  required_bits_DAA raw_at (0xffff * 2 ^ 240) h = Err ZeroDivisionError.
Proof.
  exists (fun h => Ok (toy_raw (3000 * h) 0x2100ffff)), (fun h => 3000 * h), (fun _ => 0x2100ffff), 1000.
  split; [apply toy_chain_data; lia|]. split; [|vm_compute; reflexivity].
  intros k. right. split; [lia|]. exists 0xffff, 33. repeat split; lia.
Qed.
Print Assumptions C17_easy_limit_refuted.

Theorem C18_EDA : forall raw_at ts bits gb limit h b T m1 m7,
  h mod 2016 <> 0 ->
  required_bits_fortnightly raw_at gb limit h = Ok b -> compact b T -> 0 <= limit < 2 ^ 256 ->
  chain_data raw_at ts bits (Z.max 0 (h - 17)) h -> 7 <= h ->
  mtp_spec ts (h - 1) m1 -> mtp_spec ts (h - 7) m7 ->
  if m1 - m7 <? 43200 then required_bits_EDA raw_at gb limit h = Ok b
  else exists b', required_bits_EDA raw_at gb limit h = Ok b' /\ rounds_to (Z.min limit (T + T / 4)) b'.
Proof. exact EDA_spec. Qed.
Print Assumptions C18_EDA.
Theorem C18_retarget_heights : forall raw_at gb limit h, h mod 2016 = 0 ->
  required_bits_EDA raw_at gb limit h = required_bits_fortnightly raw_at gb limit h.
Proof. exact EDA_retarget. Qed.
Print Assumptions C18_retarget_heights.
Theorem C18_mainnet : forall raw_at h t, 478558 <= h <= 504031 ->
  coin_required_bits Bitcoin raw_at h t = required_bits_EDA raw_at 0x1d00ffff (0xffff * 2 ^ 208) h.
Proof.
  intros raw_at h t Hh. unfold coin_required_bits. destruct (coins_limit Bitcoin) as [-> ->]; [now left|].
  cbn [bind c_rule Bitcoin required_bits_by_rule]. unfold required_bits_mainnet.
  destruct (Z.ltb_spec h 478558); [lia|]. destruct (Z.leb_spec h 504031); [reflexivity|lia].
Qed.
Print Assumptions C18_mainnet.
Definition slow_ts (h : Z) : Z := 7201 * (h - 478000).
Example C18_example :
  required_bits_EDA (fun h => Ok (toy_raw (toy_ts h) (toy_bits h))) 0x1d00ffff (0xffff * 2 ^ 208) 478600
    = Ok 0x1c123456 /\
  required_bits_EDA (fun h => Ok (toy_raw (slow_ts h) (toy_bits h))) 0x1d00ffff (0xffff * 2 ^ 208) 478600
    = Ok 0x1c16c16b /\
  mtp_spec slow_ts 478599 (slow_ts 478594) /\ mtp_spec slow_ts 478593 (slow_ts 478588).
Proof.
  split; [vm_compute; reflexivity|]. split; [vm_compute; reflexivity|].
  split; (eexists; split; [apply sorted_perm|split; [apply sorted_sorted|vm_compute; reflexivity]]).
Qed.

(** C19.  [dh] is the DAA height, [mp] whether the minimum-difficulty rule survives it. *)
Theorem C19_testnet : forall raw_at ts bits gb limit h timestamp dh mp,
  chain_data raw_at ts bits 0 h -> 0 < h ->
  (h <= dh -> h mod 2016 <> 0 -> timestamp - ts (h - 1) > 1200 ->
     required_bits_testnet_gen raw_at gb limit h timestamp dh mp = Ok gb) /\
  (h <= dh -> h mod 2016 <> 0 -> timestamp - ts (h - 1) <= 1200 ->
     exists k, 0 <= k < h /\
       required_bits_testnet_gen raw_at gb limit h timestamp dh mp = Ok (bits k) /\
       (k mod 2016 = 0 \/ bits k <> gb) /\
       (forall j, k < j < h -> j mod 2016 <> 0 /\ bits j = gb)) /\
  (h <= dh -> h mod 2016 = 0 ->
     required_bits_testnet_gen raw_at gb limit h timestamp dh mp = required_bits_fortnightly raw_at gb limit h) /\
  (dh < h -> mp = true -> timestamp - ts (h - 1) > 1200 ->
     required_bits_testnet_gen raw_at gb limit h timestamp dh mp = Ok gb) /\
  (dh < h -> (mp = false \/ timestamp - ts (h - 1) <= 1200) ->
     required_bits_testnet_gen raw_at gb limit h timestamp dh mp = required_bits_DAA raw_at limit h).
Proof.
  intros raw_at ts bits gb limit h timestamp dh mp HD Hh.
  rewrite (testnet_prior raw_at ts bits gb limit h timestamp dh mp)
    by (eapply chain_data_mono; [| |exact HD]; lia).
  repeat split; intros.
  - destruct (Z.leb_spec h dh); [|lia]. destruct (Z.eqb_spec (h mod 2016) 0); [lia|].
    destruct (Z.ltb_spec 1200 (timestamp - ts (h - 1))); [reflexivity|lia].
  - destruct (Z.leb_spec h dh); [|lia]. destruct (Z.eqb_spec (h mod 2016) 0); [lia|].
    destruct (Z.ltb_spec 1200 (timestamp - ts (h - 1))); [lia|].
    destruct (prior_non_special_spec raw_at ts bits gb (Z.to_nat h)) as (k & Hk & HE & HS & HJ).
    { now rewrite Z2Nat.id by lia. } { lia. }
    rewrite Z2Nat.id in * by lia. exists k. auto.
  - destruct (Z.leb_spec h dh); [|lia]. destruct (Z.eqb_spec (h mod 2016) 0); [reflexivity|lia].
  - destruct (Z.leb_spec h dh); [lia|]. subst mp. cbn [andb].
    destruct (Z.ltb_spec 1200 (timestamp - ts (h - 1))); [reflexivity|lia].
  - destruct (Z.leb_spec h dh); [lia|].
    destruct (Z.ltb_spec 1200 (timestamp - ts (h - 1))), mp; cbn [andb]; try reflexivity.
    match goal with HO : _ \/ _ |- _ => destruct HO; [discriminate|lia] end.
Qed.
Print Assumptions C19_testnet.
(** Which heights and flags the coins use. *)
Theorem C19_coins : forall raw_at h t,
  coin_required_bits BitcoinTestnet raw_at h t
    = required_bits_testnet_gen raw_at 0x1d00ffff (0xffff * 2 ^ 208) h t 1188697 true /\
  coin_required_bits BitcoinRegtest raw_at h t
    = required_bits_testnet_gen raw_at 0x1d00ffff (0xffff * 2 ^ 208) h t 1188697 true /\
  coin_required_bits BitcoinScalingTestnet raw_at h t
    = required_bits_testnet_gen raw_at 0x1d00ffff (0xffff * 2 ^ 208) h t 2200 false.
Proof. intros. repeat split; reflexivity. Qed.
Print Assumptions C19_coins.
Definition mixed_bits (h : Z) : Z := if h mod 7 =? 0 then 0x1c123456 else 0x1d00ffff.
Example C19_example :
  let ra := fun h => Ok (toy_raw (toy_ts h) (mixed_bits h)) in
  chain_data ra toy_ts mixed_bits 0 100 /\
  coin_required_bits BitcoinTestnet ra 20 (toy_ts 19 + 1200) = Ok 0x1c123456 /\
  coin_required_bits BitcoinTestnet ra 20 (toy_ts 19 + 1201) = Ok 0x1d00ffff.
Proof.
  cbv zeta. split; [|split; vm_compute; reflexivity].
  apply toy_chain_data. intros h Hh. unfold toy_ts, mixed_bits. destruct (h mod 7 =? 0); lia.
Qed.

Theorem C20_median_time_past : forall raw_at ts bits lo h,
  chain_data raw_at ts bits lo (h + 1) -> 0 <= h -> lo <= Z.max 0 (h - 10) ->
  exists t, median_time_past raw_at h = Ok t /\ mtp_spec ts h t.
Proof. exact mtp_Ok. Qed.
Print Assumptions C20_median_time_past.
Theorem C20_unique : forall ts h t t', mtp_spec ts h t -> mtp_spec ts h t' -> t = t'.
Proof. exact mtp_unique. Qed.
Print Assumptions C20_unique.
Definition jumpy_ts (h : Z) : Z := 1000 + 600 * h + (if h mod 3 =? 0 then 5000 else 0).
Example C20_example :
  chain_data (fun h => Ok (toy_raw (jumpy_ts h) 0)) jumpy_ts (fun _ => 0) 0 101 /\
  median_time_past (fun h => Ok (toy_raw (jumpy_ts h) 0)) 100 = Ok (jumpy_ts 98) /\
  median_time_past (fun h => Ok (toy_raw (jumpy_ts h) 0)) 1 = Ok 6000.
Proof.
  split; [|split; vm_compute; reflexivity]. apply toy_chain_data. intros h Hh. unfold jumpy_ts.
  destruct (h mod 3 =? 0); lia.
Qed.
