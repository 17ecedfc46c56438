(** Facts about the difficulty rules. *)
From Coq Require Import Sorting.Permutation Sorting.Sorted.
From Verif.Model Require Import Py Packing Bits Coin Work.
From Verif.Spec Require Import Numbers WorkSpec.
From Verif.Proofs Require Import PyFacts NumbersFacts WorkFacts.

Lemma unpack_uint_le_Ok n b : length b = n -> unpack_uint_le n b = Ok (le_int b).
Proof. intros HL. unfold unpack_uint_le, zlen. rewrite HL, Z.eqb_refl. reflexivity. Qed.

Lemma length_firstn_skipn {A} (l : list A) a n : (a + n <= length l)%nat -> length (firstn n (skipn a l)) = n.
Proof. intros. rewrite firstn_length, skipn_length. lia. Qed.

Lemma header_timestamp_spec raw : zlen raw = 80 -> header_timestamp raw = Ok (val_le (firstn 4 (skipn 68 raw))).
Proof.
  intros HL. unfold header_timestamp, unpack_le_uint32. rewrite pyslice_nonneg by lia.
  rewrite ztake_firstn, zdrop_skipn. rewrite val_le_int. apply unpack_uint_le_Ok.
  apply length_firstn_skipn. unfold zlen in HL. lia.
Qed.
Lemma header_bits_spec raw : zlen raw = 80 -> header_bits raw = Ok (val_le (firstn 4 (skipn 72 raw))).
Proof.
  intros HL. unfold header_bits, unpack_le_uint32. rewrite pyslice_nonneg by lia.
  rewrite ztake_firstn, zdrop_skipn. rewrite val_le_int. apply unpack_uint_le_Ok.
  apply length_firstn_skipn. unfold zlen in HL. lia.
Qed.

Lemma unpack_header_Ok raw : zlen raw = 80 -> exists v,
  unpack_header raw = Ok (v, ztake 32 (zdrop 4 raw), ztake 32 (zdrop 36 raw),
    val_le (firstn 4 (skipn 68 raw)), val_le (firstn 4 (skipn 72 raw)), val_le (firstn 4 (skipn 76 raw))).
Proof.
  intros HL. unfold unpack_header. rewrite HL. cbn [Z.eqb negb Pos.eqb].
  unfold unpack_le_int32, unpack_int_le. rewrite zlen_ztake, HL. cbn [Z.eqb Z.max Z.min Z.compare Pos.compare Pos.compare_cont Z.of_nat Pos.of_succ_nat Pos.succ].
  rewrite !ztake_firstn, !zdrop_skipn. unfold unpack_le_uint32. unfold zlen in HL.
  rewrite !unpack_uint_le_Ok by (apply length_firstn_skipn; lia). cbn [bind].
  eexists. reflexivity.
Qed.

Lemma zrange_nil a b : b <= a -> zrange a b = [].
Proof. intros. unfold zrange. now replace (Z.to_nat (b - a)) with O by lia. Qed.
Lemma zrange_cons a b : a < b -> zrange a b = a :: zrange (a + 1) b.
Proof. intros. unfold zrange. replace (Z.to_nat (b - a)) with (S (Z.to_nat (b - (a + 1)))) by lia. reflexivity. Qed.
Lemma zrange_nat_In a n x : In x (zrange_nat a n) <-> a <= x < a + Z.of_nat n.
Proof. revert a; induction n as [|n IH]; intros a; cbn [zrange_nat In]; [lia|]. rewrite IH. lia. Qed.
Lemma zrange_In a b x : In x (zrange a b) <-> a <= x < b.
Proof. unfold zrange. rewrite zrange_nat_In. lia. Qed.
Lemma zrange_nat_length a n : length (zrange_nat a n) = n.
Proof. revert a; induction n; intros; cbn; auto. Qed.
Lemma zlen_zrange a b : zlen (zrange a b) = Z.max 0 (b - a).
Proof. unfold zlen, zrange. rewrite zrange_nat_length. lia. Qed.
Lemma zrange_nat_map a n : zrange_nat a n = map (fun k => a + Z.of_nat k) (seq 0 n).
Proof.
  revert a; induction n as [|n IH]; intros a; cbn [zrange_nat seq map]; [reflexivity|].
  f_equal; [lia|]. rewrite IH, <- seq_shift, map_map. apply map_ext. intros; lia.
Qed.
Lemma zrange_app a b c : a <= b <= c -> zrange a c = zrange a b ++ zrange b c.
Proof.
  intros [H1 H2]. unfold zrange. remember (Z.to_nat (b - a)) as n eqn:Hn. revert a H1 Hn.
  induction n as [|n IH]; intros a H1 Hn.
  - cbn [zrange_nat app]. now replace b with a by lia.
  - cbn [zrange_nat app]. replace (Z.to_nat (c - a)) with (S (Z.to_nat (c - (a + 1)))) by lia. cbn [zrange_nat].
    f_equal. apply IH; lia.
Qed.
Lemma zrange_snoc a b : a <= b -> zrange a (b + 1) = zrange a b ++ [b].
Proof.
  intros. rewrite (zrange_app a b (b + 1)) by lia. f_equal. rewrite zrange_cons, zrange_nil by lia. reflexivity.
Qed.
Lemma znth_zrange_nat a n i : 0 <= i < Z.of_nat n -> znth (zrange_nat a n) i = Some (a + i).
Proof.
  intros Hi. rewrite znth_nth_error by lia. rewrite zrange_nat_map, nth_error_map.
  rewrite (nth_error_nth' _ O) by (rewrite seq_length; lia). rewrite seq_nth by lia. cbn. f_equal. lia.
Qed.
Lemma znth_zrange a b i : 0 <= i < b - a -> znth (zrange a b) i = Some (a + i).
Proof. intros. apply znth_zrange_nat. lia. Qed.

(** Sorting *)
Lemma insert_perm x l : Permutation (x :: l) (insert x l).
Proof.
  induction l as [|y l IH]; cbn [insert]; [reflexivity|]. destruct (x <=? y); [reflexivity|].
  rewrite perm_swap. now rewrite IH.
Qed.
Lemma sorted_perm l : Permutation l (sorted l).
Proof. induction l as [|x l IH]; cbn [sorted fold_right]; [reflexivity|]. rewrite <- insert_perm. now constructor. Qed.
Lemma insert_sorted x l : Sorted Z.le l -> Sorted Z.le (insert x l).
Proof.
  induction 1 as [|y l HS IH HR]; cbn [insert]; [repeat constructor|].
  destruct (Z.leb_spec x y); [repeat constructor; auto|].
  constructor; [exact IH|]. inversion HR; subst; cbn [insert]; [constructor; lia|].
  destruct (x <=? b); constructor; lia.
Qed.
Lemma sorted_sorted l : Sorted Z.le (sorted l).
Proof. induction l as [|x l IH]; cbn [sorted fold_right]; [constructor|]. now apply insert_sorted. Qed.
Lemma sorted_unique a b : Sorted Z.le a -> Sorted Z.le b -> Permutation a b -> a = b.
Proof.
  intros HA HB HP. apply Sorted_StronglySorted in HA, HB; try (intros ? ? ?; lia).
  revert b HB HP. induction HA as [|x a HA IH HF]; intros b HB HP.
  - now apply Permutation_nil in HP.
  - destruct HB as [|y b HB HG]; [apply Permutation_sym, Permutation_nil in HP; discriminate|].
    assert (x = y).
    { rewrite Forall_forall in HF, HG.
      assert (HX : In x (y :: b)) by (eapply Permutation_in; [exact HP|now left]).
      assert (HY : In y (x :: a)) by (eapply Permutation_in; [apply Permutation_sym, HP|now left]).
      destruct HX as [->|HX]; [reflexivity|]. destruct HY as [->|HY]; [reflexivity|].
      specialize (HF y HY). specialize (HG x HX). lia. }
    subst y. f_equal. apply IH; [exact HB|]. now apply Permutation_cons_inv in HP.
Qed.
Lemma rank_unique l k x y : rank l k x -> rank l k y -> x = y.
Proof.
  intros (s & P1 & S1 & N1) (s' & P2 & S2 & N2).
  assert (s = s') as -> by (apply sorted_unique; auto; now rewrite <- P1). congruence.
Qed.
Lemma rank_perm l l' k x : Permutation l l' -> rank l k x -> rank l' k x.
Proof. intros HP (s & P1 & S1 & N1). exists s. split; [|auto]. now rewrite <- HP. Qed.

  Lemma retarget_bounds T x : 0 <= T -> T / 4 <= T * clamp 302400 4838400 x / 1209600 <= 4 * T.
  Proof.
    intros HT. set (c := clamp _ _ x).
    assert (302400 <= c <= 4838400).
    { subst c. unfold clamp. destruct (Z.ltb_spec x 302400), (Z.ltb_spec 4838400 x); lia. }
    clearbody c. split.
    - replace (T / 4) with (T * 302400 / 1209600).
      + apply Z.div_le_mono; nia.
      + change 1209600 with (4 * 302400). now rewrite Z.div_mul_cancel_r by lia.
    - apply Z.div_le_upper_bound; [lia|]. nia.
  Qed.

  Lemma median3_unique (ts : Z -> Z) h m m' : median3 ts h m -> median3 ts h m' -> m = m'.
  Proof.
    intros (Hm & HR & H1 & H2 & H3) (Hm' & HR' & H1' & H2' & H3').
    pose proof (rank_unique _ _ _ _ HR HR') as HE.
    destruct Hm as [->|[->| ->]], Hm' as [->|[->| ->]]; try reflexivity; try (now apply H1); try (symmetry; now apply H1').
    - destruct (Z.lt_trichotomy (ts (h - 2)) (ts (h - 1))) as [Hl|[Hl|Hl]].
      + symmetry. apply H3'; auto.
      + specialize (H1' Hl). lia.
      + apply H2; auto.
    - destruct (Z.lt_trichotomy (ts (h - 2)) (ts (h - 1))) as [Hl|[Hl|Hl]].
      + apply H3; auto.
      + specialize (H1 Hl). lia.
      + symmetry. apply H2'; auto.
  Qed.
  Lemma mtp_unique (ts : Z -> Z) h t t' : mtp_spec ts h t -> mtp_spec ts h t' -> t = t'.
  Proof. apply rank_unique. Qed.
Section Rules.
  Variable raw_at : Z -> result bytes.
  Variables ts bits : Z -> Z.

  Lemma header_at_data lo hi h : chain_data raw_at ts bits lo hi -> lo <= h < hi ->
    header_at raw_at h = Ok (mk_hdr h (ts h) (bits h)).
  Proof.
    intros HD Hh. destruct (HD h Hh) as (raw & HR & HL & _ & HT & HB).
    unfold header_at. rewrite HR. cbn [bind]. destruct (unpack_header_Ok raw HL) as (v & ->). cbn [bind].
    now rewrite <- HT, <- HB.
  Qed.
  Lemma timestamp_data lo hi h : chain_data raw_at ts bits lo hi -> lo <= h < hi ->
    (raw <- raw_at h ;; header_timestamp raw) = Ok (ts h).
  Proof.
    intros HD Hh. destruct (HD h Hh) as (raw & -> & HL & _ & HT & HB). cbn [bind].
    rewrite header_timestamp_spec by exact HL. now rewrite HT.
  Qed.
  Lemma bits_data lo hi h : chain_data raw_at ts bits lo hi -> lo <= h < hi ->
    (raw <- raw_at h ;; header_bits raw) = Ok (bits h).
  Proof.
    intros HD Hh. destruct (HD h Hh) as (raw & -> & HL & _ & HT & HB). cbn [bind].
    rewrite header_bits_spec by exact HL. now rewrite HB.
  Qed.
  Lemma chain_data_mono lo hi lo' hi' : lo' <= lo -> hi <= hi' ->
    chain_data raw_at ts bits lo' hi' -> chain_data raw_at ts bits lo hi.
  Proof. intros H1 H2 HD h Hh. apply HD. lia. Qed.
  Lemma bits_nonneg lo hi h : chain_data raw_at ts bits lo hi -> lo <= h < hi -> 0 <= bits h.
  Proof.
    intros HD Hh. destruct (HD h Hh) as (raw & _ & _ & HO & _ & ->). rewrite val_le_int. apply le_int_nonneg.
    change (firstn 4 (skipn 72 raw)) with (firstn (Z.to_nat 4) (skipn (Z.to_nat 72) raw)).
    rewrite <- zdrop_skipn, <- ztake_firstn. apply bytes_ok_ztake, bytes_ok_zdrop, HO.
  Qed.

  (** median_time_past *)
  Lemma mtp_Ok lo h : chain_data raw_at ts bits lo (h + 1) -> 0 <= h -> lo <= Z.max 0 (h - 10) ->
    exists t, median_time_past raw_at h = Ok t /\ mtp_spec ts h t.
  Proof.
    intros HD Hh Hlo. unfold median_time_past.
    replace (Z.max (-1) (h - 11) + 1) with (Z.max 0 (h - 10)) by lia.
    set (hs := rev _).
    assert (HM : mapM (fun h0 => raw <- raw_at h0 ;; header_timestamp raw) hs = Ok (map ts hs)).
    { assert (HI : forall x, In x hs -> lo <= x < h + 1).
      { intros x Hx. subst hs. apply in_rev in Hx. apply zrange_In in Hx. lia. }
      revert HI. generalize hs as l. induction l as [|x l IH]; intros HI; [reflexivity|].
      cbn [mapM map]. rewrite (timestamp_data lo (h + 1)) by (auto; apply HI; now left). cbn [bind].
      rewrite IH by (intros; apply HI; now right). reflexivity. }
    rewrite HM. cbn [bind].
    set (n := Z.to_nat (Z.min 11 (h + 1))).
    assert (Hhs : map ts hs = map (fun k => ts (h - Z.of_nat k)) (seq 0 n)).
    { subst hs. unfold zrange. rewrite zrange_nat_map.
      replace (Z.to_nat (h + 1 - Z.max 0 (h - 10))) with n by lia.
      rewrite <- map_rev, map_map.
      assert (HX : forall m, rev (seq 0 m) = map (fun k => (m - 1 - k)%nat) (seq 0 m)).
      { induction m as [|m IH]; [reflexivity|].
        rewrite seq_S at 1. rewrite rev_app_distr. cbn [rev app Nat.add]. cbn [seq map].
        f_equal; [lia|]. rewrite IH, <- seq_shift, map_map. apply map_ext_in. intros; lia. }
      rewrite HX, map_map. apply map_ext_in. intros k Hk. apply in_seq in Hk. f_equal. lia. }
    rewrite Hhs. set (l := map _ (seq 0 n)).
    assert (HL : zlen l = Z.of_nat n) by (subst l; unfold zlen; now rewrite map_length, seq_length).
    assert (HLs : length (sorted l) = n).
    { rewrite <- (Permutation_length (sorted_perm l)). unfold zlen in HL. lia. }
    unfold pyindex. rewrite HL. destruct (Z.ltb_spec (Z.of_nat n / 2) 0); [lia|].
    rewrite znth_nth_error by lia.
    change (Z.of_nat n / 2) with (Z.of_nat n / Z.of_nat 2). rewrite <- Nat2Z.inj_div, Nat2Z.id.
    assert (Nat.div n 2 < n)%nat by (apply Nat.div_lt; lia).
    destruct (nth_error (sorted l) (Nat.div n 2)) as [t|] eqn:HT.
    - exists t. split; [reflexivity|]. exists (sorted l). split; [apply sorted_perm|]. split; [apply sorted_sorted|exact HT].
    - apply nth_error_None in HT. lia.
  Qed.
  Lemma mtp_neg h : h < 0 -> median_time_past raw_at h = Err IndexError.
  Proof. intros Hh. unfold median_time_past. rewrite zrange_nil by lia. reflexivity. Qed.


  Lemma clamp_min_max lo hi x : lo <= hi -> Z.min (Z.max x lo) hi = clamp lo hi x.
  Proof. intros. unfold clamp. destruct (Z.ltb_spec x lo), (Z.ltb_spec hi x); lia. Qed.

  Variable gb limit : Z.

  (** Fortnightly *)
  Lemma fortnightly_0 : required_bits_fortnightly raw_at gb limit 0 = Ok gb.
  Proof. reflexivity. Qed.

  Lemma fortnightly_keep h : h <> 0 -> h mod 2016 <> 0 -> chain_data raw_at ts bits (h - 1) h ->
    required_bits_fortnightly raw_at gb limit h = Ok (bits (h - 1)).
  Proof.
    intros H0 Hm HD. unfold required_bits_fortnightly.
    destruct (Z.eqb_spec h 0); [contradiction|]. rewrite (header_at_data _ _ _ HD) by lia. cbn [bind].
    destruct (Z.eqb_spec (h mod 2016) 0); [contradiction|]. reflexivity.
  Qed.

  Lemma fortnightly_retarget h T : 0 < h -> h mod 2016 = 0 -> chain_data raw_at ts bits (h - 2016) h ->
    compact (bits (h - 1)) T -> 0 <= limit < 2 ^ 256 ->
    exists b, required_bits_fortnightly raw_at gb limit h = Ok b /\
      rounds_to (Z.min limit (T * clamp 302400 4838400 (ts (h - 1) - ts (h - 2016)) / 1209600)) b.
  Proof.
    intros H0 Hm HD HC HL. unfold required_bits_fortnightly.
    destruct (Z.eqb_spec h 0); [lia|]. rewrite (header_at_data _ _ _ HD) by lia. cbn [bind].
    destruct (Z.eqb_spec (h mod 2016) 0); [|contradiction]. cbn [negb].
    rewrite (header_at_data _ _ _ HD) by lia. cbn [bind hd_timestamp hd_bits].
    rewrite (proj2 (bits_to_target_spec _ T) HC). cbn [bind].
    change (2016 * 600 / 4) with 302400. change (2016 * 600 * 4) with 4838400. change (2016 * 600) with 1209600.
    rewrite clamp_min_max by lia. rewrite Z.min_comm.
    set (N := Z.min limit _).
    assert (HN : 0 <= N < 2 ^ 256).
    { subst N. pose proof (compact_nonneg _ _ HC).
      assert (0 <= clamp 302400 4838400 (ts (h - 1) - ts (h - 2016))).
      { unfold clamp. destruct (Z.ltb_spec (ts (h - 1) - ts (h - 2016)) 302400), (Z.ltb_spec 4838400 (ts (h - 1) - ts (h - 2016))); lia. }
      assert (0 <= T * clamp 302400 4838400 (ts (h - 1) - ts (h - 2016)) / 1209600) by (apply Z.div_pos; nia). lia. }
    destruct (target_to_bits_rounds N HN) as (b & r & HB & HCr & Hr & _ & Hmax & _).
    exists b. split; [exact HB|]. exists r. auto.
  Qed.

  (** Median of three headers *)
  Lemma median_prior_spec h : chain_data raw_at ts bits (h - 3) h ->
    exists m, median_prior_header raw_at h = Ok (mk_hdr m (ts m) (bits m)) /\ median3 ts h m.
  Proof.
    intros HD. unfold median_prior_header. rewrite !(header_at_data _ _ _ HD) by lia. cbn [bind].
    set (a := ts (h - 3)). set (b := ts (h - 2)). set (c := ts (h - 1)).
    assert (HR : forall x y z w, Permutation [x; y; z] [a; b; c] -> x <= y <= z -> w = y -> rank [a; b; c] 1 w).
    { intros x y z w HP Hle ->. exists [x; y; z]. split; [now apply Permutation_sym|]. split; [|reflexivity].
      repeat constructor; lia. }
    assert (P1 : Permutation [a; c; b] [a; b; c]) by (constructor; apply perm_swap).
    assert (P2 : Permutation [b; a; c] [a; b; c]) by apply perm_swap.
    assert (P3 : Permutation [c; a; b] [a; b; c]) by (rewrite perm_swap; exact P1).
    assert (P4 : Permutation [b; c; a] [a; b; c]).
    { rewrite (perm_swap a c []). rewrite <- P2. reflexivity. }
    assert (P5 : Permutation [c; b; a] [a; b; c]).
    { rewrite (perm_swap b c [a]). exact P4. }
    unfold maybe_swap. cbn [hd_timestamp]. fold a b c.
    destruct (Z.ltb_spec c a); cbn [hd_timestamp].
    - destruct (Z.ltb_spec b c); cbn [hd_timestamp].
      + destruct (Z.ltb_spec a c); cbn [hd_timestamp]; [lia|].
        exists (h - 1). split; [reflexivity|]. unfold median3. fold a b c.
        split; [lia|]. split; [apply (HR b c a); auto; lia|lia].
      + destruct (Z.ltb_spec a b); cbn [hd_timestamp].
        * exists (h - 3). split; [reflexivity|]. unfold median3. fold a b c.
          split; [lia|]. split; [apply (HR c a b); auto; lia|lia].
        * exists (h - 2). split; [reflexivity|]. unfold median3. fold a b c.
          split; [lia|]. split; [apply (HR c b a); auto; lia|lia].
    - destruct (Z.ltb_spec b a); cbn [hd_timestamp].
      + destruct (Z.ltb_spec c a); cbn [hd_timestamp]; [lia|].
        exists (h - 3). split; [reflexivity|]. unfold median3. fold a b c.
        split; [lia|]. split; [apply (HR b a c); auto; lia|lia].
      + destruct (Z.ltb_spec c b); cbn [hd_timestamp].
        * exists (h - 1). split; [reflexivity|]. unfold median3. fold a b c.
          split; [lia|]. split; [apply (HR a c b); auto; lia|lia].
        * exists (h - 2). split; [reflexivity|]. unfold median3. fold a b c.
          split; [lia|]. split; [apply (HR a b c); auto; lia|lia].
  Qed.


  (** Work of a range of headers *)
  Lemma fold_add_acc l a : fold_left Z.add l a = a + fold_left Z.add l 0.
  Proof. revert a; induction l as [|x l IH]; intros a; cbn [fold_left]; [lia|]. rewrite (IH (a + x)), (IH (0 + x)). lia. Qed.

  Lemma chainwork_range_data lo hi (target : Z -> Z) (work : Z -> Z) s e :
    chain_data raw_at ts bits lo hi ->
    (forall h, s <= h < e -> lo <= h < hi /\ compact (bits h) (target h) /\ work_of_target (target h) (work h)) ->
    chainwork_range raw_at s e = Ok (sum_from work s (Z.to_nat (e - s))).
  Proof.
    intros HD HW. unfold chainwork_range, zrange. remember (Z.to_nat (e - s)) as n eqn:Hn. revert s HW Hn.
    induction n as [|n IH]; intros s HW Hn; [reflexivity|].
    cbn [zrange_nat mapM sum_from].
    assert (Hs : s <= s < e) by lia. destruct (HW s Hs) as (Hr & HC & HWk).
    assert (HB : (raw <- raw_at s ;; header_work raw) = Ok (work s)).
    { unfold header_work. pose proof (bits_data _ _ _ HD Hr) as HB.
      apply bind_Ok in HB as (raw & HR & HB). rewrite HR. cbn [bind]. rewrite HB. cbn [bind].
      apply bits_to_work_spec. exists (target s). auto. }
    rewrite HB. cbn [bind].
    specialize (IH (s + 1)). unfold bind in IH.
    destruct (mapM _ (zrange_nat (s + 1) n)) as [l|err] eqn:HM.
    - assert (Ok (fold_left Z.add l 0) = Ok (sum_from work (s + 1) n)) as HIH.
      { apply IH; [intros h Hh; apply HW; lia|lia]. }
      injection HIH as HIH. cbn [bind fold_left]. rewrite fold_add_acc, HIH. f_equal.
    - exfalso. assert (HX : @Err Z err = Ok (sum_from work (s + 1) n)) by (apply IH; [intros h Hh; apply HW; lia|lia]). discriminate.
  Qed.

  Lemma sum_from_bounds f lo n a b : (forall h, lo <= h < lo + Z.of_nat n -> a <= f h <= b) ->
    a * Z.of_nat n <= sum_from f lo n <= b * Z.of_nat n.
  Proof.
    revert lo; induction n as [|n IH]; intros lo Hf; cbn [sum_from]; [lia|].
    specialize (IH (lo + 1) ltac:(intros; apply Hf; lia)). pose proof (Hf lo ltac:(lia)). lia.
  Qed.

  Lemma DAA_Ok h (target work : Z -> Z) :
    chain_data raw_at ts bits (h - 147) h ->
    (forall k, h - 147 <= k < h -> compact (bits k) (target k) /\ work_of_target (target k) (work k) /\
       2 <= target k <= limit) ->
    limit <= 0xffff * 2 ^ 208 ->
    exists s e b, median3 ts (h - 144) s /\ median3 ts h e /\
      required_bits_DAA raw_at limit h = Ok b /\
      let W := sum_from work (s + 1) (Z.to_nat (e - s)) in
      let Wn := W * 600 / clamp 43200 172800 (ts e - ts s) in
      0 < Wn <= 2 ^ 256 /\ rounds_to (Z.min limit (2 ^ 256 / Wn - 1)) b.
  Proof.
    intros HD HT HL.
    destruct (median_prior_spec (h - 144)) as (s & HS & MS).
    { apply (chain_data_mono (h - 144 - 3) (h - 144) (h - 147) h); auto; lia. }
    destruct (median_prior_spec h) as (e & HE & ME).
    { apply (chain_data_mono (h - 3) h (h - 147) h); auto; lia. }
    assert (Hs : h - 147 <= s <= h - 145) by (destruct MS as (HH & _); lia).
    assert (He : h - 3 <= e <= h - 1) by (destruct ME as (HH & _); lia).
    unfold required_bits_DAA. rewrite HS, HE. cbn [bind hd_height hd_timestamp].
    rewrite (chainwork_range_data (h - 147) h target work (s + 1) (e + 1)); [|exact HD|].
    2:{ intros k Hk. destruct (HT k ltac:(lia)) as (A & B & _). split; [lia|auto]. }
    cbn [bind]. replace (e + 1 - (s + 1)) with (e - s) by lia.
    rewrite clamp_min_max by lia.
    set (W := sum_from work (s + 1) (Z.to_nat (e - s))).
    set (P := clamp 43200 172800 (ts e - ts s)).
    assert (HP : 43200 <= P <= 172800).
    { subst P. unfold clamp. destruct (Z.ltb_spec (ts e - ts s) 43200), (Z.ltb_spec 172800 (ts e - ts s)); lia. }
    assert (HW : 2 ^ 32 * 142 <= W /\ 3 * W <= 2 ^ 256 * 146).
    { assert (HB : forall k, s + 1 <= k < s + 1 + Z.of_nat (Z.to_nat (e - s)) -> 2 ^ 32 <= work k <= 2 ^ 256 / 3).
      { intros k Hk. destruct (HT k ltac:(lia)) as (_ & Bw & Bt). unfold work_of_target in Bw.
        split.
        - destruct (Z.le_gt_cases (2 ^ 32) (work k)); [assumption|].
          assert ((work k + 1) * (target k + 1) <= 2 ^ 32 * (0xffff * 2 ^ 208 + 1)) by (apply Z.mul_le_mono_nonneg; nia).
          lia.
        - apply Z.div_le_lower_bound; [lia|]. assert (0 <= work k) by nia. nia. }
      pose proof (sum_from_bounds work (s + 1) (Z.to_nat (e - s)) (2 ^ 32) (2 ^ 256 / 3) HB) as HSum.
      fold W in HSum. rewrite Z2Nat.id in HSum by lia.
      assert (3 * (2 ^ 256 / 3) <= 2 ^ 256) by (apply Z.mul_div_le; lia).
      assert (142 <= e - s <= 146) by lia. set (Q := 2 ^ 256 / 3) in *. clearbody Q. nia. }
    assert (EW : W = sum_from work (s + 1) (Z.to_nat (e - s))) by reflexivity.
    assert (EP : P = clamp 43200 172800 (ts e - ts s)) by reflexivity.
    clearbody W P. set (Wn := W * 600 / P).
    assert (HWn : 0 < Wn <= 2 ^ 256).
    { subst Wn. split.
      - apply Z.div_str_pos. nia.
      - apply Z.div_le_upper_bound; [lia|]. nia. }
    assert (EWn : Wn = W * 600 / P) by reflexivity.
    clearbody Wn. destruct (Z.eqb_spec Wn 0); [lia|].
    change (Z.shiftl 1 256) with (2 ^ 256). rewrite Z.min_comm.
    assert (HQ : 1 <= 2 ^ 256 / Wn) by (apply Z.div_le_lower_bound; lia).
    assert (HN : 0 <= Z.min limit (2 ^ 256 / Wn - 1) < 2 ^ 256).
    { assert (2 <= limit) by (destruct (HT (h - 1) ltac:(lia)); lia). split; [lia|].
      apply Z.le_lt_trans with limit; [apply Z.le_min_l|lia]. }
    destruct (target_to_bits_rounds _ HN) as (b & r & HB & HCr & Hr & _ & Hmax & _).
    exists s, e, b. cbv zeta. rewrite <- EW, <- EP, <- EWn.
    split; [exact MS|]. split; [exact ME|]. split; [exact HB|]. split; [exact HWn|].
    exists r. auto.
  Qed.

  (** EDA *)
  Lemma EDA_spec h b T m1 m7 : h mod 2016 <> 0 ->
    required_bits_fortnightly raw_at gb limit h = Ok b -> compact b T -> 0 <= limit < 2 ^ 256 ->
    chain_data raw_at ts bits (Z.max 0 (h - 17)) h -> 7 <= h ->
    mtp_spec ts (h - 1) m1 -> mtp_spec ts (h - 7) m7 ->
    if m1 - m7 <? 43200 then required_bits_EDA raw_at gb limit h = Ok b
    else exists b', required_bits_EDA raw_at gb limit h = Ok b' /\ rounds_to (Z.min limit (T + T / 4)) b'.
  Proof.
    intros Hm HF HC HL HD Hh M1 M7.
    assert (HE : required_bits_EDA raw_at gb limit h =
      if m1 - m7 <? 43200 then Ok b else target_to_bits (Z.min limit (T + T / 4))).
    { unfold required_bits_EDA. rewrite HF. cbn [bind].
      destruct (Z.eqb_spec (h mod 2016) 0); [contradiction|].
      destruct (mtp_Ok (Z.max 0 (h - 17)) (h - 1)) as (x1 & -> & X1); [now replace (h - 1 + 1) with h by lia|lia|lia|].
      destruct (mtp_Ok (Z.max 0 (h - 17)) (h - 7)) as (x7 & -> & X7); [|lia|lia|].
      { apply (chain_data_mono (Z.max 0 (h - 17)) (h - 7 + 1) (Z.max 0 (h - 17)) h); auto; lia. }
      rewrite (mtp_unique _ _ _ _ X1 M1), (mtp_unique _ _ _ _ X7 M7). cbn [bind].
      change (12 * 3600) with 43200. destruct (m1 - m7 <? 43200); [reflexivity|].
      rewrite (proj2 (bits_to_target_spec _ T) HC). cbn [bind]. rewrite Z.shiftr_div_pow2 by lia.
      rewrite Z.min_comm. reflexivity. }
    rewrite HE. destruct (m1 - m7 <? 43200); [reflexivity|].
    pose proof (compact_nonneg _ _ HC).
    assert (HN : 0 <= Z.min limit (T + T / 4) < 2 ^ 256) by lia.
    destruct (target_to_bits_rounds _ HN) as (b' & r & HB & HCr & Hr & _ & Hmax & _).
    exists b'. split; [exact HB|]. exists r. auto.
  Qed.
  Lemma EDA_retarget h : h mod 2016 = 0 ->
    required_bits_EDA raw_at gb limit h = required_bits_fortnightly raw_at gb limit h.
  Proof.
    intros Hm. unfold required_bits_EDA. destruct (required_bits_fortnightly raw_at gb limit h); cbn [bind]; [|reflexivity].
    now rewrite Hm.
  Qed.

  (** Testnet backward scan *)
  Lemma prior_non_special_spec n : chain_data raw_at ts bits 0 (Z.of_nat n) -> (0 < n)%nat ->
    exists k, 0 <= k < Z.of_nat n /\ prior_non_special_bits raw_at gb n = Ok (bits k) /\
      (k mod 2016 = 0 \/ bits k <> gb) /\
      (forall j, k < j < Z.of_nat n -> j mod 2016 <> 0 /\ bits j = gb).
  Proof.
    induction n as [|n IH]; intros HD Hn; [lia|].
    pose proof (bits_data _ _ (Z.of_nat n) HD ltac:(lia)) as HB.
    apply bind_Ok in HB as (raw & HR & HB).
    assert (HU : prior_non_special_bits raw_at gb (S n) =
      if (Z.of_nat n mod 2016 =? 0) || negb (bits (Z.of_nat n) =? gb) then Ok (bits (Z.of_nat n))
      else prior_non_special_bits raw_at gb n).
    { cbn [prior_non_special_bits]. rewrite HR. cbn [bind]. rewrite HB. reflexivity. }
    rewrite HU. clear HU.
    destruct (Z.eqb_spec (Z.of_nat n mod 2016) 0) as [H0|H0]; cbn [orb].
    { exists (Z.of_nat n). repeat split; auto; lia. }
    destruct (Z.eqb_spec (bits (Z.of_nat n)) gb) as [H1|H1]; cbn [negb].
    2:{ exists (Z.of_nat n). repeat split; auto; lia. }
    destruct n as [|n']; [cbn in H0; lia|].
    destruct IH as (k & Hk & HE & HS & HJ).
    { apply (chain_data_mono 0 (Z.of_nat (S n')) 0 (Z.of_nat (S (S n')))); auto; lia. }
    { lia. }
    exists k. split; [lia|]. split; [exact HE|]. split; [exact HS|].
    intros j Hj. destruct (Z.eq_dec j (Z.of_nat (S n'))) as [->|]; [auto|]. apply HJ. lia.
  Qed.

  Lemma testnet_prior h timestamp dh mp : chain_data raw_at ts bits (h - 1) h ->
    required_bits_testnet_gen raw_at gb limit h timestamp dh mp =
      if h <=? dh then
        if h mod 2016 =? 0 then required_bits_fortnightly raw_at gb limit h
        else if 1200 <? timestamp - ts (h - 1) then Ok gb
        else prior_non_special_bits raw_at gb (Z.to_nat h)
      else if mp && (1200 <? timestamp - ts (h - 1)) then Ok gb
      else required_bits_DAA raw_at limit h.
  Proof.
    intros HD. unfold required_bits_testnet_gen.
    pose proof (timestamp_data _ _ (h - 1) HD ltac:(lia)) as HT. apply bind_Ok in HT as (raw & -> & HT).
    cbn [bind]. rewrite HT. reflexivity.
  Qed.
End Rules.

(** Locality: the rules only read headers below the height in question. *)
Section Local.
  Variables r1 r2 : Z -> result bytes.
  Variable h : Z.
  Hypothesis agree : forall k, k < h -> r1 k = r2 k.

  Lemma header_at_local k : k < h -> header_at r1 k = header_at r2 k.
  Proof. intros. unfold header_at. now rewrite agree. Qed.
  Lemma fortnightly_local gb limit : required_bits_fortnightly r1 gb limit h = required_bits_fortnightly r2 gb limit h.
  Proof. unfold required_bits_fortnightly. now rewrite !header_at_local by lia. Qed.
  Lemma median_prior_local k : k <= h -> median_prior_header r1 k = median_prior_header r2 k.
  Proof. intros. unfold median_prior_header. now rewrite !header_at_local by lia. Qed.
  Lemma median_prior_height k m : median_prior_header r2 k = Ok m -> hd_height m < k.
  Proof.
    unfold median_prior_header. intros HM.
    apply bind_Ok in HM as (p0 & E0 & HM). apply bind_Ok in HM as (p1 & E1 & HM). apply bind_Ok in HM as (p2 & E2 & HM).
    assert (HH : forall k p, header_at r2 k = Ok p -> hd_height p = k).
    { clear. unfold header_at. intros k p HP. apply bind_Ok in HP as (raw & _ & HP).
      apply bind_Ok in HP as ([[[[[? ?] ?] ?] ?] ?] & _ & HP). injection HP as <-. reflexivity. }
    apply HH in E0, E1, E2. unfold maybe_swap in HM.
    repeat match type of HM with context [if ?c then _ else _] => destruct c end; injection HM as <-; lia.
  Qed.
  Lemma chainwork_local s e : e <= h -> chainwork_range r1 s e = chainwork_range r2 s e.
  Proof.
    intros. unfold chainwork_range. erewrite mapM_ext; [reflexivity|].
    intros x Hx. apply zrange_In in Hx. cbn. now rewrite agree by lia.
  Qed.
  Lemma DAA_local limit : required_bits_DAA r1 limit h = required_bits_DAA r2 limit h.
  Proof.
    unfold required_bits_DAA. rewrite !median_prior_local by lia.
    destruct (median_prior_header r2 (h - 144)); cbn [bind]; [|reflexivity].
    destruct (median_prior_header r2 h) as [m|] eqn:HM; cbn [bind]; [|reflexivity].
    apply median_prior_height in HM. now rewrite chainwork_local by lia.
  Qed.
  Lemma mtp_local k : k < h -> median_time_past r1 k = median_time_past r2 k.
  Proof.
    intros. unfold median_time_past. erewrite mapM_ext; [reflexivity|].
    intros x Hx. apply in_rev in Hx. apply zrange_In in Hx. cbn. now rewrite agree by lia.
  Qed.
  Lemma EDA_local gb limit : required_bits_EDA r1 gb limit h = required_bits_EDA r2 gb limit h.
  Proof. unfold required_bits_EDA. now rewrite fortnightly_local, !mtp_local by lia. Qed.
  Lemma prior_local gb n : Z.of_nat n <= h -> prior_non_special_bits r1 gb n = prior_non_special_bits r2 gb n.
  Proof.
    induction n as [|n IH]; intros Hn; cbn [prior_non_special_bits]; [reflexivity|].
    rewrite agree by lia. rewrite IH by lia. reflexivity.
  Qed.
  Lemma prior_local_nat gb : prior_non_special_bits r1 gb (Z.to_nat h) = prior_non_special_bits r2 gb (Z.to_nat h).
  Proof.
    destruct (Z.le_gt_cases 0 h); [apply prior_local; lia|]. now replace (Z.to_nat h) with O by lia.
  Qed.
  Lemma coin_required_bits_local c timestamp : coin_required_bits c r1 h timestamp = coin_required_bits c r2 h timestamp.
  Proof.
    unfold coin_required_bits. destruct (genesis_bits c) as [gb|]; cbn [bind]; [|reflexivity].
    destruct (max_target c) as [mt|]; cbn [bind]; [|reflexivity].
    unfold required_bits_by_rule. destruct (c_rule c).
    - unfold required_bits_mainnet. now rewrite fortnightly_local, EDA_local, DAA_local.
    - unfold required_bits_testnet, required_bits_testnet_gen. rewrite agree by lia.
      now rewrite fortnightly_local, DAA_local, prior_local_nat.
    - unfold required_bits_scaling_testnet, required_bits_testnet_gen. rewrite agree by lia.
      now rewrite fortnightly_local, DAA_local, prior_local_nat.
  Qed.
End Local.

(** The coins. *)
Lemma coins_limit c : In c all_coins -> genesis_bits c = Ok 0x1d00ffff /\ max_target c = Ok (0xffff * 2 ^ 208).
Proof. cbn [all_coins In]. intros [<-|[<-|[<-|[<-|[]]]]]; split; vm_compute; reflexivity. Qed.

(** A chain given by its timestamps and bits, for examples. *)
Definition toy_raw (t b : Z) : bytes := repeat 0 68 ++ le_digits 4 t ++ le_digits 4 b ++ repeat 0 4.
Lemma toy_chain_data (ts bits : Z -> Z) lo hi :
  (forall h, lo <= h < hi -> 0 <= ts h < 2 ^ 32 /\ 0 <= bits h < 2 ^ 32) ->
  chain_data (fun h => Ok (toy_raw (ts h) (bits h))) ts bits lo hi.
Proof.
  intros HR h Hh. destruct (HR h Hh) as [H1 H2]. eexists. split; [reflexivity|].
  split; [reflexivity|]. split.
  - unfold toy_raw. rewrite !bytes_ok_app, !le_digits_ok. reflexivity.
  - split.
    + change (firstn 4 (skipn 68 (toy_raw (ts h) (bits h)))) with (le_digits 4 (ts h)). rewrite val_le_int.
      symmetry. apply le_int_digits. exact H1.
    + change (firstn 4 (skipn 72 (toy_raw (ts h) (bits h)))) with (le_digits 4 (bits h)). rewrite val_le_int.
      symmetry. apply le_int_digits. exact H2.
Qed.
