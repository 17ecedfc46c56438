(** Division rounds to the nearest double. *)
From Coq Require Import Lia ZArith.
From Verif.Model Require Import Py Bits Coin Floats.
From Verif.Spec Require Import FloatSpec.
From Verif.Proofs Require Import PyFacts.

(** The nearest multiple [m] of a unit is the nearest double *)
Lemma nearest_unit X b m e : 0 < b -> -1074 <= e -> let U := b * 2 ^ (e + 1074) in
  (2 ^ 52 * U <= X \/ e = -1074) -> 0 <= m <= 2 ^ 53 -> 2 * Z.abs (X - m * U) <= U -> (2 * Z.abs (X - m * U) = U -> Z.Even m) ->
  forall m' e', finite_double m' e' -> let V := b * (m' * 2 ^ (e' + 1074)) in
    Z.abs (X - m * U) < Z.abs (X - V) \/ (Z.abs (X - m * U) = Z.abs (X - V) /\ (mk_double m' e' = pack m e \/ (Z.Even m /\ ~ Z.Even m'))).
Proof.
  intros Hb He U HX Hm HN HE m' e' (He' & Hm' & Hn') V.
  assert (0 < 2 ^ (e + 1074)) as HP by (apply Z.pow_pos_nonneg; lia). assert (0 < U) as HU by (unfold U; nia).
  assert (forall k, Z.abs (X - m * U) <= Z.abs (X - k * U) /\ (Z.abs (X - m * U) = Z.abs (X - k * U) -> k = m \/ (2 * Z.abs (X - m * U) = U /\ (k = m + 1 \/ k = m - 1)))) as HM.
  { intros k. assert (k = m \/ k = m + 1 \/ k = m - 1 \/ m + 2 <= k \/ k <= m - 2) as [->|[->|[->|[HK|HK]]]] by lia; nia. }
  destruct (Z.le_gt_cases e e') as [HC|HC].
  - set (k := m' * 2 ^ (e' - e)). assert (V = k * U) as HV. { unfold V, k, U. replace (e' + 1074) with ((e' - e) + (e + 1074)) by lia. rewrite Z.pow_add_r by lia. ring. }
    rewrite HV. destruct (HM k) as [H1 H2]. destruct (Z.eq_dec (Z.abs (X - m * U)) (Z.abs (X - k * U))) as [HQ|HQ]; [right|left; lia]. split; [exact HQ|]. destruct (H2 HQ) as [HK|[HT HK]].
    + left. unfold pack. destruct (Z.eq_dec e' e) as [->|Hne].
      * unfold k in HK. rewrite Z.sub_diag in HK. change (2 ^ 0) with 1 in HK. rewrite Z.mul_1_r in HK. subst m'. destruct (Z.eqb_spec m (2 ^ 53)); [lia|reflexivity].
      * assert (2 ^ (e' - e) = 2 * 2 ^ (e' - e - 1)) as HD by (replace (e' - e) with (1 + (e' - e - 1)) at 1 by lia; rewrite Z.pow_add_r by lia; reflexivity).
        assert (0 < 2 ^ (e' - e - 1)) as HP1 by (apply Z.pow_pos_nonneg; lia). assert (2 ^ 52 <= m') as Hm52 by lia. unfold k in HK. rewrite HD in HK.
        assert (2 ^ (e' - e - 1) = 1) as H1' by (clear - HK Hm Hm52 HP1; revert HK HP1; generalize (2 ^ (e' - e - 1)) as p; intros p HK HP1; destruct (Z.le_gt_cases 2 p) as [Hp|Hp]; [|lia]; exfalso; assert (2 ^ 52 * p <= m' * p) by (apply Z.mul_le_mono_nonneg_r; lia); lia). assert (m' = 2 ^ 52) as Hm'' by (rewrite H1' in HK; lia). assert (m = 2 ^ 53) as -> by (rewrite H1' in HK; lia). rewrite Z.eqb_refl. f_equal; [exact Hm''|].
        destruct (Z.eq_dec (e' - e - 1) 0); [lia|]. exfalso. assert (2 ^ (e' - e - 1) = 2 * 2 ^ (e' - e - 2)) as HD2 by (replace (e' - e - 1) with (1 + (e' - e - 2)) by lia; rewrite Z.pow_add_r by lia; reflexivity). lia.
    + right. specialize (HE HT). split; [exact HE|]. destruct HE as [h Hh]. intros [h' Hh']. unfold k in HK. set (t := 2 ^ (e' - e)) in *. assert (m' * t = 2 * (h' * t)) by (rewrite Hh'; ring). lia.
  - left. assert (2 ^ 52 * U <= X) as HX' by lia. destruct (HM (2 ^ 52)) as [H1 _].
    assert (V < 2 ^ 52 * U) as HV.
    { assert (2 ^ (e + 1074) = 2 * 2 ^ (e - 1 - e') * 2 ^ (e' + 1074)) as HQ by (replace (e + 1074) with (1 + (e - 1 - e') + (e' + 1074)) by lia; rewrite !Z.pow_add_r by lia; reflexivity).
      unfold V, U. rewrite HQ. assert (0 < 2 ^ (e' + 1074)) by (apply Z.pow_pos_nonneg; lia). assert (0 < 2 ^ (e - 1 - e')) by (apply Z.pow_pos_nonneg; lia). set (p := 2 ^ (e' + 1074)) in *. set (q := 2 ^ (e - 1 - e')) in *.
      assert (m' * p < 2 ^ 53 * p) by (apply Z.mul_lt_mono_pos_r; lia). assert (1 * p <= q * p) by (apply Z.mul_le_mono_nonneg_r; lia). assert (b * (m' * p) < b * (2 ^ 53 * (q * p))) by (apply Z.mul_lt_mono_pos_l; lia). replace (2 ^ 52 * (b * (2 * q * p))) with (b * (2 ^ 53 * (q * p))) by ring. assumption. }
    lia.
Qed.

(** Rounding the last bits *)
Definition round_bits (x : Z) (s : bool) (k : Z) : Z :=
  let mask := Z.shiftl 1 (k - 1) in
  let low := Z.lor x (if s then 1 else 0) in
  Z.shiftr (if negb (Z.land low mask =? 0) && negb (Z.land low (3 * mask - 1) =? 0) then low + mask else low) k.
Lemma lor_one x (s : bool) : 0 <= x -> (Z.lor x (if s then 1 else 0) = x /\ (s = true -> Z.Odd x)) \/ (s = true /\ Z.Even x /\ Z.lor x (if s then 1 else 0) = x + 1).
Proof.
  intros Hx. destruct s; [|left; split; [apply Z.lor_0_r|discriminate]]. destruct (Z.even x) eqn:E.
  - right. split; [reflexivity|]. apply Z.even_spec in E as [h ->]. split; [now exists h|]. apply Z.bits_inj'. intros n Hn. rewrite Z.lor_spec. destruct (Z.eq_dec n 0) as [->|Hne].
    + rewrite !Z.bit0_odd. rewrite Z.odd_add, Z.odd_mul. reflexivity.
    + replace n with (Z.succ (n - 1)) by lia. rewrite Z.testbit_even_succ, Z.testbit_odd_succ by lia. change 1 with (2 * 0 + 1) at 2. rewrite Z.testbit_odd_succ by lia. now rewrite Z.bits_0, orb_false_r.
  - left. rewrite <- Z.negb_odd in E. apply negb_false_iff in E. apply Z.odd_spec in E as [h ->]. split; [|intros _; now exists h]. apply Z.bits_inj'. intros n Hn. rewrite Z.lor_spec. destruct (Z.eq_dec n 0) as [->|Hne].
    + rewrite !Z.bit0_odd. now rewrite Z.odd_add, Z.odd_mul, orb_true_r.
    + replace n with (Z.succ (n - 1)) by lia. change 1 with (2 * 0 + 1) at 3. rewrite !Z.testbit_odd_succ by lia. now rewrite Z.bits_0, orb_false_r.
Qed.
Lemma land_zero x y : (Z.land x y =? 0) = true <-> Z.land x y = 0. Proof. apply Z.eqb_eq. Qed.
Lemma land_mask l j : 0 <= j -> 0 <= l -> (Z.land l (2 ^ j) =? 0) = Z.even (l / 2 ^ j).
Proof.
  intros Hj Hl. rewrite <- Z.shiftr_div_pow2 by lia. rewrite <- Z.negb_odd, <- Z.bit0_odd, Z.shiftr_spec by lia. rewrite Z.add_0_l. destruct (Z.testbit l j) eqn:E; cbn [negb].
  - apply Z.eqb_neq. intros HX. apply (f_equal (fun z => Z.testbit z j)) in HX. rewrite Z.land_spec, E, Z.pow2_bits_true, Z.bits_0 in HX by lia. discriminate.
  - apply Z.eqb_eq. apply Z.bits_inj'. intros n Hn. rewrite Z.land_spec, Z.bits_0. destruct (Z.eq_dec n j) as [->|Hne]; [now rewrite E|]. rewrite Z.pow2_bits_false by lia. apply andb_false_r.
Qed.
Lemma land_rest l j : 0 <= j -> 0 <= l -> (Z.land l (3 * 2 ^ j - 1) =? 0) = Z.even (l / 2 ^ (j + 1)) && (l mod 2 ^ j =? 0).
Proof.
  intros Hj Hl. assert (3 * 2 ^ j - 1 = Z.lor (2 ^ (j + 1)) (Z.ones j)) as ->.
  { assert (Z.land (2 ^ (j + 1)) (Z.ones j) = 0) as HD by (rewrite Z.land_ones by lia; rewrite Z.pow_add_r by lia; rewrite Z.mul_comm; apply Z.mod_mul; apply Z.pow_nonzero; lia).
    rewrite <- Z.lxor_lor by exact HD. rewrite <- Z.add_nocarry_lxor by exact HD. rewrite Z.ones_equiv, Z.pow_add_r by lia. change (2 ^ 1) with 2. lia. }
  rewrite Z.land_lor_distr_r, <- land_mask by lia. rewrite Z.land_ones by lia. destruct (Z.eqb_spec (Z.land l (2 ^ (j + 1))) 0) as [->|HN].
  - now rewrite Z.lor_0_l.
  - cbn [andb]. apply Z.eqb_neq. intros HX. apply Z.lor_eq_0_iff in HX. tauto.
Qed.
Lemma pow_double k : 0 < k -> 2 ^ k = 2 * 2 ^ (k - 1).
Proof. intros. replace k with (1 + (k - 1)) at 1 by lia. rewrite Z.pow_add_r by lia. reflexivity. Qed.
Lemma even_div M q r : 0 <= r < M -> Z.even ((M * q + r) / M) = Z.even q.
Proof. intros H. now rewrite Z.mul_comm, Z.div_add_l, Z.div_small, Z.add_0_r by lia. Qed.
Lemma round_bits_eq x s k : 2 <= k -> 0 <= x -> round_bits x s k =
  if (2 ^ (k - 1) <? x mod 2 ^ k) || ((2 ^ (k - 1) =? x mod 2 ^ k) && (s || Z.odd (x / 2 ^ k))) then x / 2 ^ k + 1 else x / 2 ^ k.
Proof.
  intros Hk Hx. unfold round_bits. rewrite Z.shiftl_1_l. rewrite Z.shiftr_div_pow2 by lia. assert (2 ^ k = 2 * 2 ^ (k - 1)) as HK by (apply pow_double; lia).
  assert (2 ^ (k - 1) = 2 * 2 ^ (k - 1 - 1)) as HJ by (apply pow_double; lia). assert (0 < 2 ^ (k - 1 - 1)) as HP by (apply Z.pow_pos_nonneg; lia).
  assert (0 <= Z.lor x (if s then 1 else 0)) as HL by (apply Z.lor_nonneg; split; [exact Hx|destruct s; lia]).
  rewrite land_mask, land_rest by lia. replace (k - 1 + 1) with k by lia. rewrite !HK. set (M := 2 ^ (k - 1)) in *. set (h := 2 ^ (k - 1 - 1)) in *. clearbody M h. set (Q := x / (2 * M)). set (r := x mod (2 * M)).
  assert (x = 2 * M * Q + r /\ 0 <= r < 2 * M) as [Ex Hr] by (unfold Q, r; split; [apply Z.div_mod; lia|apply Z.mod_pos_bound; lia]). clearbody Q r.
  assert (exists r', Z.lor x (if s then 1 else 0) = 2 * M * Q + r' /\ 0 <= r' < 2 * M /\ (r' < M <-> r < M) /\ (r' = M <-> r = M /\ s = false)) as (r' & El & Hr' & H1 & H2).
  { destruct (lor_one x s Hx) as [[-> HS]|(-> & [y HE] & ->)].
    - exists r. split; [exact Ex|]. split; [exact Hr|]. split; [tauto|]. split; [|tauto]. intros ->. split; [reflexivity|]. destruct s; [|reflexivity]. exfalso. destruct (HS eq_refl) as [y Hy]. nia.
    - exists (r + 1). assert (r <> 2 * M - 1) by nia. assert (r <> M - 1) by nia. split; [lia|]. split; [lia|]. split; [lia|]. split; [|intros [_ H3]; discriminate]. lia. }
  rewrite El in *. clear El.
  assert ((2 * M * Q + r') / (2 * M) = Q) as D1 by (symmetry; apply (Z.div_unique _ _ _ r'); lia).
  assert ((2 * M * Q + r') mod M = if r' <? M then r' else r' - M) as D2.
  { destruct (Z.ltb_spec r' M); symmetry; [apply (Z.mod_unique _ _ (2 * Q)); lia|apply (Z.mod_unique _ _ (2 * Q + 1)); lia]. }
  assert (Z.even ((2 * M * Q + r') / M) = (r' <? M)) as D3.
  { destruct (Z.ltb_spec r' M).
    - replace ((2 * M * Q + r') / M) with (2 * Q) by (apply (Z.div_unique _ _ _ r'); lia). now rewrite Z.even_mul.
    - replace ((2 * M * Q + r') / M) with (2 * Q + 1) by (apply (Z.div_unique _ _ _ (r' - M)); lia). now rewrite Z.even_add, Z.even_mul. }
  rewrite D1, D2, D3. destruct (Z.ltb_spec r' M) as [HC|HC]; cbn [negb andb].
  - rewrite D1. destruct (Z.ltb_spec M r); [lia|]. destruct (Z.eqb_spec M r); [lia|]. reflexivity.
  - rewrite <- Z.negb_odd. destruct (Z.eqb_spec (r' - M) 0) as [HZ|HZ].
    + destruct (proj1 H2 ltac:(lia)) as [-> ->]. rewrite Z.ltb_irrefl, Z.eqb_refl, andb_true_r, negb_involutive. cbn [orb andb]. destruct (Z.odd Q); [symmetry; apply (Z.div_unique _ _ _ 0); lia|exact D1].
    + rewrite andb_false_r. cbn [negb]. assert ((2 * M * Q + r' + M) / (2 * M) = Q + 1) as -> by (symmetry; apply (Z.div_unique _ _ _ (r' - M)); lia).
      destruct (Z.ltb_spec M r); [reflexivity|]. destruct (Z.eqb_spec M r); [|lia]. destruct s; [reflexivity|]. exfalso. apply HZ. assert (r' = M) by (apply H2; auto). lia.
Qed.
(** The multiple of 2^k d nearest to n, the even one if there are two *)
Lemma round_bits_nearest n d k : 0 <= n -> 0 < d -> 2 <= k -> let m := round_bits (n / d) (negb (n mod d =? 0)) k in
  2 * Z.abs (n - m * (2 ^ k * d)) <= 2 ^ k * d /\ (2 * Z.abs (n - m * (2 ^ k * d)) = 2 ^ k * d -> Z.Even m) /\ n / d / 2 ^ k <= m <= n / d / 2 ^ k + 1.
Proof.
  intros Hn Hd Hk. cbv zeta. rewrite round_bits_eq by (try apply Z.div_pos; lia). assert (2 ^ k = 2 * 2 ^ (k - 1)) as -> by (apply pow_double; lia). assert (0 < 2 ^ (k - 1)) as HP by (apply Z.pow_pos_nonneg; lia).
  set (M := 2 ^ (k - 1)) in *. clearbody M. set (Q := n / d / (2 * M)). set (r := n / d mod (2 * M)). set (x := n / d) in *. set (y := n mod d).
  assert (n = d * x + y /\ 0 <= y < d) as [En Hy] by (unfold x, y; split; [apply Z.div_mod; lia|apply Z.mod_pos_bound; lia]).
  assert (x = 2 * M * Q + r /\ 0 <= r < 2 * M) as [Ex Hr] by (unfold Q, r; split; [apply Z.div_mod; lia|apply Z.mod_pos_bound; lia]). clearbody Q r y. clearbody x. subst x n.
  replace (d * (2 * M * Q + r) + y) with (Q * (2 * M * d) + (d * r + y)) by ring. assert (0 <= d * r) by nia. set (D := 2 * M * d) in *. assert (D = d * M + d * M) as HD by (unfold D; ring). clearbody D.
  assert (forall R, Q * D + R - (Q + 1) * D = R - D) as S1 by (intros; ring). assert (forall R, Q * D + R - Q * D = R) as S0 by (intros; ring).
  destruct (Z.ltb_spec M r) as [H1|H1]; cbn [orb].
  - assert (d * (M + 1) <= d * r) by nia. assert (d * (r + 1) <= d * (2 * M)) by nia. rewrite ?S1, ?S0. split; [lia|]. split; [intros; exfalso; lia|lia].
  - destruct (Z.eqb_spec M r) as [H2|H2]; cbn [andb].
    + subst r. destruct (Z.eqb_spec y 0) as [->|HY]; cbn [negb orb].
      * destruct (Z.odd Q) eqn:EQ.
        -- rewrite ?S1, ?S0. split; [lia|]. split; [|lia]. intros _. apply Z.odd_spec in EQ as [h ->]. exists (h + 1). lia.
        -- rewrite ?S1, ?S0. split; [lia|]. split; [|lia]. intros _. apply Z.even_spec. now rewrite <- Z.negb_odd, EQ.
      * assert (d * 1 <= d * M) by nia. rewrite ?S1, ?S0. split; [lia|]. split; [intros; exfalso; lia|lia].
    + assert (d * (r + 1) <= d * M) by nia. rewrite ?S1, ?S0. split; [lia|]. split; [intros; exfalso; lia|lia].
Qed.

Lemma bit_length_bounds n : 0 < n -> 1 <= bit_length n /\ 2 ^ (bit_length n - 1) <= n < 2 ^ bit_length n.
Proof.
  intros H. unfold bit_length. destruct (Z.eqb_spec n 0); [lia|]. destruct (Z.log2_spec n H) as [H1 H2]. pose proof (Z.log2_nonneg n). replace (Z.log2 n + 1 - 1) with (Z.log2 n) by lia. unfold Z.succ in H2. lia.
Qed.
Lemma bit_length_le n k : 0 <= n < 2 ^ k -> 0 <= k -> bit_length n <= k.
Proof. intros [H1 H2] Hk. unfold bit_length. destruct (Z.eqb_spec n 0); [lia|]. assert (Z.log2 n < k) by (apply Z.log2_lt_pow2; lia). lia. Qed.
Lemma bit_length_ge n k : 2 ^ k <= n -> 0 <= k -> k + 1 <= bit_length n.
Proof. intros H1 Hk. assert (0 < 2 ^ k) by (apply Z.pow_pos_nonneg; lia). unfold bit_length. destruct (Z.eqb_spec n 0); [lia|]. assert (k <= Z.log2 n) by (apply Z.log2_le_pow2; lia). lia. Qed.
Lemma bit_length_nonneg n : 0 <= bit_length n.
Proof. unfold bit_length. destruct (n =? 0); [lia|]. pose proof (Z.log2_nonneg n). lia. Qed.

(** Shifting and dividing is one division *)
Lemma shifted a b shift : 0 < a -> 0 < b -> -1076 <= shift -> exists n d c, 0 < n /\ 0 < d /\ 0 < c /\ n * c = a * 2 ^ 1076 /\ d * c = b * 2 ^ (shift + 1076) /\
  let '(x, inexact) := if shift <=? 0 then (Z.shiftl a (- shift), false) else (Z.shiftr a shift, negb (Z.shiftl (Z.shiftr a shift) shift =? a)) in
  x / b = n / d /\ inexact || negb (x mod b =? 0) = negb (n mod d =? 0).
Proof.
  intros Ha Hb Hs. destruct (Z.leb_spec shift 0) as [H|H].
  - exists (a * 2 ^ (- shift)), b, (2 ^ (shift + 1076)). assert (0 < 2 ^ (- shift)) by (apply Z.pow_pos_nonneg; lia). assert (0 < 2 ^ (shift + 1076)) by (apply Z.pow_pos_nonneg; lia). split; [nia|]. split; [exact Hb|]. split; [assumption|]. split; [|split; [reflexivity|]].
    + rewrite <- Z.mul_assoc, <- Z.pow_add_r by lia. do 2 f_equal. lia.
    + rewrite Z.shiftl_mul_pow2 by lia. split; reflexivity.
  - exists a, (2 ^ shift * b), (2 ^ 1076). assert (0 < 2 ^ shift) as HP by (apply Z.pow_pos_nonneg; lia). split; [exact Ha|]. split; [nia|]. split; [apply Z.pow_pos_nonneg; lia|]. split; [reflexivity|]. split.
    + rewrite Z.pow_add_r by lia. ring.
    + rewrite Z.shiftl_mul_pow2, Z.shiftr_div_pow2 by lia. split; [apply Z.div_div; lia|]. rewrite Z.rem_mul_r by lia. pose proof (Z.div_mod a (2 ^ shift) ltac:(lia)) as HD. pose proof (Z.mod_pos_bound a (2 ^ shift) HP) as HR. pose proof (Z.mod_pos_bound (a / 2 ^ shift) b Hb) as HR2.
      set (p := 2 ^ shift) in *. set (q := a / p) in *. set (r := a mod p) in *. set (t := q mod b) in *. destruct (Z.eqb_spec (q * p) a); destruct (Z.eqb_spec t 0); destruct (Z.eqb_spec (r + p * t) 0); cbn; try reflexivity; exfalso; nia.
Qed.
Lemma rounded a b shift n d c k : 0 < a -> 0 < b -> 0 < n -> 0 < d -> 0 < c -> n * c = a * 2 ^ 1076 -> d * c = b * 2 ^ (shift + 1076) -> 2 <= k -> -1076 <= shift ->
  (2 ^ 52 <= n / d / 2 ^ k \/ shift + k = -1074) -> n / d < 2 ^ (53 + k) -> let m := round_bits (n / d) (negb (n mod d =? 0)) k in let U := b * 2 ^ (shift + k + 1074) in let X := a * 2 ^ 1074 in
  2 * Z.abs (X - m * U) <= U /\ (2 * Z.abs (X - m * U) = U -> Z.Even m) /\ 0 <= m <= 2 ^ 53 /\ (2 ^ 52 * U <= X \/ shift + k = -1074) /\ X < 2 ^ 53 * U.
Proof.
  intros Ha Hb Hn Hd Hc En Ed Hk He HB HT m U X. destruct (round_bits_nearest n d k ltac:(lia) Hd Hk) as (H1 & H2 & H3). fold m in H1, H2, H3.
  assert (n * c = 4 * X) as EX by (rewrite En; unfold X; change 1076 with (2 + 1074); rewrite Z.pow_add_r by lia; ring). clearbody X.
  assert (2 ^ k * d * c = 4 * U) as EU. { rewrite <- Z.mul_assoc, Ed. unfold U. transitivity (b * (2 ^ k * 2 ^ (shift + 1076))); [ring|]. rewrite <- Z.pow_add_r by lia. replace (k + (shift + 1076)) with (2 + (shift + k + 1074)) by lia. rewrite (Z.pow_add_r 2 2) by lia. ring. }
  assert (0 < 2 ^ k) as HP by (apply Z.pow_pos_nonneg; lia). assert (0 < 2 ^ k * d) as HW by nia. clearbody U m. set (W := 2 ^ k * d) in *.
  assert (4 * (X - m * U) = (n - m * W) * c) as EZ by (rewrite Z.mul_sub_distr_r, EX; replace (m * W * c) with (m * (W * c)) by ring; rewrite EU; ring).
  assert (4 * Z.abs (X - m * U) = Z.abs (n - m * W) * c) as EA by (rewrite <- (Z.abs_eq 4) at 1 by lia; rewrite <- Z.abs_mul, EZ, Z.abs_mul, (Z.abs_eq c) by lia; reflexivity).
  split; [|split; [|split; [|split]]].
  - apply (Z.mul_le_mono_nonneg_r _ _ c) in H1; [|lia]. lia.
  - intros HQ. apply H2. apply (Z.mul_cancel_r _ _ c); [lia|]. lia.
  - assert (0 <= n / d / 2 ^ k) by (apply Z.div_pos; [apply Z.div_pos; lia|lia]). assert (n / d / 2 ^ k < 2 ^ 53) by (apply Z.div_lt_upper_bound; [lia|]; rewrite <- Z.pow_add_r by lia; replace (k + 53) with (53 + k) by lia; exact HT). lia.
  - destruct HB as [HB|HB]; [left|now right]. assert (2 ^ 52 * W <= n) as HL.
    { rewrite Z.div_div in HB by lia. rewrite (Z.mul_comm d) in HB. fold W in HB. apply (Z.le_trans _ (W * (n / W))); [rewrite Z.mul_comm; apply Z.mul_le_mono_nonneg_l; [lia|exact HB]|exact (Z.mul_div_le n W HW)]. }
    apply (Z.mul_le_mono_nonneg_r _ _ c) in HL; [|lia]. rewrite EX, <- Z.mul_assoc, EU in HL. lia.
  - assert (n < 2 ^ 53 * W) as HL.
    { pose proof (Z.mul_succ_div_gt n d Hd) as HG. unfold Z.succ in HG. rewrite Z.pow_add_r in HT by lia. unfold W. replace (2 ^ 53 * (2 ^ k * d)) with (d * (2 ^ 53 * 2 ^ k)) by ring. apply (Z.lt_le_trans _ _ _ HG). apply Z.mul_le_mono_nonneg_l; lia. }
    apply (Z.mul_lt_mono_pos_r c) in HL; [|lia]. rewrite EX, <- Z.mul_assoc, EU in HL. lia.
Qed.

Lemma nearest_pack a b m e : 0 <= a -> 0 < b -> -1074 <= e -> let U := b * 2 ^ (e + 1074) in let X := a * 2 ^ 1074 in
  2 * Z.abs (X - m * U) <= U -> (2 * Z.abs (X - m * U) = U -> Z.Even m) -> 0 <= m <= 2 ^ 53 -> (2 ^ 52 * U <= X \/ e = -1074) -> e <= 971 -> (e = 971 -> m <> 2 ^ 53) ->
  nearest a b (mant (pack m e)) (expo (pack m e)) /\ 2 * distance a b (mant (pack m e)) (expo (pack m e)) <= b * 2 ^ (expo (pack m e) + 1074).
Proof.
  intros Ha Hb He U X H1 H2 H3 H4 H5 H6. assert (0 < 2 ^ (e + 1074)) as HP by (apply Z.pow_pos_nonneg; lia). assert (0 < U) as HU by (unfold U; nia).
  assert (distance a b (mant (pack m e)) (expo (pack m e)) = Z.abs (X - m * U)) as HD.
  { unfold distance, pack. destruct (Z.eqb_spec m (2 ^ 53)) as [->|_]; cbn [mant expo]; fold X; unfold U; do 2 f_equal; [|ring]. replace (e + 1 + 1074) with (1 + (e + 1074)) by lia. rewrite (Z.pow_add_r 2 1) by lia. change (2 ^ 53) with (2 ^ 52 * 2 ^ 1). ring. }
  split; [split|].
  - assert (2 ^ 52 <= m \/ e = -1074) as H7 by (destruct H4 as [H4|H4]; [left|now right]; destruct (Z.le_gt_cases (2 ^ 52) m); [assumption|]; exfalso; assert (m * U <= (2 ^ 52 - 1) * U) by (apply Z.mul_le_mono_nonneg_r; lia); lia).
    unfold pack, finite_double. destruct (Z.eqb_spec m (2 ^ 53)) as [->|HN]; cbn [mant expo]; [split; [lia|split; [lia|left; lia]]|]. split; [lia|split; [lia|exact H7]].
  - intros m' e' HF. rewrite HD. destruct (nearest_unit X b m e Hb He H4 H3 H1 H2 m' e' HF) as [HL|[HL HR]]; [left; exact HL|right]. split; [exact HL|]. destruct HR as [HR|[HR HS]].
    + left. rewrite <- HR. reflexivity.
    + right. split; [|exact HS]. unfold pack. destruct (m =? 2 ^ 53); [exists (2 ^ 51); reflexivity|exact HR].
  - rewrite HD. apply (Z.le_trans _ _ _ H1). unfold U, pack. destruct (m =? 2 ^ 53); cbn [expo]; [|lia]. apply Z.mul_le_mono_nonneg_l; [lia|]. apply Z.pow_le_mono_r; lia.
Qed.

Lemma too_big_scaled a b : too_big a b <-> (2 ^ 53 * 2 - 1) * (b * 2 ^ (971 + 1074)) <= 2 * (a * 2 ^ 1074).
Proof.
  unfold too_big. assert (forall p q, 0 < p -> 0 < q -> (b * (2 ^ 54 * q - q) <= a <-> (2 ^ 53 * 2 - 1) * (b * (2 * q * p)) <= 2 * (a * p))) as H.
  { intros p q Hp Hq. replace ((2 ^ 53 * 2 - 1) * (b * (2 * q * p))) with (2 * p * (b * (2 ^ 54 * q - q))) by ring. replace (2 * (a * p)) with (2 * p * a) by ring. apply Z.mul_le_mono_pos_l with (p := 2 * p). lia. }
  rewrite (Z.pow_add_r 2 971) by lia. change 1024 with (54 + 970). rewrite (Z.pow_add_r 2 54) by lia. change (2 ^ 971) with (2 * 2 ^ 970). apply H; apply Z.pow_pos_nonneg; lia.
Qed.
Theorem true_divide_exact a b : 0 <= a -> 0 < b ->
  match true_divide a b with
  | Ok d => ~ too_big a b /\ nearest a b (mant d) (expo d) /\ 2 * distance a b (mant d) (expo d) <= b * 2 ^ (expo d + 1074)
  | Err x => x = OverflowError /\ too_big a b
  end.
Proof.
  intros Ha Hb. unfold true_divide, MAX_EXP, MIN_EXP, MANT_DIG. destruct (Z.eqb_spec b 0) as [|_]; [lia|].
  assert (forall a, 0 <= a -> 2 * (a * 2 ^ 1074) < b -> ~ too_big a b /\ nearest a b 0 (-1074) /\ 2 * distance a b 0 (-1074) <= b * 2 ^ (-1074 + 1074)) as HZ.
  { clear a Ha. intros a Ha HS. set (X := a * 2 ^ 1074) in *. assert (0 <= X) by (unfold X; assert (0 <= 2 ^ 1074) by (apply Z.pow_nonneg; lia); nia). split.
    - rewrite too_big_scaled. fold X. assert (0 < 2 ^ (971 + 1074)) by (apply Z.pow_pos_nonneg; lia). nia.
    - apply (nearest_pack a b 0 (-1074) Ha Hb); fold X; change (2 ^ (-1074 + 1074)) with 1; try lia. }
  destruct (Z.eqb_spec a 0) as [->|Ha0]; [apply HZ; lia|]. assert (0 < a) as Ha' by lia. clear Ha Ha0. rename Ha' into Ha. destruct (bit_length_bounds a Ha) as [HA0 [HA1 HA2]]. destruct (bit_length_bounds b Hb) as [HB0 [HB1 HB2]].
  set (A := bit_length a) in *. set (B := bit_length b) in *. destruct (Z.ltb_spec 1024 (A - B)) as [HO|HO].
  { split; [reflexivity|]. unfold too_big. assert (2 ^ B * 2 ^ 1024 <= 2 ^ (A - 1)) by (rewrite <- Z.pow_add_r by lia; apply Z.pow_le_mono_r; lia). assert (0 < 2 ^ 970) by (apply Z.pow_pos_nonneg; lia). assert (2 ^ 970 < 2 ^ 1024) by (apply Z.pow_lt_mono_r; lia).
    set (p := 2 ^ 1024) in *. set (q := 2 ^ 970) in *. clearbody p q. nia. }
  destruct (Z.ltb_spec (A - B) (-1021 - 53 - 1)) as [HU|HU].
  { apply HZ; [lia|]. assert (2 * (2 ^ A * 2 ^ 1074) <= 2 ^ (B - 1)) by (rewrite <- Z.pow_add_r, <- Z.pow_succ_r by lia; apply Z.pow_le_mono_r; lia). assert (0 < 2 ^ 1074) as HP by (apply Z.pow_pos_nonneg; lia). set (p := 2 ^ 1074) in *. clearbody p. nia. }
  clear HZ. set (shift := Z.max (A - B) (-1021) - 53 - 2). assert (-1076 <= shift <= 969) as Hs by (unfold shift; lia).
  destruct (shifted a b shift Ha Hb ltac:(lia)) as (n & d & c & Hn & Hd & Hc & En & Ed & HX).
  destruct (if shift <=? 0 then _ else _) as [x0 i0]. destruct HX as [-> ->]. cbv zeta.
  assert (forall y, 0 <= y -> y <= 2 ^ 56 -> n < y * d -> n / d < y) as HLt by (intros; apply Z.div_lt_upper_bound; lia).
  assert (forall k, 0 <= k -> A <= k + B - 1 + shift -> n < 2 ^ k * d) as HUp.
  { intros k Hk HI. apply (Z.mul_lt_mono_pos_r c); [exact Hc|]. rewrite En, <- Z.mul_assoc, Ed. apply (Z.lt_le_trans _ (2 ^ A * 2 ^ 1076)); [apply Z.mul_lt_mono_pos_r; [apply Z.pow_pos_nonneg; lia|exact HA2]|].
    apply (Z.le_trans _ (2 ^ k * (2 ^ (B - 1) * 2 ^ (shift + 1076)))); [rewrite <- !Z.pow_add_r by lia; apply Z.pow_le_mono_r; lia|]. apply Z.mul_le_mono_nonneg_l; [apply Z.pow_nonneg; lia|]. apply Z.mul_le_mono_nonneg_r; [apply Z.pow_nonneg; lia|exact HB1]. }
  assert (forall k, 0 <= k -> k + B + shift <= A - 1 -> 2 ^ k * d <= n) as HLo.
  { intros k Hk HI. apply (Z.mul_le_mono_pos_r _ _ c); [exact Hc|]. rewrite En, <- Z.mul_assoc, Ed. apply (Z.le_trans _ (2 ^ k * (2 ^ B * 2 ^ (shift + 1076)))); [apply Z.mul_le_mono_nonneg_l; [apply Z.pow_nonneg; lia|]; apply Z.mul_le_mono_nonneg_r; [apply Z.pow_nonneg; lia|lia]|].
    rewrite <- !Z.pow_add_r by lia. apply (Z.le_trans _ (2 ^ (A - 1 + 1076))); [apply Z.pow_le_mono_r; lia|]. rewrite Z.pow_add_r by lia. apply Z.mul_le_mono_nonneg_r; [apply Z.pow_nonneg; lia|exact HA1]. }
  set (x := n / d) in *. assert (0 <= x) as Hx by (apply Z.div_pos; lia). pose proof (bit_length_nonneg x) as Hxb.
  set (k := Z.max (bit_length x) (-1021 - shift) - 53).
  assert (2 <= k <= 3 /\ (2 ^ 52 <= x / 2 ^ k \/ shift + k = -1074) /\ x < 2 ^ (53 + k) /\ (shift + bit_length x = shift + k + 53 \/ shift + bit_length x < 0 /\ shift + k < 0)) as (Hk & HB & HT & HQ).
  { destruct (Z.le_gt_cases (-1021) (A - B)) as [HC|HC].
    - assert (2 ^ 54 <= x) as HL by (apply Z.div_le_lower_bound; [lia|]; rewrite Z.mul_comm; apply HLo; unfold shift; lia). assert (x < 2 ^ 56) as HH by (apply HLt; [lia|lia|]; apply HUp; unfold shift; lia).
      pose proof (bit_length_ge x 54 HL ltac:(lia)). pose proof (bit_length_le x 56 ltac:(lia) ltac:(lia)). destruct (bit_length_bounds x ltac:(lia)) as [_ [HX1 HX2]].
      assert (k = bit_length x - 53) as HK by (unfold k, shift; lia). split; [lia|]. split; [|split].
      + left. apply Z.div_le_lower_bound; [apply Z.pow_pos_nonneg; lia|]. rewrite <- Z.pow_add_r by lia. replace (k + 52) with (bit_length x - 1) by lia. exact HX1.
      + replace (53 + k) with (bit_length x) by lia. exact HX2.
      + left. lia.
    - assert (shift = -1076) as HS by (unfold shift; lia). assert (x < 2 ^ 55) as HH by (apply HLt; [lia|lia|]; apply HUp; lia). pose proof (bit_length_le x 55 ltac:(lia) ltac:(lia)). assert (k = 2) as HK by (unfold k; lia). rewrite HK.
      split; [lia|]. split; [right; lia|]. split; [exact HH|]. right. lia. }
  destruct (rounded a b shift n d c k Ha Hb Hn Hd Hc En Ed ltac:(lia) ltac:(lia) HB HT) as (R1 & R2 & R3 & R4 & R5). fold x in R1, R2, R3.
  assert (forall l, Z.shiftr (Z.shiftl (Z.shiftr l k) k) k = Z.shiftr l k) as HSS by (intros l; rewrite (Z.shiftr_div_pow2 (Z.shiftl _ _)), Z.shiftl_mul_pow2 by lia; apply Z.div_mul; apply Z.pow_nonzero; lia).
  rewrite HSS. match goal with |- context [Z.shiftr ?l k] => change (Z.shiftr l k) with (round_bits x (negb (n mod d =? 0)) k) end. set (m := round_bits x (negb (n mod d =? 0)) k) in *. clearbody m.
  rewrite Z.shiftl_mul_pow2, Z.shiftl_1_l by lia. set (e := shift + k) in *.
  assert ((1024 <=? shift + bit_length x) && ((1024 <? shift + bit_length x) || (m * 2 ^ k =? 2 ^ bit_length x)) = (972 <=? e) || ((971 =? e) && (m =? 2 ^ 53))) as ->.
  { destruct HQ as [HQ|[HQ HQ']].
    - replace (bit_length x) with (53 + k) by (clear - HQ; clearbody x k shift; lia). rewrite (Z.pow_add_r 2 53) by lia. replace (shift + (53 + k)) with (e + 53) by (unfold e; lia). assert (0 < 2 ^ k) as HP by (apply Z.pow_pos_nonneg; lia).
      assert ((m * 2 ^ k =? 2 ^ 53 * 2 ^ k) = (m =? 2 ^ 53)) as -> by (apply eq_true_iff_eq; rewrite !Z.eqb_eq; apply Z.mul_cancel_r; lia).
      clear. clearbody e. destruct (Z.leb_spec 1024 (e + 53)), (Z.ltb_spec 1024 (e + 53)), (Z.leb_spec 972 e), (Z.eqb_spec 971 e); cbn [andb orb]; try reflexivity; lia.
    - fold e in HQ'. clear - HQ HQ'. clearbody e. destruct (Z.leb_spec 1024 (shift + bit_length x)); [lia|]. destruct (Z.leb_spec 972 e); [lia|]. destruct (Z.eqb_spec 971 e); [lia|]. reflexivity. }
  assert (-1074 <= e) as He by (clear - Hs Hk; unfold e; clearbody shift k; lia). clear - Hb Ha He R1 R2 R3 R4. pose proof (too_big_scaled a b) as HTB. pose proof (nearest_pack a b m e (Z.lt_le_incl _ _ Ha) Hb He) as HNP. cbv zeta in HNP. clearbody e. clear Ha.
  assert (forall i j, 0 <= i -> i <= j -> b * 2 ^ i <= b * 2 ^ j) as Hpow by (clear - Hb; intros i j H1 H2; apply Z.mul_le_mono_nonneg_l; [lia|apply Z.pow_le_mono_r; lia]).
  assert (0 < b * 2 ^ (971 + 1074)) as Hu0 by (apply Z.mul_pos_pos; [exact Hb|apply Z.pow_pos_nonneg; [reflexivity|discriminate]]). assert (0 < b * 2 ^ (e + 1074)) as HU0 by (apply Z.mul_pos_pos; [exact Hb|apply Z.pow_pos_nonneg; [reflexivity|clear - He; lia]]).
  assert (972 <= e -> 2 * (b * 2 ^ (971 + 1074)) <= b * 2 ^ (e + 1074)) as Hge by (intros HE; transitivity (b * 2 ^ (1 + (971 + 1074))); [rewrite (Z.pow_add_r 2 1) by discriminate; apply Z.eq_le_incl; change (2 ^ 1) with 2; generalize (2 ^ (971 + 1074)) as P; intros P; ring|apply Hpow; [discriminate|clear - HE; lia]]).
  assert (e < 971 -> 2 * (b * 2 ^ (e + 1074)) <= b * 2 ^ (971 + 1074)) as Hlt by (intros HE; transitivity (b * 2 ^ (1 + (e + 1074))); [rewrite (Z.pow_add_r 2 1) by (clear - He; lia); apply Z.eq_le_incl; change (2 ^ 1) with 2; ring|apply Hpow; clear - HE He; lia]).
  assert (971 = e -> b * 2 ^ (971 + 1074) = b * 2 ^ (e + 1074)) as Heq by (intros <-; reflexivity). clear Hpow.
  set (X := a * 2 ^ 1074) in *. set (u := b * 2 ^ (971 + 1074)) in *. set (U := b * 2 ^ (e + 1074)) in *. clearbody X u U.
  destruct (Z.leb_spec 972 e) as [HE|HE]; cbn [orb].
  - split; [reflexivity|]. apply HTB. specialize (Hge HE). clear - R4 Hge HE Hu0 HU0. destruct R4 as [R4|R4]; lia.
  - destruct (Z.eqb_spec 971 e) as [H971|H971]; cbn [andb]; [destruct (Z.eqb_spec m (2 ^ 53)) as [Hm|Hm]|].
    + split; [reflexivity|]. apply HTB. rewrite (Heq H971). clear - R1 Hm. subst m. lia.
    + split; [|apply HNP; try assumption; [clear - HE; lia|now intros _]]. rewrite HTB, (Heq H971). clear - R1 R2 R3 Hm HU0. intros HN.
      destruct (Z.eq_dec m (2 ^ 53 - 1)) as [->|Hm'].
      * destruct (R2 ltac:(lia)) as [h Hh]. lia.
      * assert (m * U <= (2 ^ 53 - 2) * U) by (apply Z.mul_le_mono_nonneg_r; lia). lia.
    + split; [|apply HNP; try assumption; clear - HE H971; lia]. rewrite HTB. specialize (Hlt ltac:(clear - HE H971; lia)). clear - R1 R3 Hlt HU0. assert (m * U <= 2 ^ 53 * U) by (apply Z.mul_le_mono_nonneg_r; lia). lia.
Qed.

(** Fractions of a number that differ by more than the precision are rounded to different doubles *)
Lemma near_less M s t m e m' e' : 0 < M -> 0 < s -> 0 < t -> s * (2 ^ 53 + 1) < t * (2 ^ 53 - 1) -> finite_double m e -> finite_double m' e' -> t * 2 ^ 53 <= M * 2 ^ 1074 ->
  2 * distance M s m e <= s * 2 ^ (e + 1074) -> 2 * distance M t m' e' <= t * 2 ^ (e' + 1074) -> less m' e' m e.
Proof.
  intros HM Hs Ht Hst (He & Hm & HN) (He' & Hm' & HN') HR. unfold distance, less. set (X := M * 2 ^ 1074) in *. assert (0 < X) as HX by (apply Z.mul_pos_pos; [exact HM|apply Z.pow_pos_nonneg; lia]).
  assert (0 < 2 ^ (e + 1074)) as Hu by (apply Z.pow_pos_nonneg; lia). assert (0 < 2 ^ (e' + 1074)) as Hu' by (apply Z.pow_pos_nonneg; lia).
  assert (e = -1074 -> 2 ^ (e + 1074) = 1) as E1 by (intros ->; reflexivity). assert (e' = -1074 -> 2 ^ (e' + 1074) = 1) as E1' by (intros ->; reflexivity).
  set (u := 2 ^ (e + 1074)) in *. set (u' := 2 ^ (e' + 1074)) in *. clearbody u u' X. set (V := m * u) in *. set (V' := m' * u') in *. intros H1 H2.
  assert (s < t) as Hlt by lia. assert (s * 2 ^ 53 <= X) as HRs by lia.
  assert (2 ^ 52 * u <= V) as HV.
  { destruct HN as [HN|HN]; [unfold V; apply Z.mul_le_mono_nonneg_r; lia|]. specialize (E1 HN). unfold V in *. rewrite E1 in *. destruct (Z.le_gt_cases (2 ^ 52) m); [lia|]. exfalso. assert (s * (m * 1) <= s * (2 ^ 52 - 1)) by (apply Z.mul_le_mono_nonneg_l; lia). lia. }
  assert (2 ^ 52 * u' <= V') as HV'.
  { destruct HN' as [HN'|HN']; [unfold V'; apply Z.mul_le_mono_nonneg_r; lia|]. specialize (E1' HN'). unfold V' in *. rewrite E1' in *. destruct (Z.le_gt_cases (2 ^ 52) m'); [lia|]. exfalso. assert (t * (m' * 1) <= t * (2 ^ 52 - 1)) by (apply Z.mul_le_mono_nonneg_l; lia). lia. }
  clearbody V V'. destruct (Z.lt_ge_cases V' V) as [|HC]; [assumption|exfalso].
  assert (2 * X <= s * (2 * V + u)) as B1 by lia. assert (t * (2 * V' - u') <= 2 * X) as B2 by lia.
  assert (2 ^ 52 * (s * (2 * V + u)) <= s * (V * (2 ^ 53 + 1))) as B3 by (replace (2 ^ 52 * (s * (2 * V + u))) with (s * (2 ^ 52 * (2 * V + u))) by ring; apply Z.mul_le_mono_nonneg_l; lia).
  assert (t * (V' * (2 ^ 53 - 1)) <= 2 ^ 52 * (t * (2 * V' - u'))) as B4 by (replace (2 ^ 52 * (t * (2 * V' - u'))) with (t * (2 ^ 52 * (2 * V' - u'))) by ring; apply Z.mul_le_mono_nonneg_l; lia).
  assert (t * (V * (2 ^ 53 - 1)) <= t * (V' * (2 ^ 53 - 1))) as B5 by (apply Z.mul_le_mono_nonneg_l; lia).
  assert (s * (V * (2 ^ 53 + 1)) < t * (V * (2 ^ 53 - 1))) as B6 by (replace (s * (V * (2 ^ 53 + 1))) with (V * (s * (2 ^ 53 + 1))) by ring; replace (t * (V * (2 ^ 53 - 1))) with (V * (t * (2 ^ 53 - 1))) by ring; apply Z.mul_lt_mono_pos_l; lia).
  lia.
Qed.
