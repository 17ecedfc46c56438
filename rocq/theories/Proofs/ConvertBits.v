(** The regrouping loop, seen through the numbers that the groups denote. *)
From Verif.Model Require Import Py Text Cashaddr.
From Verif.Spec Require Import CashaddrSpec.
From Verif.Proofs Require Import PyFacts Digits.

Lemma vbe_cons B d ds : 1 < B -> vbe B (d :: ds) = d * B ^ zlen ds + vbe B ds.
Proof. intros HB. change (d :: ds) with ([d] ++ ds). rewrite vbe_app by exact HB. unfold vbe at 1. cbn [fold_left]. lia. Qed.
Lemma pow2_gt1 n : 0 < n -> 1 < 2 ^ n.
Proof. intros Hn. change 1 with (2 ^ 0). apply Z.pow_lt_mono_r; lia. Qed.

Section Loop.
  Variables from to : Z.
  Hypothesis (Hfrom : 0 < from) (Hto : 0 < to).
  Let B := 2 ^ to.
  Let maxv := Z.shiftl 1 to - 1.
  Let max_acc := Z.shiftl 1 (from + to - 1) - 1.
  Lemma maxv_ones : maxv = Z.ones to.
  Proof. unfold maxv. rewrite Z.ones_equiv, Z.shiftl_1_l. lia. Qed.
  Lemma max_acc_ones : max_acc = Z.ones (from + to - 1).
  Proof. unfold max_acc. rewrite Z.ones_equiv, Z.shiftl_1_l. lia. Qed.
  Lemma digit V acc b : acc = V mod 2 ^ (from + to - 1) -> 0 <= b <= from - 1 -> Z.land (Z.shiftr acc b) maxv = Z.shiftr V b mod B.
  Proof.
    intros -> Hb. rewrite maxv_ones, Z.land_ones by lia. apply Z.bits_inj'. intros i Hi. unfold B. destruct (Z.ltb_spec i to).
    - rewrite !Z.mod_pow2_bits_low, !Z.shiftr_spec, Z.mod_pow2_bits_low by lia. reflexivity.
    - now rewrite !Z.mod_pow2_bits_high by lia.
  Qed.
  Lemma emit_spec V acc fuel : forall bits l b, acc = V mod 2 ^ (from + to - 1) -> 0 <= bits < from + to -> bits <= Z.of_nat fuel -> emit fuel acc bits to maxv = (l, b) ->
    0 <= b < to /\ bits = b + to * zlen l /\ digits B l /\ Z.shiftr V bits * B ^ zlen l + vbe B l = Z.shiftr V b.
  Proof using Hfrom Hto.
    assert (HB : 1 < B) by (apply pow2_gt1; exact Hto).
    induction fuel as [|fuel IH]; intros bits l b HA Hb Hf HE; cbn [emit] in HE.
    - injection HE as <- <-. change (zlen (@nil Z)) with 0. unfold vbe. cbn [fold_left]. rewrite Z.pow_0_r. repeat split; try lia. constructor.
    - destruct (Z.leb_spec to bits).
      + cbv zeta in HE. destruct (emit fuel acc (bits - to) to maxv) as [l1 b1] eqn:E1. injection HE as <- <-. destruct (IH (bits - to) l1 b1 HA ltac:(lia) ltac:(lia) E1) as (I1 & I2 & I3 & I4).
        rewrite zlen_cons. split; [exact I1|]. split; [lia|]. rewrite (digit V acc (bits - to) HA) by lia. split; [constructor; [apply Z.mod_pos_bound; lia|exact I3]|].
        rewrite vbe_cons, Z.pow_add_r, Z.pow_1_r by (try exact HB; pose proof (zlen_nonneg l1); lia). rewrite <- I4.
        assert (HS : Z.shiftr V (bits - to) = Z.shiftr V bits * B + Z.shiftr V (bits - to) mod B).
        { rewrite (Z.div_mod (Z.shiftr V (bits - to)) B) at 1 by lia. f_equal. rewrite Z.mul_comm. f_equal. unfold B. rewrite <- Z.shiftr_div_pow2, Z.shiftr_shiftr by lia. f_equal. lia. }
        rewrite HS at 2. ring.
      + injection HE as <- <-. change (zlen (@nil Z)) with 0. unfold vbe. cbn [fold_left]. rewrite Z.pow_0_r. repeat split; try lia. constructor.
  Qed.
  Lemma loop_spec data : forall V acc bits l acc' bits', acc = V mod 2 ^ (from + to - 1) -> 0 <= V -> 0 <= bits < to -> digits (2 ^ from) data ->
    convert_loop data from to maxv max_acc acc bits = (l, acc', bits') ->
    let V' := V * (2 ^ from) ^ zlen data + vbe (2 ^ from) data in
    acc' = V' mod 2 ^ (from + to - 1) /\ 0 <= bits' < to /\ bits + from * zlen data = bits' + to * zlen l /\ digits B l /\ Z.shiftr V bits * B ^ zlen l + vbe B l = Z.shiftr V' bits'.
  Proof using Hfrom Hto.
    assert (HB : 1 < B) by (apply pow2_gt1; exact Hto). assert (HF : 1 < 2 ^ from) by (apply pow2_gt1; exact Hfrom).
    induction data as [|value data IH]; intros V acc bits l acc' bits' HA HV Hb HD HE V'; cbn [convert_loop] in HE.
    - injection HE as <- <- <-. unfold V'. change (zlen (@nil Z)) with 0. unfold vbe. cbn [fold_left]. rewrite !Z.pow_0_r, Z.mul_1_r, Z.add_0_r. repeat split; try assumption; try lia. constructor.
    - inversion HD as [|? ? Hv HD']; subst x l0. cbv zeta in HE. set (acc1 := Z.land _ max_acc) in HE. set (V1 := V * 2 ^ from + value).
      assert (HA1 : acc1 = V1 mod 2 ^ (from + to - 1)).
      { unfold acc1. rewrite max_acc_ones, Z.land_ones by lia. assert (HO : Z.lor (Z.shiftl acc from) value = acc * 2 ^ from + value).
        { rewrite Z.shiftl_mul_pow2 by lia. assert (HN : Z.land (acc * 2 ^ from) value = 0).
          { apply Z.bits_inj'. intros i Hi. rewrite Z.land_spec, Z.bits_0. destruct (Z.ltb_spec i from); [rewrite Z.mul_pow2_bits_low by lia; reflexivity|].
            rewrite <- (Z.mod_small value (2 ^ from)) by exact Hv. rewrite (Z.mod_pow2_bits_high value) by lia. apply andb_false_r. }
          rewrite (Z.add_nocarry_lxor _ _ HN), Z.lxor_lor by exact HN. reflexivity. }
        rewrite HO. unfold V1. rewrite HA. rewrite Z.add_mod, Z.mul_mod_idemp_l, <- Z.add_mod by (apply Z.pow_nonzero; lia). reflexivity. }
      destruct (emit (Z.to_nat (bits + from)) acc1 (bits + from) to maxv) as [l1 b1] eqn:E1. destruct (convert_loop data from to maxv max_acc acc1 b1) as [[l2 acc2] b2] eqn:E2. injection HE as <- <- <-.
      destruct (emit_spec V1 acc1 (Z.to_nat (bits + from)) (bits + from) l1 b1 HA1 ltac:(clear - Hb Hfrom Hto; lia) ltac:(clear - Hb Hfrom; lia) E1) as (I1 & I2 & I3 & I4).
      assert (HV1 : 0 <= V1) by (unfold V1; apply Z.add_nonneg_nonneg; [apply Z.mul_nonneg_nonneg; [exact HV|clear - HF; lia]|apply Hv]). destruct (IH V1 acc1 b1 l2 acc2 b2 HA1 HV1 I1 HD' E2) as (J1 & J2 & J3 & J4 & J5).
      assert (HVV : V' = V1 * (2 ^ from) ^ zlen data + vbe (2 ^ from) data).
      { unfold V', V1. rewrite vbe_cons, zlen_cons, Z.pow_add_r, Z.pow_1_r by (try exact HF; pose proof (zlen_nonneg data); lia). ring. }
      rewrite HVV. split; [exact J1|]. split; [exact J2|]. rewrite zlen_cons, zlen_app. split; [clear - I2 J3; lia|]. split; [apply Forall_app; now split|].
      rewrite <- J5, <- I4, vbe_app, Z.pow_add_r by (try exact HB; apply zlen_nonneg). assert (HS : Z.shiftr V1 (bits + from) = Z.shiftr V bits).
      { replace (bits + from) with (from + bits) by lia. rewrite <- (Z.shiftr_shiftr V1 from bits) by lia. f_equal. rewrite Z.shiftr_div_pow2 by lia. unfold V1. rewrite Z.div_add_l, Z.div_small by lia. lia. }
      rewrite HS. ring.
  Qed.
  Lemma convert_nopad data : digits (2 ^ from) data -> exists r, 0 <= r < to /\ from * zlen data = to * zlen (convertbits data from to false) + r /\
    digits B (convertbits data from to false) /\ vbe B (convertbits data from to false) = vbe (2 ^ from) data / 2 ^ r.
  Proof using Hfrom Hto.
    intros HD. unfold convertbits. cbv zeta. fold maxv max_acc. destruct (convert_loop data from to maxv max_acc 0 0) as [[l acc] b] eqn:E.
    destruct (loop_spec data 0 0 0 l acc b eq_refl ltac:(lia) ltac:(lia) HD E) as (_ & H2 & H3 & H4 & H5). cbn [andb]. exists b. split; [exact H2|]. split; [lia|]. split; [exact H4|].
    rewrite Z.shiftr_0_l, !Z.mul_0_l, !Z.add_0_l, Z.shiftr_div_pow2 in H5 by lia. exact H5.
  Qed.
  Lemma convert_pad data : digits (2 ^ from) data -> exists p, 0 <= p < to /\ from * zlen data + p = to * zlen (convertbits data from to true) /\
    digits B (convertbits data from to true) /\ vbe B (convertbits data from to true) = vbe (2 ^ from) data * 2 ^ p.
  Proof using Hfrom Hto.
    intros HD. assert (HB : 1 < B) by (apply pow2_gt1; exact Hto). unfold convertbits. cbv zeta. fold maxv max_acc. destruct (convert_loop data from to maxv max_acc 0 0) as [[l acc] b] eqn:E.
    destruct (loop_spec data 0 0 0 l acc b eq_refl ltac:(lia) ltac:(lia) HD E) as (H1 & H2 & H3 & H4 & H5). cbn [andb].
    rewrite Z.shiftr_0_l, !Z.mul_0_l, !Z.add_0_l, Z.shiftr_div_pow2 in H5 by lia. rewrite Z.mul_0_l, Z.add_0_l in H1. destruct (Z.eqb_spec b 0) as [->|Hb]; cbn [negb].
    - exists 0. split; [lia|]. split; [lia|]. split; [exact H4|]. rewrite H5, Z.pow_0_r, Z.div_1_r. lia.
    - exists (to - b). split; [lia|]. rewrite zlen_app. change (zlen [_]) with 1. split; [lia|]. set (V := vbe (2 ^ from) data) in *.
      assert (HX : Z.land (Z.shiftl acc (to - b)) maxv = (V mod 2 ^ b) * 2 ^ (to - b)).
      { rewrite maxv_ones, Z.land_ones, Z.shiftl_mul_pow2 by lia. rewrite H1. replace (2 ^ to) with (2 ^ b * 2 ^ (to - b)) by (rewrite <- Z.pow_add_r by lia; f_equal; lia).
        rewrite Z.mul_mod_distr_r by (apply Z.pow_nonzero; lia). f_equal. apply Z.bits_inj'. intros i Hi. destruct (Z.ltb_spec i b); [now rewrite !Z.mod_pow2_bits_low by lia|now rewrite !Z.mod_pow2_bits_high by lia]. }
      rewrite HX. assert (HR : 0 <= V mod 2 ^ b * 2 ^ (to - b) < B).
      { pose proof (Z.mod_pos_bound V (2 ^ b) ltac:(apply Z.pow_pos_nonneg; lia)). assert (HBB : B = 2 ^ b * 2 ^ (to - b)) by (unfold B; rewrite <- Z.pow_add_r by lia; f_equal; lia). pose proof (Z.pow_pos_nonneg 2 (to - b) ltac:(lia) ltac:(lia)). nia. }
      split; [apply Forall_app; split; [exact H4|constructor; [exact HR|constructor]]|].
      rewrite vbe_app by exact HB. change (zlen [_]) with 1. rewrite Z.pow_1_r, H5. unfold vbe at 1. cbn [fold_left]. rewrite (Z.div_mod V (2 ^ b)) at 3 by (apply Z.pow_nonzero; lia).
      assert (HBB : B = 2 ^ b * 2 ^ (to - b)) by (unfold B; rewrite <- Z.pow_add_r by lia; f_equal; lia). rewrite HBB. ring.
  Qed.
End Loop.
