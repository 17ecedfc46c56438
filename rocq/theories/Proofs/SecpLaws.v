(** secp256k1 obeys the laws of Spec/CurveSpec.v and Spec/EcdsaSpec.v. *)
From Coq Require Import Znumtheory Zpow_facts Eqdep_dec Bool Field_theory.
From Verif.Model Require Import Py Curve ModInverse Secp256k1 Ecdsa.
From Verif.Spec Require Import Numbers CurveSpec EcdsaSpec SecpSpec.
From Verif.Proofs Require Import PyFacts Primality CurveFacts FieldPrime EllipticCurve SecpField GroupOrder SecpGroup SecpOrder KeysFacts.

Lemma field_4 : 4 * ((FIELD + 1) / 4) = FIELD + 1.
Proof. Transparent FIELD. reflexivity. Opaque FIELD. Qed.
Lemma sqrt_ok y : in_field y = true -> let s := field_sqrt (field_mul y y) in in_field s = true /\ field_mul s s = field_mul y y.
Proof.
  intros Hy s. pose proof field_bounds as [HF _]. pose proof field_4 as H4.
  assert (HC : in_field (field_mul y y) = true) by now apply in_mul. destruct (field_pow_ok (field_mul y y) (Z.to_pos ((FIELD + 1) / 4)) HC) as [H1 H2]. fold (field_sqrt (field_mul y y)) in H1, H2. fold s in H1, H2.
  split; [exact H1|]. rewrite Z2Pos.id in H2 by lia. rewrite mul_ok, H2 by assumption. rewrite <- Zmult_mod, <- Z.pow_add_r by lia. rewrite (mul_ok y y) by assumption. rewrite <- Zpower_mod by lia.
  replace (y * y) with (y ^ 2) by ring. rewrite <- Z.pow_mul_r by lia. replace (2 * ((FIELD + 1) / 4 + (FIELD + 1) / 4)) with (2 + (FIELD - 1)) by lia.
  destruct (Z.eq_dec y 0) as [->|H0]; [rewrite !Z.pow_0_l by lia; reflexivity|]. rewrite Z.pow_add_r by lia. rewrite <- Zmult_mod_idemp_r, field_fermat, Z.mul_1_r by assumption. reflexivity.
Qed.
Lemma neg_on_curve x y : on_curve (x, y) = true -> on_curve (x, field_neg y) = true.
Proof.
  rewrite !on_curve_iff. intros (Hx & Hy & HE). split; [exact Hx|]. split; [now apply in_neg|]. rewrite <- HE, !mul_ok by (try assumption; now apply in_neg). rewrite neg_ok by assumption. rewrite <- Zmult_mod. f_equal. ring.
Qed.
Lemma pack_some x y p : pack (Some (x, y)) = Some p <-> raw (Some p) = Some (x, y).
Proof.
  split.
  - unfold pack. destruct (bool_dec _ true) as [H|]; [|discriminate]. intros HE. injection HE as <-. reflexivity.
  - intros HE. apply raw_inj. rewrite HE. apply raw_pack. now apply raw_on in HE.
Qed.
Lemma lift_some x odd p : secp_lift x odd = Some p <-> exists y, raw (Some p) = Some (x, y) /\ Z.odd y = odd.
Proof.
  unfold secp_lift. cbv zeta. rewrite pack_some. split.
  - intros HE. eexists. split; [exact HE|]. pose proof (raw_on _ _ _ HE) as HO. clear HE. set (s := field_sqrt (curve_rhs x)) in *. clearbody s. destruct (Bool.eqb (Z.odd s) odd) eqn:EB; [now apply Bool.eqb_prop in EB|].
    pose proof (on_curve_nonzero _ _ HO) as HN. assert (Hs : s <> 0) by (intros ->; now apply HN). pose proof HO as HI. apply on_curve_iff in HI as (_ & HI & _).
    assert (HS : in_field s = true). { apply in_field_iff. apply in_field_iff in HI. unfold field_neg in HI, HN. destruct (Z.eqb_spec s 0); [contradiction|]. lia. }
    rewrite field_neg_odd by assumption. destruct (Z.odd s), odd; try reflexivity; discriminate.
  - intros (y & HE & HB). rewrite HE. pose proof (raw_on _ _ _ HE) as HO. pose proof HO as HI. apply on_curve_iff in HI as (Hx & Hy & HC). rewrite <- HC. destruct (sqrt_ok y Hy) as [HS HSS]. set (s := field_sqrt (field_mul y y)) in *. clearbody s.
    assert (HSO : on_curve (x, s) = true) by (apply on_curve_iff; rewrite HSS; auto). do 2 f_equal. destruct (Bool.eqb (Z.odd s) odd) eqn:EB.
    + apply Bool.eqb_prop in EB. apply (same_parity x); [assumption|assumption|congruence].
    + apply (same_parity x); [assumption|now apply neg_on_curve|]. rewrite field_neg_odd by (try assumption; now apply on_curve_nonzero in HSO). rewrite HB. destruct (Z.odd s), odd; try reflexivity; discriminate EB.
Qed.

(** Which bytes are read *)
Lemma parity_odd y : parity y = if Z.odd y then 1 else 0.
Proof. unfold parity. rewrite Zmod_odd. reflexivity. Qed.
Lemma word_ok v : 0 <= v < 2 ^ 256 -> word (bytes32 v) v.
Proof. intros Hv. destruct (bytes32_ok v) as [H1 H2]. split; [exact H1|]. split; [exact H2|]. rewrite val_be_int. now apply be_bytes32. Qed.
Lemma word_inv b v : word b v -> b = bytes32 v /\ be_int b = v /\ bytes_ok b = true /\ zlen b = 32.
Proof. intros (H1 & H2 & H3). rewrite val_be_int in H3. subst v. rewrite bytes32_be by assumption. auto. Qed.
Lemma split64 r : zlen r = 64 -> bytes_ok r = true -> exists a b, r = a ++ b /\ word a (be_int a) /\ word b (be_int b) /\ ztake 32 r = a /\ zdrop 32 r = b.
Proof.
  intros HL HB. exists (ztake 32 r), (zdrop 32 r). rewrite ztake_zdrop. rewrite <- (ztake_zdrop 32 r), bytes_ok_app in HB. apply andb_true_iff in HB as [H1 H2].
  unfold word. rewrite !val_be_int, zlen_ztake, zlen_zdrop by lia. repeat split; try assumption; unfold bytes in *; lia.
Qed.
Theorem parse_some b p : secp_parse b = Some p <-> exists x y, raw (Some p) = Some (x, y) /\ point_text b x y.
Proof.
  split.
  - unfold secp_parse. destruct (bytes_ok b) eqn:HB; [|discriminate]. destruct b as [|tag r]; [discriminate|]. rewrite bytes_ok_cons, andb_true_iff in HB. destruct HB as [_ HB].
    destruct (Z.eqb_spec (zlen r) 32) as [H32|H32]; cbn [andb].
    + destruct (Z.eqb_spec tag 2) as [->|]; [|destruct (Z.eqb_spec tag 3) as [->|]]; cbn [orb].
      * intros HE. apply lift_some in HE as (y & HE & HO). exists (be_int r), y. split; [exact HE|]. left. exists r. rewrite parity_odd, HO. split; [reflexivity|]. split; [exact HB|]. split; [exact H32|apply val_be_int].
      * intros HE. apply lift_some in HE as (y & HE & HO). exists (be_int r), y. split; [exact HE|]. left. exists r. rewrite parity_odd, HO. split; [reflexivity|]. split; [exact HB|]. split; [exact H32|apply val_be_int].
      * destruct (Z.eqb_spec (zlen r) 64); [lia|]. discriminate.
    + destruct (Z.eqb_spec (zlen r) 64) as [H64|]; [|discriminate]. cbn [andb]. destruct (split64 r H64 HB) as (bx & bw & -> & HX & HY & -> & ->).
      destruct (Z.eqb_spec tag 4) as [->|]; [|destruct (Z.eqb_spec tag 6) as [->|]; [|destruct (Z.eqb_spec tag 7) as [->|]]]; cbn [orb andb Z.eqb Pos.eqb]; [| | |discriminate].
      * intros HE. apply pack_some in HE. exists (be_int bx), (be_int bw). split; [exact HE|]. right. exists bx, bw. auto.
      * destruct (Z.odd (be_int bw)) eqn:EO; cbn [Bool.eqb negb]; [discriminate|]. intros HE. apply pack_some in HE. exists (be_int bx), (be_int bw). split; [exact HE|]. right. exists bx, bw. split; [right; now rewrite parity_odd, EO|auto].
      * destruct (Z.odd (be_int bw)) eqn:EO; cbn [Bool.eqb negb]; [|discriminate]. intros HE. apply pack_some in HE. exists (be_int bx), (be_int bw). split; [exact HE|]. right. exists bx, bw. split; [right; now rewrite parity_odd, EO|auto].
  - intros (x & y & HE & HT). unfold secp_parse. destruct HT as [(bx & -> & HX)|(bx & bw & HT & HX & HY)].
    + apply word_inv in HX as (_ & HX & HB & HL). rewrite bytes_ok_cons, HB, HL, HX, parity_odd. destruct (Z.odd y) eqn:EO; cbn [Z.add Pos.add Pos.succ byte_ok Z.leb Z.ltb Z.compare Pos.compare Pos.compare_cont andb orb Z.eqb Pos.eqb]; apply lift_some; exists y; auto.
    + apply word_inv in HX as (_ & HX & HBX & HLX). apply word_inv in HY as (_ & HY & HBY & HLY).
      destruct HT as [->| ->]; rewrite bytes_ok_cons, bytes_ok_app, HBX, HBY, zlen_app, HLX, HLY, ztake_app_exact, zdrop_app_exact, HX, HY by (now rewrite HLX).
      * cbn [byte_ok Z.leb Z.ltb Z.compare Pos.compare Pos.compare_cont andb orb Z.eqb Pos.eqb Z.add Pos.add]. now apply pack_some.
      * rewrite parity_odd. destruct (Z.odd y) eqn:EO; cbn [byte_ok Z.leb Z.ltb Z.compare Pos.compare Pos.compare_cont andb orb negb Bool.eqb Z.eqb Pos.eqb Z.add Pos.add Pos.succ]; now apply pack_some.
Qed.

Lemma raw_some (p : secp_pt) : exists x y, proj1_sig p = (x, y) /\ raw (Some p) = Some (x, y) /\ on_curve (x, y) = true.
Proof. destruct p as [[x y] H]. exists x, y. auto. Qed.
Lemma field_256 x : in_field x = true -> 0 <= x < 2 ^ 256.
Proof. rewrite in_field_iff. pose proof field_bounds. lia. Qed.
Lemma serialize_text c p x y : raw (Some p) = Some (x, y) ->
  secp_serialize c p = (if c then (2 + parity y) :: bytes32 x else 4 :: bytes32 x ++ bytes32 y) /\ point_text (secp_serialize c p) x y.
Proof.
  intros HE. pose proof (raw_on _ _ _ HE) as HO. apply on_curve_iff in HO as (Hx & Hy & _). apply field_256 in Hx, Hy.
  assert (HS : secp_serialize c p = if c then (2 + parity y) :: bytes32 x else 4 :: bytes32 x ++ bytes32 y).
  { destruct p as [xy H]. cbn in HE. injection HE as ->. unfold secp_serialize. cbn [proj1_sig]. rewrite parity_odd. destruct c, (Z.odd y); reflexivity. }
  split; [exact HS|]. rewrite HS. destruct c.
  - left. exists (bytes32 x). split; [reflexivity|now apply word_ok].
  - right. exists (bytes32 x), (bytes32 y). split; [now left|]. split; now apply word_ok.
Qed.
Lemma text_length b x y : point_text b x y -> zlen b = 33 /\ b = (2 + parity y) :: bytes32 x \/ zlen b = 65 /\ (b = 4 :: bytes32 x ++ bytes32 y \/ b = (6 + parity y) :: bytes32 x ++ bytes32 y).
Proof.
  intros [(bx & -> & HX)|(bx & bw & HT & HX & HY)].
  - left. apply word_inv in HX as (<- & _ & _ & HL). rewrite zlen_cons, HL. auto.
  - right. apply word_inv in HX as (<- & _ & _ & HL1). apply word_inv in HY as (<- & _ & _ & HL2). split; [|exact HT]. destruct HT as [->| ->]; rewrite zlen_cons, zlen_app, HL1, HL2; reflexivity.
Qed.
Lemma text_4 r x y : point_text (4 :: r) x y -> r = bytes32 x ++ bytes32 y.
Proof.
  intros HT. apply text_length in HT as [[_ HT]|[_ [HT|HT]]]; [exfalso|now injection HT|exfalso]; injection HT as HT _; rewrite parity_odd in HT; destruct (Z.odd y); discriminate.
Qed.
Theorem secp_laws : curve_laws secp256k1.
Proof.
  split.
  - apply secp_comm.
  - apply secp_assoc.
  - apply secp_zero.
  - apply secp_times.
  - intros c p. destruct (raw_some p) as (x & y & _ & HE & _). apply parse_some. exists x, y. split; [exact HE|]. apply (serialize_text c p x y HE).
  - intros c p. destruct (raw_some p) as (x & y & _ & HE & _). destruct (serialize_text c p x y HE) as [HS _]. change (pubkey_serialize secp256k1 c p) with (secp_serialize c p). rewrite HS.
    destruct (bytes32_ok x) as [_ H1], (bytes32_ok y) as [_ H2]. destruct c; rewrite zlen_cons, ?zlen_app, H1, ?H2; reflexivity.
  - intros c p. destruct (raw_some p) as (x & y & _ & HE & _). destruct (serialize_text c p x y HE) as [HS _]. change (pubkey_serialize secp256k1 c p) with (secp_serialize c p). rewrite HS.
    destruct (bytes32_ok x) as [H1 _], (bytes32_ok y) as [H2 _]. rewrite parity_odd. destruct c; rewrite bytes_ok_cons, ?bytes_ok_app, H1, ?H2; [destruct (Z.odd y)|]; reflexivity.
  - intros b p HE. apply parse_some in HE as (x & y & _ & HT). apply text_length in HT. tauto.
  - intros b p HE HL. apply parse_some in HE as (x & y & HE & HT). destruct (serialize_text true p x y HE) as [HS _]. change (pubkey_serialize secp256k1 true p) with (secp_serialize true p). rewrite HS.
    apply text_length in HT as [[_ HT]|[HT _]]; [exact HT|rewrite HT in HL; discriminate].
Qed.
Theorem secp_uncompressed : uncompressed_laws secp256k1.
Proof.
  split.
  - intros p. destruct (raw_some p) as (x & y & _ & HE & _). exists (bytes32 x ++ bytes32 y). apply (serialize_text false p x y HE).
  - intros r p HP. apply parse_some in HP as (x & y & HE & HT). etransitivity; [apply (serialize_text false p x y HE)|]. apply text_length in HT as [[_ HT]|[_ [HT|HT]]]; [|now symmetry|]; exfalso; injection HT as HT _; rewrite parity_odd in HT; destruct (Z.odd y); discriminate.
Qed.
Lemma raw_coords (p : pt secp256k1) : exists y, raw (Some p) = Some (px secp_coords p, y) /\ podd secp_coords p = Z.odd y.
Proof. destruct p as [[x y] H]. exists y. split; reflexivity. Qed.
Theorem secp_coords_laws : coords_laws secp256k1 secp_coords.
Proof.
  split.
  - intros p. destruct (raw_coords p) as (y & HE & _). apply raw_on, on_curve_iff in HE as (HE & _). now apply in_field_iff.
  - intros p. destruct (raw_coords p) as (y & HE & HO). apply lift_some. exists y. auto.
  - intros x b p HE. apply lift_some in HE as (y & HE & HO). destruct (raw_coords p) as (z & HE2 & HO2). pose proof (eq_trans (eq_sym HE) HE2) as HH. assert (H1 : x = px secp_coords p) by congruence. assert (H2 : y = z) by congruence. rewrite HO2, <- H2. auto.
  - intros p q HE. destruct (raw_coords p) as (y & HP & HOP). destruct (raw_coords q) as (z & HQ & HOQ). apply (f_equal raw) in HE. rewrite raw_gadd, HP, HQ in HE. cbn [raw_add raw] in HE.
    destruct (Z.eqb_spec (px secp_coords p) (px secp_coords q)) as [HX|]; [|discriminate]. destruct (Z.eqb_spec y z) as [|HN]; [discriminate|]. split; [now symmetry|].
    apply raw_on in HP, HQ. rewrite HOP, HOQ. rewrite <- HX in HQ. destruct (same_x_y _ _ _ HP HQ) as [->|HZ]; [contradiction|]. rewrite HZ. apply field_neg_odd; [now apply on_curve_iff in HP as (_ & HP & _)|now apply on_curve_nonzero in HP].
Qed.
Theorem secp_generated (p : pt secp256k1) : exists k, 0 < k < CURVE_ORDER /\ smul secp256k1 k (Some (gen secp256k1)) = Some p.
Proof.
  destruct (secp_cyclic (Some p)) as (k & Hk & HE). exists k. assert (k <> 0) by (intros ->; discriminate HE). split; [lia|]. destruct k as [|k|k]; [lia| |lia]. cbn [smul]. rewrite (pmul_times secp256k1 secp_laws). exact HE.
Qed.

(** Addition, in terms of numbers modulo the prime *)
Lemma prime_same : P256 = FIELD.
Proof. Transparent FIELD. reflexivity. Opaque FIELD. Qed.
Lemma same_iff a b : same a b <-> a mod FIELD = b mod FIELD.
Proof. unfold same. rewrite prime_same. reflexivity. Qed.
Ltac modeq := match goal with |- ?a mod FIELD = ?b mod FIELD => change (eqm FIELD a b) end;
  repeat match goal with
    | |- eqm _ ?a ?a => reflexivity
    | |- eqm _ (_ mod _) _ => refine (eqm_trans _ _ _ _ (Zmod_eqm _ _) _)
    | |- eqm _ _ (_ mod _) => refine (eqm_trans _ _ _ _ _ (eqm_sym _ _ _ (Zmod_eqm _ _)))
    | |- eqm _ (_ + _) (_ + _) => apply Zplus_eqm
    | |- eqm _ (_ - _) (_ - _) => apply Zminus_eqm
    | |- eqm _ (_ * _) (_ * _) => apply Zmult_eqm
  end.
Lemma point_iff x y : secp_point x y <-> on_curve (x, y) = true.
Proof.
  unfold secp_point, element. rewrite prime_same, on_curve_iff, !in_field_iff, same_iff. split.
  - intros (Hx & Hy & HE). split; [exact Hx|]. split; [exact Hy|]. apply in_field_iff in Hx, Hy. unfold curve_rhs. rewrite add_ok by (repeat apply in_mul; assumption || (apply in_field_iff; pose proof field_bounds; lia)). rewrite !mul_ok by (repeat apply in_mul; assumption). rewrite Zmult_mod_idemp_l, Zplus_mod_idemp_l. exact HE.
  - intros (Hx & Hy & HE). split; [exact Hx|]. split; [exact Hy|]. apply in_field_iff in Hx, Hy. unfold curve_rhs in HE. rewrite add_ok in HE by (repeat apply in_mul; assumption || (apply in_field_iff; pose proof field_bounds; lia)). rewrite !mul_ok in HE by (repeat apply in_mul; assumption). rewrite Zmult_mod_idemp_l, Zplus_mod_idemp_l in HE. exact HE.
Qed.
Lemma div_same l n d : in_field n = true -> in_field d = true -> d <> 0 -> (l * d) mod FIELD = n <-> l mod FIELD = field_div n d.
Proof.
  intros Hn Hd H0. unfold field_div. pose proof (inv_in d) as HI. pose proof (inv_ok d Hd H0) as H1. revert HI H1. generalize (field_inv d). intros i HI H1. rewrite mul_ok by assumption. pose proof Hn as HN. apply in_field_iff in HN. split.
  - intros <-. rewrite Zmult_mod_idemp_l. replace (l * d * i) with (l * (i * d)) by ring. rewrite <- Zmult_mod_idemp_r, H1, Z.mul_1_r. reflexivity.
  - intros HE. rewrite <- Zmult_mod_idemp_l, HE, Zmult_mod_idemp_l. replace (n * i * d) with (n * (i * d)) by ring. rewrite <- Zmult_mod_idemp_r, H1, Z.mul_1_r. now apply Z.mod_small.
Qed.
Ltac in_f := repeat match goal with
  | H : ?p |- ?p => exact H
  | |- in_field (field_add _ _) = true => apply in_add
  | |- in_field (field_sub _ _) = true => apply in_sub
  | |- in_field (field_mul _ _) = true => apply in_mul
  | |- in_field (field_inv _) = true => apply inv_in
  end.
Lemma slope_iff l x1 y1 x2 y2 : on_curve (x1, y1) = true -> on_curve (x2, y2) = true -> x1 <> x2 \/ y1 = y2 -> line_slope l x1 y1 x2 y2 <-> l mod FIELD = raw_slope x1 y1 x2 y2.
Proof.
  intros H1 H2 HJ. pose proof (on_curve_nonzero _ _ H1) as HN. apply on_curve_iff in H1 as (Hx1 & Hy1 & H1). apply on_curve_iff in H2 as (Hx2 & Hy2 & H2). unfold line_slope, raw_slope. rewrite !same_iff. pose proof field_bounds as [HB HO].
  destruct (Z.eqb_spec x1 x2) as [HE|HE].
  - destruct HJ as [HJ|HJ]; [contradiction|]. subst x2 y2. pose proof (in_mul x1 x1 Hx1 Hx1) as HM. rewrite <- div_same; [|apply in_add; [now apply in_add|assumption]|now apply in_add|].
    + assert (E1 : (l * field_add y1 y1) mod FIELD = (l * (2 * y1)) mod FIELD) by (rewrite add_ok by assumption; replace (2 * y1) with (y1 + y1) by ring; modeq).
      assert (E2 : field_add (field_add (field_mul x1 x1) (field_mul x1 x1)) (field_mul x1 x1) = (3 * (x1 * x1)) mod FIELD).
      { rewrite add_ok by in_f. rewrite add_ok by assumption. rewrite mul_ok by assumption. replace (3 * (x1 * x1)) with (x1 * x1 + x1 * x1 + x1 * x1) by ring. modeq. }
      rewrite E1, E2. split; [intros [[]|(_ & _ & HX)]; [contradiction|exact HX]|auto].
    + rewrite add_ok by assumption. intros H0. apply in_field_iff in Hy1. destruct (Z_lt_ge_dec (y1 + y1) FIELD); [rewrite Z.mod_small in H0; lia|]. assert (y1 + y1 = FIELD); [|lia]. apply Z.mod_divide in H0; [|lia]. destruct H0 as [k H0]. assert (k = 1) by nia. lia.
  - rewrite <- div_same; [|now apply in_sub|now apply in_sub|].
    + rewrite !sub_ok by assumption. rewrite Zmult_mod_idemp_r. split; [intros [[_ HX]|[HX _]]; [exact HX|contradiction]|auto].
    + rewrite sub_ok by assumption. intros H0. apply in_field_iff in Hx1, Hx2. apply Z.mod_divide in H0; [|lia]. destruct H0 as [k H0]. assert (k = 0) by nia. lia.
Qed.
Lemma chord_mod l x1 y1 x2 : in_field x1 = true -> in_field y1 = true -> in_field x2 = true ->
  raw_chord (l mod FIELD) x1 y1 x2 = ((l * l - x1 - x2) mod FIELD, (l * (x1 - (l * l - x1 - x2)) - y1) mod FIELD).
Proof.
  intros H1 H2 H3. pose proof (mod_in_field l) as Hl. unfold raw_chord. cbv zeta. assert (HX : field_sub (field_sub (field_mul (l mod FIELD) (l mod FIELD)) x1) x2 = (l * l - x1 - x2) mod FIELD).
  { rewrite sub_ok by in_f. rewrite sub_ok by in_f. rewrite mul_ok by assumption. modeq. }
  rewrite HX. f_equal. pose proof (mod_in_field (l * l - x1 - x2)) as H4. rewrite sub_ok by in_f. rewrite mul_ok by in_f. rewrite sub_ok by assumption. modeq.
Qed.
Theorem add_some x1 y1 x2 y2 x3 y3 : on_curve (x1, y1) = true -> on_curve (x2, y2) = true ->
  raw_add (Some (x1, y1)) (Some (x2, y2)) = Some (x3, y3) <-> element x3 /\ element y3 /\ point_sum x1 y1 x2 y2 x3 y3.
Proof.
  intros H1 H2. assert (HR : x1 <> x2 \/ y1 = y2 -> raw_add (Some (x1, y1)) (Some (x2, y2)) = Some (raw_chord (raw_slope x1 y1 x2 y2) x1 y1 x2)).
  { intros HJ. cbn [raw_add]. destruct (Z.eqb_spec x1 x2); [|reflexivity]. destruct (Z.eqb_spec y1 y2); [reflexivity|]. tauto. }
  pose proof H1 as HF1. apply on_curve_iff in HF1 as (Hx1 & Hy1 & _). pose proof H2 as HF2. apply on_curve_iff in HF2 as (Hx2 & Hy2 & _). unfold point_sum, element. rewrite prime_same. split.
  - intros HE. assert (HJ : x1 <> x2 \/ y1 = y2) by (cbn [raw_add] in HE; destruct (Z.eqb_spec x1 x2); [|now left]; destruct (Z.eqb_spec y1 y2); [now right|discriminate]).
    rewrite (HR HJ) in HE. set (l := raw_slope x1 y1 x2 y2) in *. assert (Hl : l mod FIELD = l).
    { apply Z.mod_small, in_field_iff. unfold l, raw_slope, field_div. pose proof (in_mul x1 x1 Hx1 Hx1). destruct (x1 =? x2); apply in_mul; try apply inv_in; [apply in_add; [now apply in_add|assumption]|now apply in_sub]. }
    rewrite <- Hl, chord_mod in HE by assumption. injection HE as HX HY. split; [rewrite <- HX; apply in_field_iff, mod_in_field|]. split; [rewrite <- HY; apply in_field_iff, mod_in_field|].
    exists l. split; [now apply slope_iff|]. rewrite !same_iff. rewrite <- HX, <- HY. split; modeq.
  - intros (HX3 & HY3 & l & HL & HX & HY). assert (HJ : x1 <> x2 \/ y1 = y2) by (unfold line_slope in HL; tauto). rewrite (HR HJ). apply slope_iff in HL; [|assumption|assumption|assumption]. rewrite <- HL, chord_mod by assumption.
    rewrite same_iff in HX, HY. rewrite Z.mod_small in HX, HY by assumption. rewrite HY, HX. do 2 f_equal. modeq.
Qed.
Theorem add_none x1 y1 x2 y2 : on_curve (x1, y1) = true -> on_curve (x2, y2) = true -> raw_add (Some (x1, y1)) (Some (x2, y2)) = None <-> x1 = x2 /\ y1 + y2 = P256.
Proof.
  intros H1 H2. rewrite prime_same. cbn [raw_add]. pose proof (on_curve_nonzero _ _ H1) as HN. destruct (Z.eqb_spec x1 x2) as [HE|]; [|split; [discriminate|tauto]]. subst x2. pose proof field_bounds as [_ HO]. destruct (Z.eqb_spec y1 y2) as [HE|HE].
  - split; [discriminate|]. intros [_ HX]. subst y2. lia.
  - split; [intros _|reflexivity]. split; [reflexivity|]. destruct (same_x_y x1 y1 y2 H1 H2) as [->| ->]; [contradiction|]. unfold field_neg. destruct (Z.eqb_spec y1 0); [contradiction|]. lia.
Qed.
