(** Multiples of points. *)
From Coq Require Import Znumtheory Eqdep_dec.
From Verif.Model Require Import Py Curve.
From Verif.Spec Require Import CurveSpec.
From Verif.Proofs Require Import PyFacts Primality.

Lemma order_pos : 1 < CURVE_ORDER.
Proof. reflexivity. Qed.
Lemma order_lt : CURVE_ORDER < 2 ^ 256.
Proof. reflexivity. Qed.
#[global] Opaque CURVE_ORDER.

Section Facts.
  Variable C : curve.
  Hypothesis L : curve_laws C.
  Notation "a +' b" := (gadd C a b) (at level 50, left associativity).

  Lemma add_None a : a +' None = a.
  Proof using L. rewrite (law_comm C L). apply (law_zero C L). Qed.
  Lemma add_swap a b c : a +' (b +' c) = b +' (a +' c).
  Proof using L. rewrite <- !(law_assoc C L). f_equal. apply (law_comm C L). Qed.
  Lemma times_succ n p : times C (Pos.succ n) p = p +' times C n p.
  Proof. unfold times. apply Pos.iter_succ. Qed.
  Lemma times_1 p : times C 1 p = p.
  Proof using L. unfold times. cbn. apply add_None. Qed.
  Lemma times_add m n p : times C (m + n) p = times C m p +' times C n p.
  Proof using L.
    induction m as [|m IH] using Pos.peano_ind.
    - rewrite Pos.add_1_l, times_succ, times_1. reflexivity.
    - rewrite Pos.add_succ_l, !times_succ, IH, (law_assoc C L). reflexivity.
  Qed.
  Lemma pmul_times n p : pmul C n p = times C n p.
  Proof using L.
    induction n as [n IH|n IH|]; cbn [pmul]; [| |symmetry; apply times_1].
    - cbv zeta. rewrite IH, <- times_add, Pos.add_diag. replace (xI n) with (Pos.succ (xO n)) by reflexivity. rewrite times_succ. reflexivity.
    - cbv zeta. rewrite IH, <- times_add, Pos.add_diag. reflexivity.
  Qed.
  Lemma smul_add a b p : 0 <= a -> 0 <= b -> smul C (a + b) p = smul C a p +' smul C b p.
  Proof using L.
    intros Ha Hb. destruct a as [|a|a]; [|destruct b as [|b|b]|]; try lia.
    - cbn [Z.add smul]. now rewrite (law_zero C L).
    - cbn [Z.add smul]. now rewrite add_None.
    - change (pmul C (a + b) p = pmul C a p +' pmul C b p). rewrite !pmul_times. apply times_add.
  Qed.
  Lemma smul_0 p : smul C 0 p = None.
  Proof. reflexivity. Qed.
  Lemma smul_1 p : smul C 1 p = p.
  Proof. reflexivity. Qed.
  Lemma smul_succ a p : 0 <= a -> smul C (Z.succ a) p = p +' smul C a p.
  Proof using L. intros Ha. unfold Z.succ. rewrite smul_add, smul_1 by lia. apply (law_comm C L). Qed.
  Lemma smul_None n : smul C n None = None.
  Proof using L.
    destruct (Z.le_gt_cases 0 n) as [Hn|Hn]; [|destruct n; [lia|lia|reflexivity]].
    revert n Hn. apply natlike_ind; [reflexivity|]. intros n Hn IH. rewrite smul_succ, IH by lia. apply add_None.
  Qed.
  Lemma smul_gadd n a b : 0 <= n -> smul C n (a +' b) = smul C n a +' smul C n b.
  Proof using L.
    revert n. apply natlike_ind; [cbn; now rewrite add_None|]. intros n Hn IH. rewrite !smul_succ, IH by lia. rewrite !(law_assoc C L). f_equal. apply add_swap.
  Qed.
  Lemma smul_mul a b p : 0 <= a -> 0 <= b -> smul C (a * b) p = smul C a (smul C b p).
  Proof using L.
    intros Ha Hb. revert a Ha. apply natlike_ind; [reflexivity|]. intros a Ha IH. rewrite smul_succ by lia. rewrite <- IH, <- smul_add by nia. f_equal. lia.
  Qed.
  Lemma smul_order p : smul C CURVE_ORDER p = None.
  Proof using L.
    pose proof (law_order C L p) as HO. rewrite <- pmul_times in HO. pose proof order_pos as HP. destruct CURVE_ORDER as [|n|n]; [lia| |lia]. exact HO.
  Qed.
  Lemma smul_mod n p : 0 <= n -> smul C (n mod CURVE_ORDER) p = smul C n p.
  Proof using L.
    intros Hn. pose proof order_pos. pose proof (Z.div_pos n CURVE_ORDER Hn ltac:(lia)). pose proof (Z.mod_pos_bound n CURVE_ORDER ltac:(lia)).
    rewrite (Z.div_mod n CURVE_ORDER) at 2 by lia. rewrite smul_add by nia. rewrite (Z.mul_comm CURVE_ORDER), smul_mul, smul_order, smul_None by lia. now rewrite (law_zero C L).
  Qed.
  (** Every point has exactly this order. *)
  Lemma smul_zero n p : 0 <= n -> (smul C n (Some p) = None <-> (CURVE_ORDER | n)).
  Proof using L.
    intros Hn. pose proof order_pos as HP. split.
    - intros HE. destruct (Zdivide_dec CURVE_ORDER n) as [|HN]; [assumption|exfalso].
      assert (HR : rel_prime CURVE_ORDER n) by (apply prime_rel_prime; [apply order_prime|exact HN]). apply rel_prime_bezout in HR. destruct HR as [u v HB].
      assert (H1 : smul C ((v mod CURVE_ORDER) * n) (Some p) = None) by (rewrite smul_mul, HE by (pose proof (Z.mod_pos_bound v CURVE_ORDER ltac:(lia)); lia); apply smul_None).
      rewrite <- smul_mod in H1 by (pose proof (Z.mod_pos_bound v CURVE_ORDER ltac:(lia)); nia). rewrite Zmult_mod_idemp_l in H1.
      replace (v * n) with (1 + (- u) * CURVE_ORDER) in H1 by lia. rewrite Z.mod_add, Z.mod_small, smul_1 in H1 by lia. discriminate.
    - intros HD. rewrite <- smul_mod by lia. rewrite (proj2 (Z.mod_divide n CURVE_ORDER ltac:(lia)) HD). reflexivity.
  Qed.
  Lemma smul_Some n p : 0 < n < CURVE_ORDER -> exists q, smul C n (Some p) = Some q.
  Proof using L.
    intros Hn. destruct (smul C n (Some p)) as [q|] eqn:E; [now exists q|]. apply smul_zero in E; [|lia]. apply Z.divide_pos_le in E; lia.
  Qed.
  Lemma ser_inj c p q : pubkey_serialize C c p = pubkey_serialize C c q -> p = q.
  Proof using L. intros HE. pose proof (law_parse C L c p) as H1. rewrite HE, (law_parse C L) in H1. congruence. Qed.
  Lemma inverse a : exists b, a +' b = None.
  Proof using L.
    exists (smul C (CURVE_ORDER - 1) a). pose proof order_pos. rewrite <- (smul_1 a) at 1. rewrite <- smul_add by lia. replace (1 + (CURVE_ORDER - 1)) with CURVE_ORDER by lia. apply smul_order.
  Qed.
End Facts.

(** * A curve that obeys the laws: the numbers modulo CURVE_ORDER, zero being the point at infinity *)
Definition in_range (x : Z) : bool := (0 <? x) && (x <? CURVE_ORDER).
Definition toy_pt := { x : Z | in_range x = true }.
Definition toy_val (p : option toy_pt) : Z := match p with Some (exist _ x _) => x | None => 0 end.
(** [x mod CURVE_ORDER], but fast for small numbers *)
Definition toy_reduce (x : Z) : Z :=
  if x <? 0 then x mod CURVE_ORDER else if x <? CURVE_ORDER then x else if x - CURVE_ORDER <? CURVE_ORDER then x - CURVE_ORDER else x mod CURVE_ORDER.
Lemma toy_reduce_ok x : toy_reduce x = x mod CURVE_ORDER.
Proof.
  unfold toy_reduce. destruct (Z.ltb_spec x 0); [reflexivity|]. destruct (Z.ltb_spec x CURVE_ORDER); [symmetry; apply Z.mod_small; lia|]. destruct (Z.ltb_spec (x - CURVE_ORDER) CURVE_ORDER); [|reflexivity].
  apply Z.mod_unique with 1; lia.
Qed.
Definition toy_of (x : Z) : option toy_pt :=
  let y := toy_reduce x in match bool_dec (in_range y) true with left H => Some (exist _ y H) | right _ => None end.
Lemma in_range_1 : in_range 1 = true.
Proof. reflexivity. Qed.
Definition toy_parse (b : bytes) : option toy_pt :=
  match b with
  | t :: r => if (zlen r =? 32) && (t =? 2) && bytes_ok r then if be_int r <? CURVE_ORDER then toy_of (be_int r) else None
              else if (zlen r =? 64) && (t =? 4) && bytes_ok r && bytes_eqb (zdrop 32 r) (zrepeat 0 32) then if be_int (ztake 32 r) <? CURVE_ORDER then toy_of (be_int (ztake 32 r)) else None
              else None
  | [] => None
  end.
Definition toy_ser (c : bool) (p : toy_pt) : bytes :=
  if c then 2 :: bytes32 (toy_val (Some p)) else 4 :: bytes32 (toy_val (Some p)) ++ zrepeat 0 32.
Definition toy : curve := {|
  pt := toy_pt;
  gadd := fun a b => toy_of (toy_val a + toy_val b);
  gen := exist _ 1 in_range_1;
  pubkey_parse := toy_parse;
  pubkey_serialize := toy_ser
|}.
Lemma toy_ext (a b : option toy_pt) : toy_val a = toy_val b -> a = b.
Proof.
  assert (HR : forall x, in_range x = true -> x <> 0). { intros x Hx. unfold in_range in Hx. apply andb_true_iff in Hx as [Hx _]. apply Z.ltb_lt in Hx. lia. }
  destruct a as [[x Hx]|], b as [[y Hy]|]; cbn; intros HE; try reflexivity.
  - subst y. f_equal. f_equal. apply UIP_dec. apply bool_dec.
  - exfalso. exact (HR x Hx HE).
  - exfalso. exact (HR y Hy (eq_sym HE)).
Qed.
Lemma toy_val_range a : 0 <= toy_val a < CURVE_ORDER.
Proof.
  pose proof order_pos. destruct a as [[x Hx]|]; cbn; [|lia]. unfold in_range in Hx. apply andb_true_iff in Hx as [H1 H2]. apply Z.ltb_lt in H1, H2. lia.
Qed.
Lemma toy_val_of x : toy_val (toy_of x) = x mod CURVE_ORDER.
Proof.
  unfold toy_of. cbv zeta. rewrite !toy_reduce_ok. pose proof order_pos. pose proof (Z.mod_pos_bound x CURVE_ORDER ltac:(lia)). destruct (bool_dec _ _) as [Hx|Hx]; [reflexivity|]. cbn.
  unfold in_range in Hx. destruct (Z.ltb_spec 0 (x mod CURVE_ORDER)); [|lia]. destruct (Z.ltb_spec (x mod CURVE_ORDER) CURVE_ORDER); [|lia]. exfalso. now apply Hx.
Qed.
Lemma toy_of_val a : toy_of (toy_val a) = a.
Proof. apply toy_ext. rewrite toy_val_of. apply Z.mod_small. apply toy_val_range. Qed.
Lemma bytes32_ok v : bytes_ok (bytes32 v) = true /\ zlen (bytes32 v) = 32.
Proof. unfold bytes32. rewrite bytes_ok_rev, zlen_rev, zlen_le_digits. split; [apply le_digits_ok|reflexivity]. Qed.
Lemma be_bytes32 v : 0 <= v < 2 ^ 256 -> be_int (bytes32 v) = v.
Proof. intros Hv. unfold be_int, bytes32. rewrite rev_involutive. apply le_int_digits. exact Hv. Qed.
Lemma bytes32_be b : bytes_ok b = true -> zlen b = 32 -> bytes32 (be_int b) = b.
Proof.
  intros HB HL. unfold be_int, bytes32. rewrite le_digits_int, rev_involutive; [reflexivity|now rewrite bytes_ok_rev|]. rewrite rev_length. unfold zlen in HL. lia.
Qed.
Theorem toy_laws : curve_laws toy.
Proof.
  pose proof order_pos as HP. pose proof order_lt as HL.
  assert (HT : forall n p, toy_val (times toy n p) = (Zpos n * toy_val p) mod CURVE_ORDER).
  { intros n p. induction n as [|n IH] using Pos.peano_ind.
    - unfold times. cbn -[toy_of toy_val]. rewrite toy_val_of. f_equal. change (toy_val None) with 0. destruct (toy_val p); reflexivity.
    - unfold times in *. rewrite Pos.iter_succ. cbn -[toy_of toy_val Pos.iter Z.mul] in *. rewrite toy_val_of, IH, Zplus_mod_idemp_r. f_equal. rewrite Pos2Z.inj_succ. lia. }
  assert (Hser : forall p : toy_pt, be_int (bytes32 (toy_val (Some p))) = toy_val (Some p)) by (intros p; apply be_bytes32; pose proof (toy_val_range (Some p)); lia).
  split.
  - intros a b. cbn. now rewrite Z.add_comm.
  - intros a b c. cbn. apply toy_ext. rewrite !toy_val_of, Zplus_mod_idemp_l, Zplus_mod_idemp_r. f_equal. lia.
  - intros a. cbn -[toy_of toy_val]. change (toy_val None) with 0. rewrite Z.add_0_l. apply toy_of_val.
  - intros a. apply toy_ext. rewrite HT. rewrite Z2Pos.id by lia. change (toy_val None) with 0. rewrite Z.mul_comm. apply Z.mod_mul. lia.
  - intros c p. change (pt toy) with toy_pt in p. change (toy_parse (toy_ser c p) = Some p). destruct (bytes32_ok (toy_val (Some p))) as [Ho Hl]. pose proof (toy_val_range (Some p)). specialize (Hser p).
    unfold toy_parse, toy_ser. destruct c.
    + rewrite Hl, Ho, Hser. destruct (Z.ltb_spec (toy_val (Some p)) CURVE_ORDER); [|lia]. change (toy_of (toy_val (Some p)) = Some p). apply toy_of_val.
    + rewrite zlen_app, Hl. change (32 + zlen (zrepeat 0 32)) with 64. rewrite bytes_ok_app, Ho. change (bytes_ok (zrepeat 0 32)) with true. rewrite ztake_app_exact, zdrop_app_exact by now rewrite Hl.
      change (bytes_eqb (zrepeat 0 32) (zrepeat 0 32)) with true. cbn [andb Z.eqb Pos.eqb].
      rewrite Hser. destruct (Z.ltb_spec (toy_val (Some p)) CURVE_ORDER); [|lia]. change (toy_of (toy_val (Some p)) = Some p). apply toy_of_val.
  - intros c p. change (pt toy) with toy_pt in p. change (zlen (toy_ser c p) = if c then 33 else 65). destruct (bytes32_ok (toy_val (Some p))) as [_ Hl]. unfold toy_ser. destruct c; rewrite zlen_cons, ?zlen_app, Hl; reflexivity.
  - intros c p. change (pt toy) with toy_pt in p. change (bytes_ok (toy_ser c p) = true). destruct (bytes32_ok (toy_val (Some p))) as [Ho _]. unfold toy_ser. destruct c; rewrite bytes_ok_cons, ?bytes_ok_app, Ho; reflexivity.
  - intros b p. change (pt toy) with toy_pt in p. change (toy_parse b = Some p -> zlen b = 33 \/ zlen b = 65). unfold toy_parse. destruct b as [|t r]; [discriminate|]. rewrite zlen_cons. destruct (Z.eqb_spec (zlen r) 32); [intros _; lia|]. cbn [andb].
    destruct (Z.eqb_spec (zlen r) 64); [intros _; lia|]. discriminate.
  - intros b p. change (pt toy) with toy_pt in p. change (toy_parse b = Some p -> zlen b = 33 -> b = toy_ser true p). unfold toy_parse, toy_ser. destruct b as [|t r]; [discriminate|]. rewrite zlen_cons. intros HE H33.
    destruct (Z.eqb_spec (zlen r) 32) as [H32|]; [|lia]. destruct (Z.eqb_spec (zlen r) 64); [lia|]. cbn [andb] in HE. destruct (Z.eqb_spec t 2) as [->|]; [|discriminate]. cbn [andb] in HE.
    destruct (bytes_ok r) eqn:Hr; [|discriminate]. destruct (Z.ltb_spec (be_int r) CURVE_ORDER); [|discriminate]. rewrite <- HE, toy_val_of, Z.mod_small, bytes32_be; auto.
    split; [|assumption]. unfold be_int. apply le_int_nonneg. now rewrite bytes_ok_rev.
Qed.
