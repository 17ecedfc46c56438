(** The points of y^2 = x^3 + b over a field in which 2 is not zero are a commutative group, if no point has y = 0.
    Chords and tangents are treated alike through the two equations that define the slope l of the line
    through P1 and P2: y2 - y1 = l (x2 - x1) and l (y1 + y2) = x1^2 + x1 x2 + x2^2.  The key to associativity is
    [slopes]: with slopes l of P1 P2, m of P2 P3, n of (P1 + P2) P3, (l - m) (l + n) = x1 - x3; and so the
    slope of P1 (P2 + P3) is l + n - m. *)
From Coq Require Import Ring Field.

Section Weierstrass.
  Variable F : Type.
  Variable zero one : F.
  Variable add mul sub div : F -> F -> F.
  Variable opp inv : F -> F.
  Hypothesis FT : field_theory zero one add mul sub opp div inv (@eq F).
  Variable eq_dec : forall x y : F, {x = y} + {x <> y}.
  Variable b : F.
  Add Field F_field : FT.
  Notation "0" := zero. Notation "1" := one.
  Infix "+" := add. Infix "*" := mul. Infix "-" := sub. Infix "/" := div.
  Notation "- x" := (opp x).
  Hypothesis two : 1 + 1 <> 0.

  Definition curve_eq (x y : F) : Prop := y * y = x * x * x + b.
  Hypothesis no_root : forall x y, curve_eq x y -> y <> 0.

  Definition point : Type := option (F * F).
  Definition on (p : point) : Prop := match p with None => True | Some (x, y) => curve_eq x y end.
  Definition slope (x1 y1 x2 y2 : F) : F :=
    if eq_dec x1 x2 then (x1 * x1 + x1 * x1 + x1 * x1) / (y1 + y1) else (y2 - y1) / (x2 - x1).
  Definition chord (l x1 y1 x2 : F) : F * F := let x3 := l * l - x1 - x2 in (x3, l * (x1 - x3) - y1).
  Definition ec_add (p q : point) : point :=
    match p, q with
    | None, _ => q
    | _, None => p
    | Some (x1, y1), Some (x2, y2) =>
      if eq_dec x1 x2 then if eq_dec y1 y2 then Some (chord (slope x1 y1 x2 y2) x1 y1 x2) else None
      else Some (chord (slope x1 y1 x2 y2) x1 y1 x2)
    end.
  Definition ec_opp (p : point) : point := match p with None => None | Some (x, y) => Some (x, - y) end.

  Lemma F_integral x y : x * y = 0 -> x = 0 \/ y = 0.
  Proof using FT eq_dec. intros H. destruct (eq_dec x 0) as [|N]; [auto|]. right. transitivity (x * y / x); [field; exact N|]. rewrite H. field. exact N. Qed.
  Lemma sub_zero x y : x - y = 0 -> x = y.
  Proof using FT. intros H. transitivity (x - y + y); [ring|]. rewrite H. ring. Qed.
  Lemma cancel c x y : c <> 0 -> c * x = c * y -> x = y.
  Proof using FT eq_dec. intros N H. assert (HZ : c * (x - y) = 0) by (transitivity (c * x - c * y); [ring|rewrite H; ring]). apply F_integral in HZ as [HZ|HZ]; [contradiction|]. now apply sub_zero. Qed.
  Lemma double_nonzero y : y <> 0 -> y + y <> 0.
  Proof using FT eq_dec two. intros N H. assert (HZ : (1 + 1) * y = 0) by (rewrite <- H; ring). apply F_integral in HZ as [|]; contradiction. Qed.
  (** Points with the same x are the same or opposite *)
  Lemma same_x x y z : curve_eq x y -> curve_eq x z -> y = z \/ y = - z.
  Proof using FT eq_dec.
    unfold curve_eq. intros H1 H2. assert (HZ : (y - z) * (y + z) = 0) by (transitivity (y * y - z * z); [ring|rewrite H1, H2; ring]). apply F_integral in HZ as [HZ|HZ]; [left; now apply sub_zero|right].
    apply sub_zero. rewrite <- HZ. ring.
  Qed.

  (** l is the slope of the line through two points *)
  Definition line (l x1 y1 x2 y2 : F) : Prop := y2 - y1 = l * (x2 - x1) /\ l * (y1 + y2) = x1 * x1 + x1 * x2 + x2 * x2.
  Lemma line_sym l x1 y1 x2 y2 : line l x1 y1 x2 y2 -> line l x2 y2 x1 y1.
  Proof using FT. intros [H1 H2]. split; [transitivity (- (y2 - y1)); [ring|rewrite H1; ring]|transitivity (l * (y1 + y2)); [ring|rewrite H2; ring]]. Qed.
  Lemma line_unique l m x1 y1 x2 y2 : x1 <> x2 \/ y1 + y2 <> 0 -> line l x1 y1 x2 y2 -> line m x1 y1 x2 y2 -> l = m.
  Proof using FT eq_dec.
    intros [N|N] [H1 H2] [H3 H4].
    - apply (cancel (x2 - x1)); [intros H; apply N; symmetry; now apply sub_zero|]. transitivity (y2 - y1); [rewrite H1; ring|rewrite H3; ring].
    - apply (cancel (y1 + y2)); [exact N|]. transitivity (l * (y1 + y2)); [ring|]. rewrite H2, <- H4. ring.
  Qed.
  Lemma slope_line x1 y1 x2 y2 : curve_eq x1 y1 -> curve_eq x2 y2 -> x1 <> x2 \/ y1 = y2 -> line (slope x1 y1 x2 y2) x1 y1 x2 y2.
  Proof using FT eq_dec two no_root.
    intros C1 C2 HN. unfold slope. destruct (eq_dec x1 x2) as [<-|N].
    - destruct HN as [HN|<-]; [contradiction|]. pose proof (double_nonzero y1 (no_root _ _ C1)). split; [ring|]. field. assumption.
    - assert (N' : x2 - x1 <> 0) by (intros H; apply N; symmetry; now apply sub_zero). unfold curve_eq in *. split; [field; exact N'|].
      apply (cancel (x2 - x1)); [exact N'|]. transitivity (y2 * y2 - y1 * y1); [field; exact N'|]. rewrite C1, C2. ring.
  Qed.
  Lemma distinct x1 y1 x2 y2 : curve_eq x1 y1 -> x1 <> x2 \/ y1 = y2 -> x1 <> x2 \/ y1 + y2 <> 0.
  Proof using FT eq_dec two no_root. intros C1 [N|<-]; [now left|right]. apply double_nonzero. exact (no_root _ _ C1). Qed.

  (** The third point on a line, reflected *)
  Lemma line_third l x1 y1 x2 y2 x3 y3 : line l x1 y1 x2 y2 -> (x3, y3) = chord l x1 y1 x2 -> line l x1 y1 x3 (- y3) /\ line l x2 y2 x3 (- y3).
  Proof using FT.
    intros [H1 H2] E. unfold chord in E. injection E as E3 E4. assert (E5 : l * l = x1 + x2 + x3) by (rewrite E3; ring). assert (E6 : y2 = y1 + l * (x2 - x1)) by (rewrite <- H1; ring).
    assert (E7 : y3 = l * (x1 - x3) - y1) by (rewrite E4, <- E3; reflexivity). clear E3 E4 H1. subst y2 y3. repeat split.
    - ring.
    - transitivity (l * (y1 + (y1 + l * (x2 - x1))) + l * l * (x3 - x2)); [ring|]. rewrite H2, E5. ring.
    - ring.
    - transitivity (l * (y1 + (y1 + l * (x2 - x1))) + l * l * (x3 - x1)); [ring|]. rewrite H2, E5. ring.
  Qed.
  Lemma line_on l x1 y1 x2 y2 : line l x1 y1 x2 y2 -> curve_eq x1 y1 -> curve_eq x2 y2.
  Proof using FT.
    unfold curve_eq. intros [H1 H2] C1. transitivity ((y2 - y1) * (y1 + y2) + y1 * y1); [ring|]. rewrite H1, C1. transitivity ((x2 - x1) * (l * (y1 + y2)) + (x1 * x1 * x1 + b)); [ring|]. rewrite H2. ring.
  Qed.
  Lemma opp_on x y : curve_eq x (- y) -> curve_eq x y.
  Proof using FT. unfold curve_eq. intros <-. ring. Qed.
  Lemma chord_on l x1 y1 x2 y2 : line l x1 y1 x2 y2 -> curve_eq x1 y1 -> on (Some (chord l x1 y1 x2)).
  Proof using FT.
    intros HL C1. destruct (chord l x1 y1 x2) as [x3 y3] eqn:E. destruct (line_third _ _ _ _ _ _ _ HL (eq_sym E)) as [H3 _]. cbn. apply opp_on. exact (line_on _ _ _ _ _ H3 C1).
  Qed.

  (** The key *)
  Lemma slopes l m n x1 y1 x2 y2 x3 y3 x4 y4 : line l x1 y1 x2 y2 -> line m x2 y2 x3 y3 -> (x4, y4) = chord l x1 y1 x2 -> line n x4 y4 x3 y3 ->
    x4 <> x3 \/ y4 = y3 /\ y3 + y3 <> 0 -> (l - m) * (l + n) = x1 - x3.
  Proof using FT eq_dec.
    intros HL HM E HN HD. pose proof (line_third _ _ _ _ _ _ _ HL E) as [H14 H24]. destruct HL as [L1 L2], HM as [M1 M2], HN as [N1 N2].
    unfold chord in E. injection E as E3 E4. rewrite <- E3 in E4. assert (E5 : l * l = x1 + x2 + x4) by (rewrite E3; ring). clear E3.
    destruct (eq_dec x4 x3) as [Ex|Nx].
    - destruct HD as [HD|[Ey HY]]; [contradiction|]. rewrite Ex in *. rewrite Ey in *. clear Ex Ey x4 y4. destruct H14 as [G1 G2], H24 as [K1 K2]. apply (cancel (y3 + y3)); [exact HY|].
      (* 2 y3 = (m - l) (x3 - x2), 2 l y3 = x1 x2 - x2 x3 - x1 x3 - 2 x3^2 *)
      assert (A : y3 + y3 = (m - l) * (x3 - x2)) by (transitivity ((y3 - y2) - (- y3 - y2)); [ring|rewrite M1, K1; ring]).
      assert (B : l * (y3 + y3) = x1 * x2 - x2 * x3 - x1 * x3 - x3 * x3 - x3 * x3) by (transitivity (l * (y1 + y2) - l * (y2 + - y3) - l * (y1 + - y3)); [ring|rewrite L2, K2, G2; ring]).
      transitivity ((l - m) * (l * (y3 + y3) + n * (y3 + y3))); [ring|]. rewrite N2, B, A. ring.
    - assert (Nx' : x4 - x3 <> 0) by (intros H; apply Nx; now apply sub_zero). apply (cancel (x4 - x3)); [exact Nx'|].
      assert (A : n * (x4 - x3) = y4 - y3) by (transitivity (- (n * (x3 - x4))); [ring|rewrite <- N1; ring]).
      transitivity ((l - m) * (l * (x4 - x3) + n * (x4 - x3))); [ring|]. rewrite A, E4. assert (Y1 : y1 = y2 - l * (x2 - x1)) by (rewrite <- L1; ring). assert (Y3 : y3 = y2 + m * (x3 - x2)) by (rewrite <- M1; ring).
      rewrite Y1 in *. rewrite Y3 in *. clear - L2 M2 E5 FT.
      assert (B : l * (y2 + y2) = l * l * (x2 - x1) + x1 * x1 + x1 * x2 + x2 * x2) by (transitivity (l * (y2 - l * (x2 - x1) + y2) + l * l * (x2 - x1)); [ring|rewrite L2; ring]).
      assert (D : m * (y2 + y2) = m * m * (x2 - x3) + x2 * x2 + x2 * x3 + x3 * x3) by (transitivity (m * (y2 + (y2 + m * (x3 - x2))) + m * m * (x2 - x3)); [ring|rewrite M2; ring]).
      transitivity ((l * l - m * m) * (x2 - x3) - l * (y2 + y2) + m * (y2 + y2)); [ring|]. rewrite B, D. transitivity (l * l * (x1 - x3) + (x3 - x1) * (x1 + x2 + x3)); [ring|]. rewrite E5. ring.
  Qed.

  (** The sum of two points that are not opposite, by any line through them *)
  Definition joined (x1 y1 x2 y2 : F) : Prop := x1 <> x2 \/ y1 = y2.
  Lemma joined_dec x1 y1 x2 y2 : curve_eq x1 y1 -> curve_eq x2 y2 -> joined x1 y1 x2 y2 \/ x1 = x2 /\ y1 = - y2 /\ ec_add (Some (x1, y1)) (Some (x2, y2)) = None.
  Proof using FT eq_dec.
    intros C1 C2. unfold joined, ec_add. destruct (eq_dec x1 x2) as [<-|N]; [|auto]. destruct (eq_dec y1 y2) as [|N]; [auto|]. right. destruct (same_x _ _ _ C1 C2) as [|H]; [contradiction|auto].
  Qed.
  Lemma add_line l x1 y1 x2 y2 : curve_eq x1 y1 -> curve_eq x2 y2 -> joined x1 y1 x2 y2 -> line l x1 y1 x2 y2 -> ec_add (Some (x1, y1)) (Some (x2, y2)) = Some (chord l x1 y1 x2).
  Proof using FT eq_dec two no_root.
    intros C1 C2 HJ HL. pose proof (slope_line _ _ _ _ C1 C2 HJ) as HS. rewrite (line_unique l _ _ _ _ _ (distinct _ _ _ _ C1 HJ) HL HS). unfold ec_add.
    destruct (eq_dec x1 x2) as [E|]; [|reflexivity]. destruct (eq_dec y1 y2) as [|N]; [reflexivity|]. destruct HJ as [HJ|HJ]; contradiction.
  Qed.
  Lemma add_joined x1 y1 x2 y2 : curve_eq x1 y1 -> curve_eq x2 y2 -> joined x1 y1 x2 y2 ->
    exists l x3 y3, line l x1 y1 x2 y2 /\ (x3, y3) = chord l x1 y1 x2 /\ ec_add (Some (x1, y1)) (Some (x2, y2)) = Some (x3, y3) /\ curve_eq x3 y3.
  Proof using FT eq_dec two no_root.
    intros C1 C2 HJ. pose proof (slope_line _ _ _ _ C1 C2 HJ) as HS. pose proof (add_line _ _ _ _ _ C1 C2 HJ HS) as HA. pose proof (chord_on _ _ _ _ _ HS C1) as HO.
    destruct (chord (slope x1 y1 x2 y2) x1 y1 x2) as [x3 y3] eqn:E. exists (slope x1 y1 x2 y2), x3, y3. rewrite E. auto.
  Qed.
  Lemma ec_on p q : on p -> on q -> on (ec_add p q).
  Proof using FT eq_dec two no_root.
    destruct p as [[x1 y1]|], q as [[x2 y2]|]; try (intros; assumption). intros C1 C2. destruct (joined_dec _ _ _ _ C1 C2) as [HJ|(_ & _ & ->)]; [|exact I].
    destruct (add_joined _ _ _ _ C1 C2 HJ) as (l & x3 & y3 & _ & _ & -> & H). exact H.
  Qed.
  Lemma chord_sym l x1 y1 x2 y2 : line l x1 y1 x2 y2 -> chord l x1 y1 x2 = chord l x2 y2 x1.
  Proof using FT. intros [H1 _]. unfold chord. assert (E : l * l - x2 - x1 = l * l - x1 - x2) by ring. rewrite E. f_equal. assert (Y : y2 = y1 + l * (x2 - x1)) by (rewrite <- H1; ring). rewrite Y. ring. Qed.
  Lemma joined_sym x1 y1 x2 y2 : joined x1 y1 x2 y2 -> joined x2 y2 x1 y1.
  Proof. intros [N|E]; [left|right]; auto. Qed.
  Theorem ec_comm p q : on p -> on q -> ec_add p q = ec_add q p.
  Proof using FT eq_dec two no_root.
    destruct p as [[x1 y1]|], q as [[x2 y2]|]; try reflexivity. intros C1 C2. destruct (joined_dec _ _ _ _ C1 C2) as [HJ|(-> & -> & ->)].
    - pose proof (slope_line _ _ _ _ C1 C2 HJ) as HS. rewrite (add_line _ _ _ _ _ C1 C2 HJ HS), (add_line _ _ _ _ _ C2 C1 (joined_sym _ _ _ _ HJ) (line_sym _ _ _ _ _ HS)). f_equal. now apply chord_sym.
    - unfold ec_add. destruct (eq_dec x2 x2) as [_|]; [|contradiction]. destruct (eq_dec y2 (- y2)) as [E|]; [|reflexivity]. exfalso. apply (double_nonzero y2 (no_root _ _ C2)). rewrite E at 1. ring.
  Qed.
  Lemma opp_on' p : on p -> on (ec_opp p).
  Proof using FT. destruct p as [[x y]|]; cbn; unfold curve_eq; [|auto]. intros <-. ring. Qed.
  Lemma opp_opp p : ec_opp (ec_opp p) = p.
  Proof using FT. destruct p as [[x y]|]; cbn; [|reflexivity]. f_equal. f_equal. ring. Qed.
  Lemma add_opp p : on p -> ec_add p (ec_opp p) = None.
  Proof using FT eq_dec two no_root.
    destruct p as [[x y]|]; [|reflexivity]. intros C. unfold ec_opp, ec_add. destruct (eq_dec x x) as [_|]; [|contradiction]. destruct (eq_dec y (- y)) as [E|]; [|reflexivity]. exfalso. apply (double_nonzero y (no_root _ _ C)). rewrite E at 1. ring.
  Qed.
  (** (P + Q) - Q = P *)
  Lemma add_cancel p q : on p -> on q -> ec_add (ec_add p q) (ec_opp q) = p.
  Proof using FT eq_dec two no_root.
    destruct p as [[x1 y1]|], q as [[x2 y2]|]; try (intros; reflexivity); [|intros _ C2; exact (add_opp _ C2)]. intros C1 C2. destruct (joined_dec _ _ _ _ C1 C2) as [HJ|(-> & -> & ->)]; [|reflexivity].
    destruct (add_joined _ _ _ _ C1 C2 HJ) as (l & x3 & y3 & HL & HE & -> & C3). destruct (line_third _ _ _ _ _ _ _ HL HE) as [_ [K1 K2]]. cbn [ec_opp].
    assert (C2' : curve_eq x2 (- y2)) by exact (opp_on' (Some (x2, y2)) C2).
    assert (HJ' : joined x3 y3 x2 (- y2)).
    { destruct (joined_dec _ _ _ _ C3 C2') as [|(E & E' & _)]; [assumption|]. right. rewrite E in K1. apply sub_zero. transitivity (- (- y3 - y2)); [ring|]. rewrite K1. ring. }
    assert (HL' : line (- l) x3 y3 x2 (- y2)).
    { split; [transitivity (- y3 - y2); [ring|rewrite K1; ring]|transitivity (l * (y2 + - y3)); [ring|rewrite K2; ring]]. }
    rewrite (add_line _ _ _ _ _ C3 C2' HJ' HL'). unfold chord in *. injection HE as E3 E4. rewrite <- E3 in E4. assert (EX : - l * - l - x3 - x2 = x1) by (rewrite E3; ring). rewrite EX. f_equal. f_equal. rewrite E4. ring.
  Qed.
  Lemma opp_add p q : on p -> on q -> ec_opp (ec_add p q) = ec_add (ec_opp p) (ec_opp q).
  Proof using FT eq_dec two no_root.
    destruct p as [[x1 y1]|], q as [[x2 y2]|]; try reflexivity. intros C1 C2. assert (C1' : curve_eq x1 (- y1)) by exact (opp_on' (Some (x1, y1)) C1). assert (C2' : curve_eq x2 (- y2)) by exact (opp_on' (Some (x2, y2)) C2).
    destruct (joined_dec _ _ _ _ C1 C2) as [HJ|(-> & -> & ->)].
    - destruct (add_joined _ _ _ _ C1 C2 HJ) as (l & x3 & y3 & [L1 L2] & HE & -> & C3). cbn [ec_opp].
      assert (HJ' : joined x1 (- y1) x2 (- y2)) by (destruct HJ as [N|E]; [now left|right; now rewrite E]).
      assert (HL' : line (- l) x1 (- y1) x2 (- y2)) by (split; [transitivity (- (y2 - y1)); [ring|rewrite L1; ring]|transitivity (l * (y1 + y2)); [ring|exact L2]]).
      rewrite (add_line _ _ _ _ _ C1' C2' HJ' HL'). unfold chord in *. injection HE as E3 E4. rewrite <- E3 in E4. assert (EX : - l * - l - x1 - x2 = x3) by (rewrite E3; ring). rewrite EX, E4. f_equal. f_equal. ring.
    - symmetry. pose proof (add_opp (Some (x2, - y2)) C2') as H. cbn [ec_opp] in *. rewrite ec_comm; [exact H|exact C1'|exact C2'].
  Qed.
  Lemma cancel_left p q : on p -> on q -> ec_add p (ec_add (ec_opp p) q) = q.
  Proof using FT eq_dec two no_root.
    intros Hp Hq. pose proof (opp_on' p Hp) as Hp'. rewrite (ec_comm (ec_opp p) q Hp' Hq), ec_comm; [|assumption|now apply ec_on]. rewrite <- (opp_opp p) at 2. now apply add_cancel.
  Qed.
  Theorem ec_assoc p q r : on p -> on q -> on r -> ec_add (ec_add p q) r = ec_add p (ec_add q r).
  Proof using FT eq_dec two no_root.
    intros Hp Hq Hr. destruct p as [[x1 y1]|]; [|reflexivity]. destruct q as [[x2 y2]|]; [|reflexivity]. destruct r as [[x3 y3]|]; [|change (ec_add (Some (x2, y2)) None) with (Some (x2, y2)); now destruct (ec_add (Some (x1, y1)) (Some (x2, y2))) as [[? ?]|]].
    set (P := Some (x1, y1)) in *. set (Q := Some (x2, y2)) in *. set (R := Some (x3, y3)) in *.
    destruct (joined_dec x1 y1 x2 y2 Hp Hq) as [J12|(E1 & E2 & E)].
    2: { fold P Q in E. rewrite E. assert (EQ : Q = ec_opp P) by (unfold P, Q; cbn; f_equal; f_equal; [now symmetry|rewrite E2; ring]). rewrite EQ. symmetry. exact (cancel_left P R Hp Hr). }
    destruct (joined_dec x2 y2 x3 y3 Hq Hr) as [J23|(E1 & E2 & E)].
    2: { fold Q R in E. rewrite E. assert (ER : R = ec_opp Q) by (unfold R, Q; cbn; f_equal; f_equal; [now symmetry|rewrite E2; ring]). rewrite ER. exact (add_cancel P Q Hp Hq). }
    destruct (add_joined _ _ _ _ Hp Hq J12) as (l & x4 & y4 & HL & EL & AL & H4). destruct (add_joined _ _ _ _ Hq Hr J23) as (m & x5 & y5 & HM & EM & AM & H5). fold P Q in AL. fold Q R in AM.
    destruct (joined_dec x4 y4 x3 y3 H4 Hr) as [J43|(E1 & E2 & E)].
    2: { rewrite AL. fold R in E. rewrite E. assert (ES : Some (x4, y4) = ec_opp R) by (unfold R; cbn; now rewrite E1, E2). rewrite ES in AL.
         assert (EP : P = ec_opp (ec_add R Q)) by (rewrite opp_add by assumption; rewrite <- AL; symmetry; exact (add_cancel P Q Hp Hq)). rewrite (ec_comm Q R Hq Hr). rewrite EP. assert (HRQ : on (ec_add R Q)) by (now apply ec_on). rewrite (ec_comm _ _ (opp_on' _ HRQ) HRQ). symmetry. now apply add_opp. }
    destruct (joined_dec x1 y1 x5 y5 Hp H5) as [J15|(E1 & E2 & E)].
    2: { rewrite AM. fold P in E. rewrite E. assert (ES : Some (x5, y5) = ec_opp P) by (unfold P; cbn; f_equal; f_equal; [now symmetry|rewrite E2; ring]). rewrite ES in AM.
         assert (ER : R = ec_opp (ec_add P Q)) by (rewrite opp_add by assumption; rewrite <- AM, (ec_comm Q R Hq Hr); symmetry; exact (add_cancel R Q Hr Hq)). rewrite ER. apply add_opp. now apply ec_on. }
    destruct (eq_dec x1 x3) as [E13|N13]; [destruct (eq_dec y1 y3) as [E13'|N13']|].
    { assert (EP : R = P) by (unfold P, R; now rewrite E13, E13'). rewrite EP. rewrite (ec_comm Q P Hq Hp). apply ec_comm; [now apply ec_on|assumption]. }
    all: assert (HN : l <> m -> ec_add (ec_add P Q) R = ec_add P (ec_add Q R)).
    1, 3: intros HLM; rewrite AL, AM; destruct (add_joined _ _ _ _ H4 Hr J43) as (n & x6 & y6 & HN & EN & AN & H6); destruct (add_joined _ _ _ _ Hp H5 J15) as (r & x7 & y7 & HR & ER & AR & H7); fold P in AR; fold R in AN; rewrite AN, AR;
      pose proof (no_root _ _ Hr) as Y3; pose proof (no_root _ _ Hp) as Y1;
      assert (K : (l - m) * (l + n) = x1 - x3) by (apply (slopes l m n x1 y1 x2 y2 x3 y3 x4 y4 HL HM EL HN); destruct J43 as [|]; [now left|right; split; [assumption|now apply double_nonzero]]);
      assert (K' : (m - l) * (m + r) = x3 - x1) by (apply (slopes m l r x3 y3 x2 y2 x1 y1 x5 y5 (line_sym _ _ _ _ _ HM) (line_sym _ _ _ _ _ HL)); [rewrite EM; now apply chord_sym|now apply line_sym|destruct J15 as [N|]; [left; auto|right; split; [now symmetry|now apply double_nonzero]]]);
      assert (HLM' : l - m <> 0) by (intros H; apply HLM; now apply sub_zero);
      assert (HR' : r = l + n - m) by (apply (cancel (l - m) _ _ HLM'); transitivity (- ((m - l) * (m + r)) - (l - m) * m); [ring|]; rewrite K'; transitivity ((x1 - x3) - (l - m) * m); [ring|]; rewrite <- K; ring);
      clear HLM HLM' K' AL AM AN AR; destruct HL as [L1 _], HM as [M1 _]; rewrite (chord_sym n x4 y4 x3 y3 HN) in EN; unfold chord in *; injection EL as X4 _; injection EM as X5 _; injection EN as X6 Y6; injection ER as X7 Y7; rewrite <- X6 in Y6; rewrite <- X7 in Y7;
      assert (D : x3 = x1 - (l - m) * (l + n)) by (rewrite K; ring);
      assert (E67 : x6 = x7) by (rewrite X6, X7, X4, X5, HR', D; ring);
      f_equal; f_equal; [exact E67|]; rewrite Y6, Y7, <- E67, X6, X4, HR'; assert (Y2 : y2 = y1 + l * (x2 - x1)) by (rewrite <- L1; ring); assert (Y3' : y3 = y2 + m * (x3 - x2)) by (rewrite <- M1; ring); rewrite Y3', Y2, D; ring.
    all: destruct (eq_dec l m) as [E|N]; [|exact (HN N)]; exfalso; subst m.
    - apply N13'. destruct HL as [L1 _], HM as [M1 _]. rewrite E13 in L1. apply sub_zero. transitivity (- (y3 - y2) - (y2 - y1)); [ring|]. rewrite L1, M1. ring.
    - destruct (add_joined _ _ _ _ H4 Hr J43) as (n & x6 & y6 & HN' & _). assert (K : (l - l) * (l + n) = x1 - x3) by (apply (slopes l l n x1 y1 x2 y2 x3 y3 x4 y4 HL HM EL HN'); destruct J43 as [|]; [now left|right; split; [assumption|apply double_nonzero; exact (no_root _ _ Hr)]]).
      apply N13. apply sub_zero. rewrite <- K. ring.
  Qed.
End Weierstrass.
