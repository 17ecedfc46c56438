(** Inverses modulo an odd prime. *)
From Coq Require Import Znumtheory.
From Verif.Model Require Import Py ModInverse.
From Verif.Proofs Require Import PyFacts.

Definition coprime (u v : Z) : Prop := forall d, (d | u) -> (d | v) -> (d | 1).
Lemma div2_twice u : Z.even u = true -> u = 2 * Z.div2 u.
Proof. intros HU. rewrite Z.div2_div. rewrite Zeven_mod in HU. apply Zeq_bool_eq in HU. lia. Qed.
Lemma even_sub u v : Z.even u = false -> Z.even v = false -> Z.even (u - v) = true.
Proof. intros HU HV. now rewrite Z.even_sub, HU, HV. Qed.
Section Inverse.
  Variable m : Z.
  Hypothesis odd : m mod 2 = 1.
  Hypothesis m_pos : 0 < m.
Lemma half_ok x a u : 0 <= x < m -> Z.even u = true -> (m | x * a - u) -> 0 <= mod_half m x < m /\ (m | mod_half m x * a - Z.div2 u).
Proof using odd m_pos.
  intros Hx HU HD. unfold mod_half.
  assert (HP : forall y, (m | 2 * y) -> (m | y)).
  { intros y [k HY]. assert (HK : exists j, k = 2 * j). { exists (k / 2). assert (k mod 2 = 0); [|lia].
      assert (HM : (k * m) mod 2 = 0) by (rewrite <- HY, Z.mul_comm; apply Z.mod_mul; lia). rewrite Zmult_mod, odd, Z.mul_1_r, Z.mod_mod in HM by lia. exact HM. }
    destruct HK as (j & ->). exists j. lia. }
  rewrite Zeven_mod in HU. rewrite Zeven_mod. apply Zeq_bool_eq in HU. rewrite !Z.div2_div. destruct (Zeq_bool (x mod 2) 0) eqn:E.
  - apply Zeq_bool_eq in E. split; [lia|]. apply HP. replace (2 * (x / 2 * a - u / 2)) with (x * a - u); [exact HD|]. rewrite (Z_div_mod_eq_full x 2) at 1. rewrite (Z_div_mod_eq_full u 2) at 1. rewrite E, HU. ring.
  - apply Zeq_bool_neq in E. assert (E2 : (x + m) mod 2 = 0) by lia. split; [lia|]. apply HP. replace (2 * ((x + m) / 2 * a - u / 2)) with (x * a - u + m * a).
    + apply Z.divide_add_r; [exact HD|]. apply Z.divide_factor_l.
    + replace (x * a - u + m * a) with ((x + m) * a - u) by ring. rewrite (Z_div_mod_eq_full (x + m) 2) at 1. rewrite (Z_div_mod_eq_full u 2) at 1. rewrite E2, HU. ring.
Qed.
Lemma sub_ok x y a u v : 0 <= x < m -> 0 <= y < m -> (m | x * a - u) -> (m | y * a - v) -> 0 <= mod_sub m x y < m /\ (m | mod_sub m x y * a - (u - v)).
Proof using odd m_pos.
  intros Hx Hy HX HY. assert (HD : (m | (x - y) * a - (u - v))). { replace ((x - y) * a - (u - v)) with ((x * a - u) - (y * a - v)) by ring. now apply Z.divide_sub_r. }
  unfold mod_sub. destruct (Z.leb_spec y x); (split; [lia|]); [exact HD|]. replace ((x - y + m) * a - (u - v)) with ((x - y) * a - (u - v) + m * a) by ring. apply Z.divide_add_r; [exact HD|]. apply Z.divide_factor_l.
Qed.
Lemma inverse_loop_ok a fuel : forall u v x y, 0 < u -> 0 < v -> u * v < 2 ^ Z.of_nat fuel -> coprime u v -> 0 <= x < m -> 0 <= y < m -> (m | x * a - u) -> (m | y * a - v) ->
  0 <= inverse_loop m fuel u v x y < m /\ (m | inverse_loop m fuel u v x y * a - 1).
Proof using odd m_pos.
  induction fuel as [|f IH]; intros u v x y Hu Hv HF HC Hx Hy HX HY; [change (2 ^ Z.of_nat 0) with 1 in HF; nia|].
  rewrite Nat2Z.inj_succ, Z.pow_succ_r in HF by lia. cbn [inverse_loop].
  destruct (Z.eqb_spec u 1) as [->|U1]; [auto|]. destruct (Z.eqb_spec v 1) as [->|V1]; [auto|].
  destruct (Z.even u) eqn:EU.
  { pose proof (div2_twice u EU) as E. destruct (half_ok x a u Hx EU HX) as [A B]. apply IH; try assumption; try nia. intros d D1 D2. apply HC; [|exact D2]. rewrite E. now apply Z.divide_mul_r. }
  destruct (Z.even v) eqn:EV.
  { pose proof (div2_twice v EV) as E. destruct (half_ok y a v Hy EV HY) as [A B]. apply IH; try assumption; try nia. intros d D1 D2. apply HC; [exact D1|]. rewrite E. now apply Z.divide_mul_r. }
  destruct (Z.ltb_spec v u).
  - pose proof (even_sub u v EU EV) as ED. pose proof (div2_twice _ ED) as E. destruct (sub_ok x y a u v Hx Hy HX HY) as [A B]. destruct (half_ok _ a _ A ED B) as [A' B']. apply IH; try assumption; try nia.
    intros d D1 D2. apply HC; [|exact D2]. replace u with (2 * Z.div2 (u - v) + v) by lia. apply Z.divide_add_r; [now apply Z.divide_mul_r|exact D2].
  - assert (HN : u <> v). { intros ->. pose proof (Z.divide_pos_le v 1 ltac:(lia) (HC v (Z.divide_refl v) (Z.divide_refl v))). lia. }
    pose proof (even_sub v u EV EU) as ED. pose proof (div2_twice _ ED) as E. destruct (sub_ok y x a v u Hy Hx HY HX) as [A B]. destruct (half_ok _ a _ A ED B) as [A' B']. apply IH; try assumption; try nia.
    intros d D1 D2. apply HC; [exact D1|]. replace v with (2 * Z.div2 (v - u) + u) by lia. apply Z.divide_add_r; [now apply Z.divide_mul_r|exact D1].
Qed.
Hypothesis m_prime : prime m.
Lemma mod_inverse_ok a : m < 2 ^ 256 -> 0 < a < m -> (a * mod_inverse m a) mod m = 1 /\ 0 <= mod_inverse m a < m.
Proof using odd m_pos m_prime.
  intros HB Ha. assert (1 < m) by (destruct m_prime; lia). unfold mod_inverse. destruct (inverse_loop_ok a 512 a m 1 0) as [HR HD]; try lia.
  - change (Z.of_nat 512) with (256 + 256). rewrite Z.pow_add_r by lia. nia.
  - intros d D1 D2. destruct (prime_divisors _ m_prime d D2) as [->|[->|[->| ->]]]; [exists (-1); lia|apply Z.divide_refl| |].
    + apply Z.divide_pos_le in D1; lia.
    + apply Z.divide_opp_l, Z.divide_pos_le in D1; lia.
  - replace (1 * a - a) with 0 by lia. apply Z.divide_0_r.
  - replace (0 * a - m) with (- m) by lia. apply Z.divide_opp_r, Z.divide_refl.
  - split; [|exact HR]. destruct HD as [k HK]. replace (a * inverse_loop m 512 a m 1 0) with (1 + k * m) by lia. rewrite Z.mod_add by lia. apply Z.mod_small. lia.
Qed.
End Inverse.
