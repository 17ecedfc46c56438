(** In a commutative group without points of order 2 and with fewer than 3 N elements, N times anything is zero if
    some element has the prime order N: were N p not zero, the 3 N sums k g, p + k g, 2 p + k g would all differ. *)
From Coq Require Import Znumtheory.
From Verif.Model Require Import Py.
From Verif.Proofs Require Import PyFacts ScriptFacts Primality.

Section Group.
  Variable A : Type.
  Variable add : A -> A -> A.
  Variable zero : A.
  Variable neg : A -> A.
  Hypothesis comm : forall a b, add a b = add b a.
  Hypothesis assoc : forall a b c, add (add a b) c = add a (add b c).
  Hypothesis zero_l : forall a, add zero a = a.
  Hypothesis neg_r : forall a, add a (neg a) = zero.
  Infix "+'" := add (at level 50, left associativity).

  Definition iterate (n : positive) (a : A) : A := Pos.iter (add a) zero n.
  Definition zmul (n : Z) (a : A) : A := match n with 0 => zero | Zpos m => iterate m a | Zneg m => neg (iterate m a) end.

  Lemma zero_r a : a +' zero = a.
  Proof using comm zero_l. rewrite comm. apply zero_l. Qed.
  Lemma g_cancel a b c : a +' b = a +' c -> b = c.
  Proof using comm assoc zero_l neg_r. intros H. apply (f_equal (fun x => neg a +' x)) in H. rewrite <- !assoc, (comm (neg a)), neg_r, !zero_l in H. exact H. Qed.
  Lemma neg_add a b : neg (a +' b) = neg a +' neg b.
  Proof using comm assoc zero_l neg_r.
    apply (g_cancel (a +' b)). rewrite neg_r, assoc, <- (assoc b), (comm b (neg a)), (assoc (neg a)), neg_r, zero_r, neg_r. reflexivity.
  Qed.
  Lemma neg_zero : neg zero = zero.
  Proof using comm assoc zero_l neg_r. rewrite <- (zero_l (neg zero)). apply neg_r. Qed.
  Lemma zmul_succ n a : zmul (Z.succ n) a = a +' zmul n a.
  Proof using comm assoc zero_l neg_r.
    destruct n as [|n|n].
    - reflexivity.
    - change (Z.succ (Z.pos n)) with (Z.pos (n + 1)). rewrite Pos.add_1_r. cbn [zmul]. unfold iterate. apply Pos.iter_succ.
    - destruct (Pos.eq_dec n 1) as [->|Hn].
      + cbn [Z.succ Z.add zmul]. change (zmul 0 a = a +' neg (a +' zero)). cbn [zmul]. rewrite zero_r. symmetry. apply neg_r.
      + replace n with (Pos.succ (Pos.pred n)) by (apply Pos.succ_pred; exact Hn). replace (Z.succ (Z.neg (Pos.succ (Pos.pred n)))) with (Z.neg (Pos.pred n)) by lia.
        cbn [zmul]. unfold iterate. rewrite Pos.iter_succ, neg_add, <- assoc, neg_r, zero_l. reflexivity.
  Qed.
  Lemma zmul_1 a : zmul 1 a = a.
  Proof using comm zero_l. apply zero_r. Qed.
  Lemma zmul_pred n a : zmul (Z.pred n) a = neg a +' zmul n a.
  Proof using comm assoc zero_l neg_r. apply (g_cancel a). rewrite <- zmul_succ, Z.succ_pred, <- assoc, neg_r, zero_l. reflexivity. Qed.
  Lemma zmul_add m n a : zmul (m + n) a = zmul m a +' zmul n a.
  Proof using comm assoc zero_l neg_r.
    induction m using Z.peano_ind.
    - cbn [zmul]. rewrite zero_l. reflexivity.
    - rewrite Z.add_succ_l, !zmul_succ, IHm, assoc. reflexivity.
    - rewrite Z.add_pred_l, !zmul_pred, IHm, assoc. reflexivity.
  Qed.
  Lemma zmul_neg n a : zmul (- n) a = neg (zmul n a).
  Proof using comm assoc zero_l neg_r. apply (g_cancel (zmul n a)). rewrite neg_r, <- zmul_add, Z.add_opp_diag_r. reflexivity. Qed.
  Lemma zmul_zero n : zmul n zero = zero.
  Proof using comm assoc zero_l neg_r. induction n using Z.peano_ind; [reflexivity|rewrite zmul_succ, IHn; apply zero_l|rewrite zmul_pred, IHn, neg_zero; apply zero_l]. Qed.
  Lemma zmul_mul m n a : zmul (m * n) a = zmul m (zmul n a).
  Proof using comm assoc zero_l neg_r.
    induction m using Z.peano_ind.
    - reflexivity.
    - rewrite Z.mul_succ_l, Z.add_comm, zmul_add, zmul_succ, IHm. reflexivity.
    - rewrite Z.mul_pred_l, zmul_pred. unfold Z.sub. rewrite Z.add_comm, zmul_add, zmul_neg, IHm. reflexivity.
  Qed.

  Variable g : A.
  Variable N M : Z.
  Variable enc : A -> Z.
  Hypothesis N_prime : prime N.
  Hypothesis order : zmul N g = zero.
  Hypothesis g_not : g <> zero.
  Hypothesis eq_dec : forall a b : A, {a = b} + {a <> b}.
  Hypothesis no_two : forall a, a +' a = zero -> a = zero.
  Hypothesis enc_inj : forall a b, enc a = enc b -> a = b.
  Hypothesis enc_range : forall a, 0 <= enc a < M.
  Hypothesis few : M < 3 * N.

  Lemma small_mult k : - N < k < N -> zmul k g = zero -> k = 0.
  Proof using comm assoc zero_l neg_r N_prime order g_not.
    clear eq_dec no_two enc_inj enc_range few enc M. intros Hk HE. destruct (Z.eq_dec k 0) as [|HN]; [assumption|exfalso]. assert (1 < N) by (destruct N_prime; lia).
    assert (HR : rel_prime N k). { apply prime_rel_prime; [exact N_prime|]. intros HD. apply Z.divide_abs_r in HD. apply Z.divide_pos_le in HD; lia. }
    apply rel_prime_bezout in HR. destruct HR as [u v HB]. apply g_not. rewrite <- (zmul_1 g), <- HB, zmul_add, !zmul_mul, order, HE, !zmul_zero. apply zero_l.
  Qed.
  Theorem group_order p : zmul N p = zero.
  Proof using comm assoc zero_l neg_r N_prime order g_not eq_dec no_two enc_inj enc_range few.
    destruct (eq_dec (zmul N p) zero) as [|HN]; [assumption|exfalso]. assert (HN1 : 1 < N) by (destruct N_prime; lia).
    set (f := fun i => zmul (i / N) p +' zmul (i mod N) g).
    assert (HF : forall i j, 0 <= i < 3 * N -> 0 <= j < 3 * N -> f i = f j -> i = j).
    { intros i j Hi Hj HE. unfold f in HE.
      assert (HQ : zmul (i / N - j / N) p = zmul (j mod N - i mod N) g).
      { apply (g_cancel (zmul (j / N) p)). rewrite <- zmul_add. replace (j / N + (i / N - j / N)) with (i / N) by lia.
        apply (g_cancel (zmul (i mod N) g)). rewrite comm, HE, (comm (zmul (i mod N) g)), assoc, <- zmul_add. f_equal. f_equal. lia. }
      pose proof (Z.mod_pos_bound i N ltac:(lia)). pose proof (Z.mod_pos_bound j N ltac:(lia)). pose proof (Z.div_mod i N ltac:(lia)) as Di. pose proof (Z.div_mod j N ltac:(lia)) as Dj.
      assert (0 <= i / N < 3) by (split; [apply Z.div_pos; lia|apply Z.div_lt_upper_bound; lia]). assert (0 <= j / N < 3) by (split; [apply Z.div_pos; lia|apply Z.div_lt_upper_bound; lia]).
      assert (HT : zmul (i / N - j / N) (zmul N p) = zero).
      { rewrite <- zmul_mul, Z.mul_comm, zmul_mul, HQ, <- zmul_mul, Z.mul_comm, zmul_mul, order, zmul_zero. reflexivity. }
      assert (HT1 : forall k, zmul k (zmul N p) = zero -> zmul (- k) (zmul N p) = zero) by (intros k Hk; rewrite zmul_neg, Hk; apply neg_zero).
      assert (HT2 : zmul 1 (zmul N p) <> zero) by (rewrite zmul_1; exact HN).
      assert (HT3 : zmul 2 (zmul N p) <> zero). { change 2 with (1 + 1). rewrite zmul_add, zmul_1. intros HX. apply HN, no_two, HX. }
      remember (i / N - j / N) as d eqn:Hd. assert (HC : d = 0 \/ d = 1 \/ d = 2 \/ - d = 1 \/ - d = 2) by lia.
      destruct HC as [HC|[HC|[HC|[HC|HC]]]].
      - rewrite HC in HQ. symmetry in HQ. apply small_mult in HQ; [|lia]. assert (i / N = j / N) as HX by lia. rewrite HX in Di. lia.
      - rewrite HC in HT. contradiction.
      - rewrite HC in HT. contradiction.
      - apply HT1 in HT. rewrite HC in HT. contradiction.
      - apply HT1 in HT. rewrite HC in HT. contradiction. }
    assert (HD : NoDup (map (fun i => enc (f i)) (zrange 0 (3 * N)))).
    { pose proof (zrange_nodup 0 (3 * N)) as HZ. assert (HR : forall i, In i (zrange 0 (3 * N)) -> 0 <= i < 3 * N) by (intros; now apply zrange_in).
      revert HZ HR. generalize (zrange 0 (3 * N)). intros l. induction 1 as [|x l Hx HL IH]; intros HR; [constructor|]. cbn [map]. constructor.
      - rewrite in_map_iff. intros (y & HE & Hy). apply enc_inj in HE. apply HF in HE; [|apply HR; now right|apply HR; now left]. now subst.
      - apply IH. intros i Hi. apply HR. now right. }
    apply (NoDup_incl_length (l' := zrange 0 M)) in HD.
    - rewrite map_length, !zrange_len in HD. pose proof (enc_range zero). lia.
    - intros y Hy. apply in_map_iff in Hy as (i & <- & _). apply in_zrange. apply enc_range.
  Qed.

  (** Moreover every element is a multiple of g: with another, there would be N * N sums k p + m g. *)
  Hypothesis fewer : M < N * N.
  Theorem group_cyclic p : exists k, 0 <= k < N /\ zmul k g = p.
  Proof using comm assoc zero_l neg_r N_prime order g_not eq_dec no_two enc_inj enc_range few fewer.
    assert (HN1 : 1 < N) by (destruct N_prime; lia).
    destruct (in_dec eq_dec p (map (fun k => zmul k g) (zrange 0 N))) as [HI|HI].
    { apply in_map_iff in HI as (k & HE & Hk). exists k. split; [now apply zrange_in|exact HE]. }
    exfalso. assert (HM : forall k, zmul k g <> p).
    { intros k HE. apply HI. apply in_map_iff. exists (k mod N). split; [|apply in_zrange; apply Z.mod_pos_bound; lia]. rewrite <- HE. rewrite (Z.div_mod k N) at 2 by lia. rewrite zmul_add, Z.mul_comm, zmul_mul, order, zmul_zero, zero_l. reflexivity. }
    set (f := fun i => zmul (i / N) p +' zmul (i mod N) g).
    assert (HF : forall i j, 0 <= i < N * N -> 0 <= j < N * N -> f i = f j -> i = j).
    { intros i j Hi Hj HE. unfold f in HE.
      assert (HQ : zmul (i / N - j / N) p = zmul (j mod N - i mod N) g).
      { apply (g_cancel (zmul (j / N) p)). rewrite <- zmul_add. replace (j / N + (i / N - j / N)) with (i / N) by lia.
        apply (g_cancel (zmul (i mod N) g)). rewrite comm, HE, (comm (zmul (i mod N) g)), assoc, <- zmul_add. f_equal. f_equal. lia. }
      pose proof (Z.mod_pos_bound i N ltac:(lia)). pose proof (Z.mod_pos_bound j N ltac:(lia)). pose proof (Z.div_mod i N ltac:(lia)) as Di. pose proof (Z.div_mod j N ltac:(lia)) as Dj.
      assert (0 <= i / N < N) by (split; [apply Z.div_pos; lia|apply Z.div_lt_upper_bound; lia]). assert (0 <= j / N < N) by (split; [apply Z.div_pos; lia|apply Z.div_lt_upper_bound; lia]).
      remember (i / N - j / N) as d eqn:Hd. destruct (Z.eq_dec d 0) as [HC|HC].
      - rewrite HC in HQ. symmetry in HQ. apply small_mult in HQ; [|lia]. assert (i / N = j / N) as HX by lia. rewrite HX in Di. lia.
      - exfalso. assert (HR : rel_prime N d). { apply prime_rel_prime; [exact N_prime|]. intros HD. apply Z.divide_abs_r in HD. apply Z.divide_pos_le in HD; lia. }
        apply rel_prime_bezout in HR. destruct HR as [u v HB]. apply (HM (v * (j mod N - i mod N))). rewrite zmul_mul, <- HQ, <- zmul_mul.
        rewrite <- (zmul_1 p) at 2. rewrite <- HB, zmul_add, (zmul_mul u N), group_order, zmul_zero, zero_l. reflexivity. }
    assert (HD : NoDup (map (fun i => enc (f i)) (zrange 0 (N * N)))).
    { pose proof (zrange_nodup 0 (N * N)) as HZ. assert (HR : forall i, In i (zrange 0 (N * N)) -> 0 <= i < N * N) by (intros; now apply zrange_in).
      revert HZ HR. generalize (zrange 0 (N * N)). intros l. induction 1 as [|x l Hx HL IH]; intros HR; [constructor|]. cbn [map]. constructor.
      - rewrite in_map_iff. intros (y & HE & Hy). apply enc_inj in HE. apply HF in HE; [|apply HR; now right|apply HR; now left]. now subst.
      - apply IH. intros i Hi. apply HR. now right. }
    apply (NoDup_incl_length (l' := zrange 0 M)) in HD.
    - rewrite map_length, !zrange_len in HD. pose proof (enc_range zero). lia.
    - intros y Hy. apply in_map_iff in Hy as (i & <- & _). apply in_zrange. apply enc_range.
  Qed.
End Group.
