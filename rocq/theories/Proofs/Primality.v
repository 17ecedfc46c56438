(** Fermat's little theorem, Pocklington's criterion, and the primality of the order of secp256k1. *)
From Coq Require Import Znumtheory Zpow_facts Permutation.
From Verif.Model Require Import Py Curve.
From Verif.Proofs Require Import PyFacts ScriptFacts.

Definition prod (l : list Z) : Z := fold_right Z.mul 1 l.
Lemma prod_perm l m : Permutation l m -> prod l = prod m.
Proof. induction 1 as [|x l m _ IH|x y l|l m k _ IH1 _ IH2]; cbn [prod fold_right]; [reflexivity|change (fold_right Z.mul 1) with prod; now rewrite IH|ring|congruence]. Qed.
Lemma zrange_in a b x : In x (zrange a b) -> a <= x < b.
Proof.
  unfold zrange. remember (Z.to_nat (b - a)) as n eqn:Hn. revert a Hn. induction n as [|n IH]; intros a Hn; [contradiction|]. cbn [zrange_nat]. intros [<-|Hx]; [lia|].
  apply IH in Hx; lia.
Qed.
Lemma zrange_nodup a b : NoDup (zrange a b).
Proof.
  unfold zrange. generalize (Z.to_nat (b - a)). intros n. revert a. induction n as [|n IH]; intros a; [constructor|]. cbn [zrange_nat]. constructor; [|apply IH].
  intros HI. assert (HX : forall m c x, In x (zrange_nat c m) -> c <= x). { induction m as [|m IHm]; intros c x; [contradiction|]. intros [<-|H]; [lia|]. apply IHm in H. lia. }
  apply HX in HI. lia.
Qed.
Lemma zrange_len a b : length (zrange a b) = Z.to_nat (b - a).
Proof. unfold zrange. generalize (Z.to_nat (b - a)). intros n. revert a. induction n; intros; cbn; congruence. Qed.

Section Fermat.
  Variable p a : Z.
  Hypothesis Hp : prime p.
  Hypothesis Ha : ~ (p | a).

  Lemma p_gt : 1 < p.
  Proof using Hp a p. destruct Hp. lia. Qed.
  Lemma prod_map l : (prod (map (fun x => (a * x) mod p) l)) mod p = (a ^ Z.of_nat (length l) * prod l) mod p.
  Proof using Hp a p.
    pose proof p_gt. induction l as [|x l IH]; [reflexivity|]. cbn [map prod fold_right length]. change (fold_right Z.mul 1) with prod.
    rewrite Z.mul_mod, IH, Z.mod_mod, <- Z.mul_mod by lia. f_equal. rewrite Nat2Z.inj_succ, Z.pow_succ_r by lia. lia.
  Qed.
  Lemma prod_coprime l : (forall x, In x l -> 1 <= x < p) -> ~ (p | prod l).
  Proof using Hp a p.
    pose proof p_gt. induction l as [|x l IH]; cbn [prod fold_right]; intros HL HD.
    - apply Z.divide_1_r in HD. lia.
    - change (fold_right Z.mul 1) with prod in HD. apply prime_mult in HD; [|exact Hp]. destruct HD as [HD|HD].
      + specialize (HL x (or_introl eq_refl)). apply Z.divide_pos_le in HD; lia.
      + apply IH; [|exact HD]. intros y Hy. apply HL. now right.
  Qed.
  Theorem fermat : a ^ (p - 1) mod p = 1.
  Proof using Hp Ha.
    pose proof p_gt as Hp1. set (l := zrange 1 p). assert (HR : forall x, In x l -> 1 <= x < p) by (intros x Hx; now apply zrange_in).
    assert (HP : Permutation (map (fun x => (a * x) mod p) l) l).
    { apply NoDup_Permutation_bis.
      - assert (HJ : forall x y, In x l -> In y l -> (a * x) mod p = (a * y) mod p -> x = y).
        { intros x y Hx Hy HE. apply HR in Hx, Hy. assert (HD : (p | a * (x - y))). { apply Z.mod_divide; [lia|]. rewrite Z.mul_sub_distr_l, Zminus_mod, HE, Z.sub_diag. apply Z.mod_0_l. lia. }
          apply prime_mult in HD; [|exact Hp]. destruct HD as [HD|HD]; [contradiction|]. destruct HD as (k & Hk). assert (k = 0) by nia. lia. }
        assert (HN : NoDup l) by apply zrange_nodup. clear HR. revert HJ. induction HN as [|x m Hx HN IH]; intros HJ; [constructor|]. cbn [map]. constructor.
        + rewrite in_map_iff. intros (y & HE & Hy). apply HJ in HE; [|now right|now left]. now subst.
        + apply IH. intros u v Hu Hv. apply HJ; now right.
      - rewrite map_length. lia.
      - intros y Hy. apply in_map_iff in Hy as (x & <- & Hx). apply HR in Hx. apply in_zrange. pose proof (Z.mod_pos_bound (a * x) p ltac:(lia)).
        assert ((a * x) mod p <> 0); [|lia]. intros H0. apply Z.mod_divide in H0; [|lia]. apply prime_mult in H0; [|exact Hp]. destruct H0 as [H0|H0]; [contradiction|].
        apply Z.divide_pos_le in H0; lia. }
    pose proof (prod_map l) as HM. rewrite (prod_perm _ _ HP) in HM. unfold l in HM at 2. rewrite zrange_len, Z2Nat.id in HM by lia.
    assert (HD : (p | (a ^ (p - 1) - 1) * prod l)). { apply Z.mod_divide; [lia|]. rewrite Z.mul_sub_distr_r, Z.mul_1_l, Zminus_mod, <- HM, Z.sub_diag. apply Z.mod_0_l. lia. }
    apply prime_mult in HD; [|exact Hp]. destruct HD as [HD|HD]; [|exfalso; revert HD; now apply prod_coprime].
    destruct HD as (k & Hk). replace (a ^ (p - 1)) with (1 + k * p) by lia. rewrite Z.mod_add by lia. apply Z.mod_small. lia.
  Qed.
End Fermat.

Lemma pow_1 b p n : 1 < p -> 0 <= n -> b mod p = 1 -> (b ^ n) mod p = 1.
Proof. intros Hp Hn Hb. rewrite Zpower_mod, Hb, Z.pow_1_l by lia. apply Z.mod_small. lia. Qed.

Lemma bezout_pos q p u v : 1 < q -> 1 < p -> u * q + v * (p - 1) = 1 -> exists x y, 0 <= x /\ 0 <= y /\ x * q = 1 + y * (p - 1).
Proof.
  intros Hq Hp HB. destruct (Z.eq_dec p 2) as [->|]; [exists 1, (q - 1); lia|].
  exists (u mod (p - 1)), (u mod (p - 1) * q / (p - 1)). pose proof (Z.mod_pos_bound u (p - 1) ltac:(lia)). split; [lia|]. split; [apply Z.div_pos; nia|].
  assert (HM1 : (u mod (p - 1) * q) mod (p - 1) = 1). { rewrite Zmult_mod_idemp_l. replace (u * q) with (1 + (- v) * (p - 1)) by lia. rewrite Z.mod_add by lia. apply Z.mod_small. lia. }
  rewrite (Z.div_mod (u mod (p - 1) * q) (p - 1)) at 1 by lia. rewrite HM1. ring.
Qed.
Lemma pow_bezout b p q x y : 1 < p -> 1 < q -> 0 <= x -> 0 <= y -> x * q = 1 + y * (p - 1) -> b ^ q mod p = 1 -> b ^ (p - 1) mod p = 1 -> b mod p = 1.
Proof.
  intros Hp Hq Hx Hy HE Hbq Hbp.
  assert (H1 : (b ^ q) ^ x mod p = 1) by (apply (pow_1 (b ^ q) p x); assumption).
  assert (H2 : (b ^ (p - 1)) ^ y mod p = 1) by (apply (pow_1 (b ^ (p - 1)) p y); assumption).
  clear Hbq Hbp. rewrite <- Z.pow_mul_r in H1, H2 by lia. rewrite (Z.mul_comm q x), HE in H1. rewrite (Z.mul_comm (p - 1) y) in H2.
  assert (Hyp : 0 <= y * (p - 1)) by nia. rewrite (Z.pow_add_r b 1 (y * (p - 1))) in H1 by (exact Hyp || discriminate). rewrite Z.pow_1_r in H1.
  rewrite Z.mul_mod, H2, Z.mul_1_r, Z.mod_mod in H1 by (clear - Hp; lia). exact H1.
Qed.
(** q divides p - 1 for every prime divisor p of n *)
Lemma pock_step n a q p : 1 < n -> prime q -> (q | n - 1) -> a ^ (n - 1) mod n = 1 -> Z.gcd (a ^ ((n - 1) / q) - 1) n = 1 -> prime p -> (p | n) -> (q | p - 1).
Proof.
  intros Hn Hq Hqn Hpow Hgcd Hp Hpn. assert (Hp1 : 1 < p) by (destruct Hp; lia). assert (Hq1 : 1 < q) by (destruct Hq; lia).
  destruct Hqn as (m & Hm). assert (Hdiv : (n - 1) / q = m) by (rewrite Hm; apply Z.div_mul; lia). rewrite Hdiv in Hgcd. assert (Hm0 : 0 < m) by nia.
  assert (HP1 : a ^ (n - 1) mod p = 1).
  { destruct Hpn as (k & Hk). pose proof (Z.div_mod (a ^ (n - 1)) n ltac:(lia)) as HX. rewrite Hpow in HX. set (X := a ^ (n - 1) / n) in HX.
    replace (a ^ (n - 1)) with (1 + (k * X) * p) by (rewrite HX; replace (n * X) with (k * p * X) by (now rewrite <- Hk); ring).
    rewrite Z.mod_add by lia. apply Z.mod_small. lia. }
  assert (Hpa : ~ (p | a)).
  { intros HD. assert (HD' : (p | a ^ (n - 1))). { replace (n - 1) with (Z.succ (n - 2)) by lia. rewrite Z.pow_succ_r by lia. now apply Z.divide_mul_l. }
    apply Z.mod_divide in HD'; lia. }
  set (b := a ^ m). assert (Hbq : b ^ q mod p = 1). { unfold b. rewrite <- Z.pow_mul_r, <- Hm by lia. exact HP1. }
  assert (Hbp : b ^ (p - 1) mod p = 1). { unfold b. rewrite <- Z.pow_mul_r, Z.mul_comm, Z.pow_mul_r by lia. apply (pow_1 (a ^ (p - 1)) p m); [exact Hp1|lia|]. exact (fermat p a Hp Hpa). }
  destruct (Zdivide_dec q (p - 1)) as [|HN]; [assumption|exfalso].
  assert (HR : rel_prime q (p - 1)) by (now apply prime_rel_prime). apply rel_prime_bezout in HR. destruct HR as [u v HB].
  destruct (bezout_pos q p u v Hq1 Hp1 HB) as (x & y & Hx & Hy & HE).
  pose proof (pow_bezout b p q x y Hp1 Hq1 Hx Hy HE Hbq Hbp) as Hb1.
  assert (HD : (p | Z.gcd (a ^ m - 1) n)). { apply Z.gcd_greatest; [|exact Hpn]. apply Z.mod_divide; [lia|]. fold b. rewrite Zminus_mod, Hb1, (Z.mod_small 1) by lia. reflexivity. }
  rewrite Hgcd in HD. apply Z.divide_1_r in HD. lia.
Qed.

Lemma prime_divisor n : 1 < n -> exists p, prime p /\ (p | n).
Proof.
  intros Hn. assert (H0 : 0 <= n) by lia. revert n H0 Hn. apply (Z_lt_induction (fun n => 1 < n -> exists p, prime p /\ (p | n))). intros n IH Hn.
  destruct (prime_dec n) as [HP|HP]; [exists n; split; [exact HP|apply Z.divide_refl]|]. apply not_prime_divide in HP; [|lia]. destruct HP as (d & Hd & HD).
  destruct (IH d ltac:(lia) ltac:(lia)) as (p & Hp & Hpd). exists p. split; [exact Hp|]. now apply Z.divide_trans with d.
Qed.
Lemma small_divisor n : 1 < n -> ~ prime n -> exists p, prime p /\ (p | n) /\ p * p <= n.
Proof.
  intros Hn HN. apply not_prime_divide in HN; [|lia]. destruct HN as (d & Hd & (e & He)).
  assert (He1 : 1 < e) by nia. destruct (Z.le_gt_cases d e) as [Hde|Hde].
  - destruct (prime_divisor d ltac:(lia)) as (p & Hp & Hpd). exists p. split; [exact Hp|]. assert (1 < p) by (destruct Hp; lia). pose proof (Z.divide_pos_le p d ltac:(lia) Hpd).
    split; [|nia]. apply Z.divide_trans with d; [exact Hpd|]. exists e. lia.
  - destruct (prime_divisor e ltac:(lia)) as (p & Hp & Hpd). exists p. split; [exact Hp|]. assert (1 < p) by (destruct Hp; lia). pose proof (Z.divide_pos_le p e ltac:(lia) Hpd).
    split; [|nia]. apply Z.divide_trans with e; [exact Hpd|]. exists d. lia.
Qed.

Lemma trial n : 1 < n -> forallb (fun d => negb (n mod d =? 0)) (zrange 2 (Z.sqrt n + 1)) = true -> prime n.
Proof.
  intros Hn HF. destruct (prime_dec n) as [|HN]; [assumption|exfalso]. destruct (small_divisor n Hn HN) as (p & Hp & HD & HL). assert (1 < p) by (destruct Hp; lia).
  pose proof (zrange_all _ _ _ HF p) as HX. cbv beta in HX. assert (p <= Z.sqrt n). { apply Z.sqrt_le_square; lia. } rewrite (proj2 (Z.mod_divide n p ltac:(lia)) HD) in HX. discriminate HX. lia.
Qed.

(** n is prime if n - 1 has prime factors q and r whose product is at least the root of n and a has large
    order. *)
Definition pock_check (n a : Z) (qs : list Z) : bool :=
  (Zpow_mod a (n - 1) n =? 1) && forallb (fun q => ((n - 1) mod q =? 0) && (Z.gcd (Zpow_mod a ((n - 1) / q) n - 1) n =? 1)) qs
  && (n <? (prod qs + 1) * (prod qs + 1)).
Lemma coprime_prod qs m : NoDup qs -> (forall q, In q qs -> prime q) -> (forall q, In q qs -> (q | m)) -> (prod qs | m).
Proof.
  induction qs as [|q qs IH]; cbn [prod fold_right]; intros HN HP HD; [apply Z.divide_1_l|]. change (fold_right Z.mul 1) with prod. inversion HN as [|? ? Hq HN']; subst.
  assert (HR : rel_prime q (prod qs)).
  { apply prime_rel_prime; [apply HP; now left|]. clear IH HD. assert (Hq0 : prime q) by (apply HP; now left). intros HX. revert Hq HP HN HN'. induction qs as [|r qs IH]; intros Hq HP HN HN'.
    - cbn in HX. apply Z.divide_1_r in HX. destruct Hq0; lia.
    - cbn [prod fold_right] in HX. change (fold_right Z.mul 1) with prod in HX. apply prime_mult in HX; [|exact Hq0]. destruct HX as [HX|HX].
      + apply prime_div_prime in HX; [|exact Hq0|apply HP; right; now left]. apply Hq. left. now symmetry.
      + apply IH; [exact HX| | | |].
        * intros H. apply Hq. now right.
        * intros x [<-|Hx]; [exact Hq0|]. apply HP. right. now right.
        * inversion HN' as [|? ? Hr HN'']; subst. constructor; [|exact HN'']. intros Hz. apply Hq. now right.
        * now inversion HN'. }
  assert (Hqm : (q | m)) by (apply HD; now left). destruct Hqm as (k & ->).
  assert (Hk : (prod qs | q * k)). { rewrite Z.mul_comm. apply IH; [exact HN'| |]; intros x Hx; [apply HP|apply HD]; now right. }
  apply Gauss in Hk; [|now apply rel_prime_sym]. destruct Hk as (j & ->). exists j. ring.
Qed.
Theorem pocklington n a qs : 1 < n -> NoDup qs -> (forall q, In q qs -> prime q) -> pock_check n a qs = true -> prime n.
Proof.
  intros Hn HND HP HC. unfold pock_check in HC. apply andb_true_iff in HC as [HC HB]. apply andb_true_iff in HC as [HA HF]. apply Z.ltb_lt in HB. apply Z.eqb_eq in HA.
  rewrite Zpow_mod_correct in HA by lia. rewrite forallb_forall in HF.
  destruct (prime_dec n) as [|HN]; [assumption|exfalso]. destruct (small_divisor n Hn HN) as (p & Hp & HD & HL). assert (Hp1 : 1 < p) by (destruct Hp; lia).
  assert (HQ : (prod qs | p - 1)).
  { apply coprime_prod; [exact HND|exact HP|]. intros q Hq. specialize (HF q Hq). specialize (HP q Hq). apply andb_true_iff in HF as [H1 H2]. apply Z.eqb_eq in H1, H2. assert (1 < q) by (destruct HP; lia).
    apply Z.mod_divide in H1; [|lia]. apply (pock_step n a q p); try assumption. rewrite Zpow_mod_correct in H2 by lia.
    etransitivity; [|exact H2]. assert (HG : forall z, Z.gcd z n = Z.gcd (z mod n) n) by (intros z; rewrite Z.gcd_mod by lia; apply Z.gcd_comm).
    rewrite (HG (a ^ _ - 1)), (HG (_ mod n - 1)). now rewrite Zminus_mod_idemp_l. }
  apply Z.divide_pos_le in HQ; [|lia]. assert (0 <= prod qs).
  { clear - HP. induction qs as [|q qs IH]; cbn [prod fold_right]; [lia|]. change (fold_right Z.mul 1) with prod. assert (0 <= prod qs) by (apply IH; intros; apply HP; now right).
    assert (1 < q) by (destruct (HP q (or_introl eq_refl)); lia). nia. }
  nia.
Qed.

Ltac small_prime := apply trial; [lia|vm_compute; reflexivity].
Ltac nodup := repeat (constructor; [cbn; lia|]); constructor.
Lemma prime_a : prime 120233. Proof. small_prime. Qed.
Lemma prime_b : prime 44706919. Proof. small_prime. Qed.
Lemma prime_c : prime 545358713. Proof. small_prime. Qed.
Lemma prime_d0 : prime 1627771. Proof. small_prime. Qed.
Lemma prime_d : prime 297159362677.
Proof. apply (pocklington _ 2 [1627771]); [lia|nodup| |vm_compute; reflexivity]. intros q [<-|[]]. apply prime_d0. Qed.
Lemma prime_e : prime 29047611873442575647497758179.
Proof. apply (pocklington _ 2 [545358713; 297159362677]); [lia|nodup| |vm_compute; reflexivity]. intros q [<-|[<-|[]]]; [apply prime_c|apply prime_d]. Qed.
Lemma prime_f : prime 341948486974166000522343609283189.
Proof. apply (pocklington _ 2 [29047611873442575647497758179]); [lia|nodup| |vm_compute; reflexivity]. intros q [<-|[]]. apply prime_e. Qed.
Lemma prime_g : prime 174723607534414371449.
Proof. apply (pocklington _ 2 [44706919; 120233]); [lia|nodup| |vm_compute; reflexivity]. intros q [<-|[<-|[]]]; [apply prime_b|apply prime_a]. Qed.
Theorem order_prime : prime CURVE_ORDER.
Proof.
  apply (pocklington _ 2 [174723607534414371449; 341948486974166000522343609283189]); [reflexivity|nodup| |vm_compute; reflexivity].
  intros q [<-|[<-|[]]]; [apply prime_g|apply prime_f].
Qed.
