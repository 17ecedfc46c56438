(** Any four changed symbols change the checksum: the code has distance at least 5, for up to 1025 symbols.

    The generator polynomial of [polymod_step] over GF(32) has the roots b^r for r = -32, -30, -1, 1, 30 and 32
    (and two more), where b has order 1025 in GF(2^20).  Multiplication by b is the operator [T] on 20-bit numbers;
    the maps [phi] send a checksum state, a polynomial over GF(32), to its values at these roots.  Since
    -32 + {0, 31, 62} + {0, 2} are these six exponents, four errors can be separated: this is the
    Hartmann-Tzeng argument. *)
From Verif.Model Require Import Py Text Cashaddr.
From Verif.Spec Require Import CashaddrSpec.
From Verif.Proofs Require Import PyFacts SighashFacts ScriptFacts ScriptTheorems Digits MiscFacts ConvertBits CashaddrFacts CashaddrDecode CashaddrErrors.

(** Multiplication by b: shift, and reduce by the minimal polynomial of b over GF(2). *)
Definition T (v : Z) : Z := Z.lxor (Z.shiftl v 1) (if Z.testbit v 19 then 0x126ec9 else 0).
(** A linear map given by the images of the powers of two. *)
Fixpoint lin (tab : list Z) (i v : Z) : Z :=
  match tab with [] => 0 | c :: r => Z.lxor (if Z.testbit v i then c else 0) (lin r (i + 1) v) end.
Definition tab_m32 : list Z :=
  [1; 596051; 167746; 814323; 839828; 264072; 970288; 536757; 955458; 816546;
   829474; 224258; 739767; 805063; 30501; 945252; 368599; 51565; 558016; 861547;
   877244; 396680; 541296; 341366; 617118; 852365; 450027; 474920; 475979; 416125;
   705710; 62969; 636943; 779121; 146118; 909105; 500278; 579461; 902492; 614781].
Definition tab_m30 : list Z :=
  [1; 596051; 167746; 814323; 839828; 159977; 887707; 270150; 844371; 484819;
   139653; 29563; 209066; 798677; 488016; 932942; 565876; 321563; 20374; 439010;
   444773; 77324; 536061; 602193; 405357; 435934; 711698; 941981; 258657; 952543;
   998490; 603194; 740903; 945043; 28017; 724893; 438441; 539477; 1023961; 671801].
Definition tab_m1 : list Z :=
  [1; 596051; 167746; 814323; 839828; 604004; 899917; 83873; 983325; 419914;
   302002; 1043138; 627892; 964586; 209957; 151001; 521569; 313946; 482293; 568694;
   528776; 708052; 156973; 694942; 284347; 264388; 354026; 525810; 347471; 728121;
   132194; 177013; 262905; 758211; 833912; 66097; 552670; 734744; 851845; 416956].
Definition tab_p1 : list Z :=
  [1; 596051; 167746; 814323; 839828; 2; 24175; 335492; 702255; 774113;
   4; 48350; 670984; 458903; 389387; 8; 96700; 398553; 917806; 778774;
   16; 193400; 797106; 945301; 371429; 32; 386800; 671149; 964579; 742858;
   64; 773600; 398739; 983311; 312669; 128; 390409; 797478; 814295; 625338].
Definition tab_p30 : list Z :=
  [1; 596051; 167746; 814323; 839828; 874497; 294511; 655897; 277027; 756027;
   972127; 870275; 622507; 1012733; 101123; 5654; 381956; 1009464; 288839; 612504;
   382916; 986926; 160180; 492064; 703857; 839057; 579632; 467208; 124171; 661523;
   286431; 563621; 171932; 538261; 376197; 695934; 327032; 964488; 868698; 203490].
Definition tab_p32 : list Z :=
  [1; 596051; 167746; 814323; 839828; 250719; 235381; 841206; 165445; 719230;
   76743; 963932; 298232; 601902; 712441; 361856; 538749; 348266; 675339; 627177;
   523366; 155607; 712315; 896911; 876039; 979595; 290516; 645090; 642374; 87819;
   402236; 12120; 629825; 703355; 900352; 164439; 205235; 286122; 243135; 396060].
Notation phi t := (lin t 0).
Notation eps := (lin (firstn 5 tab_p1) 0).

Definition additive (F : Z -> Z) : Prop := forall a b, F (Z.lxor a b) = Z.lxor (F a) (F b).
Lemma additive_0 F : additive F -> F 0 = 0.
Proof. intros HF. pose proof (HF 0 0) as H0. rewrite Z.lxor_nilpotent in H0. rewrite H0 at 1. apply Z.lxor_nilpotent. Qed.
Lemma lin_additive tab : forall i, additive (lin tab i).
Proof.
  induction tab as [|c r IH]; intros i a b; cbn [lin]; [reflexivity|]. rewrite IH, Z.lxor_spec, sel_xor. apply xor_swap.
Qed.
Lemma T_additive : additive T.
Proof. intros a b. unfold T. rewrite Z.shiftl_lxor, Z.lxor_spec, sel_xor. apply xor_swap. Qed.
Lemma iter_additive F n : additive F -> additive (Nat.iter n F).
Proof. intros HF. induction n as [|n IH]; intros a b; [reflexivity|]. cbn [Nat.iter]. change (F (Nat.iter n F (Z.lxor a b)) = Z.lxor (F (Nat.iter n F a)) (F (Nat.iter n F b))). now rewrite IH, HF. Qed.

(** Additive maps that agree on the powers of two agree. *)
Lemma additive_ext F G n : additive F -> additive G -> (forall i, (i < n)%nat -> F (2 ^ Z.of_nat i) = G (2 ^ Z.of_nat i)) ->
  forall v, 0 <= v < 2 ^ Z.of_nat n -> F v = G v.
Proof.
  intros HF HG. induction n as [|n IH]; intros HB v Hv.
  - replace v with 0 by (cbn in Hv; lia). now rewrite !additive_0.
  - assert (HP : 0 < 2 ^ Z.of_nat n) by (apply Z.pow_pos_nonneg; lia).
    assert (Hv2 : v < 2 * 2 ^ Z.of_nat n) by (replace (Z.of_nat (S n)) with (Z.succ (Z.of_nat n)) in Hv by lia; rewrite Z.pow_succ_r in Hv by lia; lia).
    assert (HIH : forall u, 0 <= u < 2 ^ Z.of_nat n -> F u = G u) by (intros u Hu; apply IH; [intros i Hi; apply HB; lia|exact Hu]).
    destruct (Z_lt_le_dec v (2 ^ Z.of_nat n)) as [Hlt|Hge]; [now apply HIH|].
    assert (HX : Z.lxor (Z.lxor v (2 ^ Z.of_nat n)) (2 ^ Z.of_nat n) = v) by (rewrite Z.lxor_assoc, Z.lxor_nilpotent; apply Z.lxor_0_r).
    rewrite <- HX, HF, HG, (HB n) by lia. f_equal. apply HIH.
    assert (HS : Z.lxor v (2 ^ Z.of_nat n) = v - 2 ^ Z.of_nat n).
    { assert (HE : v = (v - 2 ^ Z.of_nat n) + 2 ^ Z.of_nat n) by lia. remember (v - 2 ^ Z.of_nat n) as u eqn:Eu.
      assert (Hu : 0 <= u < 2 ^ Z.of_nat n) by lia.
      assert (HD : Z.land u (2 ^ Z.of_nat n) = 0).
      { apply Z.bits_inj'. intros i Hi. rewrite Z.land_spec, Z.bits_0, Z.pow2_bits_eqb by lia. destruct (Z.eqb_spec (Z.of_nat n) i) as [<-|]; [|apply andb_false_r].
        rewrite andb_true_r. destruct (Z.eq_dec u 0) as [->|Hu0]; [apply Z.bits_0|]. apply Z.bits_above_log2; [lia|]. apply Z.log2_lt_pow2; lia. }
      rewrite HE. rewrite Z.add_nocarry_lxor by exact HD. rewrite Z.lxor_assoc, Z.lxor_nilpotent. apply Z.lxor_0_r. }
    rewrite HS. lia.
Qed.
Definition basis_ok (n : nat) (F G : Z -> Z) : bool := forallb (fun i => F (2 ^ Z.of_nat i) =? G (2 ^ Z.of_nat i)) (seq 0 n).
Lemma agree F G n : additive F -> additive G -> basis_ok n F G = true -> forall v, 0 <= v < 2 ^ Z.of_nat n -> F v = G v.
Proof.
  intros HF HG HB. apply additive_ext; auto. intros i Hi. unfold basis_ok in HB. rewrite forallb_forall in HB.
  apply Z.eqb_eq, HB, in_seq. lia.
Qed.

(** Numbers of 20 bits *)
Notation small v := (0 <= v < 2 ^ 20).
Lemma lin_small tab : Forall (fun c => small c) tab -> forall i v, small (lin tab i v).
Proof.
  induction 1 as [|c r Hc HF IH]; intros i v; cbn [lin]; [lia|]. apply lxor_range; [lia| |apply IH]. destruct (Z.testbit v i); lia.
Qed.
Lemma T_small v : small v -> small (T v).
Proof.
  intros Hv. rewrite (additive_ext T (lin (map (fun i => T (2 ^ Z.of_nat i)) (seq 0 20)) 0) 20 T_additive (lin_additive _ 0)); [apply lin_small|intros i Hi|exact Hv].
  - apply Forall_forall. intros c Hc. apply in_map_iff in Hc as (i & <- & Hi). apply in_seq in Hi.
    do 20 (destruct i as [|i]; [vm_compute; split; congruence|]). lia.
  - do 20 (destruct i as [|i]; [vm_compute; reflexivity|]). lia.
Qed.
Lemma iter_small n v : small v -> small (Nat.iter n T v).
Proof. intros Hv. induction n as [|n IH]; [exact Hv|]. cbn [Nat.iter]. now apply T_small. Qed.
Lemma iter_add n m v : Nat.iter (n + m) T v = Nat.iter n T (Nat.iter m T v).
Proof. induction n as [|n IH]; [reflexivity|]. cbn [Nat.add Nat.iter nat_rect]. unfold Nat.iter in *. cbn [nat_rect]. now rewrite IH. Qed.

(** b has order 1025 *)
Lemma period v : small v -> Nat.iter 1025 T v = v.
Proof.
  assert (H1 : Nat.iter 1025 T 1 = 1) by (vm_compute; reflexivity).
  apply (additive_ext (Nat.iter 1025 T) (fun v => v) 20); [apply iter_additive, T_additive|intros a b; reflexivity|].
  intros i Hi. assert (HE : 2 ^ Z.of_nat i = Nat.iter i T 1) by (do 20 (destruct i as [|i]; [vm_compute; reflexivity|]); lia).
  rewrite HE, <- iter_add, Nat.add_comm, iter_add. now rewrite H1.
Qed.
Lemma period_n k v : small v -> Nat.iter (k * 1025) T v = v.
Proof. intros Hv. induction k as [|k IH]; [reflexivity|]. cbn [Nat.mul]. now rewrite iter_add, IH, period. Qed.

(** Powers of b, with any integer exponent *)
Definition P (k v : Z) : Z := Nat.iter (Z.to_nat (k mod 1025)) T v.
Lemma P_additive k : additive (P k).
Proof. apply iter_additive, T_additive. Qed.
Lemma P_small k v : small v -> small (P k v).
Proof. apply iter_small. Qed.
Lemma P_nat n v : small v -> P (Z.of_nat n) v = Nat.iter n T v.
Proof.
  intros Hv. assert (HE : n = (Z.to_nat (Z.of_nat n mod 1025) + Z.to_nat (Z.of_nat n / 1025) * 1025)%nat).
  { pose proof (Z.div_mod (Z.of_nat n) 1025 ltac:(lia)). pose proof (Z.mod_pos_bound (Z.of_nat n) 1025 ltac:(lia)). pose proof (Z.div_pos (Z.of_nat n) 1025 ltac:(lia) ltac:(lia)). lia. }
  unfold P. transitivity (Nat.iter (Z.to_nat (Z.of_nat n mod 1025) + Z.to_nat (Z.of_nat n / 1025) * 1025) T v); [|now rewrite <- HE].
  now rewrite iter_add, period_n.
Qed.
Lemma P_mod a b v : a mod 1025 = b mod 1025 -> P a v = P b v.
Proof. unfold P. now intros ->. Qed.
Lemma P_add a b v : small v -> P (a + b) v = P a (P b v).
Proof.
  intros Hv. unfold P at 2 3. rewrite <- iter_add. rewrite <- P_nat by exact Hv. apply P_mod.
  pose proof (Z.mod_pos_bound a 1025 ltac:(lia)). pose proof (Z.mod_pos_bound b 1025 ltac:(lia)).
  rewrite Nat2Z.inj_add, !Z2Nat.id by lia. apply Zplus_mod.
Qed.
Lemma P_0 v : P 0 v = v.
Proof. reflexivity. Qed.
Lemma P_zero k : P k 0 = 0.
Proof. apply additive_0, P_additive. Qed.
Lemma P_inj k v : small v -> P k v = 0 -> v = 0.
Proof. intros Hv HE. rewrite <- (P_0 v). replace 0 with (- k + k) by lia. rewrite P_add, HE by exact Hv. replace (- k + k) with 0 by lia. apply P_zero. Qed.

(** b^k - 1 is invertible unless k is a multiple of 1025. *)
Fixpoint horner (bits : list bool) (v acc : Z) : Z :=
  match bits with [] => acc | b :: r => horner r v (Z.lxor (T acc) (if b then v else 0)) end.
Definition bits_of_const (c : Z) : list bool := map (fun i => Z.testbit c (19 - Z.of_nat i)) (seq 0 20).
Lemma horner_additive bits : forall v v' acc acc', horner bits (Z.lxor v v') (Z.lxor acc acc') = Z.lxor (horner bits v acc) (horner bits v' acc').
Proof.
  induction bits as [|b r IH]; intros v v' acc acc'; cbn [horner]; [reflexivity|]. rewrite T_additive.
  replace (if b then Z.lxor v v' else 0) with (Z.lxor (if b then v else 0) (if b then v' else 0)) by (destruct b; reflexivity).
  rewrite xor_swap. apply IH.
Qed.
Lemma no_fixed k c : basis_ok 20 (fun v => horner (bits_of_const c) (Z.lxor (P k v) v) 0) (fun v => v) = true ->
  forall v, small v -> P k v = v -> v = 0.
Proof.
  intros HB v Hv HE. rewrite <- (agree (fun v => horner (bits_of_const c) (Z.lxor (P k v) v) 0) (fun v => v) 20) with (v := v); auto.
  - rewrite HE, Z.lxor_nilpotent. pose proof (horner_additive (bits_of_const c) 0 0 0 0) as HX. rewrite Z.lxor_nilpotent in HX. now rewrite HX, Z.lxor_nilpotent.
  - intros x y. rewrite (P_additive k x y). rewrite xor_swap. rewrite <- horner_additive. reflexivity.
  - intros x y. reflexivity.
Qed.
Lemma no_fixed_205 v : small v -> P 205 v = v -> v = 0.
Proof. apply (no_fixed 205 0xe5b4d). vm_compute. reflexivity. Qed.
Lemma no_fixed_25 v : small v -> P 25 v = v -> v = 0.
Proof. apply (no_fixed 25 0xcc746). vm_compute. reflexivity. Qed.
Lemma P_mul k v : small v -> P k v = v -> forall u, P (u * k) v = v.
Proof.
  intros Hv HE u. rewrite (P_mod (u * k) ((u mod 1025) * k)) by (now rewrite Zmult_mod_idemp_l).
  assert (HU : 0 <= u mod 1025) by (apply Z.mod_pos_bound; lia). revert HU. generalize (u mod 1025) as n. clear u. intros n Hn. revert n Hn.
  apply (natlike_ind (fun n => P (n * k) v = v)); [reflexivity|]. intros n Hn IH. replace (Z.succ n * k) with (k + n * k) by lia. now rewrite P_add, IH.
Qed.
Lemma divisors_1025 g : 0 < g -> (g | 1025) -> g = 1025 \/ (g | 205) \/ (g | 25).
Proof.
  intros Hg HD. pose proof (Z.divide_pos_le g 1025 ltac:(lia) HD) as Hle.
  assert (HB : forallb (fun i => let g := Z.of_nat i + 1 in negb (1025 mod g =? 0) || ((g =? 1025) || ((205 mod g =? 0) || (25 mod g =? 0)))) (seq 0 1025) = true) by (vm_compute; reflexivity).
  rewrite forallb_forall in HB. specialize (HB (Z.to_nat (g - 1))). rewrite Z2Nat.id in HB by lia. replace (g - 1 + 1) with g in HB by lia. cbv zeta in HB.
  specialize (HB ltac:(apply in_seq; lia)). apply Z.mod_divide in HD; [|lia]. rewrite HD in HB. cbn [Z.eqb negb orb] in HB.
  apply orb_true_iff in HB as [HB|HB]; [left; now apply Z.eqb_eq|right]. apply orb_true_iff in HB as [HB|HB]; apply Z.eqb_eq in HB; [left|right]; apply Z.mod_divide; lia.
Qed.
Lemma no_fixed_any k v : small v -> k mod 1025 <> 0 -> P k v = v -> v = 0.
Proof.
  intros Hv Hk HE. destruct (Z.gcd_bezout k 1025 (Z.gcd k 1025) eq_refl) as (u & w & HB).
  assert (HG : P (Z.gcd k 1025) v = v).
  { rewrite (P_mod _ (u * k)); [now apply P_mul|]. rewrite <- HB. now rewrite Z.mod_add by lia. }
  pose proof (Z.gcd_nonneg k 1025) as Hg0. assert (Hg : 0 < Z.gcd k 1025) by (destruct (Z.eq_dec (Z.gcd k 1025) 0) as [HZ|]; [apply Z.gcd_eq_0_r in HZ; lia|lia]).
  destruct (divisors_1025 _ Hg (Z.gcd_divide_r k 1025)) as [HX|[(m & HX)|(m & HX)]].
  - exfalso. apply Hk. apply Z.mod_divide; [lia|]. rewrite <- HX. apply Z.gcd_divide_l.
  - apply no_fixed_205; [exact Hv|]. rewrite HX. now apply P_mul.
  - apply no_fixed_25; [exact Hv|]. rewrite HX. now apply P_mul.
Qed.
Lemma diff_inj a b v : small v -> (a - b) mod 1025 <> 0 -> Z.lxor (P a v) (P b v) = 0 -> v = 0.
Proof.
  intros Hv Hab HE. apply Z.lxor_eq in HE. apply (no_fixed_any (a - b)); auto.
  replace (a - b) with (- b + a) by lia. rewrite P_add, HE, <- P_add by exact Hv. now replace (- b + b) with 0 by lia.
Qed.

(** The values at the six roots *)
Lemma tabs_small : Forall (Forall (fun c => small c)) [tab_m32; tab_m30; tab_m1; tab_p1; tab_p30; tab_p32].
Proof. repeat (constructor; [repeat (constructor; [vm_compute; split; congruence|]); constructor|]). constructor. Qed.
Lemma eps_small e : small (eps e).
Proof. apply lin_small. repeat (constructor; [vm_compute; split; congruence|]). constructor. Qed.
Lemma eps_zero e : 0 <= e < 32 -> eps e = 0 -> e = 0.
Proof.
  intros He. assert (HB : forallb (fun i => implb (eps (Z.of_nat i) =? 0) (Z.of_nat i =? 0)) (seq 0 32) = true) by (vm_compute; reflexivity).
  rewrite forallb_forall in HB. specialize (HB (Z.to_nat e) ltac:(apply in_seq; lia)). rewrite Z2Nat.id in HB by lia. intros HE. rewrite HE in HB. now apply Z.eqb_eq.
Qed.
Definition root (t : list Z) (r : Z) : Prop :=
  Forall (fun c => small c) t /\ (forall e, 0 <= e < 32 -> phi t e = eps e) /\ (forall s, 0 <= s < 2 ^ 40 -> phi t (polymod_step s 0) = P r (phi t s)).
Lemma step0_additive : additive (fun s => polymod_step s 0).
Proof. intros a b. rewrite <- step_xor. reflexivity. Qed.
Lemma compose_additive F G : additive F -> additive G -> additive (fun v => F (G v)).
Proof. intros HF HG a b. now rewrite HG, HF. Qed.
Lemma root_up t n : Forall (fun c => small c) t -> basis_ok 5 (phi t) eps = true ->
  basis_ok 40 (fun s => phi t (polymod_step s 0)) (fun s => Nat.iter n T (phi t s)) = true -> root t (Z.of_nat n).
Proof.
  intros HS H5 H40. split; [exact HS|]. split.
  - exact (agree _ _ 5 (lin_additive t 0) (lin_additive _ 0) H5).
  - intros s Hs. rewrite P_nat by (now apply lin_small).
    exact (agree _ _ 40 (compose_additive _ _ (lin_additive t 0) step0_additive) (compose_additive _ _ (iter_additive T n T_additive) (lin_additive t 0)) H40 s Hs).
Qed.
Lemma root_down t n : Forall (fun c => small c) t -> basis_ok 5 (phi t) eps = true ->
  basis_ok 40 (fun s => Nat.iter n T (phi t (polymod_step s 0))) (phi t) = true -> root t (- Z.of_nat n).
Proof.
  intros HS H5 H40. split; [exact HS|]. split.
  - exact (agree _ _ 5 (lin_additive t 0) (lin_additive _ 0) H5).
  - intros s Hs. rewrite <- (agree _ _ 40 (compose_additive _ _ (iter_additive T n T_additive) (compose_additive _ _ (lin_additive t 0) step0_additive)) (lin_additive t 0) H40 s Hs).
    rewrite <- P_nat by (now apply lin_small). rewrite <- P_add by (now apply lin_small). now replace (- Z.of_nat n + Z.of_nat n) with 0 by lia.
Qed.
Definition exponents : list Z := [-32; -30; -1; 1; 30; 32].
Lemma roots r : In r exponents -> exists t, root t r.
Proof.
  pose proof tabs_small as HT. inversion HT as [|? ? S1 HT1]. inversion HT1 as [|? ? S2 HT2]. inversion HT2 as [|? ? S3 HT3]. inversion HT3 as [|? ? S4 HT4]. inversion HT4 as [|? ? S5 HT5]. inversion HT5 as [|? ? S6 _]. subst.
  intros [<-|[<-|[<-|[<-|[<-|[<-|[]]]]]]].
  - exists tab_m32. apply (root_down _ 32); [assumption|vm_compute; reflexivity|vm_compute; reflexivity].
  - exists tab_m30. apply (root_down _ 30); [assumption|vm_compute; reflexivity|vm_compute; reflexivity].
  - exists tab_m1. apply (root_down _ 1); [assumption|vm_compute; reflexivity|vm_compute; reflexivity].
  - exists tab_p1. apply (root_up _ 1); [assumption|vm_compute; reflexivity|vm_compute; reflexivity].
  - exists tab_p30. apply (root_up _ 30); [assumption|vm_compute; reflexivity|vm_compute; reflexivity].
  - exists tab_p32. apply (root_up _ 32); [assumption|vm_compute; reflexivity|vm_compute; reflexivity].
Qed.

(** The symbols that are not zero, each with its distance from the end *)
Fixpoint errs (es : list Z) : list (Z * Z) :=
  match es with [] => [] | e :: l => if e =? 0 then errs l else (zlen l, e) :: errs l end.
Fixpoint V (r : Z) (L : list (Z * Z)) : Z :=
  match L with [] => 0 | (k, e) :: L' => Z.lxor (P (r * k) (eps e)) (V r L') end.
Lemma V_small r L : small (V r L).
Proof. induction L as [|[k e] L IH]; cbn [V]; [lia|]. apply lxor_range; [lia|apply P_small, eps_small|exact IH]. Qed.
Lemma root_run t r : root t r -> forall es c, symbols_ok es -> 0 <= c < 2 ^ 40 -> phi t (run c es) = Z.lxor (P (r * zlen es) (phi t c)) (V r (errs es)).
Proof.
  intros (HS & HE & HR). induction es as [|e es IH]; intros c HO Hc.
  - change (phi t c = Z.lxor (P (r * 0) (phi t c)) 0). rewrite Z.mul_0_r, P_0. now rewrite Z.lxor_0_r.
  - inversion HO as [|? ? He HO']; subst. change (run c (e :: es)) with (run (polymod_step c e) es). rewrite IH by (auto; now apply step_range).
    assert (HX : polymod_step c e = Z.lxor (polymod_step c 0) e).
    { replace (polymod_step c e) with (polymod_step (Z.lxor c 0) (Z.lxor 0 e)) by (now rewrite Z.lxor_0_r, Z.lxor_0_l). rewrite step_xor. now f_equal. }
    rewrite HX, (lin_additive t 0), HR by exact Hc. rewrite (HE e He), P_additive. rewrite <- P_add by (now apply lin_small). rewrite zlen_cons.
    replace (r * zlen es + r) with (r * (1 + zlen es)) by lia. rewrite Z.lxor_assoc. f_equal. cbn [errs].
    destruct (Z.eqb_spec e 0) as [->|_]; [|reflexivity]. change (eps 0) with 0. now rewrite P_zero, Z.lxor_0_l.
Qed.
Lemma syndromes es : symbols_ok es -> run 0 es = 0 -> forall r, In r exponents -> V r (errs es) = 0.
Proof.
  intros HO HR r Hr. destruct (roots r Hr) as (t & Ht). pose proof (root_run t r Ht es 0 HO ltac:(lia)) as HX.
  rewrite HR, (additive_0 _ (lin_additive t 0)), P_zero, Z.lxor_0_l in HX. now symmetry.
Qed.

(** Three factors, each zero at one place *)
Definition A (s k k' v : Z) : Z := Z.lxor (P (s * k) v) (P (s * k') v).
Lemma A_same s k v : A s k k v = 0.
Proof. apply Z.lxor_nilpotent. Qed.
Lemma A_small s k k' v : small v -> small (A s k k' v).
Proof. intros Hv. apply lxor_range; [lia| |]; now apply P_small. Qed.
Lemma A_zero s k k' : A s k k' 0 = 0.
Proof. unfold A. now rewrite !P_zero. Qed.
Lemma A_inj s k k' v : small v -> (s * (k - k')) mod 1025 <> 0 -> A s k k' v = 0 -> v = 0.
Proof. intros Hv HM. apply diff_inj; [exact Hv|]. now rewrite <- Z.mul_sub_distr_l. Qed.
Definition D (k1 k2 k3 k v : Z) : Z := A 2 k k1 (A 31 k k2 (A 31 k k3 (P (-32 * k) v))).
Definition terms (k1 k2 k3 : Z) : list (Z * Z) :=
  [(0, 32); (2 * k1, 30); (31 * k3, 1); (31 * k2, 1); (2 * k1 + 31 * k3, -1); (2 * k1 + 31 * k2, -1); (31 * k2 + 31 * k3, -30); (2 * k1 + 31 * k2 + 31 * k3, -32)].
Fixpoint comb (cs : list (Z * Z)) (f : Z -> Z) : Z :=
  match cs with [] => 0 | (c, r) :: cs' => Z.lxor (P c (f r)) (comb cs' f) end.
Lemma comb_lxor cs f g : comb cs (fun r => Z.lxor (f r) (g r)) = Z.lxor (comb cs f) (comb cs g).
Proof. induction cs as [|[c r] cs IH]; [reflexivity|]. cbn [comb]. rewrite IH, P_additive. apply xor_swap. Qed.
Lemma comb_zero cs f : (forall c r, In (c, r) cs -> f r = 0) -> comb cs f = 0.
Proof.
  induction cs as [|[c r] cs IH]; intros HF; [reflexivity|]. cbn [comb]. rewrite (HF c r) by (now left). rewrite P_zero, IH; [reflexivity|]. intros c' r' HI. apply (HF c'). now right.
Qed.
Lemma comb_D k1 k2 k3 k v : small v -> comb (terms k1 k2 k3) (fun r => P (r * k) v) = D k1 k2 k3 k v.
Proof.
  intros Hv. unfold D, A, terms. cbn [comb]. rewrite !P_additive. rewrite <- !P_add by (first [assumption|repeat apply P_small; assumption]).
  replace (0 + 32 * k) with (2 * k + 31 * k + 31 * k + -32 * k) by lia.
  replace (2 * k1 + 30 * k) with (2 * k1 + 31 * k + 31 * k + -32 * k) by lia.
  replace (31 * k3 + 1 * k) with (2 * k + 31 * k + 31 * k3 + -32 * k) by lia.
  replace (31 * k2 + 1 * k) with (2 * k + 31 * k2 + 31 * k + -32 * k) by lia.
  replace (2 * k1 + 31 * k3 + -1 * k) with (2 * k1 + 31 * k + 31 * k3 + -32 * k) by lia.
  replace (2 * k1 + 31 * k2 + -1 * k) with (2 * k1 + 31 * k2 + 31 * k + -32 * k) by lia.
  replace (31 * k2 + 31 * k3 + -30 * k) with (2 * k + 31 * k2 + 31 * k3 + -32 * k) by lia.
  apply Z.bits_inj'. intros i _. rewrite !Z.lxor_spec, Z.bits_0.
  repeat match goal with |- context [Z.testbit ?x i] => let b := fresh "b" in set (b := Z.testbit x i); clearbody b; destruct b end; reflexivity.
Qed.
Lemma D_zero k1 k2 k3 k v : In k [k1; k2; k3] -> D k1 k2 k3 k v = 0.
Proof.
  intros [<-|[<-|[<-|[]]]]; unfold D.
  - apply A_same.
  - rewrite A_same. apply A_zero.
  - rewrite A_same, !A_zero. reflexivity.
Qed.
Lemma mod_coprime s d : Z.gcd s 1025 = 1 -> -1025 < d < 1025 -> d <> 0 -> (s * d) mod 1025 <> 0.
Proof.
  intros HG Hd Hd0 HM. apply Z.mod_divide in HM; [|lia]. apply Z.gauss in HM; [|rewrite Z.gcd_comm; exact HG]. destruct HM as (m & Hm). nia.
Qed.
Lemma D_inj k1 k2 k3 k v : small v -> 0 <= k < 1025 -> (forall k', In k' [k1; k2; k3] -> -1025 < k - k' < 1025 /\ k' <> k) -> D k1 k2 k3 k v = 0 -> v = 0.
Proof.
  intros Hv Hk HN HD. unfold D in HD.
  destruct (HN k1 ltac:(now left)) as [H1 N1]. destruct (HN k2 ltac:(right; now left)) as [H2 N2]. destruct (HN k3 ltac:(right; right; now left)) as [H3 N3].
  apply A_inj in HD; [|repeat apply A_small; now apply P_small|apply mod_coprime; [reflexivity|lia|lia]].
  apply A_inj in HD; [|repeat apply A_small; now apply P_small|apply mod_coprime; [reflexivity|lia|lia]].
  apply A_inj in HD; [|now apply P_small|apply mod_coprime; [reflexivity|lia|lia]].
  now apply P_inj in HD.
Qed.
Lemma comb_V k1 k2 k3 L : (forall k e, In (k, e) L -> In k [k1; k2; k3]) -> comb (terms k1 k2 k3) (fun r => V r L) = 0.
Proof.
  induction L as [|[k e] L IH]; intros HI; [apply comb_zero; reflexivity|]. cbn [V]. rewrite (comb_lxor _ (fun r => P (r * k) (eps e)) (fun r => V r L)).
  rewrite comb_D by apply eps_small. rewrite D_zero by (apply (HI k e); now left). rewrite IH by (intros k' e' HI'; apply (HI k' e'); now right). reflexivity.
Qed.
Lemma first_error k e k1 k2 k3 L : 0 <= k < 1025 -> 0 <= e < 32 -> (forall k', In k' [k1; k2; k3] -> -1025 < k - k' < 1025 /\ k' <> k) ->
  (forall k' e', In (k', e') L -> In k' [k1; k2; k3]) -> (forall r, In r exponents -> V r ((k, e) :: L) = 0) -> e = 0.
Proof.
  intros Hk He HN HI HV. apply eps_zero; [exact He|]. apply (D_inj k1 k2 k3 k); [apply eps_small|exact Hk|exact HN|].
  rewrite <- comb_D by apply eps_small. pose proof (comb_lxor (terms k1 k2 k3) (fun r => P (r * k) (eps e)) (fun r => V r L)) as HX.
  rewrite (comb_V k1 k2 k3 L HI), Z.lxor_0_r in HX. rewrite <- HX. apply comb_zero. intros c r Hr. apply (HV r).
  cbn in Hr. repeat (destruct Hr as [Hr|Hr]; [injection Hr as _ <-; cbn; tauto|]). contradiction.
Qed.
Lemma errs_pos es : Forall (fun ke => 0 <= fst ke < zlen es /\ snd ke <> 0) (errs es).
Proof.
  induction es as [|e es IH]; cbn [errs]; [constructor|]. rewrite zlen_cons. pose proof (zlen_nonneg es).
  assert (HW : Forall (fun ke => 0 <= fst ke < 1 + zlen es /\ snd ke <> 0) (errs es)) by (eapply Forall_impl; [|exact IH]; cbn beta; intros; lia).
  destruct (Z.eqb_spec e 0) as [|He]; [exact HW|]. constructor; [cbn [fst snd]; lia|exact HW].
Qed.
(** At most four symbols that are not zero, among at most 1025: the checksum is not zero. *)
Theorem four_errors es : symbols_ok es -> zlen es <= 1025 -> zlen (errs es) <= 4 -> run 0 es = 0 -> errs es = [].
Proof.
  intros HO HL H4 HR. pose proof (syndromes es HO HR) as HV. clear HR. induction es as [|e es IH]; [reflexivity|]. inversion HO as [|? ? He HO']; subst. rewrite zlen_cons in HL.
  cbn [errs] in *. destruct (Z.eqb_spec e 0) as [|He0]; [apply IH; auto; lia|]. exfalso. apply He0.
  pose proof (zlen_nonneg es) as HZ. pose proof (errs_pos es) as HP. clear IH. revert HP H4 HV. generalize (errs es) as L. intros L HP H4 HV. rewrite zlen_cons in H4.
  assert (HX : forall k1 k2 k3, (forall k', In k' [k1; k2; k3] -> zlen es - 1025 < k' < zlen es) -> (forall k' e', In (k', e') L -> In k' [k1; k2; k3]) -> e = 0).
  { intros k1 k2 k3 HK HI. apply (first_error (zlen es) e k1 k2 k3 L); auto; [lia|]. intros k' Hk'. apply HK in Hk'. lia. }
  clear HV. rewrite Forall_forall in HP. assert (HQ : forall k' e', In (k', e') L -> zlen es - 1025 < k' < zlen es) by (intros k' e' HI; apply HP in HI; cbn [fst] in HI; lia). clear HP.
  destruct L as [|[k1 e1] L]; [apply (HX (zlen es - 1) (zlen es - 1) (zlen es - 1)); [intros k' [<-|[<-|[<-|[]]]]; lia|intros k' e' []]|]. pose proof (HQ k1 e1 ltac:(now left)).
  destruct L as [|[k2 e2] L]; [apply (HX k1 (zlen es - 1) (zlen es - 1)); [intros k' [<-|[<-|[<-|[]]]]; lia|intros k' e' [E|[]]; injection E as -> _; now left]|]. pose proof (HQ k2 e2 ltac:(right; now left)).
  destruct L as [|[k3 e3] L]; [apply (HX k1 k2 (zlen es - 1)); [intros k' [<-|[<-|[<-|[]]]]; lia|intros k' e' [E|[E|[]]]; injection E as -> _; cbn; tauto]|]. pose proof (HQ k3 e3 ltac:(right; right; now left)).
  destruct L as [|x L]; [apply (HX k1 k2 k3); [intros k' [<-|[<-|[<-|[]]]]; lia|intros k' e' [E|[E|[E|[]]]]; injection E as -> _; cbn; tauto]|].
  rewrite !zlen_cons in H4. pose proof (zlen_nonneg L). lia.
Qed.

(** From symbols to texts *)
Lemma errs_xors a : forall b, length a = length b -> zlen (errs (xors a b)) = differences a b.
Proof.
  induction a as [|x a IH]; intros [|y b] HL; try discriminate HL; [reflexivity|]. unfold xors, differences in *. cbn [combine map fst snd errs filter].
  assert (HL' : length a = length b) by (now injection HL). destruct (Z.eqb_spec x y) as [->|HN].
  - rewrite Z.lxor_nilpotent. cbn [Z.eqb negb]. now apply IH.
  - destruct (Z.eqb_spec (Z.lxor x y) 0) as [HZ|_]; [now apply Z.lxor_eq in HZ|]. cbn [negb]. rewrite !zlen_cons. f_equal. now apply IH.
Qed.
Lemma differences_app a a' b b' : length a = length a' -> differences (a ++ b) (a' ++ b') = differences a a' + differences b b'.
Proof.
  revert a'. induction a as [|x a IH]; intros [|y a'] HL; try discriminate HL; [reflexivity|]. unfold differences in *. cbn [app combine filter fst snd].
  specialize (IH a' ltac:(now injection HL)). destruct (negb (x =? y)); rewrite ?zlen_cons; lia.
Qed.
Lemma differences_nonneg a b : 0 <= differences a b.
Proof. apply zlen_nonneg. Qed.
Lemma spelt_differences ds ds' b b' : spelt ds b -> spelt ds' b' -> differences ds ds' = differences b b'.
Proof.
  intros HS. revert ds' b'. induction HS as [|s c ds b [Hs Hc] HS IH]; intros ds' b' HS'; [reflexivity|].
  inversion HS' as [|s' c' ds2 b2 [Hs' Hc'] HS2]; subst; [reflexivity|]. specialize (IH _ _ HS2). unfold differences in *. cbn [combine filter fst snd].
  assert (HE : (s =? s') = (c =? c')).
  { destruct (Z.eqb_spec s s') as [<-|HN]; destruct (Z.eqb_spec c c') as [->|HN']; try reflexivity; [congruence|]. exfalso. apply HN.
    assert (H1 : [s] = [s']) by (apply (spelt_inj _ _ [c']); constructor; auto). now injection H1. }
  rewrite HE. destruct (c =? c'); cbn [negb]; rewrite ?zlen_cons; lia.
Qed.
Lemma prefix_symbols p : symbols_ok (prefix_expand p).
Proof. apply symbols_app. split; [|constructor; [lia|constructor]]. apply Forall_forall. intros x Hx. apply in_map_iff in Hx as (c & <- & _). change 31 with (Z.ones 5). rewrite Z.land_ones by lia. apply Z.mod_pos_bound. lia. Qed.
Lemma prefix_low p : prefix_expand p = low_bits p ++ [0].
Proof. unfold prefix_expand, low_bits. f_equal. apply map_ext. intros c. change 31 with (Z.ones 5). now rewrite Z.land_ones by lia. Qed.
Lemma four_characters p p' b b' : ~ In 58 p -> ~ In 58 p' -> zlen p' = zlen p -> zlen p <= 900 -> zlen b' = zlen b ->
  1 <= differences (low_bits (lower p) ++ lower b) (low_bits (lower p') ++ lower b') <= 4 ->
  (exists r, cash_decode (p ++ 58 :: b) = Ok r) -> cash_decode (p' ++ 58 :: b') = Err ValueError.
Proof.
  intros HN HN' HP H900 HB HD HOk. apply decode_shape in HOk as (q & data & HE & _). rewrite cash_decode_core.
  destruct (decode_payload (p' ++ 58 :: b')) as [[q' data']|e] eqn:E; [exfalso|apply payload_err in E; now subst].
  apply (payload_run p _ _ _ HN) in HE as (ds & HS & HR & HL & _). apply (payload_run p' _ _ _ HN') in E as (ds' & HS' & HR' & HL' & _).
  assert (HLb : forall t, length (lower t) = length t) by (intros t; apply map_length).
  assert (HLp : length (low_bits (lower p)) = length (low_bits (lower p'))) by (unfold low_bits, lower; rewrite !map_length; apply zlen_eq_length; lia).
  assert (HLd : length ds = length ds') by (rewrite (spelt_len _ _ HS), (spelt_len _ _ HS'), !HLb; apply zlen_eq_length; lia).
  rewrite differences_app in HD by exact HLp. rewrite <- (spelt_differences _ _ _ _ HS HS') in HD.
  rewrite <- run_app in HR, HR'.
  assert (HLx : length (prefix_expand (lower p)) = length (prefix_expand (lower p'))) by (rewrite !prefix_low, !app_length, HLp; reflexivity).
  pose proof (runs_equal 1 (prefix_expand (lower p) ++ ds) (prefix_expand (lower p') ++ ds') ltac:(rewrite !app_length; lia) ltac:(congruence)) as HZ.
  assert (HC : differences (prefix_expand (lower p) ++ ds) (prefix_expand (lower p') ++ ds') = differences (low_bits (lower p)) (low_bits (lower p')) + differences ds ds').
  { rewrite differences_app by exact HLx. rewrite !prefix_low, differences_app by exact HLp. change (differences [0] [0]) with 0. lia. }
  assert (HEx : zlen (errs (xors (prefix_expand (lower p) ++ ds) (prefix_expand (lower p') ++ ds'))) = differences (low_bits (lower p)) (low_bits (lower p')) + differences ds ds') by (rewrite errs_xors, HC by (rewrite !app_length; lia); reflexivity).
  apply four_errors in HZ.
  - rewrite HZ in HEx. change (zlen (@nil (Z * Z))) with 0 in HEx. lia.
  - apply xors_ok; apply symbols_app; split; try apply prefix_symbols; [apply (spelt_symbols _ _ HS)|apply (spelt_symbols _ _ HS')].
  - unfold zlen. rewrite xors_length by (rewrite !app_length; lia). rewrite app_length, prefix_low, app_length. unfold low_bits, lower. rewrite !map_length. cbn [length]. unfold zlen in *. lia.
  - lia.
Qed.
