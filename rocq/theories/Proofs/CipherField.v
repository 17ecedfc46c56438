(** The field of 256 elements and the tables of AES. *)
From Verif.Model Require Import Py Hashes Cipher.
From Verif.Spec Require Import AesSpec.
From Verif.Proofs Require Import PyFacts.
From Coq Require Import Btauto.

Definition all_bytes : list Z := map Z.of_nat (seq 0 256).
Lemma all_bytes_in x : byte x -> In x all_bytes.
Proof. intros Hx. unfold byte in Hx. apply in_map_iff. exists (Z.to_nat x). split; [lia|]. apply in_seq. lia. Qed.
Lemma check_bytes (P : Z -> bool) : forallb P all_bytes = true -> forall x, byte x -> P x = true.
Proof. intros HP x Hx. eapply forallb_forall; [exact HP|]. now apply all_bytes_in. Qed.
Lemma byte_ok_byte x : byte_ok x = true <-> byte x.
Proof. unfold byte_ok, byte. lia. Qed.
Lemma lxor_byte a b : byte a -> byte b -> byte (Z.lxor a b).
Proof.
  unfold byte. intros Ha Hb. assert (0 <= Z.lxor a b) as H0 by (apply Z.lxor_nonneg; lia). split; [exact H0|].
  destruct (Z.eq_dec (Z.lxor a b) 0) as [->|HN]; [lia|]. apply (Z.log2_lt_pow2 _ 8); [lia|].
  pose proof (Z.log2_lxor a b ltac:(lia) ltac:(lia)).
  assert (forall z, 0 <= z < 256 -> Z.log2 z < 8) as HL. { intros z Hz. destruct (Z.eq_dec z 0) as [->|]; [reflexivity|]. apply Z.log2_lt_pow2; lia. }
  pose proof (HL a Ha). pose proof (HL b Hb). lia.
Qed.

(** ** Linear maps *)
Definition linear (f : Z -> Z) : Prop := forall a b, f (Z.lxor a b) = Z.lxor (f a) (f b).
Lemma linear_0 f : linear f -> f 0 = 0.
Proof. intros HL. specialize (HL 0 0). rewrite Z.lxor_0_l in HL. now rewrite Z.lxor_nilpotent in HL. Qed.
Fixpoint from_bits (v : Z) (n : nat) : Z := match n with O => 0 | S k => Z.lxor (if Z.testbit v (Z.of_nat k) then 2 ^ Z.of_nat k else 0) (from_bits v k) end.
Lemma from_bits_testbit v i : 0 <= i -> forall n, Z.testbit (from_bits v n) i = Z.testbit v i && (i <? Z.of_nat n).
Proof.
  intros Hi. induction n as [|n IH]; [cbn [from_bits]; rewrite Z.bits_0; replace (i <? Z.of_nat 0) with false by lia; now rewrite andb_false_r|].
  cbn [from_bits]. rewrite Z.lxor_spec, IH. destruct (Z.testbit v (Z.of_nat n)) eqn:E.
  - rewrite Z.pow2_bits_eqb by lia. destruct (Z.eqb_spec (Z.of_nat n) i) as [<-|HN].
    + rewrite E. replace (Z.of_nat n <? Z.of_nat n) with false by lia. replace (Z.of_nat n <? Z.of_nat (S n)) with true by lia. reflexivity.
    + rewrite xorb_false_l. f_equal. lia.
  - rewrite Z.bits_0, xorb_false_l. destruct (Z.eqb_spec (Z.of_nat n) i) as [<-|HN]; [now rewrite E|]. f_equal. lia.
Qed.
Lemma bits_ext n a b : 0 <= a < 2 ^ n -> 0 <= b < 2 ^ n -> (forall i, 0 <= i < n -> Z.testbit a i = Z.testbit b i) -> a = b.
Proof.
  intros Ha Hb HE. apply Z.bits_inj'. intros i Hi. destruct (Z.ltb_spec i n) as [|HN]; [now apply HE|].
  assert (forall v, 0 <= v < 2 ^ n -> Z.testbit v i = false) as HF.
  { intros v Hv. destruct (Z.eq_dec v 0) as [->|]; [apply Z.bits_0|]. apply Z.bits_above_log2; [lia|]. assert (Z.log2 v < n) by (apply Z.log2_lt_pow2; lia). lia. }
  now rewrite !HF.
Qed.
Lemma from_bits_nonneg v n : 0 <= from_bits v n.
Proof. induction n as [|n IH]; [reflexivity|]. cbn [from_bits]. apply Z.lxor_nonneg. destruct (Z.testbit v _); [pose proof (Z.pow_nonneg 2 (Z.of_nat n) ltac:(lia))|]; lia. Qed.
Lemma from_bits_id v n : 0 <= v < 2 ^ Z.of_nat n -> from_bits v n = v.
Proof.
  intros Hv. apply Z.bits_inj'. intros i Hi. rewrite from_bits_testbit by exact Hi. destruct (Z.ltb_spec i (Z.of_nat n)); [apply andb_true_r|]. rewrite andb_false_r. symmetry.
  destruct (Z.eq_dec v 0) as [->|]; [apply Z.bits_0|]. apply Z.bits_above_log2; [lia|]. assert (Z.log2 v < Z.of_nat n) by (apply Z.log2_lt_pow2; lia). lia.
Qed.
(** A property closed under addition holds of the images of all numbers if it does of those of the powers of two. *)
Lemma linear_closed f (P : Z -> Prop) : linear f -> P 0 -> (forall a b, P a -> P b -> P (Z.lxor a b)) -> forall n, (forall i, (i < n)%nat -> P (f (2 ^ Z.of_nat i))) ->
  forall v, P (f (from_bits v n)).
Proof.
  intros HL H0 HX n HB v. induction n as [|n IH]; cbn [from_bits]; [now rewrite (linear_0 f HL)|]. rewrite HL. apply HX; [|apply IH; intros; apply HB; lia].
  destruct (Z.testbit v _); [apply HB; lia|now rewrite (linear_0 f HL)].
Qed.
Lemma linear_eq f g : linear f -> linear g -> forall n, (forall i, (i < n)%nat -> f (2 ^ Z.of_nat i) = g (2 ^ Z.of_nat i)) -> forall v, f (from_bits v n) = g (from_bits v n).
Proof.
  intros HF HG n HB v. induction n as [|n IH]; cbn [from_bits]; [now rewrite (linear_0 f HF), (linear_0 g HG)|]. rewrite HF, HG. f_equal; [|apply IH; intros; apply HB; lia].
  destruct (Z.testbit v _); [apply HB; lia|now rewrite (linear_0 f HF), (linear_0 g HG)].
Qed.
Lemma linear_comp f g : linear f -> linear g -> linear (fun x => f (g x)).
Proof. intros HF HG a b. now rewrite HG, HF. Qed.
Lemma lxor_swap a b c d : Z.lxor (Z.lxor a b) (Z.lxor c d) = Z.lxor (Z.lxor a c) (Z.lxor b d).
Proof. apply Z.bits_inj'. intros i _. rewrite !Z.lxor_spec. btauto. Qed.
Lemma linear_lxor f g : linear f -> linear g -> linear (fun x => Z.lxor (f x) (g x)).
Proof. intros HF HG a b. rewrite HF, HG. apply lxor_swap. Qed.
Lemma linear_id : linear (fun x => x). Proof. intros a b. reflexivity. Qed.

(** ** Multiplication *)
Lemma poly_mul_r a : linear (poly_mul a).
Proof.
  intros b c. unfold poly_mul. induction [0; 1; 2; 3; 4; 5; 6; 7] as [|i l IH]; [reflexivity|]. cbn [fold_right]. rewrite IH, Z.lxor_spec, lxor_swap. f_equal.
  destruct (Z.testbit b i), (Z.testbit c i); cbn [xorb]; now rewrite ?Z.lxor_nilpotent, ?Z.lxor_0_r, ?Z.lxor_0_l.
Qed.
(** Reduction: take away multiples of the modulus from the top. *)
Definition red_step (v i : Z) : Z := if Z.testbit v i then Z.lxor v (poly_mul 0x11b (2 ^ (i - 8))) else v.
Definition red (v : Z) : Z := fold_left red_step [14; 13; 12; 11; 10; 9; 8] v.
Definition gmul (a b : Z) : Z := red (poly_mul a b).
Lemma red_step_linear i : linear (fun v => red_step v i).
Proof.
  intros a b. unfold red_step. rewrite Z.lxor_spec. generalize (poly_mul 283 (2 ^ (i - 8))). intros p.
  destruct (Z.testbit a i), (Z.testbit b i); cbn [xorb]; apply Z.bits_inj'; intros j _; rewrite !Z.lxor_spec; btauto.
Qed.
Lemma red_linear : linear red.
Proof.
  unfold red. induction [14; 13; 12; 11; 10; 9; 8] as [|i l IH] ; [exact linear_id|]. cbn [fold_left]. intros a b. rewrite (red_step_linear i a b). apply IH.
Qed.
Lemma red_quotient v : exists q, byte q /\ v = Z.lxor (poly_mul 0x11b q) (red v).
Proof.
  assert (forall l, Forall (fun i => 8 <= i < 16) l -> forall v, exists q, byte q /\ v = Z.lxor (poly_mul 0x11b q) (fold_left red_step l v)) as HG.
  { induction 1 as [|i l Hi _ IH]; intros u; [exists 0; split; [unfold byte; lia|]; now rewrite (linear_0 _ (poly_mul_r _)), Z.lxor_0_l|].
    cbn [fold_left]. destruct (IH (red_step u i)) as (q & Hq & HE). unfold red_step in HE at 1. destruct (Z.testbit u i).
    - exists (Z.lxor q (2 ^ (i - 8))). split; [apply lxor_byte; [exact Hq|]|].
      + unfold byte. assert (0 < 2 ^ (i - 8)) by (apply Z.pow_pos_nonneg; lia). assert (2 ^ (i - 8) <= 2 ^ 7) by (apply Z.pow_le_mono_r; lia). lia.
      + rewrite poly_mul_r. set (p := poly_mul 283 (2 ^ (i - 8))) in *. apply (f_equal (fun z => Z.lxor z p)) in HE. rewrite Z.lxor_assoc, Z.lxor_nilpotent, Z.lxor_0_r in HE. rewrite HE at 1.
        apply Z.bits_inj'; intros j _; rewrite !Z.lxor_spec; btauto.
    - exists q. auto. }
  apply HG. repeat constructor; lia.
Qed.
Lemma red_byte v : 0 <= v < 2 ^ 15 -> byte (red v).
Proof.
  intros Hv. rewrite <- (from_bits_id v 15 Hv). apply (linear_closed red byte red_linear); [unfold byte; lia|exact lxor_byte|].
  assert (forallb (fun i => (0 <=? red (2 ^ Z.of_nat i)) && (red (2 ^ Z.of_nat i) <? 256)) (seq 0 15) = true) as HC by (vm_compute; reflexivity).
  intros i Hi. eapply forallb_forall in HC; [|apply in_seq; split; [lia|exact Hi]]. unfold byte. lia.
Qed.
Lemma poly_mul_range a b : byte a -> 0 <= poly_mul a b < 2 ^ 15.
Proof.
  intros Ha. assert (forall x y, 0 <= x < 2 ^ 15 -> 0 <= y < 2 ^ 15 -> 0 <= Z.lxor x y < 2 ^ 15) as HX.
  { intros x y Hx Hy. rewrite <- (from_bits_id x 15 Hx), <- (from_bits_id y 15 Hy). assert (0 <= Z.lxor x y) as H0 by (apply Z.lxor_nonneg; lia).
    rewrite !from_bits_id by assumption. split; [exact H0|]. destruct (Z.eq_dec (Z.lxor x y) 0) as [->|HN]; [lia|]. apply Z.log2_lt_pow2; [lia|].
    pose proof (Z.log2_lxor x y ltac:(lia) ltac:(lia)). assert (forall z, 0 <= z < 2 ^ 15 -> Z.log2 z < 15) as HL. { intros z Hz. destruct (Z.eq_dec z 0) as [->|]; [reflexivity|]. apply Z.log2_lt_pow2; lia. }
    pose proof (HL x Hx). pose proof (HL y Hy). lia. }
  unfold poly_mul. assert (Forall (fun i => 0 <= i < 8) [0; 1; 2; 3; 4; 5; 6; 7]) as HF by (repeat constructor; lia).
  induction HF as [|i l Hi _ IH]; [cbn; lia|]. cbn [fold_right]. apply HX; [|exact IH]. destruct (Z.testbit b i); [|lia]. unfold byte in Ha.
  assert (0 < 2 ^ i) by (apply Z.pow_pos_nonneg; lia). assert (2 ^ i <= 2 ^ 7) by (apply Z.pow_le_mono_r; lia). change (2 ^ 7) with 128 in *. nia.
Qed.
Lemma gmul_byte a b : byte a -> byte (gmul a b).
Proof. intros Ha. apply red_byte. now apply poly_mul_range. Qed.
Lemma gmul_linear a : linear (gmul a).
Proof. exact (linear_comp _ _ red_linear (poly_mul_r a)). Qed.
Lemma gmul_product a b : byte a -> product a b (gmul a b).
Proof. intros Ha. split; [now apply gmul_byte|]. apply red_quotient. Qed.
Lemma modulus_multiple q : byte q -> byte (poly_mul 0x11b q) -> q = 0.
Proof.
  intros Hq HB. assert (forallb (fun q => (q =? 0) || (256 <=? poly_mul 0x11b q)) all_bytes = true) as HC by (vm_compute; reflexivity).
  pose proof (check_bytes _ HC q Hq) as H. unfold byte in *. cbn beta in H. lia.
Qed.
Lemma product_unique a b c d : product a b c -> product a b d -> c = d.
Proof.
  intros (Hc & q & Hq & HE) (Hd & r & Hr & HF). rewrite HE in HF.
  assert (Z.lxor c d = poly_mul 0x11b (Z.lxor q r)) as HX.
  { rewrite poly_mul_r. apply (f_equal (fun z => Z.lxor z (Z.lxor (poly_mul 283 r) c))) in HF. revert HF. generalize (poly_mul 283 q) (poly_mul 283 r). intros A B HF.
    transitivity (Z.lxor (Z.lxor A c) (Z.lxor B c)); [rewrite HF|]; apply Z.bits_inj'; intros j _; rewrite !Z.lxor_spec; btauto. }
  assert (Z.lxor q r = 0) as H0 by (apply modulus_multiple; [now apply lxor_byte|rewrite <- HX; now apply lxor_byte]).
  rewrite H0 in HX. rewrite (linear_0 _ (poly_mul_r _)) in HX. now apply Z.lxor_eq in HX.
Qed.
Lemma product_iff a b c : byte a -> (product a b c <-> c = gmul a b).
Proof. intros Ha. split; [intros HP; eapply product_unique; [exact HP|now apply gmul_product]|intros ->; now apply gmul_product]. Qed.

(** ** Inverses *)
Definition inverses : list Z :=
  [0; 1; 141; 246; 203; 82; 123; 209; 232; 79; 41; 192; 176; 225; 229; 199; 116; 180; 170; 75; 153; 43; 96; 95; 88; 63; 253; 204; 255; 64; 238; 178;
   58; 110; 90; 241; 85; 77; 168; 201; 193; 10; 152; 21; 48; 68; 162; 194; 44; 69; 146; 108; 243; 57; 102; 66; 242; 53; 32; 111; 119; 187; 89; 25;
   29; 254; 55; 103; 45; 49; 245; 105; 167; 100; 171; 19; 84; 37; 233; 9; 237; 92; 5; 202; 76; 36; 135; 191; 24; 62; 34; 240; 81; 236; 97; 23;
   22; 94; 175; 211; 73; 166; 54; 67; 244; 71; 145; 223; 51; 147; 33; 59; 121; 183; 151; 133; 16; 181; 186; 60; 182; 112; 208; 6; 161; 250; 129; 130;
   131; 126; 127; 128; 150; 115; 190; 86; 155; 158; 149; 217; 247; 2; 185; 164; 222; 106; 50; 109; 216; 138; 132; 114; 42; 20; 159; 136; 249; 220; 137; 154;
   251; 124; 46; 195; 143; 184; 101; 72; 38; 200; 18; 74; 206; 231; 210; 98; 12; 224; 31; 239; 17; 117; 120; 113; 165; 142; 118; 61; 189; 188; 134; 87;
   11; 40; 47; 163; 218; 212; 228; 15; 169; 39; 83; 4; 27; 252; 172; 230; 122; 7; 174; 99; 197; 219; 226; 234; 148; 139; 196; 213; 157; 248; 144; 107;
   177; 13; 214; 235; 198; 14; 207; 173; 8; 78; 215; 227; 93; 80; 30; 179; 91; 35; 56; 52; 104; 70; 3; 140; 221; 156; 125; 160; 205; 26; 65; 28].
Definition inverse_at (x : Z) : Z := nth (Z.to_nat x) inverses 0.
Definition powers_8 : list Z := [1; 2; 4; 8; 16; 32; 64; 128].
Lemma inverses_check : forallb (fun x => let y := inverse_at x in (0 <=? y) && (y <? 256) &&
  if x =? 0 then y =? 0 else (gmul x y =? 1) && forallb (fun b => gmul y (gmul x b) =? b) powers_8) all_bytes = true.
Proof. vm_compute. reflexivity. Qed.
Lemma inverse_at_ok x : byte x -> field_inverse x (inverse_at x).
Proof.
  intros Hx. pose proof (check_bytes _ inverses_check x Hx) as HC. cbn beta zeta in HC. apply andb_true_iff in HC as [HR HC]. unfold field_inverse, byte. split; [lia|].
  destruct (Z.eqb_spec x 0) as [->|HN]; [left; lia|]. right. apply product_iff; [exact Hx|]. apply andb_true_iff in HC as [HC _]. lia.
Qed.
Lemma inverse_unique x y : byte x -> field_inverse x y -> y = inverse_at x.
Proof.
  intros Hx (Hy & HI). pose proof (check_bytes _ inverses_check x Hx) as HC. cbn beta zeta in HC. apply andb_true_iff in HC as [HR HC]. destruct HI as [[-> ->]|HP].
  - reflexivity.
  - destruct (Z.eqb_spec x 0) as [->|HN].
    { apply product_iff in HP; [|exact Hx]. exfalso. assert (forall b, gmul 0 b = 0) as H0. { intros b. unfold gmul. replace (poly_mul 0 b) with 0; [reflexivity|]. unfold poly_mul. cbn [fold_right]. rewrite !Z.mul_0_l. destruct (Z.testbit b 0), (Z.testbit b 1), (Z.testbit b 2), (Z.testbit b 3), (Z.testbit b 4), (Z.testbit b 5), (Z.testbit b 6), (Z.testbit b 7); reflexivity. }
      rewrite H0 in HP. discriminate HP. }
    set (z := inverse_at x) in *. apply andb_true_iff in HC as [HZ HC]. apply Z.eqb_eq in HZ. apply product_iff in HP; [|exact Hx].
    assert (forall b, byte b -> gmul z (gmul x b) = b) as HG.
    { intros b Hb. rewrite <- (from_bits_id b 8 Hb). refine (linear_eq (fun b => gmul z (gmul x b)) (fun b => b) (linear_comp _ _ (gmul_linear z) (gmul_linear x)) linear_id 8 _ b).
      assert (HF : forallb (fun b => gmul z (gmul x b) =? b) powers_8 = true) by exact HC. intros i Hi. cbn beta. apply Z.eqb_eq. eapply forallb_forall in HF; [exact HF|].
      do 8 (destruct i as [|i]; [cbn; tauto|]). lia. }
    transitivity (gmul z (gmul x y)); [symmetry; exact (HG y Hy)|]. rewrite <- HP. rewrite <- HZ. apply HG. unfold byte. lia.
Qed.

(** ** The substitution *)
Definition affine_bit (y i : Z) : bool :=
  xorb (Z.testbit y i) (xorb (Z.testbit y ((i + 4) mod 8)) (xorb (Z.testbit y ((i + 5) mod 8))
        (xorb (Z.testbit y ((i + 6) mod 8)) (xorb (Z.testbit y ((i + 7) mod 8)) (Z.testbit 0x63 i))))).
Lemma sbox_check : forallb (fun x => let y := inverse_at x in let s := sub_byte x in (0 <=? s) && (s <? 256) &&
  forallb (fun i => Bool.eqb (Z.testbit s i) (affine_bit y i)) [0; 1; 2; 3; 4; 5; 6; 7] &&
  (inv_sub_byte s =? x) && (sub_byte (inv_sub_byte x) =? x) && (0 <=? inv_sub_byte x) && (inv_sub_byte x <? 256)) all_bytes = true.
Proof. vm_compute. reflexivity. Qed.
Lemma sub_byte_byte x : byte x -> byte (sub_byte x).
Proof. intros Hx. pose proof (check_bytes _ sbox_check x Hx) as HC. cbn beta zeta in HC. rewrite !andb_true_iff in HC. unfold byte. lia. Qed.
Lemma inv_sub_byte_byte x : byte x -> byte (inv_sub_byte x).
Proof. intros Hx. pose proof (check_bytes _ sbox_check x Hx) as HC. cbn beta zeta in HC. rewrite !andb_true_iff in HC. unfold byte. lia. Qed.
Lemma inv_sub_sub x : byte x -> inv_sub_byte (sub_byte x) = x.
Proof. intros Hx. pose proof (check_bytes _ sbox_check x Hx) as HC. cbn beta zeta in HC. rewrite !andb_true_iff in HC. lia. Qed.
Lemma sub_inv_sub x : byte x -> sub_byte (inv_sub_byte x) = x.
Proof. intros Hx. pose proof (check_bytes _ sbox_check x Hx) as HC. cbn beta zeta in HC. rewrite !andb_true_iff in HC. lia. Qed.
Lemma substituted_iff x s : byte x -> (substituted x s <-> s = sub_byte x).
Proof.
  intros Hx. pose proof (check_bytes _ sbox_check x Hx) as HC. cbn beta zeta in HC. rewrite !andb_true_iff in HC.
  assert (forall i, 0 <= i < 8 -> Z.testbit (sub_byte x) i = affine_bit (inverse_at x) i) as HB.
  { assert (HF : forallb (fun i => Bool.eqb (Z.testbit (sub_byte x) i) (affine_bit (inverse_at x) i)) [0; 1; 2; 3; 4; 5; 6; 7] = true) by tauto.
    intros i Hi. apply eqb_prop. eapply forallb_forall in HF; [exact HF|]. cbn. lia. }
  split.
  - intros (y & HY & Hs & HE). apply (inverse_unique x y Hx) in HY. subst y. apply (bits_ext 8); [exact Hs|exact (sub_byte_byte x Hx)|]. intros i Hi. rewrite HB by exact Hi. exact (HE i Hi).
  - intros ->. exists (inverse_at x). split; [now apply inverse_at_ok|]. split; [now apply sub_byte_byte|exact HB].
Qed.

(** ** Multiplication by x *)
Lemma xtime_linear : linear xtime.
Proof.
  intros a b. unfold xtime. rewrite Z.shiftl_lxor, Z.lxor_spec. apply Z.bits_inj'. intros i _. rewrite !Z.lxor_spec, !Z.land_spec, !Z.lxor_spec.
  destruct (Z.testbit a 7), (Z.testbit b 7); cbn [xorb]; rewrite ?Z.bits_0; btauto.
Qed.
Lemma xtime_check : forallb (fun x => (xtime x =? gmul 2 x) && (mul3 x =? gmul 3 x)) all_bytes = true.
Proof. vm_compute. reflexivity. Qed.
Lemma xtime_byte x : byte (xtime x).
Proof. unfold xtime, byte. change 255 with (Z.ones 8). rewrite Z.land_ones by lia. apply Z.mod_pos_bound. lia. Qed.
Lemma product_2 x c : byte x -> (product 2 x c <-> c = xtime x).
Proof. intros Hx. rewrite product_iff by (unfold byte; lia). pose proof (check_bytes _ xtime_check x Hx) as HC. cbn beta in HC. replace (xtime x) with (gmul 2 x) by lia. reflexivity. Qed.
Lemma product_3 x c : byte x -> (product 3 x c <-> c = mul3 x).
Proof. intros Hx. rewrite product_iff by (unfold byte; lia). pose proof (check_bytes _ xtime_check x Hx) as HC. cbn beta in HC. replace (mul3 x) with (gmul 3 x) by lia. reflexivity. Qed.
Ltac columns_tac :=
  unfold mix_column, inv_mix_column, xor4, mul3, mul9, mul11, mul13, mul14; rewrite !xtime_linear; apply Z.bits_inj'; intros i _; rewrite !Z.lxor_spec; btauto.
Lemma inv_mix_mix a b c d : match mix_column a b c d with [a'; b'; c'; d'] => inv_mix_column a' b' c' d' = [a; b; c; d] | _ => False end.
Proof.
  unfold mix_column. unfold inv_mix_column. repeat f_equal; columns_tac.
Qed.
Lemma mix_inv_mix a b c d : match inv_mix_column a b c d with [a'; b'; c'; d'] => mix_column a' b' c' d' = [a; b; c; d] | _ => False end.
Proof.
  unfold inv_mix_column. unfold mix_column. repeat f_equal; columns_tac.
Qed.
