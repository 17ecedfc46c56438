From Verif.Model Require Import Py Text Cashaddr.
From Verif.Spec Require Import CashaddrSpec.
From Verif.Proofs Require Import PyFacts ScriptFacts Digits.

(** ** The checksum is linear *)
Definition feedback (c0 : Z) : Z :=
  Z.lxor (if Z.testbit c0 0 then 0x98f2bc8e61 else 0) (Z.lxor (if Z.testbit c0 1 then 0x79b76d99e2 else 0)
  (Z.lxor (if Z.testbit c0 2 then 0xf33e5fb3c4 else 0) (Z.lxor (if Z.testbit c0 3 then 0xae2eabe2a8 else 0)
  (if Z.testbit c0 4 then 0x1e4f43e470 else 0)))).
Lemma land_pow c n : 0 <= n -> (Z.land c (2 ^ n) =? 0) = negb (Z.testbit c n).
Proof.
  intros Hn. destruct (Z.testbit c n) eqn:E; cbn [negb].
  - apply Z.eqb_neq. intros HZ. assert (HT : Z.testbit (Z.land c (2 ^ n)) n = false) by (rewrite HZ; apply Z.bits_0). rewrite Z.land_spec, E, Z.pow2_bits_true in HT by exact Hn. discriminate.
  - apply Z.eqb_eq. apply Z.bits_inj'. intros i Hi. rewrite Z.land_spec, Z.bits_0, Z.pow2_bits_eqb by exact Hn. destruct (Z.eqb_spec n i) as [<-|]; [rewrite E; reflexivity|apply andb_false_r].
Qed.
Lemma step_feedback c d : polymod_step c d = Z.lxor (Z.lxor (Z.shiftl (Z.land c 0x07ffffffff) 5) d) (feedback (Z.shiftr c 35)).
Proof.
  unfold polymod_step, feedback. cbv zeta. set (c0 := Z.shiftr c 35). set (x := Z.lxor _ d).
  change (Z.land c0 1) with (Z.land c0 (2 ^ 0)). change (Z.land c0 2) with (Z.land c0 (2 ^ 1)). change (Z.land c0 4) with (Z.land c0 (2 ^ 2)).
  change (Z.land c0 8) with (Z.land c0 (2 ^ 3)). change (Z.land c0 16) with (Z.land c0 (2 ^ 4)). rewrite !land_pow by lia.
  destruct (Z.testbit c0 0), (Z.testbit c0 1), (Z.testbit c0 2), (Z.testbit c0 3), (Z.testbit c0 4); cbn [negb]; rewrite <- ?Z.lxor_assoc, ?Z.lxor_0_r; reflexivity.
Qed.
Lemma sel_xor (b b' : bool) g : (if xorb b b' then g else 0) = Z.lxor (if b then g else 0) (if b' then g else 0).
Proof. destruct b, b'; cbn; rewrite ?Z.lxor_nilpotent, ?Z.lxor_0_r; reflexivity. Qed.
Lemma xor_swap a b c d : Z.lxor (Z.lxor a b) (Z.lxor c d) = Z.lxor (Z.lxor a c) (Z.lxor b d).
Proof. apply Z.bits_inj'. intros i _. rewrite !Z.lxor_spec. destruct (Z.testbit a i), (Z.testbit b i), (Z.testbit c i), (Z.testbit d i); reflexivity. Qed.
Lemma feedback_xor a b : feedback (Z.lxor a b) = Z.lxor (feedback a) (feedback b).
Proof.
  unfold feedback. rewrite !Z.lxor_spec, !sel_xor.
  generalize (if Z.testbit a 0 then 0x98f2bc8e61 else 0) (if Z.testbit b 0 then 0x98f2bc8e61 else 0) (if Z.testbit a 1 then 0x79b76d99e2 else 0) (if Z.testbit b 1 then 0x79b76d99e2 else 0)
    (if Z.testbit a 2 then 0xf33e5fb3c4 else 0) (if Z.testbit b 2 then 0xf33e5fb3c4 else 0) (if Z.testbit a 3 then 0xae2eabe2a8 else 0) (if Z.testbit b 3 then 0xae2eabe2a8 else 0)
    (if Z.testbit a 4 then 0x1e4f43e470 else 0) (if Z.testbit b 4 then 0x1e4f43e470 else 0). intros a0 b0 a1 b1 a2 b2 a3 b3 a4 b4.
  rewrite (xor_swap a3 b3 a4 b4), (xor_swap a2 b2), (xor_swap a1 b1), (xor_swap a0 b0). reflexivity.
Qed.
Lemma land_xor_l a b m : Z.land (Z.lxor a b) m = Z.lxor (Z.land a m) (Z.land b m).
Proof. apply Z.bits_inj'. intros i _. rewrite Z.land_spec, !Z.lxor_spec, !Z.land_spec. destruct (Z.testbit a i), (Z.testbit b i), (Z.testbit m i); reflexivity. Qed.
Lemma step_xor c c' d d' : polymod_step (Z.lxor c c') (Z.lxor d d') = Z.lxor (polymod_step c d) (polymod_step c' d').
Proof.
  rewrite !step_feedback, Z.shiftr_lxor, feedback_xor, land_xor_l, Z.shiftl_lxor. set (a := Z.shiftl _ 5). set (b := Z.shiftl _ 5). rewrite (xor_swap a b d d'). apply xor_swap.
Qed.

Lemma lxor_range n a b : 0 <= n -> 0 <= a < 2 ^ n -> 0 <= b < 2 ^ n -> 0 <= Z.lxor a b < 2 ^ n.
Proof.
  intros Hn Ha Hb. split; [apply Z.lxor_nonneg; lia|]. assert (HX : Z.lxor a b mod 2 ^ n = Z.lxor a b).
  { apply Z.bits_inj'. intros i Hi. destruct (Z.ltb_spec i n); [now rewrite Z.mod_pow2_bits_low by lia|]. rewrite Z.mod_pow2_bits_high by lia. rewrite Z.lxor_spec.
    rewrite <- (Z.mod_small a (2 ^ n)), <- (Z.mod_small b (2 ^ n)) by assumption. now rewrite !Z.mod_pow2_bits_high by lia. }
  rewrite <- HX. apply Z.mod_pos_bound. lia.
Qed.
Lemma lxor_eq0 a b : Z.lxor a b = 0 <-> a = b.
Proof. split; [apply Z.lxor_eq|intros ->; apply Z.lxor_nilpotent]. Qed.
Lemma shifted_range c : 0 <= Z.shiftl (Z.land c 0x07ffffffff) 5 < 2 ^ 40.
Proof. change 0x07ffffffff with (Z.ones 35). rewrite Z.land_ones, Z.shiftl_mul_pow2 by lia. pose proof (Z.mod_pos_bound c (2 ^ 35) ltac:(lia)). lia. Qed.
Lemma feedback_range x : 0 <= feedback x < 2 ^ 40.
Proof. unfold feedback. repeat apply lxor_range; try lia; match goal with |- context [if ?b then _ else _] => destruct b; lia end. Qed.
Lemma step_range c d : 0 <= d < 32 -> 0 <= polymod_step c d < 2 ^ 40.
Proof. intros Hd. rewrite step_feedback. apply lxor_range; [lia| |apply feedback_range]. apply lxor_range; [lia|apply shifted_range|lia]. Qed.

Definition run (c : Z) (l : list Z) : Z := fold_left polymod_step l c.
Definition symbols_ok (l : list Z) : Prop := Forall (fun s => 0 <= s < 32) l.
Definition xors (a b : list Z) : list Z := map (fun p => Z.lxor (fst p) (snd p)) (combine a b).
Lemma run_app c a b : run c (a ++ b) = run (run c a) b.
Proof. apply fold_left_app. Qed.
Lemma run_xor l : forall l' c c', length l = length l' -> run (Z.lxor c c') (xors l l') = Z.lxor (run c l) (run c' l').
Proof.
  induction l as [|x l IH]; intros [|y l'] c c' HL; try discriminate HL; [reflexivity|]. cbn [xors combine map fst snd run fold_left]. rewrite step_xor. apply (IH l'). now injection HL.
Qed.
Lemma run_range l : forall c, symbols_ok l -> 0 <= c < 2 ^ 40 -> 0 <= run c l < 2 ^ 40.
Proof. induction l as [|x l IH]; intros c HS Hc; [exact Hc|]. inversion HS; subst. cbn [run fold_left]. apply IH; [assumption|]. now apply step_range. Qed.
Lemma step_small c d : 0 <= c < 2 ^ 35 -> 0 <= d < 32 -> polymod_step c d = 32 * c + d.
Proof.
  intros Hc Hd. rewrite step_feedback. rewrite (Z.shiftr_div_pow2 c 35), (Z.div_small c) by lia. change (feedback 0) with 0. rewrite Z.lxor_0_r.
  change 0x07ffffffff with (Z.ones 35). rewrite Z.land_ones, Z.mod_small, Z.shiftl_mul_pow2 by lia. rewrite <- Z.add_nocarry_lxor; [lia|].
  apply Z.bits_inj'. intros i Hi. rewrite Z.land_spec, Z.bits_0. destruct (Z.ltb_spec i 5).
  - rewrite Z.mul_pow2_bits_low by lia. reflexivity.
  - rewrite <- (Z.mod_small d (2 ^ 5)) by lia. rewrite (Z.mod_pow2_bits_high d) by lia. apply andb_false_r.
Qed.
Lemma run_value l : forall c k, symbols_ok l -> 0 <= c < 32 ^ k -> 0 <= k -> k + zlen l <= 8 -> run c l = c * 32 ^ zlen l + vbe 32 l.
Proof.
  induction l as [|x l IH]; intros c k HS Hc Hk HL; [change (c = c * 1 + 0); lia|]. inversion HS as [|? ? Hx HS']; subst. rewrite zlen_cons in HL. pose proof (zlen_nonneg l).
  assert (HP : 32 ^ k <= 32 ^ 7) by (apply Z.pow_le_mono_r; lia). change (32 ^ 7) with (2 ^ 35) in HP. cbn [run fold_left]. rewrite step_small by lia.
  change (fold_left polymod_step l (32 * c + x)) with (run (32 * c + x) l). assert (HP1 : 32 ^ (k + 1) = 32 ^ k * 32) by (rewrite Z.pow_add_r by lia; reflexivity). rewrite (IH _ (k + 1)) by (first [assumption|lia]).
  change (x :: l) with ([x] ++ l). rewrite vbe_app, zlen_app. change (zlen [x]) with 1. change (vbe 32 [x]) with (0 * 32 + x). rewrite Z.pow_add_r by lia. lia.
Qed.
Lemma run_short l : symbols_ok l -> zlen l <= 8 -> run 0 l = vbe 32 l.
Proof. intros HS HL. rewrite (run_value l 0 0) by (first [assumption|lia]). lia. Qed.
Lemma feedback_low x : 0 <= x < 32 -> feedback x mod 32 = x.
Proof.
  intros Hx. apply Z.eqb_eq. revert x Hx. apply zrange_all. vm_compute. reflexivity.
Qed.
Lemma step_zero c : 0 <= c < 2 ^ 40 -> polymod_step c 0 = 0 -> c = 0.
Proof.
  intros Hc HS. rewrite step_feedback, Z.lxor_0_r in HS. apply Z.lxor_eq in HS. change 0x07ffffffff with (Z.ones 35) in HS. rewrite Z.land_ones, Z.shiftl_mul_pow2, Z.shiftr_div_pow2 in HS by lia.
  assert (Hq : 0 <= c / 2 ^ 35 < 32) by (split; [apply Z.div_pos; lia|apply Z.div_lt_upper_bound; lia]). pose proof (feedback_low _ Hq) as HF. rewrite <- HS in HF. change (2 ^ 5) with 32 in HF. rewrite Z.mod_mul in HF by lia.
  rewrite <- HF in HS. change (feedback 0) with 0 in HS. pose proof (Z.div_mod c (2 ^ 35) ltac:(lia)). lia.
Qed.
Lemma run_zeros n : forall c, 0 <= c < 2 ^ 40 -> run c (repeat 0 n) = 0 -> c = 0.
Proof. induction n as [|n IH]; intros c Hc HR; [exact HR|]. cbn [repeat run fold_left] in HR. apply IH in HR; [now apply step_zero|]. apply step_range. lia. Qed.
Lemma run_zeros0 n : run 0 (repeat 0 n) = 0.
Proof. induction n; [reflexivity|]. exact IHn. Qed.

(** ** What the checksum is *)
Lemma polymod_zero l : polymod l = 0 <-> run 1 l = 1.
Proof. unfold polymod. apply lxor_eq0. Qed.
(** The eight base-32 digits *)
Definition digits8 (p : Z) : list Z := map (fun i => Z.land (Z.shiftr p (5 * (7 - i))) 31) (zrange 0 8).
Lemma digits8_ok p : symbols_ok (digits8 p) /\ zlen (digits8 p) = 8.
Proof. split; [|reflexivity]. apply Forall_forall. intros x Hx. apply in_map_iff in Hx as (i & <- & _). change 31 with (Z.ones 5). rewrite Z.land_ones by lia. apply Z.mod_pos_bound. lia. Qed.
Lemma digits8_value p : 0 <= p < 2 ^ 40 -> vbe 32 (digits8 p) = p.
Proof.
  intros Hp. unfold digits8. change (zrange 0 8) with [0; 1; 2; 3; 4; 5; 6; 7]. unfold map. change (5 * (7 - 0)) with 35. change (5 * (7 - 1)) with 30. change (5 * (7 - 2)) with 25. change (5 * (7 - 3)) with 20. change (5 * (7 - 4)) with 15.
  change (5 * (7 - 5)) with 10. change (5 * (7 - 6)) with 5. change (5 * (7 - 7)) with 0. change 31 with (Z.ones 5). rewrite !Z.land_ones, !Z.shiftr_div_pow2 by lia. unfold vbe, fold_left.
  change (2 ^ 5) with 32. set (q1 := p / 32). set (q2 := q1 / 32). set (q3 := q2 / 32). set (q4 := q3 / 32). set (q5 := q4 / 32). set (q6 := q5 / 32). set (q7 := q6 / 32).
  replace (p / 2 ^ 0) with p by (rewrite Z.div_1_r; reflexivity).
  assert (E2 : p / 2 ^ 10 = q2) by (unfold q2, q1; rewrite !Z.div_div by lia; reflexivity). assert (E3 : p / 2 ^ 15 = q3) by (unfold q3, q2, q1; rewrite !Z.div_div by lia; reflexivity).
  assert (E4 : p / 2 ^ 20 = q4) by (unfold q4, q3, q2, q1; rewrite !Z.div_div by lia; reflexivity). assert (E5 : p / 2 ^ 25 = q5) by (unfold q5, q4, q3, q2, q1; rewrite !Z.div_div by lia; reflexivity).
  assert (E6 : p / 2 ^ 30 = q6) by (unfold q6, q5, q4, q3, q2, q1; rewrite !Z.div_div by lia; reflexivity). assert (E7 : p / 2 ^ 35 = q7) by (unfold q7, q6, q5, q4, q3, q2, q1; rewrite !Z.div_div by lia; reflexivity).
  rewrite E2, E3, E4, E5, E6, E7. assert (H7 : 0 <= q7 < 32) by (rewrite <- E7; split; [apply Z.div_pos; lia|apply Z.div_lt_upper_bound; lia]). rewrite (Z.mod_small q7) by exact H7.
  pose proof (Z.div_mod p 32 ltac:(lia)). pose proof (Z.div_mod q1 32 ltac:(lia)). pose proof (Z.div_mod q2 32 ltac:(lia)). pose proof (Z.div_mod q3 32 ltac:(lia)). pose proof (Z.div_mod q4 32 ltac:(lia)). pose proof (Z.div_mod q5 32 ltac:(lia)). pose proof (Z.div_mod q6 32 ltac:(lia)).
  unfold q7 in *. fold q6 in H7. unfold q1, q2, q3, q4, q5, q6 in *. lia.
Qed.
Lemma symbols_app a b : symbols_ok (a ++ b) <-> symbols_ok a /\ symbols_ok b.
Proof. apply Forall_app. Qed.
Lemma xors_zeros_l l n : length l = n -> xors (repeat 0 n) l = l.
Proof. intros <-. induction l; [reflexivity|]. unfold xors in *. cbn [length repeat combine map fst snd]. now rewrite IHl, Z.lxor_0_l. Qed.
Lemma vbe_inj a b : symbols_ok a -> symbols_ok b -> length a = length b -> vbe 32 a = vbe 32 b -> a = b.
Proof. apply vbe_unique. lia. Qed.
(** Exactly one choice of eight final symbols gives checksum zero: the one created. *)
Lemma checksum_unique pre data cs : symbols_ok pre -> symbols_ok data -> symbols_ok cs -> zlen cs = 8 ->
  polymod (pre ++ data ++ cs) = 0 <-> cs = digits8 (polymod (pre ++ data ++ zrepeat 0 8)).
Proof.
  intros Hp Hd Hc HL. rewrite polymod_zero. unfold polymod. fold (run 1 (pre ++ data ++ zrepeat 0 8)). rewrite !app_assoc, (run_app 1 (pre ++ data) cs), (run_app 1 (pre ++ data) (zrepeat 0 8)). set (c := run 1 (pre ++ data)).
  assert (Hcr : 0 <= c < 2 ^ 40) by (apply run_range; [now apply symbols_app|lia]). assert (HLn : length cs = 8%nat) by (unfold zlen in HL; lia). set (z := run c (zrepeat 0 8)).
  assert (Hz : 0 <= z < 2 ^ 40) by (apply run_range; [repeat constructor; lia|exact Hcr]).
  assert (HR : run c cs = Z.lxor z (vbe 32 cs)).
  { rewrite <- (run_short cs) by (try assumption; lia). unfold z. rewrite <- run_xor by (rewrite HLn; reflexivity). rewrite Z.lxor_0_r. change (zrepeat 0 8) with (repeat 0 8). now rewrite xors_zeros_l. }
  rewrite HR. assert (HX : 0 <= Z.lxor z 1 < 2 ^ 40) by (apply lxor_range; lia). destruct (digits8_ok (Z.lxor z 1)) as [D1 D2]. split.
  - intros HE. apply vbe_inj; [exact Hc|exact D1|rewrite HLn; reflexivity|]. rewrite digits8_value by exact HX. rewrite <- HE, <- Z.lxor_assoc, Z.lxor_nilpotent, Z.lxor_0_l. reflexivity.
  - intros ->. rewrite digits8_value by exact HX. rewrite <- Z.lxor_assoc, Z.lxor_nilpotent, Z.lxor_0_l. reflexivity.
Qed.

(** ** Errors that cannot pass *)
Definition nonzero (l : list Z) : Prop := exists x, In x l /\ x <> 0.
Lemma vbe_zero l : symbols_ok l -> vbe 32 l = 0 -> l = repeat 0 (length l).
Proof. intros HS HV. apply vbe_inj; [exact HS| |now rewrite repeat_length|]. { apply Forall_forall. intros x Hx. apply repeat_spec in Hx. lia. } rewrite HV. symmetry. rewrite <- (app_nil_r (repeat 0 (length l))). rewrite vbe_zeros. reflexivity. Qed.
Lemma burst_detected a w b : symbols_ok w -> zlen w <= 8 -> run 0 (repeat 0 a ++ w ++ repeat 0 b) = 0 -> w = repeat 0 (length w).
Proof.
  intros HS HL HR. rewrite !run_app, run_zeros0, run_short in HR by assumption. apply vbe_zero; [exact HS|]. apply (run_zeros b); [|exact HR].
  pose proof (vbe_bound 32 ltac:(lia) w HS) as HB. assert (32 ^ zlen w <= 32 ^ 8) by (apply Z.pow_le_mono_r; lia). change (32 ^ 8) with (2 ^ 40) in *. lia.
Qed.
(** The 123 successive states after a single wrong symbol all have a nonzero part above the lowest five bits. *)
Definition never_small (n : nat) : bool := forallb (fun x => snd (Nat.iter n (fun '(c, ok) => let c := polymod_step c 0 in (c, ok && (32 <=? c))) (x, true))) (zrange 1 32).
Lemma never_small_123 : never_small 123 = true.
Proof. vm_compute. reflexivity. Qed.
Lemma run_iter n c : run c (repeat 0 n) = Nat.iter n (fun c => polymod_step c 0) c.
Proof. induction n as [|n IH]; [reflexivity|]. change (repeat 0 (S n)) with (0 :: repeat 0 n). rewrite repeat_cons, run_app, IH. reflexivity. Qed.
Lemma iter_pair n c ok : Nat.iter n (fun '(c, ok) => let c := polymod_step c 0 in (c, ok && (32 <=? c))) (c, ok) =
  (run c (repeat 0 n), ok && forallb (fun k => 32 <=? run c (repeat 0 k)) (seq 1 n)).
Proof.
  induction n as [|n IH]; [cbn; now rewrite andb_true_r|]. cbn [Nat.iter nat_rect]. unfold Nat.iter in IH. rewrite IH. rewrite seq_S, forallb_app. cbn [forallb Nat.add]. rewrite !run_iter. cbn [Nat.iter nat_rect]. rewrite andb_true_r, andb_assoc. reflexivity.
Qed.
Lemma single_state x k : 0 < x < 32 -> (1 <= k <= 123)%nat -> 32 <= run x (repeat 0 k).
Proof.
  intros Hx Hk. pose proof never_small_123 as HN. unfold never_small in HN. pose proof (zrange_all _ _ _ HN x ltac:(lia)) as HX. cbv beta in HX. rewrite iter_pair in HX. cbn [snd andb] in HX.
  rewrite forallb_forall in HX. apply Z.leb_le. apply HX. apply in_seq. lia.
Qed.
Lemma double_detected a x m y b : 0 < x < 32 -> 0 <= y < 32 -> (m <= 122)%nat -> run 0 (repeat 0 a ++ [x] ++ repeat 0 m ++ [y] ++ repeat 0 b) <> 0.
Proof.
  intros Hx Hy Hm HR. rewrite !run_app, run_zeros0 in HR. assert (HX : run 0 [x] = x) by (cbn [run fold_left]; rewrite step_small; lia). rewrite HX in HR.
  set (s := run x (repeat 0 m)) in *. change (run s [y]) with (polymod_step s y) in HR. apply run_zeros in HR; [|now apply step_range].
  assert (HS : polymod_step s 0 = run x (repeat 0 (S m))) by (unfold s; rewrite !run_iter; reflexivity).
  replace (polymod_step s y) with (Z.lxor (polymod_step s 0) (polymod_step 0 y)) in HR by (rewrite <- step_xor, Z.lxor_0_r, Z.lxor_0_l; reflexivity).
  apply Z.lxor_eq in HR. rewrite (step_small 0 y) in HR by lia. rewrite HS in HR. pose proof (single_state x (S m) Hx ltac:(lia)). lia.
Qed.
