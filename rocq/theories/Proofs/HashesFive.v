(** The rounds of SHA-1 and RIPEMD-160 follow the recurrences of the specification. *)
From Verif.Model Require Import Py Hashes.
From Verif.Spec Require Import HashSpec.
From Verif.Proofs Require Import PyFacts WorkFacts HashesFacts HashesWords HashesSha2.

Ltac same := first [reflexivity | lia | progress f_equal; same].

Definition list5 (s : state5) : list Z := let '(St5 a b c d e) := s in [a; b; c; d; e].
Definition good5 (s : state5) : Prop := Forall (word_in 32) (list5 s).
Lemma list5_inj s t : list5 s = list5 t -> s = t.
Proof. destruct s, t. cbn. congruence. Qed.
Lemma state5_eq_dec (s t : state5) : {s = t} + {s <> t}.
Proof. destruct (list_eq_dec Z.eq_dec (list5 s) (list5 t)) as [E|E]; [left; now apply list5_inj|right; congruence]. Qed.
Lemma good5_intro a b c d e : word_in 32 a -> word_in 32 b -> word_in 32 c -> word_in 32 d -> word_in 32 e -> good5 (St5 a b c d e).
Proof. intros. unfold good5. cbn [list5]. repeat apply Forall_cons; try apply Forall_nil; assumption. Qed.
Lemma good5_elim a b c d e : good5 (St5 a b c d e) -> word_in 32 a /\ word_in 32 b /\ word_in 32 c /\ word_in 32 d /\ word_in 32 e.
Proof. unfold good5. cbn [list5]. intros H. repeat match type of H with Forall _ (_ :: _) => apply Forall_cons_iff in H as [? H] end. auto. Qed.
Lemma block_words5 big b : bytes_ok b = true -> zlen b = 64 -> words_text (lendian big 4) (words_of big 32 b) b /\ length (words_of big 32 b) = 16%nat /\ Forall (word_in 32) (words_of big 32 b).
Proof.
  intros HO HL. split; [|split].
  - apply (words_of_text big 32); try lia; [exact HO|]. rewrite HL. reflexivity.
  - pose proof (words_of_zlen big 32 b 16 ltac:(lia) ltac:(lia) HO ltac:(rewrite HL; reflexivity)) as H. unfold zlen in H. lia.
  - apply words_of_in. lia.
Qed.
Lemma nth_zrange_nat n : forall a k, (k < n)%nat -> nth k (zrange_nat a n) 0 = a + Z.of_nat k.
Proof. induction n as [|n IH]; intros a k Hk; [lia|]. destruct k as [|k]; cbn [zrange_nat nth]; [lia|]. rewrite IH by lia. lia. Qed.
Lemma nth_zrange b k : (k < Z.to_nat b)%nat -> nth k (zrange 0 b) 0 = Z.of_nat k.
Proof. intros Hk. unfold zrange. rewrite nth_zrange_nat; lia. Qed.
Lemma skipn_nth (l : list Z) n : (n < length l)%nat -> skipn n l = nth n l 0 :: skipn (S n) l.
Proof. revert n. induction l as [|x l IH]; intros n Hn; [cbn in Hn; lia|]. destruct n as [|n]; [reflexivity|]. cbn [skipn nth]. apply IH. cbn in Hn. lia. Qed.

(** ** SHA-1 *)
Section Sha1.
  Variables (K : Z -> Z) (f : Z -> Z -> Z -> Z -> Z).
  Hypothesis K_ok : forall t, 0 <= t < 80 -> K t = sha1_K t.
  Hypothesis f_ok : forall t x y z, 0 <= t < 80 -> f t x y z = sha1_f t x y z.
  Section OneBlock.
    Variables (ws : list Z) (s : state5).
    Hypothesis ws_len : length ws = 16%nat.
    Hypothesis ws_in : Forall (word_in 32) ws.
    Hypothesis s_good : good5 s.
    Notation W := (wat sha1_next ws).
    Fixpoint st1 (n : nat) : state5 := match n with O => s | S n' => sha1_round (st1 n') (Z.of_nat n') (W n') end.
    Lemma rounds_st1 k : forall n, (n + k = 80)%nat -> sha1_rounds (skipn n (zrange 0 80)) (win sha1_next ws n) (st1 n) = st1 80.
    Proof using.
      clear. induction k as [|k IH]; intros n HK.
      - rewrite Nat.add_0_r in HK. subst n. reflexivity.
      - rewrite skipn_nth by (change (length (zrange 0 80)) with 80%nat; lia). rewrite nth_zrange by (change (Z.to_nat 80) with 80%nat; lia).
        cbn [sha1_rounds]. rewrite hd_wat. exact (IH (S n) ltac:(lia)).
    Qed.
    Lemma st1_good n : good5 (st1 n).
    Proof using s_good.
      clear - s_good. induction n as [|n IH]; [exact s_good|]. cbn [st1]. destruct (st1 n) as [a b c d e]. cbn [sha1_round]. apply good5_elim in IH as (? & ? & ? & ? & ?).
      apply good5_intro; try assumption; [apply wmod_in|apply rotr_in]; lia.
    Qed.
    Lemma W1_in n : word_in 32 (W n).
    Proof using ws_in ws_len. clear - ws_in ws_len. apply (wat_forall sha1_next ws ws_len (word_in 32)); [exact ws_in|]. intros l. apply rotr_in. lia. Qed.
    Lemma W1_next n : (16 <= n)%nat -> W n = rol 32 1 (Z.lxor (W (n - 3)) (Z.lxor (W (n - 8)) (Z.lxor (W (n - 14)) (W (n - 16))))).
    Proof using ws_in ws_len.
      clear - ws_in ws_len. intros Hn. replace n with (n - 16 + 16)%nat at 1 by lia. rewrite wat_next by exact ws_len. unfold sha1_next. rewrite !win_at by (try exact ws_len; lia).
      rewrite rotl_rol by (try lia; repeat apply lxor_in; try lia; apply W1_in). unfold xor3. rewrite !Z.lxor_assoc. same.
    Qed.
    Section Follow.
      Variables (M : list Z) (W' A : Z -> Z).
      Hypothesis M_ws : M = ws.
      Hypothesis W_first : forall t, 0 <= t < 16 -> znth M t = Some (W' t).
      Hypothesis W_rest : forall t, 16 <= t < 80 -> W' t = rol 32 1 (Z.lxor (W' (t - 3)) (Z.lxor (W' (t - 8)) (Z.lxor (W' (t - 14)) (W' (t - 16))))).
      Hypothesis A_in : forall t, -4 <= t <= 0 -> word_in 32 (A t).
      Hypothesis start : list5 s = [A 0; A (-1); rol 32 30 (A (-2)); rol 32 30 (A (-3)); rol 32 30 (A (-4))].
      Hypothesis steps : forall t, 0 <= t < 80 -> A (t + 1) =
         (rol 32 5 (A t) + f t (A (t - 1)) (rol 32 30 (A (t - 2))) (rol 32 30 (A (t - 3))) + rol 32 30 (A (t - 4)) + K t + W' t) mod 2 ^ 32.
      Lemma follow1_W n : (n < 80)%nat -> W' (Z.of_nat n) = W n.
      Proof using M_ws W_first W_rest ws_in ws_len.
        clear - M_ws W_first W_rest ws_in ws_len.
        induction n as [n IH] using (well_founded_induction lt_wf). intros Hn. destruct (Nat.lt_ge_cases n 16) as [H|H].
        - rewrite wat_first by assumption. specialize (W_first (Z.of_nat n) ltac:(lia)). rewrite M_ws, znth_nth_error, Nat2Z.id in W_first by lia. symmetry. now apply nth_error_nth.
        - rewrite W_rest, W1_next by lia. f_equal. f_equal; [|f_equal; [|f_equal]]; match goal with |- _ = W ?k => rewrite <- (IH k) by lia end; f_equal; lia.
      Qed.
      Lemma follow1 n : (n <= 80)%nat -> let t := Z.of_nat n in
        st1 n = St5 (A t) (A (t - 1)) (rol 32 30 (A (t - 2))) (rol 32 30 (A (t - 3))) (rol 32 30 (A (t - 4))).
      Proof using M_ws W_first W_rest A_in start steps ws_in ws_len s_good K_ok f_ok.
        induction n as [|n IH]; intros Hn t.
        - unfold t. cbn [st1]. apply list5_inj. rewrite start. reflexivity.
        - specialize (IH ltac:(lia)). cbn zeta in IH. pose proof (st1_good n) as HG. rewrite IH in HG. apply good5_elim in HG as (? & ? & _ & _ & _). cbn [st1]. rewrite IH. cbn [sha1_round].
          rewrite !rotl_rol by (try lia; assumption). unfold wmod. specialize (steps (Z.of_nat n) ltac:(lia)). rewrite follow1_W, K_ok, f_ok in steps by lia.
          replace t with (Z.of_nat n + 1) by (unfold t; lia). rewrite steps. f_equal; same.
      Qed.
    End Follow.
  End OneBlock.
  Lemma compress1_st1 s b : sha1_compress s b =
    let '(St5 a b' c d e) := s in let '(St5 a' b'' c' d' e') := st1 (words_be 32 b) s 80 in
    St5 (wmod 32 (a + a')) (wmod 32 (b' + b'')) (wmod 32 (c + c')) (wmod 32 (d + d')) (wmod 32 (e + e')).
  Proof using. clear. unfold sha1_compress. rewrite <- (rounds_st1 (words_be 32 b) s 80 0 eq_refl). reflexivity. Qed.
  Lemma compress1_good s b : good5 (sha1_compress s b).
  Proof using. clear. rewrite compress1_st1. destruct s, (st1 _ _ _). apply good5_intro; apply wmod_in; lia. Qed.
  Notation spec := (sha1_step K f).
  Lemma step1_unique s b H' : good5 s -> bytes_ok b = true -> zlen b = 64 -> spec (list5 s) b H' -> H' = list5 (sha1_compress s b).
  Proof using K_ok f_ok.
    intros HG HO HL (M & W' & A & HM & HM16 & HW & HR & HA & HS & HT & HH). destruct (block_words5 true b HO HL) as (BW & BL & BI). cbn [words_of lendian] in *.
    assert (M = words_be 32 b) as EM by (eapply (texts_functional true); [|exact HM|exact BW]; lia).
    rewrite compress1_st1. rewrite (follow1 (words_be 32 b) s BL BI HG M W' A EM HW HR HA HS HT 80 ltac:(lia)).
    rewrite HH. destruct s. cbn [list5] in HS. injection HS as -> -> -> -> ->. reflexivity.
  Qed.
  Lemma step1_exists s b : good5 s -> bytes_ok b = true -> zlen b = 64 -> spec (list5 s) b (list5 (sha1_compress s b)).
  Proof using K_ok f_ok.
    intros HG HO HL. destruct (block_words5 true b HO HL) as (BW & BL & BI). cbn [words_of lendian] in *. set (ws := words_be 32 b) in *.
    set (fa := fun s => let '(St5 a _ _ _ _) := s in a).
    set (A := fun t => if 0 <=? t then fa (st1 ws s (Z.to_nat t)) else if t =? -1 then nth 1 (list5 s) 0 else ror 32 30 (nth (Z.to_nat (- t)) (list5 s) 0)).
    assert (forall t, 0 <= t -> A t = fa (st1 ws s (Z.to_nat t))) as HA0 by (intros t Ht; unfold A; now rewrite (proj2 (Z.leb_le 0 t) Ht)).
    assert (forall n, let t := Z.of_nat n in st1 ws s n = St5 (A t) (A (t - 1)) (rol 32 30 (A (t - 2))) (rol 32 30 (A (t - 3))) (rol 32 30 (A (t - 4)))) as INV.
    { induction n as [|n IH]; intros t.
      - unfold t. change (st1 ws s 0) with s. change (Z.of_nat 0 - 1) with (-1). change (Z.of_nat 0 - 2) with (-2). change (Z.of_nat 0 - 3) with (-3). change (Z.of_nat 0 - 4) with (-4). change (Z.of_nat 0) with 0.
        clear HA0. destruct s as [a b' c d e]. apply good5_elim in HG as (? & ? & ? & ? & ?).
        change (A 0) with a. change (A (-1)) with b'. change (A (-2)) with (ror 32 30 c). change (A (-3)) with (ror 32 30 d). change (A (-4)) with (ror 32 30 e). now rewrite !rol_ror by (try lia; assumption).
      - subst t. cbn zeta in IH. rewrite (HA0 (Z.of_nat (S n))) by lia. rewrite Nat2Z.id. cbn [st1]. pose proof (st1_good ws s HG n) as HGn. rewrite IH in HGn |- *. apply good5_elim in HGn as (? & ? & _). cbn [sha1_round fa].
        rewrite !rotl_rol by (try lia; assumption).
        replace (Z.of_nat (S n) - 1) with (Z.of_nat n) by lia. replace (Z.of_nat (S n) - 2) with (Z.of_nat n - 1) by lia. replace (Z.of_nat (S n) - 3) with (Z.of_nat n - 2) by lia. replace (Z.of_nat (S n) - 4) with (Z.of_nat n - 3) by lia. reflexivity. }
    assert (forall t, -4 <= t <= 0 -> word_in 32 (A t)) as HAin.
    { intros t Ht. destruct s as [a b' c d e] eqn:Es. pose proof HG as HG'. apply good5_elim in HG' as (? & ? & ? & ? & ?).
      assert (t = 0 \/ t = -1 \/ t = -2 \/ t = -3 \/ t = -4) as [-> |[-> |[-> |[-> | ->]]]] by lia; unfold A; cbn -[ror]; try assumption; apply ror_in; try lia; assumption. }
    clearbody A. exists ws, (fun t => wat sha1_next ws (Z.to_nat t)), A.
    split; [exact BW|]. split; [unfold zlen; lia|]. split; [|split; [|split; [exact HAin|split; [|split]]]].
    - intros t Ht. rewrite wat_first by lia. rewrite znth_nth_error by lia. apply nth_error_nth'. lia.
    - intros t Ht. rewrite (W1_next ws BL BI) by lia. same.
    - change s with (st1 ws s 0) at 1. rewrite (INV 0%nat). reflexivity.
    - intros t Ht. pose proof (INV (Z.to_nat t)) as I0. pose proof (INV (S (Z.to_nat t))) as I1. cbn zeta in I0, I1. cbn [st1] in I1.
      pose proof (st1_good ws s HG (Z.to_nat t)) as HGt. rewrite I0 in I1, HGt. rewrite Nat2Z.inj_succ, Z2Nat.id in I1 by lia. rewrite Z2Nat.id in HGt by lia. apply good5_elim in HGt as (? & ? & _).
      unfold Z.succ in I1. cbn [sha1_round] in I1. injection I1 as IA _ _ _ _. rewrite <- IA. rewrite !rotl_rol by (try lia; assumption). rewrite K_ok, f_ok by lia. reflexivity.
    - rewrite compress1_st1. fold ws. rewrite (INV 80%nat). pose proof (INV 0%nat) as I0. cbn [st1] in I0. change (Z.of_nat 0) with 0 in I0. rewrite I0. reflexivity.
  Qed.
  Lemma chain1_exact bs : forall s H', good5 s -> Forall (fun b => zlen b = 64) bs -> Forall (fun b => bytes_ok b = true) bs ->
    (chained spec (list5 s) bs H' <-> H' = list5 (fold_left sha1_compress bs s)).
  Proof using K_ok f_ok.
    induction bs as [|b bs IH]; intros s H' HG HL HO.
    - split; [inversion 1; reflexivity|intros ->; constructor].
    - inversion HL; inversion HO; subst. cbn [fold_left]. split.
      + inversion 1 as [|? ? S1 ? ? HS HC]; subst. apply (step1_unique s b S1) in HS; try assumption. subst S1. apply IH in HC; auto using compress1_good.
      + intros ->. econstructor; [apply step1_exists; assumption|]. apply IH; auto using compress1_good.
  Qed.
End Sha1.

(** ** RIPEMD-160 *)
Lemma bitwise32_unique f g h x y z : bitwise32 f g -> bitwise32 f h -> word_in 32 x -> word_in 32 y -> word_in 32 z -> g x y z = h x y z.
Proof.
  intros G H Hx Hy Hz. destruct (G x y z Hx Hy Hz) as [G1 G2], (H x y z Hx Hy Hz) as [H1 H2]. apply Z.bits_inj'. intros i Hi.
  destruct (Z.lt_ge_cases i 32) as [L|L]; [rewrite G2, H2 by lia; reflexivity|].
  assert (forall v, word_in 32 v -> Z.testbit v i = false) as HH.
  { intros v [V0 V1]. destruct (Z.eq_dec v 0) as [-> |]; [apply Z.bits_0|]. apply Z.bits_above_log2; [lia|]. apply Z.log2_lt_pow2; [lia|]. eapply Z.lt_le_trans; [exact V1|]. apply Z.pow_le_mono_r; lia. }
  now rewrite !HH.
Qed.
Lemma wnot_in x : word_in 32 x -> word_in 32 (wnot 32 x).
Proof. unfold word_in, wnot. lia. Qed.
Lemma wnot_bit x i : word_in 32 x -> 0 <= i < 32 -> Z.testbit (wnot 32 x) i = negb (Z.testbit x i).
Proof.
  intros [H0 H1] Hi. unfold wnot. replace (2 ^ 32 - 1) with (Z.ones 32) by reflexivity. rewrite Z.sub_nocarry_ldiff.
  - rewrite Z.ldiff_spec, Z.ones_spec_low by lia. reflexivity.
  - apply Z.ldiff_ones_r_low; [lia|]. destruct (Z.eq_dec x 0) as [-> |]; [reflexivity|]. apply Z.log2_lt_pow2; lia.
Qed.
Lemma bits_in (v : Z) : 0 <= v -> (forall i, 32 <= i -> Z.testbit v i = false) -> word_in 32 v.
Proof.
  intros H0 HB. split; [exact H0|]. destruct (Z.eq_dec v 0) as [-> |HN]; [reflexivity|]. apply Z.log2_lt_pow2; [lia|].
  destruct (Z.lt_ge_cases (Z.log2 v) 32) as [L|L]; [exact L|]. specialize (HB _ L). rewrite Z.bit_log2 in HB by lia. discriminate.
Qed.
Lemma high_bit v i : word_in 32 v -> 32 <= i -> Z.testbit v i = false.
Proof.
  intros [V0 V1] Hi. destruct (Z.eq_dec v 0) as [-> |]; [apply Z.bits_0|]. apply Z.bits_above_log2; [lia|]. apply Z.log2_lt_pow2; [lia|]. eapply Z.lt_le_trans; [exact V1|]. apply Z.pow_le_mono_r; lia.
Qed.
Lemma land_in x y : word_in 32 x -> word_in 32 y -> word_in 32 (Z.land x y).
Proof. intros Hx Hy. apply bits_in; [apply Z.land_nonneg; destruct Hx; lia|]. intros i Hi. rewrite Z.land_spec, !high_bit by assumption. reflexivity. Qed.
Lemma lor_in x y : word_in 32 x -> word_in 32 y -> word_in 32 (Z.lor x y).
Proof. intros Hx Hy. apply bits_in; [apply Z.lor_nonneg; destruct Hx, Hy; lia|]. intros i Hi. rewrite Z.lor_spec, !high_bit by assumption. reflexivity. Qed.
Lemma rmd_f_bits j : 0 <= j < 80 -> bitwise32 (rmd_bits (j / 16)) (rmd_f j).
Proof.
  intros Hj x y z Hx Hy Hz. unfold rmd_f, rmd_bits, Parity.
  assert (j / 16 = 0 /\ j < 16 \/ j / 16 = 1 /\ 16 <= j < 32 \/ j / 16 = 2 /\ 32 <= j < 48 \/ j / 16 = 3 /\ 48 <= j < 64 \/ j / 16 = 4 /\ 64 <= j) as HC by lia.
  destruct HC as [[-> HC]|[[-> HC]|[[-> HC]|[[-> HC]|[-> HC]]]]]; cbn [Z.eqb Pos.eqb];
    repeat match goal with |- context [j <? ?k] => first [rewrite (proj2 (Z.ltb_lt j k)) by lia|rewrite (proj2 (Z.ltb_ge j k)) by lia] end;
    (split; [auto 10 using lxor_in, land_in, lor_in, wnot_in|]);
    try (repeat first [apply lxor_in|apply land_in|apply lor_in|apply wnot_in]; try lia; assumption);
    intros i Hi; rewrite ?Z.lxor_spec, ?Z.lor_spec, ?Z.land_spec, ?Z.lxor_spec, ?Z.lor_spec, ?wnot_bit by assumption;
    now destruct (Z.testbit x i), (Z.testbit y i), (Z.testbit z i).
Qed.
Section Line.
  Variables (flip : bool) (K r s X : list Z) (st : state5).
  Variables (f : Z -> Z -> Z -> Z -> Z) (kf rf sf Xf : Z -> Z).
  Hypothesis f_ok : forall j x y z, 0 <= j < 80 -> word_in 32 x -> word_in 32 y -> word_in 32 z -> f j x y z = rmd_f (if flip then 79 - j else j) x y z.
  Hypothesis k_ok : forall j, 0 <= j < 80 -> kf j = nth (Z.to_nat (j / 16)) K 0.
  Hypothesis r_ok : forall j, 0 <= j < 80 -> rf j = nth (Z.to_nat j) r 0 /\ 0 <= rf j < 16.
  Hypothesis s_ok : forall j, 0 <= j < 80 -> sf j = nth (Z.to_nat j) s 0 /\ 0 <= sf j <= 32.
  Hypothesis X_ok : forall t, 0 <= t < 16 -> znth X t = Some (Xf t).
  Hypothesis st_good : good5 st.
  Definition step_at (j : Z) (st : state5) : state5 :=
    rmd_step (if flip then 79 - j else j) (nth (Z.to_nat (j / 16)) K 0) (nth (Z.to_nat j) s 0) (nth (Z.to_nat (nth (Z.to_nat j) r 0)) X 0) st.
  Fixpoint stl (n : nat) : state5 := match n with O => st | S n' => step_at (Z.of_nat n') (stl n') end.
  Lemma line_stl k : forall n, (n + k = 80)%nat -> fold_left (fun st j => step_at j st) (skipn n (zrange 0 80)) (stl n) = stl 80.
  Proof using.
    clear. induction k as [|k IH]; intros n HK.
    - rewrite Nat.add_0_r in HK. subst n. reflexivity.
    - rewrite skipn_nth by (change (length (zrange 0 80)) with 80%nat; lia). rewrite nth_zrange by (change (Z.to_nat 80) with 80%nat; lia). exact (IH (S n) ltac:(lia)).
  Qed.
  Lemma line_80 : rmd_line flip K r s X st = stl 80.
  Proof using. exact (line_stl 80 0 eq_refl). Qed.
  Lemma stl_good n : good5 (stl n).
  Proof using st_good.
    clear - st_good. induction n as [|n IH]; [exact st_good|]. cbn [stl]. destruct (stl n) as [a b c d e]. unfold step_at. cbn [rmd_step]. apply good5_elim in IH as (? & ? & ? & ? & ?).
    apply good5_intro; try assumption; [apply wmod_in|apply rotr_in]; lia.
  Qed.
  (** One step of the model, in the words of the specification. *)
  Lemma step_says j a b c d e : 0 <= j < 80 -> good5 (St5 a b c d e) ->
    step_at j (St5 a b c d e) = St5 e ((rol 32 (sf j) ((a + f j b c d + Xf (rf j) + kf j) mod 2 ^ 32) + e) mod 2 ^ 32) b (rol 32 10 c) d.
  Proof using f_ok k_ok r_ok s_ok X_ok.
    intros Hj HG. apply good5_elim in HG as (Ha & Hb & Hc & Hd & He). destruct (r_ok j Hj) as [HR HRb], (s_ok j Hj) as [HS HSb].
    pose proof (X_ok (rf j) HRb) as HX. rewrite znth_nth_error in HX by lia. apply (fun H => nth_error_nth _ _ 0 H) in HX.
    unfold step_at. cbn [rmd_step]. rewrite <- HR, <- HS, HX, <- k_ok by assumption. rewrite (f_ok j b c d Hj Hb Hc Hd).
    rewrite !rotl_rol by (try lia; try assumption; apply wmod_in; lia). reflexivity.
  Qed.
  Lemma line_unique A B C D E : list5 st = [A 0; B 0; C 0; D 0; E 0] -> rmd_line_says f kf rf sf Xf A B C D E ->
    forall n, (n <= 80)%nat -> let t := Z.of_nat n in stl n = St5 (A t) (B t) (C t) (D t) (E t).
  Proof using f_ok k_ok r_ok s_ok X_ok st_good.
    intros HS HL. induction n as [|n IH]; intros Hn t.
    - unfold t. apply list5_inj. exact HS.
    - specialize (IH ltac:(lia)). cbn zeta in IH. pose proof (stl_good n) as HG. rewrite IH in HG. cbn [stl]. rewrite IH. rewrite step_says by (try lia; assumption).
      destruct (HL (Z.of_nat n) ltac:(lia)) as (EB & EA & EE & ED & EC). replace t with (Z.of_nat n + 1) by (unfold t; lia). now rewrite EA, EB, EC, ED, EE.
  Qed.
  Definition comp (i : nat) (t : Z) : Z := nth i (list5 (stl (Z.to_nat t))) 0.
  Lemma line_exists : rmd_line_says f kf rf sf Xf (comp 0) (comp 1) (comp 2) (comp 3) (comp 4).
  Proof using f_ok k_ok r_ok s_ok X_ok st_good.
    intros j Hj. unfold comp. replace (Z.to_nat (j + 1)) with (S (Z.to_nat j)) by lia. cbn [stl]. rewrite Z2Nat.id by lia. pose proof (stl_good (Z.to_nat j)) as HG.
    destruct (stl (Z.to_nat j)) as [a b c d e]. rewrite step_says by (try lia; assumption). cbn [list5 nth]. auto.
  Qed.
  Lemma comp_list n : stl n = St5 (comp 0 (Z.of_nat n)) (comp 1 (Z.of_nat n)) (comp 2 (Z.of_nat n)) (comp 3 (Z.of_nat n)) (comp 4 (Z.of_nat n)).
  Proof using. unfold comp. rewrite Nat2Z.id. now destruct (stl n). Qed.
End Line.

Lemma all_80 (P : Z -> bool) : forallb P (zrange 0 80) = true -> forall j, 0 <= j < 80 -> P j = true.
Proof.
  intros H j Hj. rewrite forallb_forall in H. apply H. rewrite <- (Z2Nat.id j) by lia. rewrite <- (nth_zrange 80 (Z.to_nat j)) by lia. apply nth_In. change (length (zrange 0 80)) with 80%nat. lia.
Qed.
Lemma rmd_tables j : 0 <= j < 80 ->
  (left_word j = nth (Z.to_nat j) rmd_r 0 /\ 0 <= left_word j < 16) /\ (right_word j = nth (Z.to_nat j) rmd_r' 0 /\ 0 <= right_word j < 16) /\
  (rmd_shift (left_word j) j = nth (Z.to_nat j) rmd_s 0 /\ 0 <= rmd_shift (left_word j) j <= 32) /\ (rmd_shift (right_word j) j = nth (Z.to_nat j) rmd_s' 0 /\ 0 <= rmd_shift (right_word j) j <= 32).
Proof.
  intros Hj. pose proof (all_80 (fun j => (left_word j =? nth (Z.to_nat j) rmd_r 0) && (0 <=? left_word j) && (left_word j <? 16) &&
    ((right_word j =? nth (Z.to_nat j) rmd_r' 0) && (0 <=? right_word j) && (right_word j <? 16)) &&
    ((rmd_shift (left_word j) j =? nth (Z.to_nat j) rmd_s 0) && (0 <=? rmd_shift (left_word j) j) && (rmd_shift (left_word j) j <=? 32)) &&
    ((rmd_shift (right_word j) j =? nth (Z.to_nat j) rmd_s' 0) && (0 <=? rmd_shift (right_word j) j) && (rmd_shift (right_word j) j <=? 32)))
    ltac:(vm_compute; reflexivity) j Hj) as H. cbn beta in H. rewrite !andb_true_iff, !Z.eqb_eq, !Z.leb_le, !Z.ltb_lt in H. tauto.
Qed.

Section Ripemd.
  Variables (f : Z -> Z -> Z -> Z -> Z) (k k' : Z -> Z).
  Hypothesis f_ok : forall j, 0 <= j < 80 -> bitwise32 (rmd_bits (j / 16)) (f j).
  Hypothesis k_ok : forall j, 0 <= j < 80 -> k j = nth (Z.to_nat (j / 16)) rmd_K 0 /\ k' j = nth (Z.to_nat (j / 16)) rmd_K' 0.
  Lemma f_left j x y z : 0 <= j < 80 -> word_in 32 x -> word_in 32 y -> word_in 32 z -> f j x y z = rmd_f j x y z.
  Proof using f_ok. clear - f_ok. intros Hj. now apply (bitwise32_unique (rmd_bits (j / 16))); [apply f_ok|apply rmd_f_bits]. Qed.
  Lemma f_right j x y z : 0 <= j < 80 -> word_in 32 x -> word_in 32 y -> word_in 32 z -> f (79 - j) x y z = rmd_f (79 - j) x y z.
  Proof using f_ok. clear - f_ok. intros Hj. apply f_left. lia. Qed.
  Notation spec := (rmd_block f k k').
  Lemma rmd_good s b : good5 (rmd_compress s b).
  Proof using. clear. unfold rmd_compress. destruct s, (rmd_line _ _ _ _ _ _), (rmd_line _ _ _ _ _ _). apply good5_intro; apply wmod_in; lia. Qed.
  Lemma rmd_unique s b H' : good5 s -> bytes_ok b = true -> zlen b = 64 -> spec (list5 s) b H' -> H' = list5 (rmd_compress s b).
  Proof using f_ok k_ok.
    intros HG HO HL (M & X & A & B & C & D & E & A' & B' & C' & D' & E' & HM & HM16 & HX & HS & HS' & L1 & L2 & HH).
    destruct (block_words5 false b HO HL) as (BW & BL & BI). cbn [words_of lendian] in *.
    assert (M = words_le 32 b) as -> by (eapply (texts_functional false); [|exact HM|exact BW]; lia).
    unfold rmd_compress. rewrite !line_80.
    rewrite (line_unique false rmd_K rmd_r rmd_s (words_le 32 b) s f k left_word (fun j => rmd_shift (left_word j) j) X
      f_left (fun j Hj => proj1 (k_ok j Hj)) (fun j Hj => proj1 (rmd_tables j Hj)) (fun j Hj => proj1 (proj2 (proj2 (rmd_tables j Hj)))) HX HG A B C D E HS L1 80 ltac:(lia)).
    rewrite (line_unique true rmd_K' rmd_r' rmd_s' (words_le 32 b) s (fun j => f (79 - j)) k' right_word (fun j => rmd_shift (right_word j) j) X
      f_right (fun j Hj => proj2 (k_ok j Hj)) (fun j Hj => proj1 (proj2 (rmd_tables j Hj))) (fun j Hj => proj2 (proj2 (proj2 (rmd_tables j Hj)))) HX HG A' B' C' D' E' HS' L2 80 ltac:(lia)).
    rewrite HH. destruct s. cbn [list5] in HS. injection HS as -> -> -> -> ->. reflexivity.
  Qed.
  Lemma rmd_exists s b : good5 s -> bytes_ok b = true -> zlen b = 64 -> spec (list5 s) b (list5 (rmd_compress s b)).
  Proof using f_ok k_ok.
    intros HG HO HL. destruct (block_words5 false b HO HL) as (BW & BL & BI). cbn [words_of lendian] in *. set (ws := words_le 32 b) in *.
    set (X := fun t => nth (Z.to_nat t) ws 0).
    assert (forall t, 0 <= t < 16 -> znth ws t = Some (X t)) as HX by (intros t Ht; rewrite znth_nth_error by lia; apply nth_error_nth'; lia).
    exists ws, X.
    exists (comp false rmd_K rmd_r rmd_s ws s 0), (comp false rmd_K rmd_r rmd_s ws s 1), (comp false rmd_K rmd_r rmd_s ws s 2), (comp false rmd_K rmd_r rmd_s ws s 3), (comp false rmd_K rmd_r rmd_s ws s 4).
    exists (comp true rmd_K' rmd_r' rmd_s' ws s 0), (comp true rmd_K' rmd_r' rmd_s' ws s 1), (comp true rmd_K' rmd_r' rmd_s' ws s 2), (comp true rmd_K' rmd_r' rmd_s' ws s 3), (comp true rmd_K' rmd_r' rmd_s' ws s 4).
    split; [exact BW|]. split; [unfold zlen; lia|]. split; [exact HX|]. split; [now destruct s|]. split; [now destruct s|]. split; [|split].
    - apply line_exists; auto; [intros; now apply f_left|intros; now apply k_ok|intros; now apply rmd_tables|intros; now apply rmd_tables].
    - apply line_exists; auto; [intros; now apply f_right|intros; now apply k_ok|intros; now apply rmd_tables|intros; now apply rmd_tables].
    - unfold rmd_compress. fold ws. rewrite !line_80. rewrite (comp_list false rmd_K rmd_r rmd_s ws s 80), (comp_list true rmd_K' rmd_r' rmd_s' ws s 80).
      change (Z.of_nat 80) with 80.
      assert (forall i, comp false rmd_K rmd_r rmd_s ws s i 0 = nth i (list5 s) 0) as H0 by reflexivity.
      generalize dependent (comp false rmd_K rmd_r rmd_s ws s). intros c H0. generalize (comp true rmd_K' rmd_r' rmd_s' ws s). intros c'. rewrite !H0. now destruct s.
  Qed.
  Lemma rmd_chain_exact bs : forall s H', good5 s -> Forall (fun b => zlen b = 64) bs -> Forall (fun b => bytes_ok b = true) bs ->
    (chained spec (list5 s) bs H' <-> H' = list5 (fold_left rmd_compress bs s)).
  Proof using f_ok k_ok.
    induction bs as [|b bs IH]; intros s H' HG HL HO.
    - split; [inversion 1; reflexivity|intros ->; constructor].
    - inversion HL; inversion HO; subst. cbn [fold_left]. split.
      + inversion 1 as [|? ? S1 ? ? HS HC]; subst. apply (rmd_unique s b S1) in HS; try assumption. subst S1. apply IH in HC; auto using rmd_good.
      + intros ->. econstructor; [apply rmd_exists; assumption|]. apply IH; auto using rmd_good.
  Qed.
End Ripemd.
