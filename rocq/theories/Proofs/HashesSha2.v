(** The rounds of SHA-256 and SHA-512 follow the recurrences of the specification. *)
From Verif.Model Require Import Py Hashes.
From Verif.Spec Require Import HashSpec.
From Verif.Proofs Require Import PyFacts WorkFacts HashesFacts HashesWords.

Definition list8 (s : state8) : list Z := let '(St8 a b c d e f g h) := s in [a; b; c; d; e; f; g; h].
Definition good8 (w : Z) (s : state8) : Prop := Forall (word_in w) (list8 s).
Lemma list8_inj s t : list8 s = list8 t -> s = t.
Proof. destruct s, t. cbn. congruence. Qed.
Lemma state8_eq_dec (s t : state8) : {s = t} + {s <> t}.
Proof. destruct (list_eq_dec Z.eq_dec (list8 s) (list8 t)) as [E|E]; [left; now apply list8_inj|right; congruence]. Qed.

(** A window of sixteen words that slides along a sequence. *)
Section Window.
  Variable next : list Z -> Z.
  Variable ws : list Z.
  Hypothesis ws_len : length ws = 16%nat.
  Fixpoint win (n : nat) : list Z := match n with O => ws | S n' => tl (win n') ++ [next (win n')] end.
  Definition wat (n : nat) : Z := nth 0 (win n) 0.
  Lemma win_len n : length (win n) = 16%nat.
  Proof using ws_len. induction n as [|n IH]; [exact ws_len|]. cbn [win]. destruct (win n); [discriminate|]. cbn [tl length] in *. rewrite app_length. cbn. lia. Qed.
  Lemma win_shift n i : (i < 15)%nat -> nth i (win (S n)) 0 = nth (S i) (win n) 0.
  Proof using ws_len.
    intros Hi. cbn [win]. pose proof (win_len n) as HL. destruct (win n) as [|x l]; [discriminate|]. cbn [tl nth length] in *. apply app_nth1. lia.
  Qed.
  Lemma win_last n : nth 15 (win (S n)) 0 = next (win n).
  Proof using ws_len.
    cbn [win]. pose proof (win_len n) as HL. destruct (win n) as [|x l]; [discriminate|]. cbn [tl] in *. cbn [length] in HL. rewrite app_nth2 by lia. replace (15 - length l)%nat with 0%nat by lia. reflexivity.
  Qed.
  Lemma win_at i : forall n, (i < 16)%nat -> nth i (win n) 0 = wat (n + i).
  Proof using ws_len.
    induction i as [|i IH]; intros n Hi; [now rewrite Nat.add_0_r|]. rewrite <- win_shift by lia. rewrite IH by lia. f_equal. lia.
  Qed.
  Lemma wat_next n : wat (n + 16) = next (win n).
  Proof using ws_len. rewrite <- win_last, win_at by lia. f_equal. lia. Qed.
  Lemma wat_first n : (n < 16)%nat -> wat n = nth n ws 0.
  Proof using ws_len. intros Hn. symmetry. exact (win_at n 0 Hn). Qed.
  Lemma win_forall (P : Z -> Prop) : Forall P ws -> (forall l, P (next l)) -> forall n, Forall P (win n).
  Proof using. intros HW HN. induction n as [|n IH]; [exact HW|]. cbn [win]. apply Forall_app. split; [destruct IH; [constructor|assumption]|repeat constructor; apply HN]. Qed.
  Lemma hd_wat n : hd 0 (win n) = wat n.
  Proof using. unfold wat. now destruct (win n). Qed.
  Lemma wat_forall (P : Z -> Prop) : Forall P ws -> (forall l, P (next l)) -> forall n, P (wat n).
  Proof using ws_len. intros HW HN n. pose proof (win_forall P HW HN n) as HF. pose proof (win_len n). unfold wat. destruct HF; [discriminate|assumption]. Qed.
End Window.

Section Rounds.
  Variables (w : Z) (Sum0 Sum1 sigma0 sigma1 : Z -> Z) (K : list Z).
  Variables (R0 R1 r0 r1 : Z * Z * Z).
  Hypothesis w_ok : 0 < w /\ w mod 8 = 0.
  Hypothesis Sum0_ok : forall x, word_in w x -> Sum0 x = big_sigma w R0 x.
  Hypothesis Sum1_ok : forall x, word_in w x -> Sum1 x = big_sigma w R1 x.
  Hypothesis sigma0_ok : forall x, word_in w x -> sigma0 x = small_sigma w r0 x.
  Hypothesis sigma1_ok : forall x, word_in w x -> sigma1 x = small_sigma w r1 x.
  Notation round := (sha2_round w Sum0 Sum1).
  Notation next := (sha2_next w sigma0 sigma1).
  Notation rounds := (sha2_rounds w Sum0 Sum1 sigma0 sigma1).
  Notation compress := (sha2_compress w Sum0 Sum1 sigma0 sigma1 K).
  Notation n_rounds := (zlen K).
  Variables (choice maj : Z -> Z -> Z -> Z).
  Hypothesis choice_ok : bitwise3 choose choice.
  Hypothesis maj_ok : bitwise3 majority maj.
  Notation spec := (sha2_step w n_rounds (fun t => nth (Z.to_nat t) K 0) R0 R1 r0 r1 choice maj).

  Section OneBlock.
    Variables (ws : list Z) (s : state8).
    Hypothesis ws_len : length ws = 16%nat.
    Hypothesis ws_in : Forall (word_in w) ws.
    Hypothesis s_good : good8 w s.
    Notation W := (wat next ws).
    Fixpoint stt (n : nat) : state8 := match n with O => s | S n' => round (stt n') (nth n' K 0) (W n') end.
    Lemma rounds_stt k : forall n, (n + k = length K)%nat -> rounds (skipn n K) (win next ws n) (stt n) = stt (length K).
    Proof using.
      clear. induction k as [|k IH]; intros n HK.
      - rewrite Nat.add_0_r in HK. subst n. now rewrite skipn_all.
      - assert (skipn n K = nth n K 0 :: skipn (S n) K) as ->.
        { clear - HK. revert n HK. induction K as [|x l IH]; intros n HK; [cbn in HK; lia|]. destruct n as [|n]; [reflexivity|]. cbn [skipn nth]. apply IH. cbn in HK. lia. }
        cbn [sha2_rounds]. rewrite hd_wat. exact (IH (S n) ltac:(lia)).
    Qed.
    Lemma stt_good n : good8 w (stt n).
    Proof using s_good w_ok.
      clear - s_good w_ok. induction n as [|n IH]; [exact s_good|]. cbn [stt]. unfold good8 in *. destruct (stt n) as [a b c d e f g h]. cbn [sha2_round list8] in *.
      repeat match type of IH with Forall _ (_ :: _) => apply Forall_cons_iff in IH as [? IH] end. repeat apply Forall_cons; try apply Forall_nil; try assumption; apply wmod_in; lia.
    Qed.
    Lemma W_in n : word_in w (W n).
    Proof using ws_in ws_len w_ok. clear - ws_in ws_len w_ok. apply (wat_forall next ws ws_len (word_in w)); [exact ws_in|]. intros l. apply wmod_in. lia. Qed.
    Lemma W_next n : (16 <= n)%nat -> W n = (small_sigma w r1 (W (n - 2)) + W (n - 7) + small_sigma w r0 (W (n - 15)) + W (n - 16)) mod 2 ^ w.
    Proof using ws_in ws_len w_ok sigma0_ok sigma1_ok.
      clear - ws_in ws_len w_ok sigma0_ok sigma1_ok. intros Hn. replace n with (n - 16 + 16)%nat at 1 by lia. rewrite wat_next by exact ws_len. unfold sha2_next. rewrite !win_at by (try exact ws_len; lia).
      rewrite sigma0_ok, sigma1_ok by apply W_in. unfold wmod. do 2 f_equal; [f_equal; [f_equal; [f_equal|]|f_equal]|]; f_equal; lia.
    Qed.

    (** Any sequences obeying the specification are the words of the model. *)
    Section Follow.
      Variables (M : list Z) (W' A E : Z -> Z).
      Hypothesis M_ws : M = ws.
      Hypothesis W_first : forall t, 0 <= t < 16 -> znth M t = Some (W' t).
      Hypothesis W_rest : forall t, 16 <= t < n_rounds -> W' t = (small_sigma w r1 (W' (t - 2)) + W' (t - 7) + small_sigma w r0 (W' (t - 15)) + W' (t - 16)) mod 2 ^ w.
      Hypothesis start : list8 s = [A 0; A (-1); A (-2); A (-3); E 0; E (-1); E (-2); E (-3)].
      Hypothesis steps : forall t, 0 <= t < n_rounds ->
        let T1 := E (t - 3) + big_sigma w R1 (E t) + choice (E t) (E (t - 1)) (E (t - 2)) + nth (Z.to_nat t) K 0 + W' t in
        let T2 := big_sigma w R0 (A t) + maj (A t) (A (t - 1)) (A (t - 2)) in
        E (t + 1) = (A (t - 3) + T1) mod 2 ^ w /\ A (t + 1) = (T1 + T2) mod 2 ^ w.
      Lemma follow_W n : Z.of_nat n < n_rounds \/ (n < 16)%nat -> W' (Z.of_nat n) = W n.
      Proof using M_ws W_first W_rest ws_in ws_len w_ok sigma0_ok sigma1_ok.
        clear - M_ws W_first W_rest ws_in ws_len w_ok sigma0_ok sigma1_ok.
        induction n as [n IH] using (well_founded_induction lt_wf). intros Hn. destruct (Nat.lt_ge_cases n 16) as [H|H].
        - rewrite wat_first by assumption. specialize (W_first (Z.of_nat n) ltac:(lia)). rewrite M_ws, znth_nth_error, Nat2Z.id in W_first by lia. symmetry. now apply nth_error_nth.
        - rewrite W_rest, W_next by lia. do 2 f_equal; [f_equal; [f_equal; [f_equal|]|f_equal]|]; match goal with |- _ = W ?k => rewrite <- (IH k) by lia end; f_equal; lia.
      Qed.
      Lemma follow n : (n <= length K)%nat -> let t := Z.of_nat n in
        stt n = St8 (A t) (A (t - 1)) (A (t - 2)) (A (t - 3)) (E t) (E (t - 1)) (E (t - 2)) (E (t - 3)).
      Proof using M_ws W_first W_rest start steps ws_in ws_len s_good w_ok sigma0_ok sigma1_ok Sum0_ok Sum1_ok choice_ok maj_ok.
        induction n as [|n IH]; intros Hn t.
        - unfold t. cbn [stt]. apply list8_inj. rewrite start. reflexivity.
        - specialize (IH ltac:(lia)). cbn zeta in IH. pose proof (stt_good n) as HG. rewrite IH in HG. unfold good8 in HG. cbn [list8] in HG. cbn [stt]. rewrite IH. cbn [sha2_round].
          repeat match type of HG with Forall _ (_ :: _) => apply Forall_cons_iff in HG as [? HG] end.
          assert (0 <= Z.of_nat n < n_rounds) as HB by (unfold zlen; lia). destruct (steps (Z.of_nat n) HB) as [SE SA].
          rewrite Nat2Z.id, follow_W in SE, SA by (unfold zlen in *; lia).
          replace t with (Z.of_nat n + 1) by (unfold t; lia). rewrite SE, SA.
          rewrite <- Sum0_ok, <- Sum1_ok by assumption. rewrite (bitwise3_unique _ _ _ choice_ok Ch_bits), (bitwise3_unique _ _ _ maj_ok Maj_bits). unfold wmod.
          f_equal; try (f_equal; lia).
      Qed.
    End Follow.
  End OneBlock.

  Lemma compress_good s b : good8 w (compress s b).
  Proof using w_ok.
    clear - w_ok. unfold sha2_compress, good8. destruct s, (rounds K _ _). cbn. repeat apply Forall_cons; try apply Forall_nil; apply wmod_in; lia.
  Qed.
  Lemma compress_stt s b : compress s b = add8 w s (stt (words_be w b) s (length K)).
  Proof using. clear. unfold sha2_compress. f_equal. exact (rounds_stt (words_be w b) s (length K) 0 ltac:(lia)). Qed.
  Lemma block_words b : bytes_ok b = true -> zlen b = 2 * w -> words_text (says_be (w / 8)) (words_be w b) b /\ length (words_be w b) = 16%nat /\ Forall (word_in w) (words_be w b).
  Proof using w_ok.
    clear - w_ok. intros HO HL. split; [|split].
    - apply (words_of_text true); try lia; [exact HO|]. rewrite HL. replace (2 * w) with (16 * (w / 8)) by lia. apply Z.mod_mul. lia.
    - pose proof (words_of_zlen true w b 16 ltac:(lia) ltac:(lia) HO ltac:(lia)) as H. cbn [words_of] in H. unfold zlen in H. lia.
    - apply (words_of_in true). lia.
  Qed.
  (** The specification has one result, the model's. *)
  Lemma step_unique s b H' : good8 w s -> bytes_ok b = true -> zlen b = 2 * w -> spec (list8 s) b H' -> H' = list8 (compress s b).
  Proof using w_ok Sum0_ok Sum1_ok sigma0_ok sigma1_ok choice_ok maj_ok.
    intros HG HO HL (M & W' & A & E & HM & HM16 & HW & HR & HS & HT & HH). destruct (block_words b HO HL) as (BW & BL & BI).
    assert (M = words_be w b) as EM by (eapply (texts_functional true); [|exact HM|exact BW]; lia).
    rewrite compress_stt. rewrite (follow (words_be w b) s BL BI HG M W' A E EM HW HR HS HT (length K) ltac:(lia)). fold (zlen K).
    rewrite HH. destruct s. cbn [list8] in HS. injection HS as -> -> -> -> -> -> -> ->. reflexivity.
  Qed.
  (** The model's words are such sequences. *)
  Lemma step_exists s b : good8 w s -> bytes_ok b = true -> zlen b = 2 * w -> spec (list8 s) b (list8 (compress s b)).
  Proof using w_ok Sum0_ok Sum1_ok sigma0_ok sigma1_ok choice_ok maj_ok.
    intros HG HO HL. destruct (block_words b HO HL) as (BW & BL & BI). set (ws := words_be w b) in *.
    set (fa := fun s => let '(St8 a _ _ _ _ _ _ _) := s in a). set (fe := fun s => let '(St8 _ _ _ _ e _ _ _) := s in e).
    set (A := fun t => if 0 <=? t then fa (stt ws s (Z.to_nat t)) else nth (Z.to_nat (- t)) (list8 s) 0).
    set (E := fun t => if 0 <=? t then fe (stt ws s (Z.to_nat t)) else nth (Z.to_nat (4 - t)) (list8 s) 0).
    assert (forall n, let t := Z.of_nat n in stt ws s n = St8 (A t) (A (t - 1)) (A (t - 2)) (A (t - 3)) (E t) (E (t - 1)) (E (t - 2)) (E (t - 3))) as INV.
    { induction n as [|n IH]; intros t.
      - unfold t. change (stt ws s 0) with s. unfold A, E. cbn. destruct s. reflexivity.
      - subst t. cbn zeta in IH.
        assert (forall t, 0 <= t -> A t = fa (stt ws s (Z.to_nat t)) /\ E t = fe (stt ws s (Z.to_nat t))) as HAE by (intros t Ht; unfold A, E; now rewrite (proj2 (Z.leb_le 0 t) Ht)).
        destruct (HAE (Z.of_nat (S n)) ltac:(lia)) as [-> ->]. rewrite Nat2Z.id. cbn [stt]. rewrite IH. cbn [sha2_round]. cbn [fa fe].
        replace (Z.of_nat (S n) - 1) with (Z.of_nat n) by lia. replace (Z.of_nat (S n) - 2) with (Z.of_nat n - 1) by lia. replace (Z.of_nat (S n) - 3) with (Z.of_nat n - 2) by lia. reflexivity. }
    exists ws, (fun t => wat next ws (Z.to_nat t)), A, E.
    split; [exact BW|]. split; [unfold zlen; lia|]. split; [|split; [|split; [|split]]].
    - intros t Ht. rewrite wat_first by lia. rewrite znth_nth_error by lia. apply nth_error_nth'. lia.
    - intros t Ht. rewrite (W_next ws BL BI) by lia. do 2 f_equal; [f_equal; [f_equal; [f_equal|]|f_equal]|]; f_equal; lia.
    - change s with (stt ws s 0) at 1. rewrite (INV 0%nat). reflexivity.
    - intros t Ht T1 T2. pose proof (INV (Z.to_nat t)) as I0. pose proof (INV (S (Z.to_nat t))) as I1. cbn zeta in I0, I1. cbn [stt] in I1.
      pose proof (stt_good ws s HG (Z.to_nat t)) as HGt. rewrite I0 in I1, HGt. rewrite Nat2Z.inj_succ, Z2Nat.id in I1 by lia. rewrite Z2Nat.id in HGt by lia. unfold good8 in HGt. cbn [list8] in HGt.
      repeat match type of HGt with Forall _ (_ :: _) => apply Forall_cons_iff in HGt as [? HGt] end. unfold Z.succ in I1. cbn [sha2_round] in I1. injection I1 as IA _ _ _ IE _ _ _.
      rewrite <- IA, <- IE. unfold T1, T2, wmod. rewrite <- Sum0_ok, <- Sum1_ok by assumption.
      rewrite (bitwise3_unique _ _ _ choice_ok Ch_bits), (bitwise3_unique _ _ _ maj_ok Maj_bits). split; f_equal; ring.
    - rewrite compress_stt. fold ws. rewrite INV. fold (zlen K).
      pose proof (INV 0%nat) as I0. cbn [stt] in I0. change (Z.of_nat 0) with 0 in I0. clearbody A E. rewrite I0. cbn [Z.sub Z.add Z.opp Z.pos_sub].
      reflexivity.
  Qed.
  Lemma chain_exact bs : forall s H', good8 w s -> Forall (fun b => zlen b = 2 * w) bs -> Forall (fun b => bytes_ok b = true) bs ->
    (chained spec (list8 s) bs H' <-> H' = list8 (fold_left compress bs s)).
  Proof using w_ok Sum0_ok Sum1_ok sigma0_ok sigma1_ok choice_ok maj_ok.
    induction bs as [|b bs IH]; intros s H' HG HL HO.
    - split; [inversion 1; reflexivity|intros ->; constructor].
    - inversion HL; inversion HO; subst. cbn [fold_left]. split.
      + inversion 1 as [|? ? S1 ? ? HS HC]; subst. apply (step_unique s b S1) in HS; try assumption. subst S1. apply IH in HC; auto using compress_good.
      + intros ->. econstructor; [apply step_exists; assumption|]. apply IH; auto using compress_good.
  Qed.
End Rounds.
