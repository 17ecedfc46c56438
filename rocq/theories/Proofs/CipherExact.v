(** The block cipher is the one that FIPS 197 describes. *)
From Coq Require Import Btauto.
From Verif.Model Require Import Py Hashes Cipher.
From Verif.Spec Require Import AesSpec.
From Verif.Proofs Require Import PyFacts HashesFacts HmacFacts CipherField CipherFacts CipherCbc.

Definition cell (l : bytes) : grid := fun r c => nth (Z.to_nat (r + 4 * c)) l 0.
Definition agrees (s : grid) (l : bytes) : Prop := forall r c, within r c -> s r c = cell l r c.
Lemma within_index r c : within r c -> (Z.to_nat (r + 4 * c) < 16)%nat. Proof. unfold within. lia. Qed.
Ltac each_cell H := let H1 := fresh in let H2 := fresh in
  destruct H as [H1 H2]; match type of H1 with _ <= ?r < _ => match type of H2 with _ <= ?c < _ =>
    assert (r = 0 \/ r = 1 \/ r = 2 \/ r = 3) as [|[|[|]]] by lia; assert (c = 0 \/ c = 1 \/ c = 2 \/ c = 3) as [|[|[|]]] by lia; subst r c end end.
Lemma znth_nth (l : bytes) i : 0 <= i -> (Z.to_nat i < length l)%nat -> znth l i = Some (nth (Z.to_nat i) l 0).
Proof. intros H0 HL. rewrite znth_nth_error by exact H0. now apply nth_error_nth'. Qed.
Lemma state_text_iff s t : state_text s t <-> length t = 16%nat /\ agrees s t.
Proof.
  unfold state_text, agrees. split.
  - intros [HL HT]. assert (length t = 16%nat) as HL' by (unfold zlen in HL; lia). split; [exact HL'|]. intros r c HW. specialize (HT r c HW). rewrite znth_nth in HT by (unfold within in HW; lia). injection HT as HT. symmetry. exact HT.
  - intros [HL HT]. split; [unfold zlen; lia|]. intros r c HW. rewrite (HT r c HW). apply znth_nth; unfold within in HW; lia.
Qed.
Lemma agrees_ext l m : length l = 16%nat -> length m = 16%nat -> agrees (cell l) m -> l = m.
Proof.
  intros HL HM HA. apply (nth_ext l m 0 0); [congruence|]. intros n Hn. rewrite HL in Hn. specialize (HA (Z.of_nat n mod 4) (Z.of_nat n / 4)). unfold cell in HA. rewrite <- (Nat2Z.id n).
  replace (Z.of_nat n) with (Z.of_nat n mod 4 + 4 * (Z.of_nat n / 4)) by (pose proof (Z.div_mod (Z.of_nat n) 4 ltac:(lia)); lia). apply HA. unfold within. pose proof (Z.mod_pos_bound (Z.of_nat n) 4 ltac:(lia)). split; [lia|]. split; [apply Z.div_pos; lia|apply Z.div_lt_upper_bound; lia].
Qed.
Lemma cell_byte l r c : good 16 l -> within r c -> byte (cell l r c).
Proof. intros [HL HF] HW. unfold cell. eapply Forall_forall; [exact HF|]. apply nth_In. rewrite HL. now apply within_index. Qed.
Lemma cell_map f l r c : length l = 16%nat -> within r c -> cell (map f l) r c = f (cell l r c).
Proof.
  intros HL HW. unfold cell. rewrite (nth_indep _ 0 (f 0)) by (rewrite map_length, HL; now apply within_index). apply map_nth.
Qed.
Lemma xor_nth a : forall b i, length a = length b -> (i < length a)%nat -> nth i (xor_bytes a b) 0 = Z.lxor (nth i a 0) (nth i b 0).
Proof.
  induction a as [|x a IH]; intros [|y b] i HL HI; try discriminate; [cbn in HI; lia|]. destruct i as [|i]; [reflexivity|]. cbn in HL, HI. apply (IH b i); lia.
Qed.
Lemma cell_xor a b r c : length a = 16%nat -> length b = 16%nat -> within r c -> cell (xor_bytes a b) r c = Z.lxor (cell a r c) (cell b r c).
Proof. intros HA HB HW. unfold cell. apply xor_nth; [congruence|]. rewrite HA. now apply within_index. Qed.
Lemma cell_shift l r c : length l = 16%nat -> within r c -> cell (shift_rows l) r c = cell l r ((c + r) mod 4).
Proof. intros HL HW. open16 HL. each_cell HW; reflexivity. Qed.
Lemma cell_mix l r c : length l = 16%nat -> within r c ->
  cell (columns mix_column l) r c = Z.lxor (xtime (cell l r c)) (Z.lxor (mul3 (cell l ((r + 1) mod 4) c)) (Z.lxor (cell l ((r + 2) mod 4) c) (cell l ((r + 3) mod 4) c))).
Proof.
  intros HL HW. open16 HL. each_cell HW; unfold cell; cbn [columns mix_column app];
    repeat match goal with |- context [Z.to_nat ?e] => let v := eval vm_compute in (Z.to_nat e) in change (Z.to_nat e) with v end; cbn [nth]; unfold xor4;
    apply Z.bits_inj'; intros i _; rewrite !Z.lxor_spec; btauto.
Qed.

(** ** A round *)
Section Round.
  Variables (s : grid) (l : bytes).
  Hypothesis l_good : good 16 l.
  Hypothesis s_l : agrees s l.
  Lemma sub_iff u : (forall r c, within r c -> substituted (s r c) (u r c)) <-> agrees u (map sub_byte l).
  Proof.
    split; intros H r c HW; specialize (H r c HW); rewrite cell_map in * by (assumption || apply l_good); rewrite (s_l r c HW) in *; apply (substituted_iff (cell l r c)); auto using cell_byte.
  Qed.
  Lemma shift_iff v : row_shifted s v <-> agrees v (shift_rows l).
  Proof.
    split; intros H r c HW; specialize (H r c HW); rewrite cell_shift in * by (assumption || apply l_good); rewrite (s_l r ((c + r) mod 4)) in * by (split; [apply HW|]; apply Z.mod_pos_bound; lia); exact H.
  Qed.
  Lemma mix_iff x : column_mixed s x <-> agrees x (columns mix_column l).
  Proof.
    assert (forall r c n, within r c -> within ((r + n) mod 4) c) as HM by (intros r c n HW; split; [apply Z.mod_pos_bound; lia|apply HW]).
    split.
    - intros H r c HW. destruct (H r c HW) as (p & q & H1 & H2 & ->). rewrite cell_mix by (assumption || apply l_good). rewrite !s_l in * by auto. apply product_2 in H1 as ->; [|now apply cell_byte]. apply product_3 in H2 as ->; [|apply cell_byte; auto]. reflexivity.
    - intros H r c HW. exists (xtime (s r c)), (mul3 (s ((r + 1) mod 4) c)). rewrite (H r c HW), cell_mix by (assumption || apply l_good). rewrite !s_l by auto. split; [apply product_2; auto using cell_byte|]. split; [|reflexivity]. apply product_3; auto using cell_byte.
  Qed.
  Lemma key_iff w k rk t : good 16 rk -> (forall r c, within r c -> w r (4 * k + c) = cell rk r c) -> (forall r c, within r c -> t r c = Z.lxor (s r c) (w r (4 * k + c))) <-> agrees t (xor_bytes l rk).
  Proof.
    intros [HR _] HK. split; intros H r c HW; specialize (H r c HW); rewrite cell_xor in * by (assumption || apply l_good); rewrite (s_l r c HW), (HK r c HW) in *; exact H.
  Qed.
End Round.
Definition round_of (last : bool) (rk l : bytes) : bytes := if last then xor_bytes (shift_rows (map sub_byte l)) rk else cipher_round rk l.
Lemma agrees_cell l : agrees (cell l) l. Proof. intros r c _. reflexivity. Qed.
Lemma round_iff w n k s l rk t : good 16 l -> agrees s l -> good 16 rk -> (forall r c, within r c -> w r (4 * k + c) = cell rk r c) ->
  (round_says w n k s t <-> agrees t (round_of (k =? n) rk l)).
Proof.
  intros HL HS HR HK. pose proof (sub_good _ _ HL) as H1. pose proof (shift_good _ H1) as H2. pose proof (columns_good _ _ mix_good H2) as H3. unfold round_says, round_of, cipher_round. split.
  - intros (u & v & x & HU & HV & HX & HT). apply (sub_iff s l HL HS) in HU. apply (shift_iff u _ H1 HU) in HV. destruct (k =? n).
    + assert (agrees x (shift_rows (map sub_byte l))) as HX' by (intros r c HW; rewrite (HX r c HW); now apply HV). now apply (key_iff x _ H2 HX' w k rk t HR HK).
    + apply (mix_iff v _ H2 HV) in HX. now apply (key_iff x _ H3 HX w k rk t HR HK).
  - intros HT. exists (cell (map sub_byte l)), (cell (shift_rows (map sub_byte l))). destruct (k =? n).
    + exists (cell (shift_rows (map sub_byte l))). split; [apply (sub_iff s l HL HS), agrees_cell|]. split; [apply (shift_iff _ _ H1 (agrees_cell _)), agrees_cell|]. split; [reflexivity|].
      now apply (key_iff _ _ H2 (agrees_cell _) w k rk t HR HK).
    + exists (cell (columns mix_column (shift_rows (map sub_byte l)))). split; [apply (sub_iff s l HL HS), agrees_cell|]. split; [apply (shift_iff _ _ H1 (agrees_cell _)), agrees_cell|]. split; [apply (mix_iff _ _ H2 (agrees_cell _)), agrees_cell|].
      now apply (key_iff _ _ H3 (agrees_cell _) w k rk t HR HK).
Qed.

(** ** The key schedule *)
Definition wat (ws : list bytes) : grid := fun r i => nth (Z.to_nat r) (nth (Z.to_nat i) ws []) 0.
Lemma expand_from nk n : forall ws, 0 < nk <= zlen ws ->
  firstn (length ws) (expand n nk ws) = ws /\
  forall i, (length ws <= i < length ws + n)%nat -> nth i (expand n nk ws) [] = next_word nk (firstn i (expand n nk ws)).
Proof.
  induction n as [|n IH]; intros ws HN; cbn [expand]; [split; [apply firstn_all|intros; lia]|].
  destruct (IH (ws ++ [next_word nk ws])) as [H1 H2]; [rewrite zlen_app; pose proof (zlen_nonneg [next_word nk ws]); lia|]. rewrite app_length in H1, H2. cbn [length] in H1, H2.
  set (X := expand n nk (ws ++ [next_word nk ws])) in *. assert (firstn (length ws) X = ws) as H3.
  { transitivity (firstn (length ws) (firstn (length ws + 1) X)); [rewrite firstn_firstn; f_equal; lia|]. rewrite H1, firstn_app, Nat.sub_diag, firstn_all. cbn. apply app_nil_r. }
  split; [exact H3|]. intros i Hi. destruct (Nat.eq_dec i (length ws)) as [->|NE]; [|apply H2; lia]. rewrite H3.
  transitivity (nth (length ws) (firstn (length ws + 1) X) []).
  - rewrite <- (firstn_skipn (length ws + 1) X) at 1. apply app_nth1. rewrite H1, app_length. cbn. lia.
  - rewrite H1, app_nth2, Nat.sub_diag by lia. reflexivity.
Qed.
Lemma nth_firstn {A} (l : list A) d n : forall i, (i < n)%nat -> nth i (firstn n l) d = nth i l d.
Proof. revert n. induction l as [|x l IH]; intros [|n] i Hi; try lia; [destruct i; reflexivity|]. destruct i as [|i]; [reflexivity|]. cbn [firstn nth]. apply IH. lia. Qed.
Lemma nth_skip {A} (l : list A) d n : forall i, nth i (skipn n l) d = nth (n + i) l d.
Proof. revert n. induction l as [|x l IH]; intros [|n] i; try reflexivity; [destruct i; reflexivity|]. cbn [skipn Nat.add nth]. apply IH. Qed.
Lemma cut_nth n : (0 < n)%nat -> forall fuel m i j, (length m <= fuel)%nat -> (j < n)%nat -> (i * n + j < length m)%nat -> nth j (nth i (cut fuel n m) []) 0 = nth (i * n + j) m 0.
Proof.
  intros HN fuel. induction fuel as [|fuel IH]; intros m i j HF HJ HI; [lia|]. assert (cut (S fuel) n m = firstn n m :: cut fuel n (skipn n m)) as -> by (destruct m; [cbn in HI; lia|reflexivity]). destruct i as [|i]; cbn [nth].
  - now rewrite nth_firstn.
  - rewrite IH; [|rewrite skipn_length; lia|exact HJ|rewrite skipn_length; lia].
    rewrite <- (firstn_skipn n m) at 2. rewrite app_nth2; rewrite firstn_length; [f_equal|]; lia.
Qed.
Lemma rcon_step j : 1 <= j < 10 -> rcon (j + 1) = xtime (rcon j).
Proof. intros H. assert (j = 1 \/ j = 2 \/ j = 3 \/ j = 4 \/ j = 5 \/ j = 6 \/ j = 7 \/ j = 8 \/ j = 9) as HC by lia. repeat destruct HC as [->|HC]; try reflexivity. subst. reflexivity. Qed.
Lemma rcon_chain p n : n <= 10 -> p 1 = 1 -> (forall j, 1 <= j < n -> product 2 (p j) (p (j + 1))) -> forall j, 1 <= j <= n -> p j = rcon j.
Proof.
  intros HN H1 HP j Hj. assert (forall k : nat, 1 + Z.of_nat k <= n -> p (1 + Z.of_nat k) = rcon (1 + Z.of_nat k)) as HK.
  - induction k as [|k IH]; intros Hk; [exact H1|]. specialize (IH ltac:(lia)). specialize (HP (1 + Z.of_nat k) ltac:(lia)). rewrite IH in HP. apply product_2 in HP; [|apply rcon_byte]. replace (1 + Z.of_nat (S k)) with (1 + Z.of_nat k + 1) by lia. rewrite HP. symmetry. apply rcon_step. lia.
  - specialize (HK (Z.to_nat (j - 1)) ltac:(lia)). replace (1 + Z.of_nat (Z.to_nat (j - 1))) with j in HK by lia. exact HK.
Qed.
Lemma word_4 (x : bytes) : good 4 x -> exists a b c d, x = [a; b; c; d].
Proof. intros [HL _]. destruct x as [|a [|b [|c [|d [|]]]]]; try discriminate HL. repeat eexists. Qed.
Lemma four_words (l : list bytes) r c : length l = 4%nat -> Forall (good 4) l -> 0 <= r < 4 -> 0 <= c < 4 -> nth (Z.to_nat (r + 4 * c)) (concat l) 0 = nth (Z.to_nat r) (nth (Z.to_nat c) l []) 0.
Proof.
  intros HL HF Hr Hc. destruct l as [|x0 [|x1 [|x2 [|x3 [|]]]]]; try discriminate HL.
  apply Forall_cons_iff in HF as [H0 HF]. apply Forall_cons_iff in HF as [H1 HF]. apply Forall_cons_iff in HF as [H2 HF]. apply Forall_cons_iff in HF as [H3 _].
  apply word_4 in H0 as (? & ? & ? & ? & ->). apply word_4 in H1 as (? & ? & ? & ? & ->). apply word_4 in H2 as (? & ? & ? & ? & ->). apply word_4 in H3 as (? & ? & ? & ? & ->).
  assert (r = 0 \/ r = 1 \/ r = 2 \/ r = 3) as [->|[->|[->| ->]]] by lia; assert (c = 0 \/ c = 1 \/ c = 2 \/ c = 3) as [->|[->|[->| ->]]] by lia; reflexivity.
Qed.
Section Schedule.
  Variable key : bytes.
  Hypothesis HK : key_ok key.
  Variable nk : Z.
  Hypothesis Hnk : zlen key = 4 * nk.
  Let ws := key_schedule key.
  Lemma nk_cases : nk = 4 \/ nk = 6 \/ nk = 8.
  Proof using HK Hnk. destruct HK as [HC _]. lia. Qed.
  Lemma ws_words : words ws /\ zlen ws = 4 * (nk + 7).
  Proof using HK Hnk. destruct (schedule_words key HK) as [H1 H2]. split; [exact H1|]. unfold ws. rewrite H2, Hnk. rewrite (Z.mul_comm 4 nk), Z.div_mul by lia. reflexivity. Qed.
  Lemma ws_expand : ws = expand (Z.to_nat (4 * (nk + 7) - nk)) nk (cut (length key) 4 key).
  Proof using Hnk. unfold ws, key_schedule. cbv zeta. rewrite Hnk. rewrite (Z.mul_comm 4 nk), Z.div_mul by lia. reflexivity. Qed.
  Lemma cut_len : length (cut (length key) 4 key) = Z.to_nat nk.
  Proof using HK Hnk. pose proof nk_cases. unfold zlen in Hnk. destruct HK as [_ HO]. apply (cut_good 4 (Z.to_nat nk) ltac:(lia) key HO ltac:(lia)). Qed.
  Lemma wat_key r i : 0 <= r < 4 -> 0 <= i < nk -> znth key (4 * i + r) = Some (wat ws r i).
  Proof using HK Hnk.
    intros Hr Hi. pose proof nk_cases. pose proof cut_len as HL. destruct (expand_from nk (Z.to_nat (4 * (nk + 7) - nk)) (cut (length key) 4 key)) as [HX _]; [unfold zlen; lia|]. rewrite <- ws_expand in HX.
    unfold zlen in Hnk. rewrite znth_nth by lia. f_equal. unfold wat. rewrite <- (nth_firstn ws [] (Z.to_nat nk)) by lia. rewrite <- HL, HX. rewrite cut_nth by lia. f_equal. lia.
  Qed.
  Lemma wat_byte r i : 0 <= r < 4 -> 0 <= i < 4 * (nk + 7) -> byte (wat ws r i).
  Proof using HK Hnk.
    intros Hr Hi. destruct ws_words as [HW HL]. unfold zlen in HL. destruct (nth_word ws (Z.to_nat i) HW ltac:(lia)) as [H4 HF]. unfold wat. eapply Forall_forall; [exact HF|]. apply nth_In. lia.
  Qed.
  Lemma wat_next r i : 0 <= r < 4 -> nk <= i < 4 * (nk + 7) ->
    wat ws r i = Z.lxor (wat ws r (i - nk))
      (if i mod nk =? 0 then Z.lxor (sub_byte (wat ws ((r + 1) mod 4) (i - 1))) (if r =? 0 then rcon (i / nk) else 0)
       else if (6 <? nk) && (i mod nk =? 4) then sub_byte (wat ws r (i - 1)) else wat ws r (i - 1)).
  Proof using HK Hnk.
    intros Hr Hi. pose proof nk_cases. pose proof cut_len as HL. destruct ws_words as [HW HWL]. destruct (expand_from nk (Z.to_nat (4 * (nk + 7) - nk)) (cut (length key) 4 key)) as [_ HX]; [unfold zlen; lia|]. rewrite <- ws_expand in HX.
    specialize (HX (Z.to_nat i) ltac:(lia)). unfold wat at 1. rewrite HX. unfold next_word. cbv zeta. unfold zlen in HWL. assert (zlen (firstn (Z.to_nat i) ws) = i) as EL by (unfold zlen; rewrite firstn_length; lia). rewrite EL.
    rewrite !nth_firstn by lia. destruct (nth_word ws (Z.to_nat (i - 1)) HW ltac:(lia)) as [L1 F1]. destruct (nth_word ws (Z.to_nat (i - nk)) HW ltac:(lia)) as [L2 F2].
    unfold wat. destruct (i mod nk =? 0).
    - destruct (nth (Z.to_nat (i - 1)) ws []) as [|a [|b [|c [|d [|]]]]]; try discriminate L1. destruct (nth (Z.to_nat (i - nk)) ws []) as [|a' [|b' [|c' [|d' [|]]]]]; try discriminate L2.
      assert (r = 0 \/ r = 1 \/ r = 2 \/ r = 3) as [->|[->|[->| ->]]] by lia; reflexivity.
    - destruct ((6 <? nk) && (i mod nk =? 4)).
      + rewrite xor_nth; [|rewrite map_length; congruence|lia]. f_equal. rewrite (nth_indep _ 0 (sub_byte 0)) by (rewrite map_length; lia). apply map_nth.
      + apply xor_nth; [congruence|lia].
  Qed.
  Lemma step_iff (w : grid) i : nk <= i < 4 * (nk + 7) -> (forall r j, 0 <= r < 4 -> 0 <= j < i -> w r j = wat ws r j) ->
    ((if i mod nk =? 0 then
      exists u p, (forall r, 0 <= r < 4 -> substituted (w ((r + 1) mod 4) (i - 1)) (u r)) /\
        (p 1 = 1 /\ forall j, 1 <= j < i / nk -> product 2 (p j) (p (j + 1))) /\
        forall r, 0 <= r < 4 -> w r i = Z.lxor (w r (i - nk)) (Z.lxor (u r) (if r =? 0 then p (i / nk) else 0))
    else if (6 <? nk) && (i mod nk =? 4) then
      exists u, (forall r, 0 <= r < 4 -> substituted (w r (i - 1)) (u r)) /\
        forall r, 0 <= r < 4 -> w r i = Z.lxor (w r (i - nk)) (u r)
    else forall r, 0 <= r < 4 -> w r i = Z.lxor (w r (i - nk)) (w r (i - 1))) <-> forall r, 0 <= r < 4 -> w r i = wat ws r i).
  Proof using HK Hnk.
    intros Hi HP. pose proof nk_cases as HC. assert (forall r, 0 <= (r + 1) mod 4 < 4) as HM by (intros; apply Z.mod_pos_bound; lia).
    assert (1 <= i / nk <= 10) as Hq by (split; [apply Z.div_le_lower_bound; lia|apply Z.lt_succ_r; apply Z.div_lt_upper_bound; lia]).
    destruct (i mod nk =? 0) eqn:E0; [|destruct ((6 <? nk) && (i mod nk =? 4)) eqn:E1].
    - split.
      + intros (u & p & HU & (Hp1 & Hp) & HS) r Hr. rewrite (HS r Hr), (wat_next r i Hr Hi), E0. rewrite (HP r (i - nk)) by lia. f_equal. f_equal.
        * specialize (HU r Hr). rewrite HP in HU by (auto; lia). apply substituted_iff in HU; [exact HU|]. apply wat_byte; [auto|lia].
        * destruct (r =? 0); [|reflexivity]. apply (rcon_chain p (i / nk)); [lia|exact Hp1|exact Hp|lia].
      + intros HS. exists (fun r => sub_byte (wat ws ((r + 1) mod 4) (i - 1))), rcon. split; [|split; [split; [reflexivity|]|]].
        * intros r Hr. rewrite HP by (auto; lia). apply substituted_iff; [apply wat_byte; [auto|lia]|reflexivity].
        * intros j Hj. rewrite rcon_step by lia. apply product_2; [apply rcon_byte|reflexivity].
        * intros r Hr. rewrite (HS r Hr), (wat_next r i Hr Hi), E0. rewrite (HP r (i - nk)) by lia. reflexivity.
    - split.
      + intros (u & HU & HS) r Hr. rewrite (HS r Hr), (wat_next r i Hr Hi), E0, E1. rewrite (HP r (i - nk)) by lia. f_equal. specialize (HU r Hr). rewrite HP in HU by (auto; lia). apply substituted_iff in HU; [exact HU|]. apply wat_byte; [auto|lia].
      + intros HS. exists (fun r => sub_byte (wat ws r (i - 1))). split.
        * intros r Hr. rewrite HP by (auto; lia). apply substituted_iff; [apply wat_byte; [auto|lia]|reflexivity].
        * intros r Hr. rewrite (HS r Hr), (wat_next r i Hr Hi), E0, E1. rewrite (HP r (i - nk)) by lia. reflexivity.
    - split; intros HS r Hr; specialize (HS r Hr); rewrite HS; [|symmetry]; rewrite (wat_next r i Hr Hi), E0, E1; rewrite (HP r (i - nk)), (HP r (i - 1)) by lia; reflexivity.
  Qed.
  Lemma schedule_iff w : schedule_says nk key w <-> forall r i, 0 <= r < 4 -> 0 <= i < 4 * (nk + 7) -> w r i = wat ws r i.
  Proof using HK Hnk.
    pose proof nk_cases as HC. split.
    - intros [H1 H2]. assert (forall n : nat, forall r i, 0 <= r < 4 -> 0 <= i < Z.of_nat n -> i < 4 * (nk + 7) -> w r i = wat ws r i) as HN.
      + induction n as [|n IH]; intros r i Hr Hi Hlt; [lia|]. destruct (Z.lt_ge_cases i nk) as [L|G].
        * pose proof (H1 r i Hr ltac:(lia)) as E. rewrite wat_key in E by lia. injection E as E. symmetry. exact E.
        * apply (step_iff w i ltac:(lia)); [|exact (H2 i ltac:(lia))|exact Hr]. intros r' j Hr' Hj. apply IH; lia.
      + intros r i Hr Hi. apply (HN (Z.to_nat (i + 1))); lia.
    - intros HW. split.
      + intros r i Hr Hi. rewrite HW by lia. apply wat_key; lia.
      + intros i Hi. apply (step_iff w i Hi); [|intros r Hr; apply HW; lia]. intros r j Hr Hj. apply HW; lia.
  Qed.
  Lemma round_key_cell k r c : within r c -> 0 <= k <= nk + 6 -> cell (round_key ws k) r c = wat ws r (4 * k + c).
  Proof using HK Hnk.
    intros [Hr Hc] Hk. destruct ws_words as [HW HL]. unfold zlen in HL. unfold cell, round_key, wat. set (n := Z.to_nat (4 * k)).
    replace (Z.to_nat (4 * k + c)) with (n + Z.to_nat c)%nat by lia. rewrite <- nth_skip.
    assert (length (firstn 4 (skipn n ws)) = 4%nat) as HL4 by (rewrite firstn_length, skipn_length; lia).
    rewrite <- (nth_firstn (skipn n ws) [] 4) by lia.
    assert (Forall (good 4) (firstn 4 (skipn n ws))) as HF.
    { apply Forall_forall. intros x Hx. eapply Forall_forall; [exact HW|]. rewrite <- (firstn_skipn n ws). apply in_or_app. right. rewrite <- (firstn_skipn 4 (skipn n ws)). apply in_or_app. now left. }
    apply four_words; [exact HL4|exact HF|exact Hr|exact Hc].
  Qed.

  (** ** The cipher *)
  Variable block : bytes.
  Hypothesis HB : good 16 block.
  Definition after (k : Z) : bytes := fold_left (fun s r => cipher_round (round_key ws r) s) (zrange 1 (k + 1)) (xor_bytes block (round_key ws 0)).
  Lemma rk_good k : 0 <= k <= nk + 6 -> good 16 (round_key ws k).
  Proof using HK Hnk. intros Hk. destruct ws_words as [HW HL]. apply round_key_good; [exact HW|lia|lia]. Qed.
  Lemma zrange_snoc k : 1 <= k -> zrange 1 (k + 1) = zrange 1 k ++ [k].
  Proof using.
    intros Hk. unfold zrange. replace (Z.to_nat (k + 1 - 1)) with (S (Z.to_nat (k - 1))) by lia. replace [k] with [1 + Z.of_nat (Z.to_nat (k - 1))] by (f_equal; lia). generalize (Z.to_nat (k - 1)). generalize 1. clear.
    intros a n. revert a. induction n as [|n IH]; intros a; [cbn; now rewrite Z.add_0_r|]. change (zrange_nat a (S (S n))) with (a :: zrange_nat (a + 1) (S n)). rewrite IH. replace (a + Z.of_nat (S n)) with (a + 1 + Z.of_nat n) by lia. reflexivity.
  Qed.
  Lemma after_step k : 1 <= k -> after k = cipher_round (round_key ws k) (after (k - 1)).
  Proof using. intros Hk. unfold after. rewrite zrange_snoc by exact Hk. rewrite fold_left_app. cbn [fold_left]. now replace (k - 1 + 1) with k by lia. Qed.
  Lemma after_good k : 0 <= k <= nk + 6 -> good 16 (after k).
  Proof using HK Hnk HB.
    intros Hk. assert (forall n : nat, Z.of_nat n <= nk + 6 -> good 16 (after (Z.of_nat n))) as HN.
    - induction n as [|n IH]; intros Hn; [apply xor_good; [exact HB|apply rk_good; pose proof nk_cases; lia]|]. rewrite after_step by lia. replace (Z.of_nat (S n) - 1) with (Z.of_nat n) by lia. apply round_good; [apply rk_good; lia|apply IH; lia].
    - specialize (HN (Z.to_nat k)). rewrite Z2Nat.id in HN by lia. apply HN. lia.
  Qed.
  Lemma encrypt_after : encrypt_block ws (nk + 6) block = round_of true (round_key ws (nk + 6)) (after (nk + 5)).
  Proof using. unfold encrypt_block, round_of, after. cbv zeta. now replace (nk + 5 + 1) with (nk + 6) by lia. Qed.
  Theorem block_exact out : encrypt_block ws (nk + 6) block = out <-> aes_says key block out.
  Proof using HK Hnk HB.
    pose proof nk_cases as HC. assert (forall r c, within r c -> 0 <= r < 4 /\ 0 <= c < 4) as HWI by (intros r c H; exact H). split.
    - intros <-. exists nk, (wat ws), (fun k => cell (if k =? nk + 6 then encrypt_block ws (nk + 6) block else after k)). split; [exact Hnk|]. split; [exact HC|]. split; [apply schedule_iff; reflexivity|].
      split; [|split].
      + exists (cell block). split; [apply state_text_iff; split; [apply HB|apply agrees_cell]|]. intros r c HW. destruct (Z.eqb_spec 0 (nk + 6)); [lia|]. unfold after. cbn [zrange Z.add Z.sub]. change (zrange 1 (0 + 1)) with (@nil Z). cbn [fold_left].
        rewrite cell_xor; [|apply HB|apply rk_good; lia|exact HW]. rewrite round_key_cell by (exact HW || lia). reflexivity.
      + intros k Hk. destruct (Z.eqb_spec (k - 1) (nk + 6)); [lia|]. apply (round_iff (wat ws) (nk + 6) k _ (after (k - 1)) (round_key ws k)); [apply after_good; lia|apply agrees_cell|apply rk_good; lia| |].
        * intros r c HW. symmetry. apply round_key_cell; [exact HW|lia].
        * destruct (Z.eqb_spec k (nk + 6)) as [->|NE].
          -- rewrite encrypt_after. replace (nk + 6 - 1) with (nk + 5) by lia. apply agrees_cell.
          -- rewrite after_step by lia. apply agrees_cell.
      + rewrite Z.eqb_refl. apply state_text_iff. split; [|apply agrees_cell]. rewrite encrypt_after. unfold round_of. apply (xor_good 16); [apply shift_good, sub_good, after_good; lia|apply rk_good; lia].
    - intros (nk' & w & s & HL & _ & HS & (s' & HS' & H0) & HR & HO). assert (nk' = nk) as -> by lia. apply state_text_iff in HS' as [_ HS']. apply state_text_iff in HO as [HOL HO].
      pose proof (proj1 (schedule_iff w) HS) as HWS.
      assert (forall k, 0 <= k <= nk + 6 -> forall r c, within r c -> w r (4 * k + c) = cell (round_key ws k) r c) as HRK.
      { intros k Hk r c HW. rewrite round_key_cell by (exact HW || lia). destruct (HWI r c HW). apply HWS; lia. }
      assert (forall n : nat, Z.of_nat n <= nk + 5 -> agrees (s (Z.of_nat n)) (after (Z.of_nat n))) as HN.
      { induction n as [|n IH]; intros Hn.
        - intros r c HW. change (Z.of_nat 0) with 0. rewrite (H0 r c HW), (HS' r c HW). unfold after. change (zrange 1 (0 + 1)) with (@nil Z). cbn [fold_left].
          rewrite cell_xor; [|apply HB|apply rk_good; lia|exact HW]. f_equal. rewrite <- (HRK 0 ltac:(lia) r c HW). f_equal.
        - specialize (HR (Z.of_nat (S n)) ltac:(lia)). replace (Z.of_nat (S n) - 1) with (Z.of_nat n) in HR by lia.
          apply (round_iff w (nk + 6) _ _ (after (Z.of_nat n)) (round_key ws (Z.of_nat (S n)))) in HR; [|apply after_good; lia|apply IH; lia|apply rk_good; lia|apply HRK; lia].
          destruct (Z.eqb_spec (Z.of_nat (S n)) (nk + 6)); [lia|]. rewrite after_step by lia. replace (Z.of_nat (S n) - 1) with (Z.of_nat n) by lia. exact HR. }
      specialize (HN (Z.to_nat (nk + 5)) ltac:(lia)). rewrite Z2Nat.id in HN by lia. specialize (HR (nk + 6) ltac:(lia)). replace (nk + 6 - 1) with (nk + 5) in HR by lia.
      apply (round_iff w (nk + 6) _ _ (after (nk + 5)) (round_key ws (nk + 6))) in HR; [|apply after_good; lia|exact HN|apply rk_good; lia|apply HRK; lia]. rewrite Z.eqb_refl, <- encrypt_after in HR.
      apply agrees_ext; [|exact HOL|].
      + rewrite encrypt_after. unfold round_of. apply (xor_good 16); [apply shift_good, sub_good, after_good; lia|apply rk_good; lia].
      + intros r c HW. rewrite <- (HR r c HW). now apply HO.
  Qed.
End Schedule.
