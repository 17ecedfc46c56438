(** Chains nested as deep as the number of chains allows: every header of a line of headers is the second child of the one before. *)
From Verif.Model Require Import Py Packing Bits Coin Work Storage Chain RecursionLimit.
From Verif.Spec Require Import Numbers WorkSpec ChainSpec HeadersHistory RecursionSpec.
From Verif.Proofs Require Import PyFacts WorkFacts RequiredBitsFacts StorageFacts HeadersFacts ChainTheorems RecursionFacts RecursionBounds.
From Verif.Props Require Import ChainProps.

(** The hash reads the merkle root field.  Header 2n + 1 is number n of the line, header 2n its sibling, connected before it. *)
Definition H (b : bytes) : bytes := map (fun x => x mod 256) (firstn 32 (skipn 36 b ++ repeat 0 32)).
Definition num (k : Z) : bytes := le_digits 4 k ++ repeat 0 28.
Definition before (k : Z) : Z := if k =? 1 then 0 else if Z.even k then k - 1 else k - 2.
Definition node (k : Z) : bytes :=
  [1; 0; 0; 0] ++ num (before k) ++ num k ++ le_digits 4 (2048 * (k / 2)) ++ [255; 255; 0; 29] ++ [0; 0; 0; 0].
Definition cp_at (base : Z) : checkpoint := mk_checkpoint (node 1) base 5.
Definition U (x : bytes) : Prop := exists k, 1 <= k < 2 ^ 18 /\ x = node k.
Definition rule := coin_required_bits BitcoinRegtest.
Definition sets (l : list bytes) : Prop := l = [node 1].

Lemma four k : exists a b c d, le_digits 4 k = [a; b; c; d] /\ 0 <= a < 256 /\ 0 <= b < 256 /\ 0 <= c < 256 /\ 0 <= d < 256.
Proof.
  pose proof (le_digits_length 4 k) as HL. pose proof (le_digits_ok 4 k) as HB. destruct (le_digits 4 k) as [|a [|b [|c [|d [|? ?]]]]]; try discriminate HL.
  rewrite !bytes_ok_cons in HB. rewrite !andb_true_iff, !byte_ok_iff in HB. exists a, b, c, d. tauto.
Qed.
Lemma val_num k : 0 <= k < 2 ^ 32 -> val_le (num k) = k.
Proof. intros Hk. unfold num. change val_le with le_int. rewrite le_int_app, le_int_digits by lia. change (le_int (repeat 0 28)) with 0. lia. Qed.
Lemma H_node k : H (node k) = num k.
Proof.
  unfold H, node, num. destruct (four (before k)) as (a & b & c & d & -> & _). destruct (four k) as (a' & b' & c' & d' & -> & Ha & Hb & Hc & Hd).
  cbn [app repeat skipn firstn map]. rewrite !Z.mod_small by lia. reflexivity.
Qed.
Lemma node_length k : zlen (node k) = 80.
Proof. unfold node, num. rewrite !zlen_app, !zlen_le_digits. reflexivity. Qed.
Lemma node_fields k : 1 <= k < 2 ^ 18 -> prev_of (node k) = num (before k) /\ bits_of (node k) = 486604799 /\ time_of (node k) = 2048 * (k / 2).
Proof.
  intros Hk. unfold prev_of, bits_of, time_of, node, num. assert (val_le (le_digits 4 (2048 * (k / 2))) = 2048 * (k / 2)) as HT by (apply le_int_digits; change (256 ^ Z.of_nat 4) with 4294967296; lia).
  destruct (four (before k)) as (a & b & c & d & -> & _). destruct (four k) as (a' & b' & c' & d' & -> & _). destruct (four (2048 * (k / 2))) as (x & y & z & u & EQ & _). rewrite EQ in *.
  repeat split. exact HT.
Qed.
Lemma node_inj j k : 0 <= j < 2 ^ 32 -> 0 <= k < 2 ^ 32 -> num j = num k -> j = k.
Proof. intros Hj Hk HE. apply (f_equal val_le) in HE. now rewrite !val_num in HE. Qed.
Lemma before_range k : 1 <= k -> 0 <= before k < k.
Proof. intros Hk. unfold before. destruct (Z.eqb_spec k 1); [lia|]. destruct (Z.even k) eqn:E; [lia|]. assert (k <> 2) by (intros ->; discriminate). lia. Qed.

Lemma target : exists t, compact 486604799 t /\ 2 ^ 32 <= t.
Proof.
  destruct (bits_to_target 486604799) as [t|] eqn:ET; [|vm_compute in ET; discriminate]. exists t. split; [now apply bits_to_target_spec|].
  vm_compute in ET. injection ET as <-. vm_compute. discriminate.
Qed.
Definition log (m : nat) : list bytes := map (fun i => node (Z.of_nat i)) (seq 1 m).
Lemma log_S m : log (S m) = log m ++ [node (Z.of_nat (S m))].
Proof. unfold log. rewrite seq_S, map_app. reflexivity. Qed.
Lemma log_In k m : 1 <= k < 2 ^ 18 -> Z.of_nat m < 2 ^ 18 -> In (node k) (log m) <-> k <= Z.of_nat m.
Proof.
  intros Hk Hm. unfold log. rewrite in_map_iff. split.
  - intros (i & HE & HI). apply in_seq in HI. apply (f_equal H) in HE. rewrite !H_node in HE. apply node_inj in HE; lia.
  - intros HL. exists (Z.to_nat k). rewrite Z2Nat.id by lia. split; [reflexivity|]. apply in_seq. lia.
Qed.
Lemma node_time j : 1 <= j < 2 ^ 18 -> header_timestamp (node j) = Ok (2048 * (j / 2)).
Proof.
  intros Hj. assert (le_int (le_digits 4 (2048 * (j / 2))) = 2048 * (j / 2)) as HT by (apply le_int_digits; change (256 ^ Z.of_nat 4) with 4294967296; lia).
  unfold node, num. destruct (four (before j)) as (a & b & c & d & -> & _). destruct (four j) as (a' & b' & c' & d' & -> & _). destruct (four (2048 * (j / 2))) as (x & y & z & u & EQ & _). rewrite EQ in *. rewrite <- HT. reflexivity.
Qed.

(** The checkpoint is at the height [base].  Less than [top] above it, a header twenty minutes after its parent has the easiest target. *)
Section Line.
Variables base top : Z.
Hypothesis base_range : 0 <= base <= 1200000.
Hypothesis top_range : top <= 2 ^ 16.
Hypothesis slow : forall h, base < h < base + top -> h mod 2016 <> 0 \/ 1188697 < h.
Notation cp := (cp_at base).
Notation reach := (reach H rule 3 cp U sets).

Lemma ok : assumptions H cp U.
Proof.
  split.
  - intros x. unfold H, zlen. rewrite map_length, firstn_length, app_length, repeat_length. lia.
  - intros x. unfold H. generalize (firstn 32 (skipn 36 x ++ repeat 0 32)). intros l. induction l as [|y l IH]; [reflexivity|].
    cbn [map]. rewrite bytes_ok_cons, IH, andb_true_r. apply byte_ok_iff. apply Z.mod_pos_bound. lia.
  - intros x y (j & Hj & ->) (k & Hk & ->) HE. rewrite !H_node in HE. apply node_inj in HE; [now subst|lia|lia].
  - exists 1. split; [lia|reflexivity].
  - intros x (k & Hk & ->) HE. rewrite H_node in HE. change (firstn 32 (skipn 4 (cp_raw cp))) with (num 0) in HE. apply node_inj in HE; lia.
  - reflexivity.
  - discriminate.
  - change (cp_height cp) with base. lia.
  - eexists. vm_compute. reflexivity.
Qed.
(** Of such a header the rule reads the parent only. *)
Lemma rule_slow f h k j : base < h < base + top -> 1 <= k < 2 ^ 18 -> 1 <= j < 2 ^ 18 -> f (h - 1) = Ok (node j) -> j / 2 < k / 2 -> rule f h (time_of (node k)) = Ok 486604799.
Proof.
  intros Hh Hk Hj HF HL. destruct (node_fields k Hk) as (_ & _ & ->). unfold rule, coin_required_bits.
  change (genesis_bits BitcoinRegtest) with (@Ok Z 486604799). cbn [bind]. destruct (max_target BitcoinRegtest) as [mt|] eqn:EM; [|vm_compute in EM; discriminate].
  cbn [bind BitcoinRegtest c_rule required_bits_by_rule]. unfold required_bits_testnet, required_bits_testnet_gen. rewrite HF. cbn [bind]. rewrite (node_time j Hj).
  cbn [bind]. cbv zeta. assert ((20 * 60 <? 2048 * (k / 2) - 2048 * (j / 2)) = true) as -> by (apply Z.ltb_lt; lia).
  destruct (slow h Hh) as [HX|HX]; [|destruct (Z.leb_spec h 1188697); [lia|reflexivity]]. destruct (h <=? 1188697); [|reflexivity]. destruct (Z.eqb_spec (h mod 2016) 0); [contradiction|reflexivity].
Qed.
(** Heights are those of the line. *)
Lemma height_of m s : reach (log m) s -> Z.of_nat m < 2 ^ 18 -> forall n k, Z.of_nat n = k / 2 -> 1 <= k <= Z.of_nat m ->
  exists hd c, lookup H cp s (num k) = Ok (hd, c) /\ h_raw hd = node k /\ h_height hd = base + k / 2 /\ raw_at s c (base + k / 2) = Ok (node k) /\
    exists ch, nth_error (m_chains (hs_mem s)) c = Some ch /\ ch_first ch <= base + k / 2 <= ch_height ch.
Proof.
  intros HR Hm. induction n as [n IH] using lt_wf_ind. intros k Hn Hk.
  destruct (C26_stored_found H rule 3 cp U sets ok (log m) s (node k) HR ltac:(apply log_In; lia)) as (hd & c & HL & Hr & _ & HCh & HA & Hh).
  rewrite H_node in HL. assert (h_height hd = base + k / 2) as HH.
  { destruct Hh as [[HE Hh]|(phd & pc & _ & HX & Hh)].
    - apply (f_equal H) in HE. change (cp_raw cp) with (node 1) in HE. rewrite !H_node in HE. apply node_inj in HE; [|lia|lia]. subst k. change (1 / 2) with 0. rewrite Z.add_0_r. exact Hh.
    - destruct (node_fields k ltac:(lia)) as (HP & _). rewrite HP in HX. unfold before in HX. destruct (Z.eqb_spec k 1) as [->|NE].
      + rewrite (C26_others_missing H rule 3 cp U sets ok (log m) s (num 0) HR) in HX; [discriminate HX|discriminate|]. intros r HI HE. unfold log in HI. apply in_map_iff in HI as (i & <- & HI). apply in_seq in HI. rewrite H_node in HE. apply node_inj in HE; lia.
      + set (j := if Z.even k then k - 1 else k - 2) in HX. assert (1 <= j < k /\ j / 2 = k / 2 - 1) as [Hj Hj2].
        { unfold j. pose proof (Zeven_mod k). pose proof (Z.even_spec k). destruct (Z.even k) eqn:E.
          - apply Z.even_spec in E as (q & ->). lia.
          - assert (Z.odd k = true) as HO by (rewrite <- Z.negb_even, E; reflexivity). apply Z.odd_spec in HO as (q & ->). lia. }
        destruct (IH (n - 1)%nat ltac:(lia) j ltac:(lia) ltac:(lia)) as (hd' & c' & HL' & _ & Hh' & _). rewrite HX in HL'. injection HL' as -> ->. rewrite Hh, Hh', Hj2. lia. }
  exists hd, c. split; [exact HL|]. split; [exact Hr|]. split; [exact HH|]. rewrite <- HH. split; [exact HA|]. exact HCh.
Qed.

(** A new file. *)
Lemma started : exists s0, from_file H 3 cp None = (Some (st_file (created cp)), Ok s0) /\ reach (log 1) s0 /\ (exists hd w, m_chains (hs_mem s0) = [mk_chain None hd w base [base]] /\ lookup H cp s0 (num 1) = Ok (hd, O)).
Proof.
  destruct (from_file_new H rule 3 cp U sets ok None (or_introl eq_refl)) as (w & s0 & _ & HF & G). exists s0. split; [exact HF|]. split; [exact (reach_new _ _ _ _ _ _ None _ s0 (or_introl eq_refl) HF)|].
  pose proof (good_known H rule 3 cp U sets ok _ _ _ _ G) as K. exists (ChainFacts.hdr H (node 1) base). eexists. split.
  - rewrite (k_chains _ _ _ _ _ _ K). transitivity [mk_chain None (ChainFacts.hdr H (node 1) base) (cp_prev_work cp + w) base [base + 0]]; [reflexivity|now rewrite Z.add_0_r].
  - pose proof (known_lookup H cp U ok _ _ _ _ 0%nat _ K eq_refl) as HL. cbn [root e_raw e_height e_chain] in HL. change (cp_raw cp) with (node 1) in HL. change (cp_height cp) with base in HL. rewrite H_node in HL. exact HL.
Qed.
(** One more header: accepted, with any stack. *)
Lemma step m s k j hd c : reach (log m) s -> k = Z.of_nat (S m) -> 2 <= k < 2 ^ 18 -> k / 2 < top -> zlen (m_chains (hs_mem s)) < 2 ^ 16 -> j = before k ->
  lookup H cp s (num j) = Ok (hd, c) -> exists s' hd' c' w pch, connect H rule 3 cp s (node k) = (s', Ok (hd', c')) /\ reach (log (S m)) s' /\
    (forall frames, (0 < frames)%nat -> connect_limited frames H rule 3 cp s (node k) = (s', Ok (hd', c'))) /\
    h_raw hd' = node k /\ h_height hd' = base + k / 2 /\ lookup H cp s' (num k) = Ok (hd', c') /\ nth_error (m_chains (hs_mem s)) c = Some pch /\
    (ch_tip pch = hd -> c' = c /\ m_chains (hs_mem s') = list_update (m_chains (hs_mem s)) c
       (mk_chain (ch_parent pch) hd' (ch_work pch + w) (ch_first pch) (ch_indices pch ++ [base + Z.of_nat m]))) /\
    (ch_tip pch <> hd -> c' = length (m_chains (hs_mem s)) /\ exists pw,
       m_chains (hs_mem s') = m_chains (hs_mem s) ++ [mk_chain (Some c) hd' pw (h_height hd') [base + Z.of_nat m]]) /\
    forall i, 0 <= i -> i <> base + Z.of_nat m -> storage_get (hs_st s') i = storage_get (hs_st s) i.
Proof.
  intros HR Ek Hk Htop HCn Ej HL. assert (1 <= j <= Z.of_nat m /\ j / 2 = k / 2 - 1) as [Hj Hj2].
  { subst j. unfold before. destruct (Z.eqb_spec k 1); [lia|]. destruct (Z.even k) eqn:E.
    - apply Z.even_spec in E as (q & Eq). rewrite Eq in *. lia.
    - assert (Z.odd k = true) as HO by (rewrite <- Z.negb_even, E; reflexivity). apply Z.odd_spec in HO as (q & Eq). rewrite Eq in *. lia. }
  destruct (height_of m s HR ltac:(lia) (Z.to_nat (j / 2)) j ltac:(lia) ltac:(lia)) as (hd0 & c0 & HL0 & Hr0 & Hh0 & HA0 & ch0 & HN0 & Hf0). rewrite HL in HL0. injection HL0 as <- <-.
  destruct (node_fields k ltac:(lia)) as (HP & HB & _). rewrite <- Ej in HP.
  assert (zlen (log m) = Z.of_nat m) as HZ by (unfold log, zlen; rewrite map_length, seq_length; reflexivity).
  assert (HRoom : room cp (log m) s) by (split; [exact HCn|rewrite HZ; change (cp_height cp) with base; lia]).
  assert (HNew : ~ In (node k) (log m)) by (rewrite log_In by lia; lia).
  assert (HU : U (node k)) by (exists k; split; [lia|reflexivity]).
  assert (forall f, f (base + j / 2) = Ok (node j) -> rule f (h_height hd + 1) (time_of (node k)) = Ok (bits_of (node k))) as HRule.
  { intros f HF. rewrite HB, Hh0. apply (rule_slow f _ k j); [lia|lia|lia| |lia]. replace (base + j / 2 + 1 - 1) with (base + j / 2) by lia. exact HF. }
  pose proof (C27_new H rule 3 cp U sets ok (log m) s (node k) hd c HR HU HRoom (node_length k) HNew) as HX.
  rewrite HP in HX. specialize (HX HL). rewrite (HRule _ HA0) in HX. destruct target as (t & Ht & Hle).
  destruct HX as (_ & _ & _ & HX). rewrite HB in HX. destruct (HX t eq_refl Ht) as (s' & hd' & c' & w & pch & HE & Hr' & Hh' & HLk & _ & HN' & HT1 & HT2 & _ & _ & HSt); [rewrite H_node, val_num by lia; lia|].
  rewrite HZ in *. change (cp_height cp) with base in *. rewrite H_node in HLk.
  exists s', hd', c', w, pch. split; [exact HE|]. split; [rewrite log_S, <- Ek; destruct HRoom; eapply reach_accept; eauto; rewrite HZ; assumption|].
  split; [|split; [exact Hr'|]; split; [rewrite Hh', Hh0; lia|]; split; [exact HLk|]; split; [exact HN'|]; split; [exact HT1|]; split; [|exact HSt]].
  - intros frames HF. rewrite (connect_limited_same frames HF H rule 3 cp U sets ok (log m) s (node k) HR (node_length k)); [exact HE|].
    intros phd pc HLp. rewrite HP, HL in HLp. injection HLp as <- <-. rewrite (HRule _ HA0). apply HRule. rewrite (limited_own frames HF s c ch0 _ HN0); [exact HA0|lia].
  - intros HT. destruct (HT2 HT) as (-> & pw & _ & HM). split; [reflexivity|]. eexists. exact HM.
Qed.
Lemma connect_all_snoc frames raws : forall s s' raw s'' r, connect_all_limited frames H rule 3 cp s raws = (s', Ok tt) -> connect_limited frames H rule 3 cp s' raw = (s'', Ok r) ->
  connect_all_limited frames H rule 3 cp s (raws ++ [raw]) = (s'', Ok tt).
Proof.
  induction raws as [|x raws IH]; intros s s' raw s'' r H1 H2; cbn [app connect_all_limited] in *.
  - injection H1 as <-. now rewrite H2.
  - destruct (connect_limited frames H rule 3 cp s x) as [s1 [r1|e]]; [|discriminate]. eapply IH; eauto.
Qed.
Lemma tl_log m : (0 < m)%nat -> tl (log (S m)) = tl (log m) ++ [node (Z.of_nat (S m))].
Proof. intros Hm. rewrite log_S. destruct m; [lia|]. reflexivity. Qed.

(** The line of [n] headers: chain [k] starts at the header number [k] and has chain [k - 1] as its parent. *)
Definition line (start : headers) (n : nat) (s : headers) : Prop :=
  reach (log (2 * n + 1)) s /\ (forall frames, (0 < frames)%nat -> connect_all_limited frames H rule 3 cp start (tl (log (2 * n + 1))) = (s, Ok tt)) /\
  length (m_chains (hs_mem s)) = S n /\
  (forall k, (k <= n)%nat -> exists ch, nth_error (m_chains (hs_mem s)) k = Some ch /\ ch_first ch = base + Z.of_nat k /\ ch_parent ch = match k with O => None | S p => Some p end /\ exists l, ch_indices ch = base + 2 * Z.of_nat k :: l) /\
  exists hd ch, lookup H cp s (num (2 * Z.of_nat n + 1)) = Ok (hd, n) /\ nth_error (m_chains (hs_mem s)) n = Some ch /\ ch_tip ch = hd.
Lemma line_0 : exists start, from_file H 3 cp None = (Some (st_file (created cp)), Ok start) /\ line start 0 start.
Proof.
  destruct started as (start & HF & HR & hd & w & HM & HL). exists start. split; [exact HF|]. split; [exact HR|]. split; [reflexivity|]. split; [rewrite HM; reflexivity|]. split.
  - intros k Hk. destruct k; [|lia]. eexists. split; [rewrite HM; reflexivity|]. cbn [ch_first ch_parent ch_indices Z.of_nat]. rewrite !Z.add_0_r. split; [reflexivity|]. split; [reflexivity|]. exists []. reflexivity.
  - exists hd. eexists. split; [exact HL|]. split; [rewrite HM; reflexivity|reflexivity].
Qed.
Lemma line_S start n s : line start n s -> Z.of_nat n + 1 < top -> exists s', line start (S n) s'.
Proof.
  intros (HR & HAll & HLn & HCh & hd & ch & HLk & HN & HT) Hn. set (m := (2 * n + 1)%nat) in *.
  assert (zlen (m_chains (hs_mem s)) < 2 ^ 16) as HZ by (unfold zlen; rewrite HLn; lia).
  assert (before (2 * Z.of_nat n + 2) = 2 * Z.of_nat n + 1) as HB1.
  { unfold before. destruct (Z.eqb_spec (2 * Z.of_nat n + 2) 1); [lia|]. replace (2 * Z.of_nat n + 2) with (2 * (Z.of_nat n + 1)) by lia. rewrite Z.even_mul. cbn [Z.even orb]. lia. }
  assert (before (2 * Z.of_nat n + 3) = 2 * Z.of_nat n + 1) as HB2.
  { unfold before. destruct (Z.eqb_spec (2 * Z.of_nat n + 3) 1); [lia|]. replace (Z.even (2 * Z.of_nat n + 3)) with false; [lia|]. replace (2 * Z.of_nat n + 3) with (1 + 2 * (Z.of_nat n + 1)) by lia. rewrite Z.even_add_mul_2. reflexivity. }
  destruct (step m s (2 * Z.of_nat n + 2) (2 * Z.of_nat n + 1) hd n HR ltac:(unfold m; lia) ltac:(lia) ltac:(lia) HZ (eq_sym HB1) HLk) as (s1 & hd1 & c1 & w1 & pch & HE1 & HR1 & HF1 & Hr1 & Hh1 & HL1 & HN1 & HT1 & _ & HSt).
  rewrite HN in HN1. injection HN1 as <-. destruct (HT1 HT) as [-> HM1]. clear HT1.
  assert (n < length (m_chains (hs_mem s)))%nat as Hln by lia.
  assert (length (m_chains (hs_mem s1)) = S n) as HLn1 by (rewrite HM1, ChainFacts.list_update_length by exact Hln; exact HLn).
  assert (forall k, (k <= n)%nat -> exists ch, nth_error (m_chains (hs_mem s1)) k = Some ch /\ ch_first ch = base + Z.of_nat k /\ ch_parent ch = match k with O => None | S p => Some p end /\ exists l, ch_indices ch = base + 2 * Z.of_nat k :: l) as HCh1.
  { intros k Hk. rewrite HM1, ChainFacts.nth_error_update by exact Hln. destruct (HCh k Hk) as (x & Hx & Hf & Hp & l & Hl). destruct (Nat.eqb_spec k n) as [->|NE]; [|exists x; eauto].
    rewrite HN in Hx. injection Hx as <-. eexists. split; [reflexivity|]. split; [exact Hf|]. split; [exact Hp|]. cbn [ch_indices]. rewrite Hl. eexists. reflexivity. }
  (* the header is found on its own chain *)
  assert (exists hd', lookup H cp s1 (num (2 * Z.of_nat n + 1)) = Ok (hd', n) /\ h_raw hd' = node (2 * Z.of_nat n + 1)) as (hd' & HLk' & Hr').
  { destruct (height_of (S m) s1 HR1 ltac:(unfold m; lia) n (2 * Z.of_nat n + 1) ltac:(lia) ltac:(unfold m; lia)) as (hd' & c' & HL' & Hr' & Hh' & HA' & ch' & HN' & Hf').
    destruct (height_of m s HR ltac:(unfold m; lia) n (2 * Z.of_nat n + 1) ltac:(lia) ltac:(unfold m; lia)) as (hd2 & c2 & HL2 & _ & _ & HA2 & ch2 & HN2 & Hf2). rewrite HLk in HL2. injection HL2 as <- <-. rewrite HN in HN2. injection HN2 as <-.
    exists hd'. split; [|exact Hr']. rewrite HL'. do 2 f_equal.
    destruct (proj1 (C31_one_chain H rule 3 cp U sets ok (log (S m)) s1 (node (2 * Z.of_nat n + 1)) HR1)) as (x & _ & HU); [apply log_In; unfold m; lia|].
    assert (x = c') as Hxc by (apply HU; exists ch', (base + (2 * Z.of_nat n + 1) / 2); split; [exact HN'|]; split; [exact Hf'|exact HA']).
    rewrite <- Hxc. apply HU. destruct (HCh n (le_n n)) as (x0 & Hx0 & Hf0 & _ & l & EI). rewrite HN in Hx0. injection Hx0 as <-.
    assert (nth_error (m_chains (hs_mem s1)) n = Some (mk_chain (ch_parent ch) hd1 (ch_work ch + w1) (ch_first ch) (ch_indices ch ++ [base + Z.of_nat m]))) as HN1 by (rewrite HM1, ChainFacts.nth_error_update by exact Hln; now rewrite Nat.eqb_refl).
    set (h := base + (2 * Z.of_nat n + 1) / 2) in *. assert (h = ch_first ch) as Hh by (rewrite Hf0; unfold h; lia).
    eexists _, h. split; [exact HN1|]. split.
    - unfold ch_height. cbn [ch_first ch_indices]. rewrite zlen_app. unfold ch_height in Hf2. change (zlen [base + Z.of_nat m]) with 1. lia.
    - unfold raw_at in HA2 |- *. cbn [header_index] in HA2 |- *. rewrite HN1. rewrite HN in HA2. cbn [ch_first ch_indices]. destruct (Z.leb_spec (ch_first ch) h) as [_|HX]; [|lia].
      rewrite Hh, Z.sub_diag in HA2 |- *. rewrite EI in HA2 |- *. cbn [app]. change (znth (base + 2 * Z.of_nat n :: l) 0) with (Some (base + 2 * Z.of_nat n)) in HA2.
      change (znth (base + 2 * Z.of_nat n :: l ++ [base + Z.of_nat m]) 0) with (Some (base + 2 * Z.of_nat n)). cbn [bind] in HA2 |- *. rewrite HSt; [exact HA2|lia|unfold m; lia]. }
  assert (zlen (m_chains (hs_mem s1)) < 2 ^ 16) as HZ1 by (unfold zlen; rewrite HLn1; lia).
  destruct (step (S m) s1 (2 * Z.of_nat n + 3) (2 * Z.of_nat n + 1) hd' n HR1 ltac:(unfold m; lia) ltac:(lia) ltac:(lia) HZ1 (eq_sym HB2) HLk') as (s2 & hd2 & c2 & w2 & pch & HE2 & HR2 & HF2 & Hr2 & Hh2 & HL2 & HN2 & _ & HT2 & _).
  assert (ch_tip pch <> hd') as HTip.
  { rewrite HM1, ChainFacts.nth_error_update, Nat.eqb_refl in HN2 by exact Hln. injection HN2 as <-. cbn [ch_tip]. intros HX. rewrite HX, Hr' in Hr1. apply (f_equal H) in Hr1. rewrite !H_node in Hr1. apply node_inj in Hr1; lia. }
  destruct (HT2 HTip) as (-> & pw & HM2). exists s2. unfold line. replace (2 * S n + 1)%nat with (S (S m)) by (unfold m; lia). split; [exact HR2|]. split; [|split; [|split]].
  - intros frames HF. rewrite tl_log by lia. eapply connect_all_snoc; [|replace (Z.of_nat (S (S m))) with (2 * Z.of_nat n + 3) by (unfold m; lia); apply HF2; exact HF].
    rewrite tl_log by (unfold m; lia). eapply connect_all_snoc; [apply HAll; exact HF|replace (Z.of_nat (S m)) with (2 * Z.of_nat n + 2) by (unfold m; lia); apply HF1; exact HF].
  - rewrite HM2, app_length, HLn1. cbn [length]. lia.
  - intros k Hk. rewrite HM2. destruct (Nat.le_gt_cases k n) as [Hle|Hgt].
    + destruct (HCh1 k Hle) as (x & Hx & Hrest). exists x. split; [|exact Hrest]. rewrite nth_error_app1; [exact Hx|lia].
    + assert (k = S n) as -> by lia. eexists. split; [rewrite nth_error_app2, HLn1, Nat.sub_diag by lia; reflexivity|]. cbn [ch_first ch_parent ch_indices]. split; [rewrite Hh2; lia|]. split; [reflexivity|]. eexists. f_equal. unfold m. lia.
  - exists hd2. eexists. split; [replace (2 * Z.of_nat (S n) + 1) with (2 * Z.of_nat n + 3) by lia; rewrite HL2, HLn1; reflexivity|]. split; [rewrite HM2, nth_error_app2, HLn1, Nat.sub_diag by lia; reflexivity|]. reflexivity.
Qed.
Lemma line_reached start n : line start 0 start -> Z.of_nat n < top \/ n = O -> exists s, line start n s.
Proof. intros H0. induction n as [|n IH]; intros Hn; [exists start; exact H0|]. destruct IH as (s & HL); [destruct n; [now right|left; lia]|]. apply (line_S start n s HL). lia. Qed.
(** From the last chain to the checkpoint all of them are gone through. *)
Lemma line_goes start n s : line start n s -> forall k, (k <= n)%nat -> goes_through (m_chains (hs_mem s)) k base (S k).
Proof.
  intros (_ & _ & _ & HCh & _). induction k as [|k IH]; intros Hk; destruct (HCh _ Hk) as (ch & HN & Hf & Hp & _).
  - eapply through_last; [exact HN|]. left. lia.
  - eapply through_parent; [exact HN|lia|exact Hp|]. apply IH. lia.
Qed.
(** The checkpoint and the tip, as read from the last chain. *)
Lemma line_index start n s : line start n s -> forall k fuel, (k <= n)%nat -> (k < fuel)%nat -> header_index fuel (m_chains (hs_mem s)) k base = Ok base.
Proof.
  intros (_ & _ & _ & HCh & _). induction k as [|k IH]; intros fuel Hk Hf; (destruct fuel as [|fuel]; [lia|]); destruct (HCh _ Hk) as (ch & HN & Hfi & Hp & l & Hl); cbn [header_index]; rewrite HN.
  - destruct (Z.leb_spec (ch_first ch) base); [|lia]. rewrite Hfi, Hl. replace (base - (base + Z.of_nat 0)) with 0 by lia. replace (base + 2 * Z.of_nat 0) with base by lia. reflexivity.
  - destruct (Z.leb_spec (ch_first ch) base); [lia|]. rewrite Hp. apply IH; lia.
Qed.
Lemma line_base start n s : line start n s -> Z.of_nat n < top \/ n = O -> raw_at s n base = Ok (node 1).
Proof.
  intros HL Hn. pose proof HL as (HR & _ & HLn & HCh & _). unfold raw_at. rewrite (line_index start n s HL n) by lia. cbn [bind].
  destruct (height_of _ s HR ltac:(lia) 0%nat 1 eq_refl ltac:(lia)) as (hd & c & _ & _ & _ & HA & ch & HN & Hf & _). assert (c < S n)%nat as Hc by (rewrite <- HLn; apply nth_error_Some; congruence).
  destruct (HCh c ltac:(lia)) as (ch' & HN' & Hf' & _). rewrite HN in HN'. injection HN' as <-. change (1 / 2) with 0 in *. assert (c = O) as -> by lia. rewrite Z.add_0_r in HA. unfold raw_at in HA. rewrite (line_index start n s HL 0) in HA by lia. exact HA.
Qed.
Lemma line_tip start n s : line start n s -> Z.of_nat n < top \/ n = O -> exists hd ch, lookup H cp s (num (2 * Z.of_nat n + 1)) = Ok (hd, n) /\ h_height hd = base + Z.of_nat n /\
  raw_at s n (base + Z.of_nat n) = Ok (node (2 * Z.of_nat n + 1)) /\ nth_error (m_chains (hs_mem s)) n = Some ch /\ ch_first ch = base + Z.of_nat n.
Proof.
  intros (HR & _ & HLn & HCh & hd & ch & HLk & HN & _) Hn. exists hd, ch. split; [exact HLk|].
  destruct (height_of _ s HR ltac:(lia) n (2 * Z.of_nat n + 1) ltac:(lia) ltac:(lia)) as (hd' & c & HLk' & _ & Hh & HA & _). rewrite HLk in HLk'. injection HLk' as <- <-.
  replace ((2 * Z.of_nat n + 1) / 2) with (Z.of_nat n) in * by lia. split; [exact Hh|]. split; [exact HA|]. split; [exact HN|]. destruct (HCh n (le_n n)) as (ch' & HN' & Hf & _). rewrite HN in HN'. injection HN' as <-. exact Hf.
Qed.
End Line.

(** A checkpoint where a period of 2016 headers starts; the next period starts with the header number 4032, which is the child of the tip of the line. *)
Definition period_base : Z := 1185408.
Lemma slow_period h : period_base < h < period_base + 2016 -> h mod 2016 <> 0 \/ 1188697 < h.
Proof. unfold period_base. lia. Qed.
Lemma rule_retarget f : f (period_base + 2015) = Ok (node 4031) -> f period_base = Ok (node 1) -> rule f (period_base + 2016) (time_of (node 4032)) = Ok 486604799.
Proof.
  intros H1 H2. unfold rule, coin_required_bits. change (genesis_bits BitcoinRegtest) with (@Ok Z 486604799). cbn [bind]. destruct (max_target BitcoinRegtest) as [mt|] eqn:EM; [|vm_compute in EM; discriminate].
  cbn [bind BitcoinRegtest c_rule required_bits_by_rule]. unfold required_bits_testnet, required_bits_testnet_gen, required_bits_fortnightly, Work.header_at. change (period_base + 2016 - 1) with (period_base + 2015). change (period_base + 2016 - 2016) with period_base. rewrite H1, H2.
  vm_compute in EM. injection EM as <-. vm_compute. reflexivity.
Qed.
Lemma rule_retarget_raises f : f (period_base + 2015) = Ok (node 4031) -> f period_base = Err RecursionError -> rule f (period_base + 2016) (time_of (node 4032)) = Err RecursionError.
Proof.
  intros H1 H2. unfold rule, coin_required_bits. change (genesis_bits BitcoinRegtest) with (@Ok Z 486604799). cbn [bind]. destruct (max_target BitcoinRegtest) as [mt|] eqn:EM; [|vm_compute in EM; discriminate].
  cbn [bind BitcoinRegtest c_rule required_bits_by_rule]. unfold required_bits_testnet, required_bits_testnet_gen, required_bits_fortnightly, Work.header_at. change (period_base + 2016 - 1) with (period_base + 2015). change (period_base + 2016 - 2016) with period_base. rewrite H1, H2.
  vm_compute. reflexivity.
Qed.
Theorem retarget_raises frames : 1 <= Z.of_nat frames < 2016 -> exists m start s s' r, Z.of_nat m = 4031 /\
  from_file H 3 (cp_at period_base) None = (Some (st_file (created (cp_at period_base))), Ok start) /\
  connect_all_limited frames H rule 3 (cp_at period_base) start (tl (log m)) = (s, Ok tt) /\
  connect H rule 3 (cp_at period_base) s (node 4032) = (s', Ok r) /\
  connect_limited frames H rule 3 (cp_at period_base) s (node 4032) = (s, Err RecursionError).
Proof.
  intros HF. assert (0 <= period_base <= 1200000) as HB by (unfold period_base; lia). assert (2016 <= 2 ^ 16) as HT by lia. destruct (Z_of_nat_complete 2015 ltac:(lia)) as (n & En). symmetry in En. assert (Z.of_nat n < 2016 \/ n = O) as Hn by (left; lia).
  destruct (line_0 period_base 2016 HB slow_period) as (start & HNew & HL0). destruct (line_reached period_base 2016 HB HT slow_period start n HL0 Hn) as (s & HL). exists (2 * n + 1)%nat, start, s.
  pose proof HL as (HR & HAll & HLen & _). set (m := (2 * n + 1)%nat) in *. assert (Z.of_nat m = 4031) as Em by (unfold m; lia). clearbody m.
  pose proof (line_base period_base 2016 HB HT slow_period start n s HL Hn) as HB0.
  destruct (line_tip period_base 2016 HB HT slow_period start n s HL Hn) as (hd & ch & HLk & Hh & HA & HN & Hfi). rewrite En in *. change (2 * 2015 + 1) with 4031 in *.
  pose proof (line_goes period_base 2016 HT slow_period start n s HL n (le_n _)) as HG.
  set (k := 4032) in *. assert (prev_of (node k) = num 4031) as HP by (rewrite (proj1 (node_fields k ltac:(unfold k; lia))); reflexivity).
  assert (bits_of (node k) = 486604799) as HBits by reflexivity. assert (~ In (node k) (log m)) as HNI by (rewrite log_In; unfold k; lia).
  assert (U (node k)) as HU by (exists k; split; [unfold k; lia|reflexivity]).
  assert (room (cp_at period_base) (log m) s) as HRoom.
  { split; [unfold zlen; rewrite HLen; lia|]. unfold zlen, log. rewrite map_length, seq_length. change (cp_height (cp_at period_base)) with period_base. unfold period_base. lia. }
  assert (h_height hd + 1 = period_base + 2016) as HH by lia.
  pose proof (C27_new H rule 3 (cp_at period_base) U sets (ok period_base 2016 HB slow_period) (log m) s (node k) hd n HR HU HRoom (node_length k) HNI) as HX. rewrite HP in HX. specialize (HX HLk). rewrite HH in HX. unfold k in HX at 1. rewrite (rule_retarget _ HA HB0) in HX. fold k in HX. rewrite HBits in HX. destruct target as (t & Ht & Hle).
  destruct HX as (_ & _ & _ & HX). destruct (HX t eq_refl Ht) as (s' & hd' & c' & _ & _ & HE & _); [rewrite H_node, val_num by (unfold k; lia); unfold k; lia|]. clear HX. exists s', (hd', c').
  split; [exact Em|]. split; [exact HNew|]. split; [apply HAll; lia|]. split; [exact HE|].
  apply (connect_raises frames H 3 (cp_at period_base) U sets (ok period_base 2016 HB slow_period) rule (log m) s (node k) hd n HR (node_length k)); [rewrite HP; exact HLk| |].
  - apply (C26_others_missing H rule 3 (cp_at period_base) U sets (ok period_base 2016 HB slow_period) (log m) s _ HR); [rewrite (as_hash_length _ _ _ (ok period_base 2016 HB slow_period)); lia|]. intros raw HI HE2.
    unfold log in HI. apply in_map_iff in HI as (i & <- & HI). apply in_seq in HI. rewrite !H_node in HE2. apply node_inj in HE2; unfold k in *; lia.
  - rewrite HH. apply rule_retarget_raises.
    + rewrite (limited_own frames ltac:(lia) s n ch _ HN); [exact HA|lia].
    + unfold raw_at_limited. rewrite (limited_short _ _ _ _ HG frames) by lia. reflexivity.
Qed.
(** Past the activation of the DAA the line can be as long as the number of chains allows. *)
Definition deep_base : Z := 1200000.
Theorem deep_raises frames : (1 <= frames)%nat -> Z.of_nat frames < 2 ^ 16 -> exists start s,
  from_file H 3 (cp_at deep_base) None = (Some (st_file (created (cp_at deep_base))), Ok start) /\
  connect_all_limited frames H rule 3 (cp_at deep_base) start (tl (log (2 * frames + 1))) = (s, Ok tt) /\
  raw_at s frames deep_base = Ok (node 1) /\ raw_at_limited frames s frames deep_base = Err RecursionError.
Proof.
  intros HF HF2. assert (0 <= deep_base <= 1200000) as HB by (unfold deep_base; lia). assert (2 ^ 16 <= 2 ^ 16) as HT by lia.
  assert (forall h, deep_base < h < deep_base + 2 ^ 16 -> h mod 2016 <> 0 \/ 1188697 < h) as HS by (intros h Hh; right; unfold deep_base in Hh; lia).
  destruct (line_0 deep_base (2 ^ 16) HB HS) as (start & HNew & HL0). destruct (line_reached deep_base (2 ^ 16) HB HT HS start frames HL0 (or_introl HF2)) as (s & HL). exists start, s.
  split; [exact HNew|]. split; [apply HL; lia|]. split; [exact (line_base deep_base (2 ^ 16) HB HT HS start frames s HL (or_introl HF2))|].
  unfold raw_at_limited. rewrite (limited_short _ _ _ _ (line_goes deep_base (2 ^ 16) HT HS start frames s HL frames (le_n _)) frames) by lia. reflexivity.
Qed.
