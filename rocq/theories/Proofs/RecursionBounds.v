(** How far down the chains the rules for bits look, and how many chains that takes. *)
From Verif.Model Require Import Py Packing Bits Coin Work Storage Chain RecursionLimit.
From Verif.Spec Require Import WorkSpec ChainSpec HeadersHistory RecursionSpec.
From Verif.Proofs Require Import PyFacts WorkFacts RequiredBitsFacts StorageFacts ForestFacts ChainFacts HeadersFacts ForkFacts ChainTheorems RecursionFacts.
From Verif.Proofs Require CipherFacts.

(** A chain starts above the start of its parent, so one more height is needed for every chain gone through. *)
Definition rising (chains : list chain) : Prop := forall c ch p pch, nth_error chains c = Some ch -> ch_parent ch = Some p -> nth_error chains p = Some pch -> ch_first pch < ch_first ch.
Lemma rising_goes chains c h n : rising chains -> goes_through chains c h n -> forall ch, nth_error chains c = Some ch -> n = 1%nat \/ h + Z.of_nat n <= ch_first ch + 1.
Proof.
  intros HR. induction 1 as [c h ch HN HL|c h ch p n HN HL HP HG IH]; intros ch' HN'; [now left|]. rewrite HN in HN'. injection HN' as <-. right.
  assert (exists pch, nth_error chains p = Some pch) as (pch & HNp) by (inversion HG; eauto). pose proof (HR c ch p pch HN HP HNp). destruct (IH pch HNp); lia.
Qed.

(** What the rules read. *)
Section Local.
  Variables f g : Z -> result bytes.
  Variables gb mt : Z.
  Definition agree (a : Z) : Prop := forall i, a <= i -> f i = g i.
  Lemma l_mapM {A} (k : bytes -> result A) l a : agree a -> (forall i, In i l -> a <= i) -> mapM (fun h => raw <- f h ;; k raw) l = mapM (fun h => raw <- g h ;; k raw) l.
  Proof. intros HA. induction l as [|i l IH]; intros HI; [reflexivity|]. cbn [mapM]. rewrite (HA i) by (apply HI; now left). rewrite IH by (intros j Hj; apply HI; now right). reflexivity. Qed.
  Lemma l_header_at a h : agree a -> a <= h -> Work.header_at f h = Work.header_at g h.
  Proof. intros HA Hh. unfold Work.header_at. now rewrite HA. Qed.
  Lemma l_chainwork a x y : agree a -> a <= x -> chainwork_range f x y = chainwork_range g x y.
  Proof. intros HA Hx. unfold chainwork_range. rewrite (l_mapM header_work _ a HA); [reflexivity|]. intros i HI. apply CipherFacts.zrange_in in HI. lia. Qed.
  Lemma l_median a h : agree a -> a <= h - 10 -> median_time_past f h = median_time_past g h.
  Proof. intros HA Hh. unfold median_time_past. cbv zeta. rewrite (l_mapM header_timestamp _ a HA); [reflexivity|]. intros i HI. apply in_rev in HI. apply CipherFacts.zrange_in in HI. lia. Qed.
  Lemma l_fortnightly a h : agree a -> a <= h - 2016 -> required_bits_fortnightly f gb mt h = required_bits_fortnightly g gb mt h.
  Proof. intros HA Hh. unfold required_bits_fortnightly. now rewrite !(l_header_at a) by (assumption || lia). Qed.
  Lemma l_prior a h : agree a -> a <= h - 3 -> median_prior_header f h = median_prior_header g h.
  Proof. intros HA Hh. unfold median_prior_header. now rewrite !(l_header_at a) by (assumption || lia). Qed.
  Lemma header_at_height k h x : Work.header_at k h = Ok x -> hd_height x = h.
  Proof. unfold Work.header_at. intros HX. apply bind_Ok in HX as (r & _ & HX). apply bind_Ok in HX as ([[[[[? ?] ?] ?] ?] ?] & _ & HX). injection HX as <-. reflexivity. Qed.
  Lemma prior_height k h x : median_prior_header k h = Ok x -> h - 3 <= hd_height x.
  Proof.
    unfold median_prior_header. intros HX. apply bind_Ok in HX as (p0 & E0 & HX). apply bind_Ok in HX as (p1 & E1 & HX). apply bind_Ok in HX as (p2 & E2 & HX). apply header_at_height in E0, E1, E2. revert HX. unfold maybe_swap.
    destruct (_ <? _); destruct (_ <? _); destruct (_ <? _); intros HX; injection HX as <-; lia.
  Qed.
  Lemma l_DAA a h : agree a -> a <= h - 147 -> required_bits_DAA f mt h = required_bits_DAA g mt h.
  Proof.
    intros HA Hh. unfold required_bits_DAA. rewrite (l_prior a (h - 144)), (l_prior a h) by (assumption || lia). destruct (median_prior_header g (h - 144)) as [x|] eqn:E1; [|reflexivity]. cbn [bind].
    destruct (median_prior_header g h) as [y|]; [|reflexivity]. cbn [bind]. apply prior_height in E1. rewrite (l_chainwork a) by (assumption || lia). reflexivity.
  Qed.
  Lemma l_EDA a h : agree a -> a <= h - 2016 -> required_bits_EDA f gb mt h = required_bits_EDA g gb mt h.
  Proof. intros HA Hh. unfold required_bits_EDA. now rewrite (l_fortnightly a), !(l_median a) by (assumption || lia). Qed.
  Lemma l_special a n : agree a -> a <= Z.of_nat n / 2016 * 2016 -> Z.of_nat n mod 2016 <> 0 -> prior_non_special_bits f gb n = prior_non_special_bits g gb n.
  Proof.
    intros HA. induction n as [|n IH]; intros Hn HM; [reflexivity|]. cbn [prior_non_special_bits]. rewrite (HA (Z.of_nat n)) by lia. destruct (g (Z.of_nat n)) as [r|]; [|reflexivity]. cbn [bind]. destruct (header_bits r) as [b|]; [|reflexivity]. cbn [bind].
    destruct (Z.eqb_spec (Z.of_nat n mod 2016) 0) as [HZ|HZ]; cbn [orb]; [reflexivity|]. destruct (negb (b =? gb)); [reflexivity|]. apply IH; lia.
  Qed.
  Lemma l_testnet a h t d m : agree a -> a <= h - (if h <=? d then 2016 else 147) -> required_bits_testnet_gen f gb mt h t d m = required_bits_testnet_gen g gb mt h t d m.
  Proof.
    intros HA Hh. unfold required_bits_testnet_gen. rewrite (HA (h - 1)) by (destruct (h <=? d); lia). destruct (g (h - 1)) as [r|]; [|reflexivity]. cbn [bind]. destruct (header_timestamp r) as [pt|]; [|reflexivity]. cbn [bind]. cbv zeta.
    destruct (h <=? d); [|destruct (m && _); [reflexivity|now apply (l_DAA a)]]. destruct (Z.eqb_spec (h mod 2016) 0) as [HZ|HZ]; [now apply (l_fortnightly a)|]. destruct (_ <? _); [reflexivity|].
    destruct (Z.le_gt_cases h 0) as [HN|HN]; [now replace (Z.to_nat h) with O by lia|]. apply (l_special a); [exact HA| |]; rewrite Z2Nat.id by lia; lia.
  Qed.
End Local.
(** How far below a height its rule reads. *)
Definition depth (c : coin) (h : Z) : Z :=
  match c_rule c with
  | RuleMainnet => if h <=? 504031 then 2016 else 147
  | RuleTestnet => if h <=? 1188697 then 2016 else 147
  | RuleScalingTestnet => if h <=? 2200 then 2016 else 147
  end.
Lemma coin_local c f g h t : (forall i, h - depth c h <= i -> f i = g i) -> coin_required_bits c f h t = coin_required_bits c g h t.
Proof.
  intros HA. unfold coin_required_bits. destruct (genesis_bits c) as [gb|]; [|reflexivity]. cbn [bind]. destruct (max_target c) as [mt|]; [|reflexivity]. cbn [bind]. unfold depth in HA. destruct (c_rule c); cbn [required_bits_by_rule].
  - unfold required_bits_mainnet. destruct (Z.ltb_spec h 478558) as [H1|H1].
    + destruct (Z.leb_spec h 504031) as [H2|H2]; [|lia]. eapply l_fortnightly; [exact HA|lia].
    + destruct (Z.leb_spec h 504031) as [H2|H2]; [eapply l_EDA; [exact HA|lia]|eapply l_DAA; [exact HA|lia]].
  - eapply l_testnet; [exact HA|lia].
  - eapply l_testnet; [exact HA|lia].
Qed.
Lemma depth_range c h : depth c h <= 2016.
Proof. unfold depth. destruct (c_rule c); destruct (_ <=? _); lia. Qed.

Section Bounds.
  Variable frames : nat.
  Hypothesis frames_pos : (0 < frames)%nat.
  Variable H : bytes -> bytes.
  Variable max_cache : Z.
  Variable cp : checkpoint.
  Variable U : bytes -> Prop.
  Variable sets : list bytes -> Prop.
  Hypothesis A : assumptions H cp U.

  Lemma known_rising log s es cache : known H cp log s es cache -> rising (m_chains (hs_mem s)).
  Proof.
    intros K c ch p pch HN HP HNp. destruct (known_chain H cp log s es cache c ch K HN) as [Hc ->]. destruct (known_chain H cp log s es cache p pch K HNp) as [Hpc ->]. pose proof (k_forest _ _ _ _ _ _ K) as HF.
    destruct (chain_head H cp es c HF Hc) as (h & eh & HNh & _ & Hf & _ & [(_ & _ & HX)|(j & q & _ & HNj & _ & HX & HE & _)]); [congruence|].
    rewrite HX in HP. injection HP as <-. pose proof (chain_height_ge H cp es (e_chain q) j q HF Hpc HNj eq_refl). lia.
  Qed.
  (** Reading not too far below the start of a chain. *)
  Theorem near required log s c ch h : reach H required max_cache cp U sets log s -> nth_error (m_chains (hs_mem s)) c = Some ch -> ch_first ch - h < Z.of_nat frames ->
    raw_at_limited frames s c h = raw_at s c h.
  Proof.
    intros HR HN HH. destruct (raw_at_limited_is frames frames_pos H required max_cache cp U sets A log s c ch h HR HN) as (n & HG & _ & HE & _). apply HE.
    destruct (reach_known H required max_cache cp U sets A log s HR) as (es & cache & K). destruct (rising_goes _ _ _ _ (known_rising _ _ _ _ K) HG ch HN); lia.
  Qed.
  (** Connecting with a stack that holds as many calls as the rule looks back. *)
  Theorem connect_near coin log s raw : reach H (coin_required_bits coin) max_cache cp U sets log s -> zlen raw = 80 ->
    (forall phd pc, lookup H cp s (prev_of raw) = Ok (phd, pc) -> depth coin (h_height phd + 1) <= Z.of_nat frames) ->
    connect_limited frames H (coin_required_bits coin) max_cache cp s raw = connect H (coin_required_bits coin) max_cache cp s raw.
  Proof.
    intros HR HL HD. apply (connect_limited_same frames frames_pos H _ max_cache cp U sets A log s raw HR HL). intros phd pc HLk. specialize (HD phd pc HLk). apply coin_local. intros i Hi.
    destruct (reach_known H _ max_cache cp U sets A log s HR) as (es & cache & K). pose proof HLk as HLk'. rewrite (k_state _ _ _ _ _ _ K) in HLk.
    destruct (lookup_entry H cp _ es cache _ phd pc (k_80 _ _ _ _ _ _ K) (k_cache _ _ _ _ _ _ K) HLk) as (j & e & HN & HH & ->). pose proof (chain_lt H cp es j e (k_forest _ _ _ _ _ _ K) HN) as Hc.
    assert (nth_error (m_chains (hs_mem s)) (e_chain e) = Some (chain_of H cp es (e_chain e))) as HNc by (rewrite (k_chains _ _ _ _ _ _ K); now apply chain_list_nth).
    apply (near _ log s _ _ i HR HNc). pose proof (chain_height_ge H cp es (e_chain e) j e (k_forest _ _ _ _ _ _ K) Hc HN eq_refl). lia.
  Qed.
  (** When it raises RecursionError. *)
  Theorem connect_raises required log s raw phd pc : reach H required max_cache cp U sets log s -> zlen raw = 80 -> lookup H cp s (prev_of raw) = Ok (phd, pc) -> lookup H cp s (H raw) = Err MissingHeader ->
    required (raw_at_limited frames s pc) (h_height phd + 1) (time_of raw) = Err RecursionError ->
    connect_limited frames H required max_cache cp s raw = (s, Err RecursionError).
  Proof.
    intros HR HL HLk HM HQ. destruct (reach_known H _ max_cache cp U sets A log s HR) as (es & cache & K).
    unfold connect_limited, connect_check_limited. destruct (hdr_spec H raw (-1) HL) as (-> & _ & _ & _ & HP & _ & HT & HWH). cbn [bind]. rewrite HP, HLk. cbn [bind]. cbv zeta.
    rewrite HWH. destruct (hdr_spec H raw (h_height phd + 1) HL) as (_ & HHs & _ & Hh & _ & _ & Ht & _). rewrite Hh, Ht, HQ.
    destruct (nth_error (m_chains (hs_mem s)) pc) as [ch|] eqn:EN.
    - cbn [bind]. destruct (bytes_eqb _ _); [reflexivity|]. rewrite HHs, HM. reflexivity.
    - exfalso. rewrite (k_state _ _ _ _ _ _ K) in HLk. destruct (lookup_entry H cp _ es cache _ phd pc (k_80 _ _ _ _ _ _ K) (k_cache _ _ _ _ _ _ K) HLk) as (i & e & HN & _ & ->).
      rewrite (k_chains _ _ _ _ _ _ K) in EN. rewrite chain_list_nth in EN; [discriminate|]. eapply chain_lt; eauto. exact (k_forest _ _ _ _ _ _ K).
  Qed.
End Bounds.
