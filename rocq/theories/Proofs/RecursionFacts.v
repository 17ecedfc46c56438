(** Lookups by height with a limited stack. *)
From Verif.Model Require Import Py Packing Bits Coin Work Storage Chain RecursionLimit.
From Verif.Spec Require Import Numbers WorkSpec ChainSpec HeadersHistory RecursionSpec.
From Verif.Proofs Require Import PyFacts WorkFacts RequiredBitsFacts StorageFacts ForestFacts ChainFacts HeadersFacts ForkFacts ChainTheorems.
From Verif.Proofs Require CipherFacts.

Lemma goes_through_pos chains c h n : goes_through chains c h n -> (0 < n)%nat.
Proof. destruct 1; lia. Qed.
Lemma limited_enough chains c h n : goes_through chains c h n -> forall frames fuel, (n <= frames)%nat -> (n <= fuel)%nat ->
  header_index_limited frames chains c h = header_index fuel chains c h.
Proof.
  induction 1 as [c h ch HN HL|c h ch p n HN HL HP _ IH]; intros frames fuel H1 H2; (destruct frames as [|frames]; [lia|]); (destruct fuel as [|fuel]; [lia|]); cbn [header_index_limited header_index]; rewrite HN.
  - destruct (Z.leb_spec (ch_first ch) h); [reflexivity|]. destruct HL as [HL| ->]; [lia|reflexivity].
  - destruct (Z.leb_spec (ch_first ch) h); [lia|]. rewrite HP. apply IH; lia.
Qed.
Lemma limited_short chains c h n : goes_through chains c h n -> forall frames, (frames < n)%nat -> header_index_limited frames chains c h = Err RecursionError.
Proof.
  induction 1 as [c h ch HN HL|c h ch p n HN HL HP _ IH]; intros frames H1; (destruct frames as [|frames]; [reflexivity|]); [lia|]. cbn [header_index_limited]. rewrite HN.
  destruct (Z.leb_spec (ch_first ch) h); [lia|]. rewrite HP. apply IH; lia.
Qed.
Lemma header_index_no_recursion fuel chains : forall c h, header_index fuel chains c h <> Err RecursionError.
Proof.
  induction fuel as [|fuel IH]; intros c h; cbn [header_index]; [discriminate|]. destruct (nth_error chains c) as [ch|]; [|discriminate].
  destruct (ch_first ch <=? h); [destruct (znth _ _); discriminate|]. destruct (ch_parent ch); [apply IH|]. destruct (0 <=? h); discriminate.
Qed.
Lemma goes_through_fun chains c h n : goes_through chains c h n -> forall m, goes_through chains c h m -> m = n.
Proof.
  induction 1 as [c h ch HN HL|c h ch p n HN HL HP _ IH]; intros m HM; inversion HM as [c' h' ch' HN' HL'|c' h' ch' p' n' HN' HL' HP' HM']; subst; rewrite HN in HN'; injection HN' as <-.
  - reflexivity.
  - destruct HL as [HL|HL]; [lia|congruence].
  - destruct HL' as [HL'|HL']; [lia|congruence].
  - rewrite HP in HP'. injection HP' as <-. f_equal. now apply IH.
Qed.
(** Where each parent has a smaller number than its child, there are at most as many chains to go through as there are chains up to it. *)
Definition ordered (chains : list chain) : Prop := forall c ch p, nth_error chains c = Some ch -> ch_parent ch = Some p -> (p < c)%nat.
Lemma ordered_goes chains h : ordered chains -> forall c, (c < length chains)%nat -> exists n, goes_through chains c h n /\ (n <= S c)%nat.
Proof.
  intros HO c. induction c as [c IH] using lt_wf_ind. intros HC. destruct (nth_error chains c) as [ch|] eqn:EN; [|apply nth_error_None in EN; lia].
  destruct (Z.lt_ge_cases h (ch_first ch)) as [HL|HL]; [|exists 1%nat; split; [eapply through_last; eauto|lia]].
  destruct (ch_parent ch) as [p|] eqn:EP; [|exists 1%nat; split; [eapply through_last; eauto|lia]].
  pose proof (HO c ch p EN EP) as HP. destruct (IH p HP ltac:(lia)) as (n & HG & Hn). exists (S n). split; [eapply through_parent; eauto|lia].
Qed.

(** A reader that may raise RecursionError instead of answering. *)
Definition weaker {A} (x y : result A) : Prop := x = y \/ x = Err RecursionError.
Lemma weaker_refl {A} (x : result A) : weaker x x.
Proof. now left. Qed.
Lemma weaker_bind {A B} (x y : result A) (f g : A -> result B) : weaker x y -> (forall a, weaker (f a) (g a)) -> weaker (bind x f) (bind y g).
Proof. intros [->| ->] HF; [|now right]. destruct y; [apply HF|now left]. Qed.
Lemma weaker_mapM {A B} (f g : A -> result B) l : (forall a, weaker (f a) (g a)) -> weaker (mapM f l) (mapM g l).
Proof.
  intros HF. induction l as [|a l IH]; [now left|]. cbn [mapM]. apply weaker_bind; [apply HF|]. intros b. apply weaker_bind; [exact IH|]. intros bs. now left.
Qed.
Section Rules.
  Variables f g : Z -> result bytes.
  Hypothesis fg : forall i, weaker (f i) (g i).
  Variables gb mt : Z.
  Lemma w_header_at h : weaker (Work.header_at f h) (Work.header_at g h).
  Proof. apply weaker_bind; [apply fg|]. intros a. apply weaker_refl. Qed.
  Lemma w_chainwork a b : weaker (chainwork_range f a b) (chainwork_range g a b).
  Proof. apply weaker_bind; [|intros; apply weaker_refl]. apply weaker_mapM. intros h. apply weaker_bind; [apply fg|intros; apply weaker_refl]. Qed.
  Lemma w_median h : weaker (median_time_past f h) (median_time_past g h).
  Proof. apply weaker_bind; [|intros; apply weaker_refl]. apply weaker_mapM. intros i. apply weaker_bind; [apply fg|intros; apply weaker_refl]. Qed.
  Lemma w_fortnightly h : weaker (required_bits_fortnightly f gb mt h) (required_bits_fortnightly g gb mt h).
  Proof.
    unfold required_bits_fortnightly. destruct (h =? 0); [apply weaker_refl|]. apply weaker_bind; [apply w_header_at|]. intros p. destruct (negb (h mod 2016 =? 0)); [apply weaker_refl|].
    apply weaker_bind; [apply w_header_at|intros; apply weaker_refl].
  Qed.
  Lemma w_prior h : weaker (median_prior_header f h) (median_prior_header g h).
  Proof. unfold median_prior_header. do 3 (apply weaker_bind; [apply w_header_at|intros ?]). apply weaker_refl. Qed.
  Lemma w_DAA h : weaker (required_bits_DAA f mt h) (required_bits_DAA g mt h).
  Proof. unfold required_bits_DAA. do 2 (apply weaker_bind; [apply w_prior|intros ?]). apply weaker_bind; [apply w_chainwork|intros; apply weaker_refl]. Qed.
  Lemma w_EDA h : weaker (required_bits_EDA f gb mt h) (required_bits_EDA g gb mt h).
  Proof.
    unfold required_bits_EDA. apply weaker_bind; [apply w_fortnightly|]. intros b. destruct (h mod 2016 =? 0); [apply weaker_refl|]. do 2 (apply weaker_bind; [apply w_median|intros ?]). apply weaker_refl.
  Qed.
  Lemma w_special n : weaker (prior_non_special_bits f gb n) (prior_non_special_bits g gb n).
  Proof.
    induction n as [|n IH]; [apply weaker_refl|]. cbn [prior_non_special_bits]. apply weaker_bind; [apply fg|]. intros r. apply weaker_bind; [apply weaker_refl|]. intros b. destruct (_ || _); [apply weaker_refl|exact IH].
  Qed.
  Lemma w_testnet h t d m : weaker (required_bits_testnet_gen f gb mt h t d m) (required_bits_testnet_gen g gb mt h t d m).
  Proof.
    unfold required_bits_testnet_gen. apply weaker_bind; [apply fg|]. intros r. apply weaker_bind; [apply weaker_refl|]. intros p. cbv zeta. destruct (h <=? d).
    - destruct (h mod 2016 =? 0); [apply w_fortnightly|]. destruct (_ <? _); [apply weaker_refl|apply w_special].
    - destruct (m && _); [apply weaker_refl|apply w_DAA].
  Qed.
  Lemma w_rule rule h t : weaker (required_bits_by_rule f gb mt rule h t) (required_bits_by_rule g gb mt rule h t).
  Proof.
    destruct rule; cbn [required_bits_by_rule]; [|apply w_testnet|apply w_testnet]. unfold required_bits_mainnet. destruct (h <? 478558); [apply w_fortnightly|]. destruct (h <=? 504031); [apply w_EDA|apply w_DAA].
  Qed.
End Rules.
Lemma coin_weaker c f g h t : (forall i, weaker (f i) (g i)) -> weaker (coin_required_bits c f h t) (coin_required_bits c g h t).
Proof. intros HF. unfold coin_required_bits. do 2 (apply weaker_bind; [apply weaker_refl|intros ?]). now apply w_rule. Qed.

Section Connect.
  Variable frames : nat.
  Hypothesis frames_pos : (0 < frames)%nat.
  Variable H : bytes -> bytes.
  Variable required : (Z -> result bytes) -> Z -> Z -> result Z.
  Variable max_cache : Z.
  Variable cp : checkpoint.
  Hypothesis required_weaker : forall f g h t, (forall i, weaker (f i) (g i)) -> weaker (required f h t) (required g h t).

  Lemma limited_weaker s c h : ordered (m_chains (hs_mem s)) -> (c < length (m_chains (hs_mem s)))%nat -> weaker (raw_at_limited frames s c h) (raw_at s c h).
  Proof.
    intros HO HC. destruct (ordered_goes _ h HO c HC) as (n & HG & Hn). unfold raw_at_limited, raw_at. apply weaker_bind; [|intros; apply weaker_refl].
    destruct (Nat.le_gt_cases n frames); [left; eapply limited_enough; eauto; lia|right; eapply limited_short; eauto].
  Qed.
  Lemma limited_own s c ch h : nth_error (m_chains (hs_mem s)) c = Some ch -> ch_first ch <= h -> raw_at_limited frames s c h = raw_at s c h.
  Proof.
    intros HN HH. unfold raw_at_limited, raw_at. rewrite (limited_enough _ c h 1 (through_last _ c h ch HN (or_introl HH)) frames (S (length (m_chains (hs_mem s))))); [reflexivity|lia|lia].
  Qed.
  Lemma mapM_same {A B} (f g : A -> result B) l : (forall a, In a l -> f a = g a) -> mapM f l = mapM g l.
  Proof. induction l as [|a l IH]; intros HF; [reflexivity|]. cbn [mapM]. rewrite (HF a (or_introl eq_refl)), IH by (intros b Hb; apply HF; now right). reflexivity. Qed.
  Lemma limited_work s c ch h : nth_error (m_chains (hs_mem s)) c = Some ch -> ch_first ch <= h -> chainwork_to_height_limited frames s c h = chainwork_to_height s c h.
  Proof.
    intros HN HH. unfold chainwork_to_height_limited, chainwork_to_height. rewrite HN. unfold chainwork_range.
    rewrite (mapM_same (fun h0 => raw <- raw_at_limited frames s c h0 ;; header_work raw) (fun h0 => raw <- raw_at s c h0 ;; header_work raw)); [reflexivity|].
    intros i HI. apply CipherFacts.zrange_in in HI. rewrite (limited_own s c ch i HN); [reflexivity|lia].
  Qed.

  Variable U : bytes -> Prop.
  Variable sets : list bytes -> Prop.
  Hypothesis A : assumptions H cp U.
  Notation reach := (reach H required max_cache cp U sets).
  Notation known := (known H cp).
  Notation chain_of := (chain_of H cp).

  Lemma known_ordered log s es cache : known log s es cache -> ordered (m_chains (hs_mem s)).
  Proof.
    intros K c ch p HN HP. destruct (known_chain H cp log s es cache c ch K HN) as [Hc ->]. pose proof (k_forest _ _ _ _ _ _ K) as HF.
    destruct (pos_struct H cp es c HF Hc) as (p0 & r & EP & _ & HH). unfold ChainFacts.chain_of in HP. rewrite EP in HP. cbn [hd ch_parent] in HP. unfold parent_chain in HP.
    cbn [head_ok] in HH. destruct c as [|c'].
    - subst p0. destruct (forest_nonempty _ _ _ _ es HF) as (w & _ & HR). rewrite (ent_nth _ _ _ HR) in HP. discriminate.
    - destruct HH as (e0 & j & pj & HNe & HPe & HNj & Hcj). rewrite (ent_nth _ _ _ HNe), HPe, (ent_nth _ _ _ HNj) in HP. injection HP as <-. exact Hcj.
  Qed.
  (** What lookup answers is the height and the chain of some entry, whatever the file holds. *)
  Lemma lookup_entry st es cache hash hd c : all80 es -> cache_ok H es cache -> lookup H cp (mk_headers st (mem_of H cp es cache)) hash = Ok (hd, c) ->
    exists i e, nth_error es i = Some e /\ h_height hd = e_height e /\ c = e_chain e.
  Proof.
    intros H80 HC HL. unfold lookup in HL. cbn [hs_mem mem_of m_cache] in HL. destruct (cache_get hash cache) as [v|] eqn:EC.
    - injection HL as ->. apply cache_get_In in EC. destruct (HC _ _ EC) as (i & e & HN & _ & HV). injection HV as -> ->. exists i, e. split; [exact HN|]. split; [|reflexivity]. apply (hdr_spec H (e_raw e) (e_height e) (H80 e (nth_error_In _ _ HN))).
    - apply bind_Ok in HL as ([raw oi] & _ & HL). apply bind_Ok in HL as (height & HH & HL). apply bind_Ok in HL as (hd' & HD & HL). apply bind_Ok in HL as (ci & HI & HL). apply bind_Ok in HL as (x & _ & HL).
      injection HL as <- <-. cbn [m_heights m_cidx mem_of] in HH, HI. unfold pyindex in HH, HI. rewrite !zlen_map in *. set (k := if oi <? 0 then oi + zlen es else oi) in *. rewrite !znth_map in *.
      destruct (znth es k) as [e|] eqn:EZ; [|discriminate]. cbn [option_map] in HH, HI. injection HH as <-. injection HI as <-.
      unfold deserialized_header in HD. apply bind_Ok in HD as ([[[[[v p] m] t] b] n] & _ & HD). injection HD as <-.
      assert (exists i, nth_error es i = Some e) as (i & HN). { clearbody k. destruct (Z.ltb_spec k 0); [rewrite znth_neg in EZ by assumption; discriminate|]. rewrite znth_nth_error in EZ by assumption. eauto. }
      exists i, e. split; [exact HN|]. split; [reflexivity|apply Nat2Z.id].
  Qed.
  Lemma read_limited st es cache i : forest H (cp_raw cp) (cp_height cp) (cp_prev_work cp) es -> all80 es -> cache_ok H es cache ->
    read_header_limited frames H max_cache cp (mk_headers st (mem_of H cp es cache)) i = read_header H max_cache cp (mk_headers st (mem_of H cp es cache)) i.
  Proof.
    intros HF H80 HC. unfold read_header_limited, read_header. cbv zeta. cbn [hs_st]. destruct (storage_get st i) as [raw|e]; [|reflexivity]. cbn [bind].
    destruct (deserialized_header H raw (-1)) as [nt|e]; [|reflexivity]. cbn [bind]. destruct (lookup H cp (mk_headers st (mem_of H cp es cache)) (h_prev_hash nt)) as [[prev ci]|e] eqn:EL; [|reflexivity]. cbn [bind].
    destruct (lookup_entry st es cache _ prev ci H80 HC EL) as (j & e & HN & HH & ->). pose proof (chain_lt H cp es j e HF HN) as Hc.
    cbn [hs_mem]. assert (nth_error (m_chains (mem_of H cp es cache)) (e_chain e) = Some (chain_of es (e_chain e))) as HNc by (cbn [mem_of m_chains]; now apply chain_list_nth).
    rewrite HNc. destruct (bytes_eqb _ _); [reflexivity|]. rewrite (limited_work (mk_headers st (mem_of H cp es cache)) (e_chain e) (chain_of es (e_chain e)) (h_height prev) HNc); [reflexivity|].
    rewrite HH. eapply chain_height_ge; eauto.
  Qed.
  (** Connecting does what it does with any stack, or raises RecursionError and changes nothing. *)
  Theorem connect_limited_is log s raw : reach log s ->
    connect_limited frames H required max_cache cp s raw = connect H required max_cache cp s raw \/
    connect_limited frames H required max_cache cp s raw = (s, Err RecursionError).
  Proof.
    intros HR. destruct (reach_known H required max_cache cp U sets A log s HR) as (es & cache & K).
    assert (weaker (connect_check_limited frames H required cp s raw) (connect_check H required cp s raw)) as HW.
    { unfold connect_check_limited, connect_check. apply weaker_bind; [apply weaker_refl|]. intros hd0. destruct (lookup H cp s (h_prev_hash hd0)) as [[prev ci]|e] eqn:EL; [|apply weaker_refl]. cbn [bind]. cbv zeta.
      destruct (nth_error (m_chains (hs_mem s)) ci) as [ch|] eqn:EN; [|apply weaker_refl]. match goal with |- weaker (match ?x with _ => _ end) _ => destruct x as [r|e] end; [apply weaker_refl|]. destruct e; try apply weaker_refl.
      apply weaker_bind; [|intros; apply weaker_refl]. apply required_weaker. intros i. apply limited_weaker; [eapply known_ordered; eauto|]. apply nth_error_Some. congruence. }
    unfold connect_limited, connect. destruct HW as [->| ->]; [|now right]. left. destruct (connect_check H required cp s raw) as [[r|hd0]|e]; [reflexivity| |reflexivity].
    destruct (storage_append (hs_st s) raw) as [st [i|e]]; [|reflexivity].
    assert (hs_mem s = mem_of H cp es cache) as -> by (rewrite (k_state _ _ _ _ _ _ K); reflexivity).
    rewrite read_limited; [reflexivity|exact (k_forest _ _ _ _ _ _ K)|exact (k_80 _ _ _ _ _ _ K)|exact (k_cache _ _ _ _ _ _ K)].
  Qed.
  (** Reading a header by its height. *)
  Theorem raw_at_limited_is log s c ch h : reach log s -> nth_error (m_chains (hs_mem s)) c = Some ch ->
    exists n, goes_through (m_chains (hs_mem s)) c h n /\ (n <= S c)%nat /\
      ((n <= frames)%nat -> raw_at_limited frames s c h = raw_at s c h) /\
      ((frames < n)%nat -> raw_at_limited frames s c h = Err RecursionError).
  Proof.
    intros HR HN. destruct (reach_known H required max_cache cp U sets A log s HR) as (es & cache & K). assert (c < length (m_chains (hs_mem s)))%nat as HC by (apply nth_error_Some; congruence).
    destruct (ordered_goes _ h (known_ordered _ _ _ _ K) c HC) as (n & HG & Hn). exists n. split; [exact HG|]. split; [exact Hn|]. unfold raw_at_limited, raw_at. split; intros HL.
    - rewrite (limited_enough _ c h n HG frames (S (length (m_chains (hs_mem s))))); [reflexivity|exact HL|lia].
    - now rewrite (limited_short _ c h n HG frames HL).
  Qed.
  (** The rule decides. *)
  Theorem connect_limited_same log s raw : reach log s -> zlen raw = 80 ->
    (forall phd pc, lookup H cp s (prev_of raw) = Ok (phd, pc) -> required (raw_at_limited frames s pc) (h_height phd + 1) (time_of raw) = required (raw_at s pc) (h_height phd + 1) (time_of raw)) ->
    connect_limited frames H required max_cache cp s raw = connect H required max_cache cp s raw.
  Proof.
    intros HR HL HQ. destruct (reach_known H required max_cache cp U sets A log s HR) as (es & cache & K).
    assert (connect_check_limited frames H required cp s raw = connect_check H required cp s raw) as HW.
    { unfold connect_check_limited, connect_check. destruct (hdr_spec H raw (-1) HL) as (-> & _ & _ & _ & HP & _ & HT & HWH). cbn [bind]. rewrite HP. destruct (lookup H cp s (prev_of raw)) as [[prev ci]|e] eqn:EL; [|reflexivity]. cbn [bind]. cbv zeta.
      rewrite HWH. destruct (hdr_spec H raw (h_height prev + 1) HL) as (_ & _ & _ & Hh & _ & _ & Ht & _). rewrite Hh, Ht, (HQ prev ci eq_refl). reflexivity. }
    unfold connect_limited, connect. rewrite HW. destruct (connect_check H required cp s raw) as [[r|hd0]|e]; [reflexivity| |reflexivity].
    destruct (storage_append (hs_st s) raw) as [st [i|e]]; [|reflexivity].
    assert (hs_mem s = mem_of H cp es cache) as -> by (rewrite (k_state _ _ _ _ _ _ K); reflexivity).
    rewrite read_limited; [reflexivity|exact (k_forest _ _ _ _ _ _ K)|exact (k_80 _ _ _ _ _ _ K)|exact (k_cache _ _ _ _ _ _ K)].
  Qed.
  (** With as many frames as chains there is no difference. *)
  Theorem enough_frames log s : reach log s -> (length (m_chains (hs_mem s)) <= frames)%nat ->
    (forall c ch h, nth_error (m_chains (hs_mem s)) c = Some ch -> raw_at_limited frames s c h = raw_at s c h) /\
    forall raw, zlen raw = 80 -> connect_limited frames H required max_cache cp s raw = connect H required max_cache cp s raw.
  Proof.
    intros HR HL. destruct (reach_known H required max_cache cp U sets A log s HR) as (es & cache & K).
    assert (forall c h, (c < length (m_chains (hs_mem s)))%nat -> raw_at_limited frames s c h = raw_at s c h) as HS.
    { intros c h HC. destruct (ordered_goes _ h (known_ordered _ _ _ _ K) c HC) as (n & HG & Hn). unfold raw_at_limited, raw_at. rewrite (limited_enough _ c h n HG frames (S (length (m_chains (hs_mem s))))); [reflexivity|lia|lia]. }
    split; [intros c ch h HN; apply HS; apply nth_error_Some; congruence|]. intros raw H80. apply (connect_limited_same log); [exact HR|exact H80|]. intros phd pc HLk.
    assert (pc < length (m_chains (hs_mem s)))%nat as HC.
    { rewrite (k_state _ _ _ _ _ _ K) in HLk. destruct (lookup_entry _ es cache _ phd pc (k_80 _ _ _ _ _ _ K) (k_cache _ _ _ _ _ _ K) HLk) as (i & e & HN & _ & ->). rewrite (k_chains _ _ _ _ _ _ K), chain_list_length. eapply chain_lt; eauto. exact (k_forest _ _ _ _ _ _ K). }
    pose proof (required_weaker (raw_at_limited frames s pc) (raw_at s pc) (h_height phd + 1) (time_of raw) (fun i => or_introl (HS pc i HC))) as [H1|H1]; [exact H1|].
    pose proof (required_weaker (raw_at s pc) (raw_at_limited frames s pc) (h_height phd + 1) (time_of raw) (fun i => or_introl (eq_sym (HS pc i HC)))) as [H2|H2]; congruence.
  Qed.
End Connect.
