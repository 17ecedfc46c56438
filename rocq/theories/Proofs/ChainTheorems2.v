(** Properties of reachable Headers objects, in terms of the object's own methods. *)
From Verif.Model Require Import Py Packing Bits Coin Work Storage Chain.
From Verif.Spec Require Import Numbers WorkSpec ChainSpec HeadersHistory.
From Verif.Proofs Require Import PyFacts PackingFacts NumbersFacts WorkFacts RequiredBitsFacts StorageFacts StorageHistory ForestFacts ChainFacts HeadersFacts ForkFacts ChainTheorems.

Section Thms2.
  Variable H : bytes -> bytes.
  Variable required : (Z -> result bytes) -> Z -> Z -> result Z.
  Variable max_cache : Z.
  Variable cp : checkpoint.
  Variable U : bytes -> Prop.
  Variable sets : list bytes -> Prop.
  Hypothesis A : assumptions H cp U.
  Notation reach := (reach H required max_cache cp U sets).
  Notation known := (known H cp).
  Notation connect := (connect H required max_cache cp).
  Let H32 := as_hash_length _ _ _ A.

  (** C35 *)
  Theorem set_one_below log s h raw : reach log s -> 0 <= h < cp_height cp -> zlen raw = 80 ->
    exists s', set_one cp s h raw = (s', Ok tt) /\ hs_mem s' = hs_mem s /\
      storage_len (hs_st s') = storage_len (hs_st s) /\
      (forall hash, 4 <= zlen hash -> lookup H cp s' hash = lookup H cp s hash) /\
      forall c ch, nth_error (m_chains (hs_mem s)) c = Some ch ->
        raw_at s' c h = (if list_eq_dec Z.eq_dec raw (repeat 0 80) then Err MissingHeader else Ok raw) /\
        forall i, i <> h -> raw_at s' c i = raw_at s c i.
  Proof.
    intros HR Hh HL. destruct (reach_good _ _ _ _ _ _ A _ _ HR) as (es & bs & G).
    pose proof (good_known H required max_cache cp U sets A _ _ _ _ G) as K.
    destruct (good_set H required max_cache cp U sets A _ _ _ _ h raw G ltac:(lia)) as (bs' & G' & HM & HB & HOk & _).
    destruct (HOk Hh HL) as [HE HBh]. destruct (set_one cp s h raw) as [s' r] eqn:ES. cbn [fst snd] in *. subst r.
    pose proof (good_known H required max_cache cp U sets A _ _ _ _ G') as K'.
    exists s'. split; [reflexivity|]. split; [exact HM|].
    pose proof (g_rep _ _ _ _ _ _ _ _ G) as HRep. pose proof (g_rep _ _ _ _ _ _ _ _ G') as HRep'.
    split; [now rewrite (rep_len _ _ _ HRep), (rep_len _ _ _ HRep')|].
    assert (HG : forall i, 0 <= i -> i <> h -> storage_get (hs_st s') i = storage_get (hs_st s) i).
    { intros i Hi Hne. rewrite (rep_get _ _ _ _ HRep), (rep_get _ _ _ _ HRep') by auto. auto. }
    split.
    - intros hash Hhash. destruct (classic_hash H es hash) as [(j & p & HNj & <-)|Hnone].
      + rewrite (known_lookup _ _ _ A _ _ _ _ _ _ K HNj), (known_lookup _ _ _ A _ _ _ _ _ _ K' HNj). reflexivity.
      + rewrite (k_state _ _ _ _ _ _ K), (k_state _ _ _ _ _ _ K').
        rewrite !lookup_missing; eauto using k_forest, k_view, k_cache.
    - intros c ch HN. destruct (known_chain _ _ _ _ _ _ _ _ K HN) as (Hc & _). split.
      + rewrite (k_state _ _ _ _ _ _ K'). rewrite raw_at_below by (eauto using k_forest; lia).
        destruct (Z.leb_spec 0 h); [|lia]. rewrite (rep_get _ _ _ _ HRep') by lia. rewrite HBh.
        destruct (bytes_eqb_spec raw empty_header) as [E|E]; destruct (list_eq_dec Z.eq_dec raw (repeat 0 80)) as [E'|E']; auto; contradiction.
      + intros i Hi. destruct (Z.lt_ge_cases i (cp_height cp)) as [Hlo|Hhi].
        * rewrite (k_state _ _ _ _ _ _ K), (k_state _ _ _ _ _ _ K'). rewrite !raw_at_below by (eauto using k_forest).
          destruct (Z.leb_spec 0 i); [apply HG; lia|reflexivity].
        * destruct (chain_of_spec H cp es c (k_forest _ _ _ _ _ _ K) Hc) as (et & HNt & _ & _ & HE).
          destruct (Z.le_gt_cases i (e_height et)) as [Hle|Hgt].
          -- destruct (known_raw_on _ _ _ _ _ _ c et i K Hc HNt ltac:(lia)) as (k & ek & HRk & HAk & HNk & HHk).
             rewrite HRk, <- HHk. eapply known_raw_anc; eauto.
          -- rewrite (k_state _ _ _ _ _ _ K), (k_state _ _ _ _ _ _ K'). rewrite !raw_at_above; eauto using k_forest; lia.
  Qed.
  Theorem set_one_out log s h raw : reach log s -> ~ (0 <= h <= cp_height cp) -> set_one cp s h raw = (s, Err ValueError).
  Proof.
    intros _ Hh. unfold set_one. destruct (Z.leb_spec 0 h), (Z.leb_spec h (cp_height cp)); cbn; auto; lia.
  Qed.
  (** Overwriting the checkpoint: everything is lost on reopening. *)
  Theorem set_one_checkpoint log s raw : reach log s -> zlen raw = 80 -> raw <> cp_raw cp ->
    exists s', set_one cp s (cp_height cp) raw = (s', Ok tt) /\ hs_mem s' = hs_mem s /\
    exists s'', from_file H max_cache cp (Some (st_file (hs_st s'))) = (Some (st_file (created cp)), Ok s'') /\
      reach [cp_raw cp] s''.
  Proof.
    intros HR HL Hne. destruct (reach_good _ _ _ _ _ _ A _ _ HR) as (es & bs & G). pose proof (as_height _ _ _ A) as Hcp.
    destruct (rep_set (hs_st s) bs _ (cp_height cp) raw (g_rep _ _ _ _ _ _ _ _ G) HL ltac:(lia) ltac:(lia)) as (st' & HE & HR').
    exists (mk_headers st' (hs_mem s)). split.
    { unfold set_one. destruct (Z.leb_spec 0 (cp_height cp)); [|lia]. destruct (Z.leb_spec (cp_height cp) (cp_height cp)); [|lia].
      cbn [negb andb]. now rewrite HE. }
    split; [reflexivity|]. cbn [hs_st].
    assert (HO : open_file (Some (st_file st')) cp = Err BadHeadersFile \/ open_file (Some (st_file st')) cp = Err MissingHeader).
    { pose proof (cp_good H required max_cache cp U A) as Hg. rewrite (rep_open _ _ _ cp HR' Hg). rewrite block_get_update by lia. rewrite Z.eqb_refl.
      destruct (bytes_eqb raw empty_header); [now right|]. cbn [bind]. left.
      destruct (bytes_eqb_spec raw (cp_raw cp)); [contradiction|reflexivity]. }
    destruct (from_file_new H required max_cache cp U sets A (Some (st_file st')) (or_intror HO)) as (w & s'' & _ & HF & _).
    exists s''. split; [exact HF|]. eapply reach_new; eauto.
  Qed.

  (** C23 *)
  Lemma crash_count log es bs s st' bs' : good H max_cache cp U log es bs s ->
    rep st' bs' (idx cp (length es) + 1) -> (forall i, 0 <= i -> block_get bs' i = block_get bs i) ->
    from_file H max_cache cp (Some (st_file st')) = (Some (st_file st'), Err MissingHeader).
  Proof.
    intros G HR' HB. pose proof (cp_good H required max_cache cp U A) as Hg. pose proof (as_height _ _ _ A) as Hcp.
    pose proof (good_known H required max_cache cp U sets A _ _ _ _ G) as K.
    destruct (good_nonempty H max_cache cp U A _ _ _ _ G) as (e0 & HN0 & HE0).
    assert (HV : view cp st' es).
    { intros i e HN. rewrite (rep_get _ _ _ _ HR') by (unfold idx; lia). rewrite HB by (unfold idx; lia). exact (g_blocks _ _ _ _ _ _ _ _ G i e HN). }
    unfold Chain.from_file. pose proof (open_or_create_cases cp (Some (st_file st')) Hg) as HC.
    rewrite (rep_open _ _ _ cp HR' Hg) in HC. rewrite HB in HC by lia.
    pose proof (g_blocks _ _ _ _ _ _ _ _ G 0%nat e0 HN0) as HB0. unfold idx in HB0. rewrite Z.add_0_r in HB0. rewrite HB0 in HC. cbn [bind] in HC.
    rewrite HE0, bytes_eqb_refl in HC. rewrite HC. cbn [bind]. f_equal. unfold make_headers.
    destruct (root_work H cp U A) as (w & HW). rewrite (init_mem_Ok H required max_cache cp U A w HW). cbn [bind].
    rewrite (rep_len _ _ _ HR'). cbn [bind].
    assert (Hlen : (1 <= length es)%nat) by (apply nth_error_lt in HN0; lia).
    rewrite zrange_snoc by (unfold idx; lia). rewrite read_headers_app.
    rewrite (reload H required max_cache cp U A es _ (g_built _ _ _ _ _ _ _ _ G) st' w HV HW).
    cbn [read_headers]. unfold read_header. cbn [hs_st]. rewrite (rep_get _ _ _ _ HR') by (unfold idx; lia). rewrite HB by (unfold idx; lia).
    rewrite (g_above _ _ _ _ _ _ _ _ G) by lia. reflexivity.
  Qed.

  Theorem connect_crash log s raw s' r k : reach log s -> U raw -> room cp log s -> ~ In raw log -> connect s raw = (s', Ok r) ->
    let f := crashed s raw k in
    (exists s1, from_file H max_cache cp (Some f) = (Some f, Ok s1) /\ hs_mem s1 = hs_mem s /\
       storage_len (hs_st s1) = storage_len (hs_st s) /\ forall i, 0 <= i -> storage_get (hs_st s1) i = storage_get (hs_st s) i) \/
    (f = st_file (hs_st s') /\ from_file H max_cache cp (Some f) = (Some f, Ok s')) \/
    from_file H max_cache cp (Some f) = (Some f, Err MissingHeader).
  Proof.
    intros HR HU [Hch Hlen] HI HE f. destruct (reach_good _ _ _ _ _ _ A _ _ HR) as (es & bs & G).
    pose proof (good_known H required max_cache cp U sets A _ _ _ _ G) as K.
    assert (HLe : zlen log = Z.of_nat (length es)) by (rewrite <- (k_log _ _ _ _ _ _ K); unfold zlen; now rewrite map_length).
    assert (HR1 : reach (log ++ [raw]) s') by (eapply reach_accept; eauto).
    pose proof (reload_same H required max_cache cp U sets A _ _ HR1) as HRe.
    assert (HL80 : zlen raw = 80 /\ hs_st s' = fst (storage_append (hs_st s) raw)).
    { destruct (Z.eq_dec (zlen raw) 80) as [HL|HL].
      - split; [exact HL|]. unfold Chain.connect in HE. destruct (connect_check H required cp s raw) as [[r'|hd]|]; try discriminate.
        + exfalso. injection HE as <- <-.
          pose proof (k_log _ _ _ _ _ _ (good_known H required max_cache cp U sets A _ _ _ _ G)) as HX.
          destruct (reach_good _ _ _ _ _ _ A _ _ HR1) as (es1 & bs1 & G1).
          pose proof (rep_len _ _ _ (g_rep _ _ _ _ _ _ _ _ G)) as L0. pose proof (rep_len _ _ _ (g_rep _ _ _ _ _ _ _ _ G1)) as L1.
          rewrite L0 in L1. injection L1 as L1. unfold idx in L1.
          assert (length es1 = length (log ++ [raw])) by (rewrite <- (g_log _ _ _ _ _ _ _ _ G1); symmetry; apply map_length).
          rewrite app_length in H0. cbn [length] in H0. unfold zlen in HLe. lia.
        + destruct (storage_append (hs_st s) raw) as [st [i|]]; [|discriminate].
          destruct (read_header H max_cache cp (mk_headers st (hs_mem s)) i) as [s2 r2] eqn:ER. injection HE as <- _. cbn [fst].
          assert (HS : forall s0 i, hs_st (fst (read_header H max_cache cp s0 i)) = hs_st s0).
          { intros s0 i0. unfold read_header. destruct (raw0 <- storage_get (hs_st s0) i0;; _) as [[[? ?] ?]|]; [|reflexivity].
            destruct (nth_error _ _); [|reflexivity]. destruct (bytes_eqb _ _).
            - destruct (chain_append _ _ _) as [? [?|]]; [|reflexivity]. destruct (add_chain_tip _ _ _ _) as [? ?]. reflexivity.
            - destruct (prev_work <- _;; _); [|reflexivity]. destruct (add_chain _ _ _) as [? ?]. reflexivity. }
          specialize (HS (mk_headers st (hs_mem s)) i). rewrite ER in HS. exact HS.
      - exfalso. unfold Chain.connect, connect_check, deserialized_header, unpack_header in HE.
        destruct (Z.eqb_spec (zlen raw) 80); [contradiction|]. discriminate HE. }
    destruct HL80 as [HL HSt].
    destruct (append_crash (hs_st s) bs _ raw k (g_rep _ _ _ _ _ _ _ _ G) HL ltac:(unfold idx; lia)) as (bs' & HC).
    set (st' := storage_after (hs_st s) (firstn k (append_effects (hs_st s) raw))) in *.
    assert (Hf : f = st_file st') by reflexivity. rewrite Hf. clearbody st'. clear f Hf.
    destruct HC as [(HR' & HB)|[(HR' & HB)|(HR' & HX)]].
    - left. assert (G1 : good H max_cache cp U log es bs' (mk_headers st' (hs_mem s))).
      { pose proof (as_height _ _ _ A) as Hcp. destruct G as [G1 G2 G3 G4 G5 G6 G7]. split; cbn [hs_st hs_mem]; auto.
        - intros i e HN. rewrite HB by (unfold idx; lia). auto.
        - intros i Hi. rewrite HB by (unfold idx in Hi; lia). auto. }
      exists (mk_headers st' (hs_mem s)). split; [exact (good_reload H required max_cache cp U sets A _ _ _ _ G1)|].
      split; [reflexivity|]. cbn [hs_st]. split; [now rewrite (rep_len _ _ _ HR'), (rep_len _ _ _ (g_rep _ _ _ _ _ _ _ _ G))|].
      intros i Hi. rewrite (rep_get _ _ _ _ HR'), (rep_get _ _ _ _ (g_rep _ _ _ _ _ _ _ _ G)) by auto. auto.
    - right. right. eapply crash_count; eauto.
    - right. left. rewrite HX, <- HSt. auto.
  Qed.
  (** The bad crash point exists in every case. *)
  Theorem connect_crash_bad log s raw : reach log s -> room cp log s -> zlen raw = 80 ->
    exists k, (k < length (append_effects (hs_st s) raw))%nat /\ from_file H max_cache cp (Some (crashed s raw k)) = (Some (crashed s raw k), Err MissingHeader).
  Proof.
    intros HR [_ Hlen] HL. destruct (reach_good _ _ _ _ _ _ A _ _ HR) as (es & bs & G).
    pose proof (good_known H required max_cache cp U sets A _ _ _ _ G) as K.
    assert (HLe : zlen log = Z.of_nat (length es)) by (rewrite <- (k_log _ _ _ _ _ _ K); unfold zlen; now rewrite map_length).
    exists (pred (length (append_effects (hs_st s) raw))). split.
    - destruct (rep_append (hs_st s) bs _ raw (g_rep _ _ _ _ _ _ _ _ G) HL ltac:(unfold idx; lia)) as (_ & _ & _ & HE). rewrite HE.
      unfold set_effects. rewrite !app_length. cbn [length]. lia.
    - destruct (append_crash_last (hs_st s) bs _ raw (g_rep _ _ _ _ _ _ _ _ G) HL ltac:(unfold idx; lia)) as (bs' & HR' & HB).
      exact (crash_count _ _ _ _ _ bs' G HR' HB).
  Qed.
End Thms2.

(** C26: nothing depends on the cache's size or on what led to the headers' being accepted. *)
Theorem cache_independent H cp U r1 r2 mc1 mc2 sets1 sets2 log s1 s2 : assumptions H cp U ->
  reach H r1 mc1 cp U sets1 log s1 -> reach H r2 mc2 cp U sets2 log s2 ->
  m_chains (hs_mem s1) = m_chains (hs_mem s2) /\
  forall hash, 4 <= zlen hash -> lookup H cp s1 hash = lookup H cp s2 hash.
Proof.
  intros A HR1 HR2. destruct (reach_known H r1 mc1 cp U sets1 A log s1 HR1) as (es & ca & K1).
  destruct (reach_known H r2 mc2 cp U sets2 A log s2 HR2) as (es' & ca' & K2).
  assert (es' = es) as ->.
  { eapply forest_unique; [exact (k_forest _ _ _ _ _ _ K2)|exact (k_forest _ _ _ _ _ _ K1)|].
    now rewrite (k_log _ _ _ _ _ _ K1), (k_log _ _ _ _ _ _ K2). }
  split; [now rewrite (k_chains _ _ _ _ _ _ K1), (k_chains _ _ _ _ _ _ K2)|].
  intros hash Hh. destruct (classic_hash H es hash) as [(j & p & HNj & <-)|Hnone].
  - rewrite (known_lookup H cp U A _ _ _ _ _ _ K1 HNj), (known_lookup H cp U A _ _ _ _ _ _ K2 HNj). reflexivity.
  - rewrite (k_state _ _ _ _ _ _ K1), (k_state _ _ _ _ _ _ K2).
    rewrite !lookup_missing; eauto using k_forest, k_view, k_cache, as_hash_length.
Qed.
