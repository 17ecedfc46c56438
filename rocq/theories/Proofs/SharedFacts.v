(** Two Headers objects of one file. *)
From Verif.Model Require Import Py Packing Bits Coin Work Storage Chain.
From Verif.Spec Require Import Numbers WorkSpec ChainSpec HeadersHistory.
From Verif.Proofs Require Import PyFacts PackingFacts NumbersFacts WorkFacts RequiredBitsFacts StorageFacts StorageHistory ForestFacts ChainFacts HeadersFacts ForkFacts ChainTheorems RecursionFacts.

Lemma weaker_both {A} (x y : result A) : weaker x y -> weaker y x -> x = y.
Proof. intros [-> | ->] [H1 | H1]; congruence. Qed.
Lemma rule_ext f g gb mt rule h t : (forall i, f i = g i) -> required_bits_by_rule f gb mt rule h t = required_bits_by_rule g gb mt rule h t.
Proof. intros HE. apply weaker_both; apply w_rule; intros i; left; congruence. Qed.

Section Shared.
  Variable H : bytes -> bytes.
  Variable required : (Z -> result bytes) -> Z -> Z -> result Z.
  Variable max_cache : Z.
  Variable cp : checkpoint.
  Variable U : bytes -> Prop.
  Variable sets : list bytes -> Prop.
  Hypothesis A : assumptions H cp U.
  (** The rule for bits depends on the headers only. *)
  Hypothesis required_ext : forall f g h t, (forall i, f i = g i) -> required f h t = required g h t.
  Notation reach := (reach H required max_cache cp U sets).
  Notation connect := (connect H required max_cache cp).
  Notation from_file := (from_file H max_cache cp).
  Notation idx := (idx cp).
  Notation forest := (forest H (cp_raw cp) (cp_height cp) (cp_prev_work cp)).
  Notation hdr := (hdr H).
  Notation chain_of := (chain_of H cp).
  Notation chain_list := (chain_list H cp).
  Notation mem_of := (mem_of H cp).
  Notation good := (good H max_cache cp U).
  Let H32 := as_hash_length _ _ _ A.
  Let cpn : 0 <= cp_height cp := proj1 (as_height _ _ _ A).

  (** Reading any header whose predecessor is known, from any place. *)
  Lemma read_any st es cache raw j p w k : forest es -> all80 es -> view cp st es -> cache_ok H es cache ->
    nth_error es j = Some p -> H (e_raw p) = prev_of raw -> zlen raw = 80 -> raw_work raw w ->
    storage_get st k = Ok raw -> 0 <= k < 2 ^ 32 -> 0 <= e_height p + 1 < 2 ^ 32 -> Z.of_nat (nchains es) < 2 ^ 16 ->
    exists m c, read_header H max_cache cp (mk_headers st (mem_of es cache)) k = (mk_headers st m, Ok c) /\
      (tip es (e_chain p) <> j -> c = nchains es /\ exists ch, m_chains m = chain_list es ++ [ch] /\ ch_tip ch = hdr raw (e_height p + 1) /\ ch_parent ch = Some (e_chain p)).
  Proof.
    intros HF H80 HV HC Hj HP HL HW HG Hk Hht Hcx.
    unfold read_header. cbn [hs_st]. rewrite HG. cbn [bind].
    destruct (hdr_spec H raw (-1) HL) as (-> & _ & _ & _ & HPv & _ & _ & HWH). cbn [bind]. rewrite HPv, <- HP.
    rewrite (lookup_found H cp H32 st es cache j p HF H80 HV HC Hj). cbn [bind].
    destruct (hdr_spec H (e_raw p) (e_height p) (H80 p ltac:(eapply nth_error_In; eauto))) as (_ & Hhp & _ & Hhh & _).
    rewrite Hhh, HWH, Hhp. cbn [hs_mem ChainFacts.mem_of m_chains].
    pose proof (chain_lt H cp es j p HF Hj) as Hcp. rewrite chain_list_nth by auto.
    destruct (chain_of_spec H cp es (e_chain p) HF Hcp) as (et & HNt & HTip & HWk & _).
    rewrite HTip. destruct (hdr_spec H (e_raw et) (e_height et) (H80 et ltac:(eapply nth_error_In; eauto))) as (_ & -> & _).
    destruct (hdr_spec H raw (e_height p + 1) HL) as (_ & Hnh & _ & Hnhh & _).
    destruct (bytes_eqb_spec (H (e_raw et)) (H (e_raw p))) as [HEq|HNeq].
    - assert (Ht : tip es (e_chain p) = j) by (eapply forest_hash_inj; eauto).
      unfold chain_append. rewrite arr_append_Ok by lia. rewrite (hdr_work H raw (e_height p + 1) w HL HW). cbv iota.
      rewrite add_chain_tip_Ok; [|rewrite Hnhh; lia|lia]. cbn [bind set_mem hs_st]. do 2 eexists. split; [reflexivity|]. intros HX. contradiction.
    - assert (Ht : tip es (e_chain p) <> j) by (intros Ht; apply HNeq; rewrite Ht in HNt; congruence).
      assert (HAj : ancestor es j (tip es (e_chain p))).
      { destruct (tip_spec H cp es (e_chain p) HF Hcp) as (_ & _ & _ & _ & HA). eapply HA; eauto. }
      pose proof (chainwork_to H cp H32 st es cache (e_chain p) j p HF H80 HV Hcp Hj HAj) as HCW.
      rewrite HCW. cbn [bind].
      unfold new_chain. rewrite (hdr_work H raw (e_height p + 1) w HL HW). cbn [bind].
      rewrite arr_append_Ok by lia. cbn [bind app]. rewrite Hnhh.
      unfold add_chain. cbn [hs_mem ChainFacts.mem_of m_chains m_short m_heights m_cidx m_cache ch_tip].
      rewrite chain_list_length. rewrite add_chain_tip_Ok; [|rewrite Hnhh; lia|lia].
      cbn [m_chains m_short m_heights m_cidx m_cache bind set_mem hs_st]. do 2 eexists. split; [reflexivity|]. intros _. split; [reflexivity|].
      eexists. split; [reflexivity|]. split; reflexivity.
  Qed.

  (** Headers that are found at the same places are the same at all heights. *)
  Lemma raw_at_same st st' es cache c h : forest es -> view cp st es -> view cp st' es -> (c < nchains es)%nat ->
    (forall i, 0 <= i < cp_height cp -> storage_get st' i = storage_get st i) ->
    raw_at (mk_headers st' (mem_of es cache)) c h = raw_at (mk_headers st (mem_of es cache)) c h.
  Proof.
    intros HF HV HV' Hc HB. destruct (Z.lt_ge_cases h (cp_height cp)) as [Hh|Hh].
    - rewrite !(raw_at_below H cp) by auto. destruct (Z.leb_spec 0 h); [apply HB; lia|reflexivity].
    - destruct (chain_of_spec H cp es c HF Hc) as (e & HN & HT & HW & HH). destruct (Z.le_gt_cases h (e_height e)) as [Hl|Hl].
      + destruct (raw_at_on H cp st es cache c e h HF HV Hc HN ltac:(lia)) as (k & ek & -> & HA & HNk & <-). exact (raw_at_anc H cp st' es cache c k ek HF HV' Hc HA HNk).
      + rewrite !(raw_at_above H cp) by (auto; lia). reflexivity.
  Qed.

  Lemma accepted log es bs s raw s' r : good log es bs s -> zlen (m_chains (hs_mem s)) < 2 ^ 16 -> cp_height cp + zlen log < 2 ^ 32 - 1 ->
    U raw -> ~ In raw log -> connect s raw = (s', Ok r) ->
    exists j p t w bs', zlen raw = 80 /\ extends H es raw j p w /\ required (raw_at s (e_chain p)) (e_height p + 1) (time_of raw) = Ok (bits_of raw) /\
      compact (bits_of raw) t /\ le_int (H raw) <= t /\ good (log ++ [raw]) (es ++ [new_entry es raw j p w]) bs' s' /\ raw <> empty_header /\
      forall i, 0 <= i -> block_get bs' i = if i =? idx (length es) then Ok raw else block_get bs i.
  Proof.
    intros G Hch Hlen HU HN HE. pose proof (connect_outcome H required max_cache cp U sets A log es bs s raw G HU Hch Hlen) as HO. rewrite HE in HO.
    inversion HO as [|?|i e HL HNi HEi Hne EQ| | | | |j p t w s2 bs' HL HNj Hp _ HRq Hb Ht HX G' (bs0 & HR0 & Hbs) EQ].
    { exfalso. apply HN. rewrite <- (g_log _ _ _ _ _ _ _ _ G). apply in_map_iff. exists e. split; [exact HEi|]. eapply nth_error_In; eauto. }
    assert (Hi : 0 <= idx (length es)) by (unfold ChainFacts.idx; lia).
    assert (HB : forall i, 0 <= i -> block_get bs' i = if i =? idx (length es) then (if bytes_eqb raw empty_header then Err MissingHeader else Ok raw) else block_get bs i).
    { intros i Hi0. rewrite Hbs, block_get_update by lia. rewrite <- (rep_get _ _ _ i HR0 Hi0), (rep_get _ _ _ i (g_rep _ _ _ _ _ _ _ _ G) Hi0). reflexivity. }
    assert (HZ : raw <> empty_header).
    { intros HZ. pose proof (g_blocks _ _ _ _ _ _ _ _ G' (length es) _ (nth_error_last _ _)) as HX'. rewrite HB, Z.eqb_refl in HX' by exact Hi. rewrite HZ in HX'. discriminate HX'. }
    exists j, p, t, w, bs'. subst s2. do 7 (split; [assumption|]). intros i Hi0. rewrite HB by exact Hi0. destruct (i =? _); [|reflexivity]. destruct (bytes_eqb_spec raw empty_header); [contradiction|reflexivity].
  Qed.

  (** What one object accepts, it accepts after the other has appended a header to the file. *)
  Lemma shared_accept log s a s1 ra b sb rb : reach log s -> zlen (m_chains (hs_mem s)) < 2 ^ 16 -> cp_height cp + zlen log < 2 ^ 32 - 2 ->
    U a -> ~ In a log -> connect s a = (s1, Ok ra) -> U b -> ~ In b log -> connect s b = (sb, Ok rb) ->
    exists es bs j p w jb pb wb bs1 bs2 s2 r2, let n := cp_height cp + zlen log in let y := new_entry es a j p w in
      good log es bs s /\ idx (length es) = n /\ extends H es a j p w /\ good (log ++ [a]) (es ++ [y]) bs1 s1 /\ zlen a = 80 /\
      extends H es b jb pb wb /\ zlen b = 80 /\
      connect (mk_headers (hs_st s1) (hs_mem s)) b = (s2, Ok r2) /\ rep (hs_st s2) bs2 (n + 2) /\
      forall i, 0 <= i -> block_get bs2 i = if i =? n + 1 then Ok b else if i =? n then Ok a else block_get bs i.
  Proof.
    intros HR Hch Hlen HUa HNa HEa HUb HNb HEb. destruct (reach_good _ _ _ _ _ _ A _ _ HR) as (es & bs & G).
    assert (Hl : zlen log = Z.of_nat (length es)) by (rewrite <- (g_log _ _ _ _ _ _ _ _ G); unfold zlen; now rewrite map_length).
    destruct (accepted log es bs s a s1 ra G Hch ltac:(lia) HUa HNa HEa) as (j & p & t & w & bs1 & HLa & HXa & _ & _ & _ & G1 & HZa & HBa).
    destruct (accepted log es bs s b sb rb G Hch ltac:(lia) HUb HNb HEb) as (jb & pb & tb & wb & bsb & HLb & HXb & HRq & HT & HP & _ & HZb & _).
    set (n := cp_height cp + zlen log) in *. assert (Hi : idx (length es) = n) by (unfold ChainFacts.idx, n; lia). rewrite Hi in *.
    pose proof (good_known H required max_cache cp U sets A _ _ _ _ G) as K. pose proof HXb as (HNj & HPv & Hfresh & HW).
    pose proof (k_forest _ _ _ _ _ _ K) as HF. pose proof (k_80 _ _ _ _ _ _ K) as H80. pose proof (k_cache _ _ _ _ _ _ K) as HC. set (cache := m_cache (hs_mem s)) in *.
    assert (HV1 : view cp (hs_st s1) es).
    { intros i e HN. apply (good_view H required max_cache cp U sets A _ _ _ _ G1). now apply nth_error_app_l. }
    pose proof (chain_lt H cp es jb pb HF HNj) as Hcl.
    pose proof (g_rep _ _ _ _ _ _ _ _ G1) as HR1. rewrite app_length in HR1. cbn [length] in HR1. replace (idx (length es + 1)) with (n + 1) in HR1 by (rewrite <- Hi; unfold ChainFacts.idx; lia).
    destruct (rep_append (hs_st s1) bs1 (n + 1) b HR1 HLb ltac:(lia)) as (st2 & HAp & HR2 & _).
    set (bs2 := zupdate (grown bs1 (n + 1)) (n + 1) b) in *.
    assert (Hn0 : 0 <= n) by (unfold n; pose proof (zlen_nonneg log); lia).
    assert (HB2 : forall i, 0 <= i -> block_get bs2 i = if i =? n + 1 then Ok b else if i =? n then Ok a else block_get bs i).
    { intros i Hi0. unfold bs2. rewrite block_get_update by lia. destruct (i =? n + 1); [destruct (bytes_eqb_spec b empty_header); [contradiction|reflexivity]|]. now rewrite HBa. }
    assert (HV2 : view cp st2 es).
    { intros i e HN. pose proof (nth_error_lt _ _ _ HN) as Hlt. assert (0 <= idx i < n) as Hii by (rewrite <- Hi; unfold ChainFacts.idx; lia). rewrite (rep_get _ _ _ _ HR2), HB2 by lia.
      destruct (Z.eqb_spec (idx i) (n + 1)); [lia|]. destruct (Z.eqb_spec (idx i) n); [lia|]. exact (g_blocks _ _ _ _ _ _ _ _ G i e HN). }
    destruct (forest_height_ge _ _ _ _ es jb pb HF HNj) as [Hge _]. pose proof (nth_error_lt _ _ _ HNj) as Hjl.
    assert (Hchn : Z.of_nat (nchains es) < 2 ^ 16) by (rewrite (k_chains _ _ _ _ _ _ K) in Hch; unfold zlen in Hch; rewrite chain_list_length in Hch; exact Hch).
    destruct (read_any st2 es cache b jb pb wb (n + 1) HF H80 HV2 HC HNj HPv HLb HW) as (m & c & HRd & _); [rewrite (rep_get _ _ _ _ HR2), HB2 by lia; now rewrite Z.eqb_refl|lia|lia|exact Hchn|].
    exists es, bs, j, p, w, jb, pb, wb, bs1, bs2, (mk_headers st2 m), (hdr b (e_height pb + 1), c). cbv zeta.
    split; [exact G|]. split; [exact Hi|]. split; [exact HXa|]. split; [exact G1|]. split; [exact HLa|]. split; [exact HXb|]. split; [exact HLb|].
    split; [|split; [cbn [hs_st]; replace (n + 2) with (n + 1 + 1) by lia; exact HR2|exact HB2] ].
    rewrite (g_mem _ _ _ _ _ _ _ _ G). fold cache.
    unfold Chain.connect, connect_check.
    destruct (hdr_spec H b (-1) HLb) as (-> & Hhash & _ & _ & Hprev & Hbits & Htime & Hwith). cbn [bind]. rewrite Hprev.
    rewrite <- HPv at 1. rewrite (lookup_found H cp H32 (hs_st s1) es cache jb pb) by auto. cbn [bind].
    destruct (hdr_spec H (e_raw pb) (e_height pb) (H80 _ (nth_error_In _ _ HNj))) as (_ & Hphash & _ & Hph & _).
    rewrite Hphash, Hph, Hwith. cbn [hs_mem ChainFacts.mem_of m_chains]. rewrite chain_list_nth by auto.
    destruct (hdr_spec H b (e_height pb + 1) HLb) as (_ & Hhash' & _ & Hhh' & _ & Hbits' & Htime' & _).
    rewrite Hhash', Hhh', Hbits', Htime'.
    assert (HLk : lookup H cp (mk_headers (hs_st s1) (mem_of es cache)) (H b) = Err MissingHeader) by (apply lookup_missing; auto; rewrite H32; lia).
    match goal with |- context [match (if ?t then _ else _) with Ok _ => _ | Err _ => _ end] =>
      replace (if t then Err MissingHeader else lookup H cp (mk_headers (hs_st s1) (mem_of es cache)) (H b)) with (@Err (header * nat) MissingHeader) by (destruct t; [reflexivity|now rewrite HLk]) end.
    assert (HRq' : required (raw_at (mk_headers (hs_st s1) (mem_of es cache)) (e_chain pb)) (e_height pb + 1) (time_of b) = Ok (bits_of b)).
    { rewrite <- HRq. apply required_ext. intros i. rewrite (k_state _ _ _ _ _ _ K). apply raw_at_same; auto; [exact (k_view _ _ _ _ _ _ K)|].
      intros k Hk. rewrite (rep_get _ _ _ k HR1), (rep_get _ _ _ k (g_rep _ _ _ _ _ _ _ _ G)), HBa by lia. destruct (Z.eqb_spec k n); [unfold n in *; pose proof (zlen_nonneg log); lia|reflexivity]. }
    rewrite HRq'. cbn [bind]. rewrite Z.eqb_refl. cbn [negb].
    unfold header_obj_target, header_hash_value. rewrite Hbits', Hhash'. apply bits_to_target_spec in HT. rewrite HT. cbn [bind].
    destruct (Z.ltb_spec tb (le_int (H b))); [lia|]. cbn [bind hs_st hs_mem]. rewrite HAp. rewrite HRd. reflexivity.
  Qed.

  (** The other object does not find the header. *)
  Theorem shared_blind log s a s1 ra : reach log s -> zlen (m_chains (hs_mem s)) < 2 ^ 16 -> cp_height cp + zlen log < 2 ^ 32 - 1 ->
    U a -> ~ In a log -> connect s a = (s1, Ok ra) ->
    lookup H cp (mk_headers (hs_st s1) (hs_mem s)) (H a) = Err MissingHeader /\ exists r, lookup H cp s1 (H a) = Ok r.
  Proof.
    intros HR Hch Hlen HU HN HE. destruct (reach_good _ _ _ _ _ _ A _ _ HR) as (es & bs & G).
    destruct (accepted log es bs s a s1 ra G Hch ltac:(lia) HU HN HE) as (j & p & t & w & bs1 & HL & HX & _ & _ & _ & G1 & _ & _).
    pose proof (good_known H required max_cache cp U sets A _ _ _ _ G) as K. pose proof (good_known H required max_cache cp U sets A _ _ _ _ G1) as K1. split.
    - rewrite (g_mem _ _ _ _ _ _ _ _ G). apply lookup_missing; [exact H32|exact (k_forest _ _ _ _ _ _ K)| |exact (k_cache _ _ _ _ _ _ K)|rewrite H32; lia|exact (proj1 (proj2 (proj2 HX)))].
      intros i e HNi. apply (good_view H required max_cache cp U sets A _ _ _ _ G1). now apply nth_error_app_l.
    - eexists. exact (known_lookup _ _ _ A _ _ _ _ _ _ K1 (nth_error_last _ _)).
  Qed.

  (** They connect two headers: the file has both, and gives both when it is opened again. *)
  Theorem shared_two log s a s1 ra b sb rb : reach log s -> zlen (m_chains (hs_mem s)) < 2 ^ 16 - 1 -> cp_height cp + zlen log < 2 ^ 32 - 2 ->
    U a -> ~ In a log -> connect s a = (s1, Ok ra) -> U b -> ~ In b log -> connect s b = (sb, Ok rb) -> a <> b ->
    exists s2 r2 s3, connect (mk_headers (hs_st s1) (hs_mem s)) b = (s2, Ok r2) /\
      from_file (Some (st_file (hs_st s2))) = (Some (st_file (hs_st s2)), Ok s3) /\
      forall x, In x (log ++ [a; b]) -> exists hd c, lookup H cp s3 (H x) = Ok (hd, c) /\ h_raw hd = x.
  Proof.
    intros HR Hch Hlen HUa HNa HEa HUb HNb HEb Hab. destruct (shared_accept log s a s1 ra b sb rb HR ltac:(lia) Hlen HUa HNa HEa HUb HNb HEb) as (es & bs & j & p & w & jb & pb & wb & bs1 & bs2 & s2 & r2 & G & Hi & HX & G1 & HL & HXb & HLb & HC2 & HR2 & HB2).
    cbv zeta in *. set (n := cp_height cp + zlen log) in *. set (y := new_entry es a j p w) in *. pose proof HX as (HNj & HPv & Hfresh & HW). pose proof HXb as (HNb' & HPb & Hfb & HWb).
    pose proof (good_known H required max_cache cp U sets A _ _ _ _ G) as K. pose proof (good_known H required max_cache cp U sets A _ _ _ _ G1) as K1.
    pose proof (k_forest _ _ _ _ _ _ K) as HF. pose proof (k_forest _ _ _ _ _ _ K1) as HF1.
    assert (Hn0 : cp_height cp < n) by (rewrite <- Hi; unfold ChainFacts.idx; pose proof (nth_error_lt _ _ _ HNj); lia).
    assert (HXb' : extends H (es ++ [y]) b jb pb wb).
    { split; [now apply nth_error_app_l|]. split; [exact HPb|]. split; [|exact HWb]. intros e HI. apply in_app_iff in HI as [HI|[<-|[] ] ]; [now apply Hfb|].
      intros HQ. apply Hab. apply (as_no_collision _ _ _ A); auto. }
    set (z := new_entry (es ++ [y]) b jb pb wb).
    assert (Hchn : Z.of_nat (nchains (es ++ [y])) < 2 ^ 16).
    { rewrite (k_chains _ _ _ _ _ _ K) in Hch. unfold zlen in Hch. rewrite chain_list_length in Hch. rewrite nchains_app. pose proof (chain_lt H cp es j p HF HNj) as Hcl.
      assert (e_chain y <= nchains es)%nat as Hy by (unfold y, new_entry; cbn [e_chain]; destruct (Nat.eqb _ _); lia). lia. }
    assert (Hcz : Z.of_nat (e_chain z) < 2 ^ 16).
    { pose proof (chain_lt H cp _ _ _ HF1 (nth_error_app_l es [y] jb pb HNb')) as Hcl. unfold z, new_entry. cbn [e_chain]. destruct (Nat.eqb _ _); lia. }
    assert (Hi1 : idx (length (es ++ [y])) = n + 1) by (rewrite app_length; cbn [length]; rewrite <- Hi; unfold ChainFacts.idx; lia).
    pose proof (built_step H max_cache cp (es ++ [y]) _ b jb pb wb (g_built _ _ _ _ _ _ _ _ G1) HXb' HLb ltac:(lia) Hcz) as HBt. fold z in HBt.
    set (cache2 := next_cache _ _ _ _ _ _) in HBt. set (es2 := (es ++ [y]) ++ [z]) in *.
    assert (Hi2 : idx (length es2) = n + 2) by (unfold es2; rewrite app_length; cbn [length]; revert Hi1; unfold ChainFacts.idx; lia).
    assert (HV : view cp (hs_st s2) es2).
    { intros i e HNi. unfold es2 in HNi. apply nth_error_snoc in HNi as [ [HNi Hlt]|[-> ->] ].
      - apply nth_error_snoc in HNi as [ [HNi Hlt']|[-> ->] ].
        + assert (0 <= idx i < n) as Hii by (rewrite <- Hi; unfold ChainFacts.idx; lia). rewrite (rep_get _ _ _ _ HR2), HB2 by lia.
          destruct (Z.eqb_spec (idx i) (n + 1)); [lia|]. destruct (Z.eqb_spec (idx i) n); [lia|]. exact (g_blocks _ _ _ _ _ _ _ _ G i e HNi).
        + rewrite Hi, (rep_get _ _ _ _ HR2), HB2 by lia. destruct (Z.eqb_spec n (n + 1)); [lia|]. now rewrite Z.eqb_refl.
      - rewrite Hi1, (rep_get _ _ _ _ HR2), HB2 by lia. now rewrite Z.eqb_refl. }
    destruct (built_good H max_cache cp U A _ _ HBt) as (HF2 & H802 & HCa).
    exists s2, r2, (mk_headers (hs_st s2) (mem_of es2 cache2)). split; [exact HC2|]. split.
    - unfold Chain.from_file. pose proof (open_or_create_cases cp (Some (st_file (hs_st s2))) (cp_good H required max_cache cp U A)) as HO.
      rewrite (rep_open _ _ _ cp HR2 (cp_good H required max_cache cp U A)) in HO. destruct (good_nonempty H max_cache cp U A _ _ _ _ G) as (e0 & HN0 & HE0).
      pose proof (g_blocks _ _ _ _ _ _ _ _ G 0%nat e0 HN0) as HB0. unfold ChainFacts.idx in HB0. rewrite Z.add_0_r in HB0. rewrite HB2 in HO by lia.
      destruct (Z.eqb_spec (cp_height cp) (n + 1)); [lia|]. destruct (Z.eqb_spec (cp_height cp) n); [lia|]. rewrite HB0 in HO. cbn [bind] in HO. rewrite HE0, bytes_eqb_refl in HO. rewrite HO. cbn [bind]. f_equal.
      destruct (root_work H cp U A) as (w0 & HW0). unfold make_headers. rewrite (init_mem_Ok H required max_cache cp U A w0 HW0). cbn [bind]. rewrite (rep_len _ _ _ HR2). cbn [bind].
      rewrite <- Hi2. rewrite (reload H required max_cache cp U A _ _ HBt (hs_st s2) w0 HV HW0). reflexivity.
    - intros x HI.
      assert (Hx : In x (map e_raw es2)).
      { unfold es2. rewrite !map_app, (g_log _ _ _ _ _ _ _ _ G). rewrite <- app_assoc. exact HI. }
      apply in_map_iff in Hx as (e & <- & HIe). apply In_nth_error in HIe as (i & HNi).
      exists (hdr (e_raw e) (e_height e)), (e_chain e). split; [apply (lookup_found H cp H32 (hs_st s2) es2 cache2 i e); auto|].
      now destruct (hdr_spec H (e_raw e) (e_height e) (H802 _ (nth_error_In _ _ HNi))) as (_ & _ & -> & _).
  Qed.

  (** Both connect the same header: it is in the file twice, and two chains end with it when the file is opened again. *)
  Theorem shared_twice log s a s1 ra : reach log s -> zlen (m_chains (hs_mem s)) < 2 ^ 16 - 1 -> cp_height cp + zlen log < 2 ^ 32 - 2 ->
    U a -> ~ In a log -> connect s a = (s1, Ok ra) ->
    exists s2 r2 s3 c ch ch', connect (mk_headers (hs_st s1) (hs_mem s)) a = (s2, Ok r2) /\
      storage_len (hs_st s2) = Ok (cp_height cp + zlen log + 2) /\
      storage_get (hs_st s2) (cp_height cp + zlen log) = Ok a /\ storage_get (hs_st s2) (cp_height cp + zlen log + 1) = Ok a /\
      from_file (Some (st_file (hs_st s2))) = (Some (st_file (hs_st s2)), Ok s3) /\
      m_chains (hs_mem s3) = m_chains (hs_mem s1) ++ [ch'] /\ nth_error (m_chains (hs_mem s1)) c = Some ch /\ ch_tip ch' = ch_tip ch /\ h_raw (ch_tip ch) = a.
  Proof.
    intros HR Hch Hlen HU HN HE. destruct (shared_accept log s a s1 ra a s1 ra HR ltac:(lia) Hlen HU HN HE HU HN HE) as (es & bs & j & p & w & _ & _ & _ & bs1 & bs2 & s2 & r2 & G & Hi & HX & G1 & HL & _ & _ & HC2 & HR2 & HB2).
    cbv zeta in *. set (n := cp_height cp + zlen log) in *. set (y := new_entry es a j p w) in *. pose proof HX as (HNj & HPv & Hfresh & HW).
    pose proof (good_known H required max_cache cp U sets A _ _ _ _ G) as K. pose proof (good_known H required max_cache cp U sets A _ _ _ _ G1) as K1.
    pose proof (k_forest _ _ _ _ _ _ K) as HF. pose proof (k_forest _ _ _ _ _ _ K1) as HF1. pose proof (nth_error_lt _ _ _ HNj) as Hjl.
    assert (Hn0 : cp_height cp < n) by (rewrite <- Hi; unfold ChainFacts.idx; lia).
    assert (HV : view cp (hs_st s2) (es ++ [y])).
    { intros i e HNi. apply nth_error_snoc in HNi as [ [HNi Hlt]|[-> ->] ].
      - assert (0 <= idx i < n) as Hii by (rewrite <- Hi; unfold ChainFacts.idx; lia). rewrite (rep_get _ _ _ _ HR2), HB2 by lia.
        destruct (Z.eqb_spec (idx i) (n + 1)); [lia|]. destruct (Z.eqb_spec (idx i) n); [lia|]. exact (g_blocks _ _ _ _ _ _ _ _ G i e HNi).
      - rewrite Hi, (rep_get _ _ _ _ HR2), HB2 by lia. destruct (Z.eqb_spec n (n + 1)); [lia|]. now rewrite Z.eqb_refl. }
    assert (HNj1 : nth_error (es ++ [y]) j = Some p) by now apply nth_error_app_l.
    assert (Htip : tip (es ++ [y]) (e_chain p) <> j).
    { intros Ht. destruct (forest_pos _ _ _ _ _ HF1) as [_ Hleaf]. apply (Hleaf j p HNj1) in Ht. apply (Ht y); [apply in_app_iff; right; left; reflexivity|reflexivity]. }
    destruct (forest_height_ge _ _ _ _ es j p HF HNj) as [Hge _].
    assert (Hchn : Z.of_nat (nchains (es ++ [y])) < 2 ^ 16).
    { rewrite (k_chains _ _ _ _ _ _ K) in Hch. unfold zlen in Hch. rewrite chain_list_length in Hch. rewrite nchains_app. pose proof (chain_lt H cp es j p HF HNj) as Hcl.
      assert (e_chain y <= nchains es)%nat as Hy by (unfold y, new_entry; cbn [e_chain]; destruct (Nat.eqb _ _); lia). lia. }
    set (cache := m_cache (hs_mem s1)) in *.
    assert (Hpn : e_height p < n) by (rewrite <- Hi; unfold ChainFacts.idx; lia).
    destruct (read_any (hs_st s2) (es ++ [y]) cache a j p w (n + 1) HF1 (k_80 _ _ _ _ _ _ K1) HV (k_cache _ _ _ _ _ _ K1) HNj1 HPv HL HW) as (m & c & HRd & HBr); [rewrite (rep_get _ _ _ _ HR2), HB2 by lia; now rewrite Z.eqb_refl|lia|lia|exact Hchn|].
    destruct (HBr Htip) as (-> & ch' & HCh & HT' & _).
    assert (HNy : nth_error (es ++ [y]) (length es) = Some y) by apply nth_error_last. pose proof (chain_lt H cp _ _ _ HF1 HNy) as Hcy.
    destruct (chain_of_spec H cp (es ++ [y]) (e_chain y) HF1 Hcy) as (et & HNe & Hct & _).
    assert (Hty : tip (es ++ [y]) (e_chain y) = length es) by (unfold tip; rewrite pos_snoc, Nat.eqb_refl; apply last_last).
    rewrite Hty, HNy in HNe. injection HNe as <-. change (e_raw y) with a in Hct. change (e_height y) with (e_height p + 1) in Hct.
    exists s2, r2, (mk_headers (hs_st s2) m), (e_chain y), (chain_of (es ++ [y]) (e_chain y)), ch'.
    split; [exact HC2|]. split; [exact (rep_len _ _ _ HR2)|].
    split; [rewrite (rep_get _ _ _ _ HR2), HB2 by lia; destruct (Z.eqb_spec n (n + 1)); [lia|]; now rewrite Z.eqb_refl|].
    split; [rewrite (rep_get _ _ _ _ HR2), HB2 by lia; now rewrite Z.eqb_refl|].
    split; [|cbn [hs_mem]; rewrite (k_chains _ _ _ _ _ _ K1); split; [exact HCh|split; [now apply chain_list_nth|split; [congruence|rewrite Hct; now destruct (hdr_spec H a (e_height p + 1) HL) as (_ & _ & -> & _)] ] ] ].
    unfold Chain.from_file. pose proof (open_or_create_cases cp (Some (st_file (hs_st s2))) (cp_good H required max_cache cp U A)) as HO.
    rewrite (rep_open _ _ _ cp HR2 (cp_good H required max_cache cp U A)) in HO. destruct (good_nonempty H max_cache cp U A _ _ _ _ G) as (e0 & HN0 & HE0).
    pose proof (g_blocks _ _ _ _ _ _ _ _ G 0%nat e0 HN0) as HB0. unfold ChainFacts.idx in HB0. rewrite Z.add_0_r in HB0. rewrite HB2 in HO by lia.
    destruct (Z.eqb_spec (cp_height cp) (n + 1)); [lia|]. destruct (Z.eqb_spec (cp_height cp) n); [lia|]. rewrite HB0 in HO. cbn [bind] in HO. rewrite HE0, bytes_eqb_refl in HO. rewrite HO. cbn [bind]. f_equal.
    destruct (root_work H cp U A) as (w0 & HW0). unfold make_headers. rewrite (init_mem_Ok H required max_cache cp U A w0 HW0). cbn [bind]. rewrite (rep_len _ _ _ HR2). cbn [bind].
    replace (n + 2) with (n + 1 + 1) by lia. rewrite zrange_snoc by lia. rewrite read_headers_app.
    pose proof (reload H required max_cache cp U A _ _ (g_built _ _ _ _ _ _ _ _ G1) (hs_st s2) w0 HV HW0) as HRl. rewrite app_length in HRl. cbn [length] in HRl. replace (idx (length es + 1)) with (n + 1) in HRl by (rewrite <- Hi; unfold ChainFacts.idx; lia).
    rewrite HRl. cbn [read_headers]. fold cache. rewrite HRd. reflexivity.
  Qed.
End Shared.
