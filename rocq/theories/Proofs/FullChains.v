(** What happens when a header would start chain number 2^16. *)
From Verif.Model Require Import Py Packing Bits Coin Work Storage Chain.
From Verif.Spec Require Import Numbers WorkSpec ChainSpec HeadersHistory.
From Verif.Proofs Require Import PyFacts PackingFacts NumbersFacts WorkFacts RequiredBitsFacts StorageFacts StorageHistory ForestFacts ChainFacts HeadersFacts ChainTheorems.

Lemma pyindex_past {A} (l : list A) i : (length l <= i)%nat -> pyindex l (Z.of_nat i) = Err IndexError.
Proof.
  intros HL. unfold pyindex. destruct (Z.ltb_spec (Z.of_nat i) 0); [lia|]. rewrite znth_of_nat.
  now rewrite (proj2 (nth_error_None l i) HL).
Qed.

Section Full.
  Variable H : bytes -> bytes.
  Variable required : (Z -> result bytes) -> Z -> Z -> result Z.
  Variable max_cache : Z.
  Variable cp : checkpoint.
  Variable U : bytes -> Prop.
  Variable sets : list bytes -> Prop.
  Hypothesis A : assumptions H cp U.
  Let H32 := as_hash_length _ _ _ A.
  Lemma cpn : 0 <= cp_height cp.
  Proof. exact (proj1 (as_height _ _ _ A)). Qed.

  Notation forest := (forest H (cp_raw cp) (cp_height cp) (cp_prev_work cp)).
  Notation hdr := (hdr H).
  Notation idx := (idx cp).
  Notation chain_list := (chain_list H cp).
  Notation mem_of := (mem_of H cp).
  Notation view := (view cp).
  Notation extends := (extends H).
  Notation good := (good H max_cache cp U).
  Notation connect := (connect H required max_cache cp).
  Notation reach := (reach H required max_cache cp U sets).
  Notation from_file := (from_file H max_cache cp).

  (** The memory left behind: the chain, the short hash and the height are there, the chain index is not. *)
  Definition stuck (es : list entry) (x : entry) (cache : list (bytes * (header * nat))) : mem :=
    mk_mem (chain_list (es ++ [x])) (concat (map (short4 H) (es ++ [x]))) (map e_height (es ++ [x]))
      (map (fun e => Z.of_nat (e_chain e)) es) cache.

  Lemma add_chain_tip_full m ci hd0 : 0 <= h_height hd0 < 2 ^ 32 -> 2 ^ 16 <= Z.of_nat ci ->
    add_chain_tip max_cache m ci hd0 =
    (mk_mem (m_chains m) (m_short m ++ ztake 4 (h_hash hd0)) (m_heights m ++ [h_height hd0])
       (m_cidx m) (m_cache m), Err OverflowError).
  Proof.
    intros Hh Hc. unfold add_chain_tip. rewrite arr_append_Ok by auto. unfold arr_append.
    destruct (Z.ltb_spec (Z.of_nat ci) (2 ^ 16)); [lia|]. rewrite andb_false_r. now rewrite slice_to_nonneg by lia.
  Qed.

  Lemma read_header_full st es cache raw j p w :
    forest es -> all80 es -> view st es -> cache_ok H es cache ->
    storage_get st (idx (length es)) = Ok raw -> zlen raw = 80 -> extends es raw j p w ->
    idx (length es) < 2 ^ 32 -> tip es (e_chain p) <> j -> 2 ^ 16 <= Z.of_nat (nchains es) ->
    read_header H max_cache cp (mk_headers st (mem_of es cache)) (idx (length es)) =
    (mk_headers st (stuck es (new_entry es raw j p w) cache), Err OverflowError).
  Proof.
    intros HF H80 HV HC HG HL HE Hidx Ht Hcx. set (x := new_entry es raw j p w). pose proof HE as (Hj & HP & Hfresh & HW).
    unfold read_header. cbn [hs_st]. rewrite HG. cbn [bind].
    destruct (hdr_spec H raw (-1) HL) as (-> & _ & _ & _ & HPv & _ & _ & HWH). cbn [bind]. rewrite HPv, <- HP.
    rewrite (lookup_found H cp H32 st es cache j p HF H80 HV HC Hj). cbn [bind].
    destruct (hdr_spec H (e_raw p) (e_height p) (H80 p ltac:(eapply nth_error_In; eauto))) as (_ & Hhp & _ & Hhh & _).
    rewrite Hhh, HWH, Hhp. cbn [hs_mem ChainFacts.mem_of m_chains].
    pose proof (chain_lt H cp es j p HF Hj) as Hcp. rewrite chain_list_nth by auto.
    destruct (chain_of_spec H cp es (e_chain p) HF Hcp) as (et & HNt & HTip & HWk & _).
    rewrite HTip. destruct (hdr_spec H (e_raw et) (e_height et) (H80 et ltac:(eapply nth_error_In; eauto))) as (_ & -> & _).
    destruct (forest_height_ge _ _ _ _ es j p HF Hj) as [Hge _]. pose proof (nth_error_lt _ _ _ Hj) as Hjl.
    destruct (hdr_spec H raw (e_height p + 1) HL) as (_ & Hnh & _ & Hnhh & _).
    unfold ChainFacts.idx in Hidx. pose proof cpn as Hcpn.
    destruct (bytes_eqb_spec (H (e_raw et)) (H (e_raw p))) as [HEq|HNeq];
      [exfalso; apply Ht; eapply (forest_hash_inj _ _ _ _ es); eauto|].
    assert (HAj : ancestor es j (tip es (e_chain p))).
    { destruct (tip_spec H cp es (e_chain p) HF Hcp) as (_ & _ & _ & _ & HA). eapply HA; eauto. }
    pose proof (chainwork_to H cp H32 st es cache (e_chain p) j p HF H80 HV Hcp Hj HAj) as HCW.
    rewrite HCW. cbn [bind].
    unfold new_chain. rewrite (hdr_work H raw (e_height p + 1) w HL HW). cbn [bind].
    rewrite arr_append_Ok by (unfold ChainFacts.idx; lia). cbn [bind app]. rewrite Hnhh.
    unfold add_chain. cbn [hs_mem ChainFacts.mem_of m_chains m_short m_heights m_cidx m_cache ch_tip].
    rewrite chain_list_length.
    pose proof (chain_list_branch H cp H32 es raw j p w HF HE Ht) as HCL. cbv zeta in HCL. fold x in HCL.
    rewrite <- HCL. rewrite add_chain_tip_full; [|rewrite Hnhh; lia|exact Hcx].
    cbn [m_chains m_short m_heights m_cidx m_cache bind set_mem hs_st]. unfold stuck. rewrite !map_app, concat_app.
    cbn [map concat]. rewrite app_nil_r, Hnhh, Hnh. reflexivity.
  Qed.

  (** The search for a stored hash looks at the storage and the short hashes only. *)
  Lemma slow_frame s s' : hs_st s = hs_st s' -> m_short (hs_mem s) = m_short (hs_mem s') -> forall hash,
    header_index_slow H cp s hash = header_index_slow H cp s' hash.
  Proof.
    intros H1 H2 hash. unfold header_index_slow. rewrite H2. generalize (length (m_short (hs_mem s')) + 3)%nat as fuel.
    intros fuel. generalize 0 as start. induction fuel as [|f IH]; intros start; cbn [header_index_slow_loop]; [reflexivity|].
    rewrite H1, H2. destruct (if _ =? 0 then _ else _) as [[r|]|e]; cbn [bind]; auto. destruct (_ =? -1); auto.
  Qed.

  Theorem connect_full log s raw phd pc pch t : reach log s -> U raw ->
    zlen (m_chains (hs_mem s)) = 2 ^ 16 -> cp_height cp + zlen log < 2 ^ 32 - 1 -> zlen raw = 80 -> ~ In raw log ->
    lookup H cp s (prev_of raw) = Ok (phd, pc) -> nth_error (m_chains (hs_mem s)) pc = Some pch -> ch_tip pch <> phd ->
    required (raw_at s pc) (h_height phd + 1) (time_of raw) = Ok (bits_of raw) ->
    compact (bits_of raw) t -> val_le (H raw) <= t ->
    exists s', connect s raw = (s', Err OverflowError) /\
      storage_len (hs_st s') = Ok (cp_height cp + zlen log + 1) /\
      storage_get (hs_st s') (cp_height cp + zlen log) = Ok raw /\
      zlen (m_chains (hs_mem s')) = 2 ^ 16 + 1 /\
      lookup H cp s' (H raw) = Err IndexError /\
      connect s' raw = (s', Err IndexError) /\
      from_file (Some (st_file (hs_st s'))) = (Some (st_file (hs_st s')), Err OverflowError).
  Proof.
    intros HR HU Hch Hlen HL Hnew HLk0 HPc Htne HRq HT Hge. change val_le with le_int in Hge.
    destruct (reach_good _ _ _ _ _ _ A _ _ HR) as (es & bs & G).
    pose proof cpn as Hcpn.
    assert (HB : HeadersFacts.built H max_cache cp es (m_cache (hs_mem s))) by (eapply g_built; eauto).
    assert (HBG3 : forest es /\ all80 es /\ cache_ok H es (m_cache (hs_mem s))) by (eapply built_good; eauto).
    destruct HBG3 as (HF & H80 & HC).
    assert (HV : view (hs_st s) es) by (eapply good_view; eauto).
    assert (HS : s = mk_headers (hs_st s) (mem_of es (m_cache (hs_mem s)))) by (eapply good_state; eauto).
    set (cache := m_cache (hs_mem s)) in *. set (st := hs_st s) in *.
    assert (Hchains : m_chains (hs_mem s) = chain_list es) by (rewrite HS; reflexivity).
    rewrite Hchains in Hch, HPc. assert (Hnc : Z.of_nat (nchains es) = 2 ^ 16).
    { rewrite <- Hch. unfold zlen. now rewrite chain_list_length. }
    assert (HLk : forall h, lookup H cp s h = lookup H cp (mk_headers st (mem_of es cache)) h) by (intros; now rewrite <- HS).
    assert (Hlog : map e_raw es = log) by (eapply g_log; eauto).
    assert (Hl : zlen log = Z.of_nat (length es)) by (rewrite <- Hlog; unfold zlen; now rewrite map_length).
    assert (Hidxl : cp_height cp + zlen log = idx (length es)) by (unfold ChainFacts.idx; lia).
    destruct (hdr_spec H raw (-1) HL) as (Hdes & Hhash & _ & _ & Hprev & Hbits & Htime & Hwith).
    destruct (classic_hash H es (prev_of raw)) as [(j & p & HNj & Hp)|Hnone].
    2:{ exfalso. rewrite HLk, lookup_missing in HLk0; auto; [discriminate|].
        assert (HP : length (prev_of raw) = 32%nat) by (apply prev_of_length; auto). unfold zlen. rewrite HP. lia. }
    assert (Hpair : phd = hdr (e_raw p) (e_height p) /\ pc = e_chain p).
    { rewrite HLk, <- Hp in HLk0. rewrite (lookup_found H cp H32 st es cache j p) in HLk0 by auto. injection HLk0 as <- <-. auto. }
    destruct Hpair as [-> ->].
    destruct (hdr_spec H (e_raw p) (e_height p) (H80 _ (nth_error_In _ _ HNj))) as (_ & Hphash & _ & Hph & _).
    rewrite Hph in HRq.
    pose proof (chain_lt H cp es j p HF HNj) as Hcl. rewrite chain_list_nth in HPc by auto. injection HPc as <-.
    destruct (hdr_spec H raw (e_height p + 1) HL) as (_ & Hhash' & _ & Hhh' & _ & Hbits' & Htime' & _).
    destruct (chain_of_spec H cp es (e_chain p) HF Hcl) as (et & HNt & Htip & _ & _).
    destruct (hdr_spec H (e_raw et) (e_height et) (H80 _ (nth_error_In _ _ HNt))) as (_ & Hethash & _).
    assert (Ht : tip es (e_chain p) <> j).
    { intros HX. apply Htne. rewrite Htip. rewrite HX in HNt. assert (et = p) as -> by congruence. reflexivity. }
    assert (Hfresh : forall e, In e es -> H (e_raw e) <> H raw).
    { intros e HI HE. apply Hnew. apply (as_no_collision _ _ _ A) in HE; auto; [|eapply g_U; eauto].
      rewrite <- Hlog. rewrite <- HE. now apply in_map. }
    assert (HTb : bits_to_target (bits_of raw) = Ok t) by (now apply bits_to_target_spec).
    destruct (compact_work raw t HT) as (w & HW).
    assert (HE : extends es raw j p w) by (repeat split; auto).
    assert (Hidx : idx (length es) + 1 < 2 ^ 32) by lia.
    assert (Hidx0 : 0 <= idx (length es)) by (unfold ChainFacts.idx; lia).
    assert (Hnz : raw <> empty_header).
    { intros Hraw. rewrite Hraw in HT, Hge, Hfresh, Hp. assert (Ht0 : t = 0).
      { destruct HT as [(_ & Ht0)|(Hb & _)]; [exact Ht0|exfalso; cbn in Hb; lia]. }
      rewrite Ht0 in Hge. apply le_int_0_zeros in Hge; [|apply (as_hash_bytes _ _ _ A)].
      assert (HL32 : length (H empty_header) = 32%nat) by (apply Nat2Z.inj; exact (H32 empty_header)).
      rewrite HL32 in Hge. apply (Hfresh p (nth_error_In _ _ HNj)). rewrite Hp, Hge. reflexivity. }
    assert (HRep : rep st bs (idx (length es))) by (eapply g_rep; eauto).
    assert (HBlk : forall i e, nth_error es i = Some e -> block_get bs (idx i) = Ok (e_raw e)) by (eapply g_blocks; eauto).
    destruct (rep_append st bs (idx (length es)) raw HRep HL Hidx) as (st' & HAp & HRep' & _).
    set (bs' := zupdate (grown bs (idx (length es))) (idx (length es)) raw) in *.
    assert (HBG : forall i, 0 <= i -> block_get bs' i = if i =? idx (length es) then Ok raw else block_get bs i).
    { intros i Hi. unfold bs'. rewrite block_get_update by lia. destruct (i =? idx (length es)); [|reflexivity].
      destruct (bytes_eqb_spec raw empty_header); [contradiction|reflexivity]. }
    assert (HV' : view st' es).
    { intros i e HN. rewrite (rep_get _ _ _ _ HRep') by (unfold ChainFacts.idx; lia).
      rewrite HBG by (unfold ChainFacts.idx; lia).
      destruct (Z.eqb_spec (idx i) (idx (length es))) as [Hx|Hx].
      - apply nth_error_lt in HN. unfold ChainFacts.idx in Hx. lia.
      - exact (HBlk i e HN). }
    assert (HG' : storage_get st' (idx (length es)) = Ok raw).
    { rewrite (rep_get _ _ _ _ HRep') by lia. rewrite HBG by lia. now rewrite Z.eqb_refl. }
    set (x := new_entry es raw j p w). set (s' := mk_headers st' (stuck es x cache)).
    assert (HRH : read_header H max_cache cp (mk_headers st' (mem_of es cache)) (idx (length es)) = (s', Err OverflowError)).
    { apply read_header_full; auto; lia. }
    assert (Hxc : e_chain x = nchains es).
    { unfold x, new_entry. cbn [e_chain]. destruct (Nat.eqb_spec (tip es (e_chain p)) j); [contradiction|reflexivity]. }
    assert (HFx : forest (es ++ [x])) by (apply new_entry_forest; auto).
    assert (HVx : view st' (es ++ [x])).
    { intros i e HN. apply nth_error_snoc in HN as [[HN _]|[-> ->]]; [exact (HV' i e HN)|exact HG']. }
    assert (HNx : nth_error (es ++ [x]) (length es) = Some x) by apply nth_error_last.
    assert (HXL : lookup H cp s' (H raw) = Err IndexError).
    { unfold lookup. cbn [s' hs_mem stuck m_cache].
      assert (HCN : cache_get (H raw) cache = None).
      { destruct (cache_get (H raw) cache) as [v|] eqn:EC; [|reflexivity]. apply cache_get_In in EC.
        destruct (HC _ _ EC) as (i' & e' & HN' & Hk & _). exfalso. apply (Hfresh e' (nth_error_In _ _ HN')). auto. }
      rewrite HCN. rewrite (slow_frame s' (mk_headers st' (mem_of (es ++ [x]) cache)) eq_refl eq_refl).
      pose proof (slow_found H cp H32 st' (es ++ [x]) cache (length es) x HFx HVx HNx) as HSF.
      change (e_raw x) with raw in HSF. rewrite HSF. cbn [bind s' hs_mem stuck m_heights m_cidx].
      rewrite (pyindex_of_nat _ (length es) (e_height x)) by (rewrite nth_error_map, HNx; reflexivity). cbn [bind].
      change (e_height x) with (e_height p + 1). destruct (hdr_spec H raw (e_height p + 1) HL) as (-> & _). cbn [bind].
      rewrite pyindex_past by (rewrite map_length; lia). reflexivity. }
    exists s'. split; [|split; [|split; [|split; [|split; [|split]]]]].
    - unfold Chain.connect, connect_check. rewrite Hdes. cbn [bind]. rewrite Hprev, HLk0. cbn [bind].
      rewrite Hphash, Hph, Hwith, Hchains, chain_list_nth by auto. rewrite Hhash', Hhh', Hbits', Htime', Htip, Hethash.
      assert (Hk : (if bytes_eqb (H (e_raw et)) (H (e_raw p)) then Err MissingHeader else lookup H cp s (H raw)) = Err MissingHeader).
      { destruct (bytes_eqb _ _); [reflexivity|]. rewrite HLk. apply lookup_missing; auto. rewrite H32. lia. }
      rewrite Hk, HRq. cbn [bind]. rewrite Z.eqb_refl. cbn [negb].
      unfold header_obj_target, header_hash_value. rewrite Hbits', Hhash', HTb. cbn [bind].
      destruct (Z.ltb_spec t (le_int (H raw))) as [Hlt|_]; [lia|]. cbn [bind].
      fold st. rewrite HAp. replace (hs_mem s) with (mem_of es cache) by (rewrite HS; reflexivity).
      rewrite HRH. reflexivity.
    - cbn [s' hs_st]. rewrite (rep_len _ _ _ HRep'). now rewrite Hidxl.
    - cbn [s' hs_st]. rewrite Hidxl. exact HG'.
    - cbn [s' hs_mem stuck m_chains]. unfold zlen. rewrite chain_list_length, nchains_app, Hxc. lia.
    - exact HXL.
    - unfold Chain.connect, connect_check. rewrite Hdes. cbn [bind]. rewrite Hprev.
      assert (HLp : lookup H cp s' (prev_of raw) = Ok (hdr (e_raw p) (e_height p), e_chain p)).
      { rewrite <- Hp. unfold lookup. cbn [s' hs_mem stuck m_cache].
        destruct (cache_get (H (e_raw p)) cache) as [v|] eqn:EC.
        - apply cache_get_In in EC. destruct (HC _ _ EC) as (i' & e' & HN' & Hk & ->).
          pose proof (forest_hash_inj _ _ _ _ es j i' p e' HF HNj HN' Hk) as <-. congruence.
        - rewrite (slow_frame s' (mk_headers st' (mem_of (es ++ [x]) cache)) eq_refl eq_refl).
          assert (HNjx : nth_error (es ++ [x]) j = Some p) by (rewrite nth_error_app1; [exact HNj|eapply nth_error_lt; eauto]).
          rewrite (slow_found H cp H32 st' (es ++ [x]) cache j p HFx HVx HNjx). cbn [bind s' hs_mem stuck m_heights m_cidx m_chains].
          rewrite (pyindex_of_nat _ j (e_height p)) by (rewrite nth_error_map, HNjx; reflexivity). cbn [bind].
          destruct (hdr_spec H (e_raw p) (e_height p) (H80 _ (nth_error_In _ _ HNj))) as (-> & _). cbn [bind].
          rewrite (pyindex_of_nat _ j (Z.of_nat (e_chain p))) by (rewrite nth_error_map, HNj; reflexivity). cbn [bind].
          rewrite (pyindex_of_nat _ (e_chain p) (chain_of H cp (es ++ [x]) (e_chain p))) by (apply chain_list_nth; eapply chain_lt; eauto).
          cbn [bind]. now rewrite Nat2Z.id. }
      rewrite HLp. cbn [bind]. rewrite Hphash, Hph, Hwith. cbn [s' hs_mem stuck m_chains]. fold s'.
      pose proof (chain_list_branch H cp H32 es raw j p w HF HE Ht) as HCL. cbv zeta in HCL. fold x in HCL. rewrite HCL.
      rewrite nth_error_app1 by (rewrite chain_list_length; exact Hcl). rewrite chain_list_nth by auto. rewrite Htip, Hethash.
      destruct (bytes_eqb_spec (H (e_raw et)) (H (e_raw p))) as [HEq|HNeq];
        [exfalso; apply Ht; eapply (forest_hash_inj _ _ _ _ es); eauto|].
      rewrite Hhash', HXL. reflexivity.
    - unfold Chain.from_file. assert (Hcg : cp_ok cp) by (eapply cp_good; eauto). pose proof (open_or_create_cases cp (Some (st_file st')) Hcg) as HOC.
      rewrite (rep_open _ _ _ cp HRep' Hcg) in HOC.
      destruct (forest_nonempty _ _ _ _ es HF) as (w0 & HW0 & HN0).
      pose proof (HVx O _ ltac:(rewrite nth_error_app1; [exact HN0|eapply nth_error_lt; eauto])) as HB0.
      rewrite (rep_get _ _ _ _ HRep') in HB0 by (unfold ChainFacts.idx; lia). unfold ChainFacts.idx in HB0. rewrite Z.add_0_r in HB0.
      rewrite HB0 in HOC. cbn [bind e_raw] in HOC. rewrite bytes_eqb_refl in HOC. cbn [s' hs_st]. rewrite HOC. cbn [bind].
      unfold make_headers. assert (HIM : init_mem H max_cache cp = Ok (mem_of [root cp w0] (root_cache H max_cache cp w0))) by (eapply init_mem_Ok; eauto).
      rewrite HIM. cbn [bind]. rewrite (rep_len _ _ _ HRep'). cbn [bind].
      assert (Hlen1 : (1 <= length es)%nat) by (apply nth_error_lt in HNj; lia).
      rewrite zrange_snoc by (unfold ChainFacts.idx; lia). rewrite read_headers_app.
      assert (HRL : read_headers H max_cache cp (mk_headers st' (mem_of [root cp w0] (root_cache H max_cache cp w0))) (zrange (cp_height cp + 1) (idx (length es)))
        = (mk_headers st' (mem_of es cache), Ok tt)) by (eapply reload; eauto).
      rewrite HRL. cbn [read_headers]. rewrite HRH. reflexivity.
  Qed.
End Full.
