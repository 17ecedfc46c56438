(** Histories of Headers: the represented tree, connect, reload, crashes. *)
From Verif.Model Require Import Py Packing Bits Coin Work Storage Chain.
From Verif.Spec Require Import Numbers WorkSpec ChainSpec HeadersHistory.
From Verif.Proofs Require Import PyFacts PackingFacts NumbersFacts WorkFacts RequiredBitsFacts StorageFacts StorageHistory ForestFacts ChainFacts.

Lemma le_int_0_zeros b : bytes_ok b = true -> le_int b <= 0 -> b = repeat 0 (length b).
Proof.
  induction b as [|x b IH]; intros HB HL; [reflexivity|]. rewrite bytes_ok_cons in HB.
  apply andb_true_iff in HB as [Hx HB]. apply byte_ok_iff in Hx. cbn [le_int] in HL.
  pose proof (le_int_nonneg b HB). cbn [length repeat]. f_equal; [lia|]. apply IH; auto. lia.
Qed.

Lemma read_headers_app H mc cp s a b :
  read_headers H mc cp s (a ++ b) =
  let '(s', r) := read_headers H mc cp s a in
  match r with Err e => (s', Err e) | Ok _ => read_headers H mc cp s' b end.
Proof.
  revert s. induction a as [|i a IH]; intros s; cbn [app read_headers].
  - reflexivity.
  - destruct (read_header H mc cp s i) as [s' [n|e]]; [apply IH|reflexivity].
Qed.

Lemma compact_nonneg b t : compact b t -> 0 <= t.
Proof.
  intros [(_ & ->)|(_ & m & e & _ & Hm & He & HE)]; [lia|].
  assert (0 < 256 ^ e) by (apply Z.pow_pos_nonneg; lia). change (256 ^ 3) with 16777216 in HE. nia.
Qed.
Lemma compact_work raw t : compact (bits_of raw) t -> exists w, raw_work raw w.
Proof.
  intros HC. pose proof (compact_nonneg _ _ HC). exists (2 ^ 256 / (t + 1)), t. split; [exact HC|].
  unfold work_of_target. pose proof (Z.div_mod (2 ^ 256) (t + 1) ltac:(lia)).
  pose proof (Z.mod_pos_bound (2 ^ 256) (t + 1) ltac:(lia)). nia.
Qed.

Section Facts.
  Variable H : bytes -> bytes.
  Variable required : (Z -> result bytes) -> Z -> Z -> result Z.
  Variable max_cache : Z.
  Variable cp : checkpoint.
  Variable U : bytes -> Prop.
  Variable sets : list bytes -> Prop.
  Hypothesis A : assumptions H cp U.

  Let H32 := as_hash_length _ _ _ A.
  Lemma cp_nonneg : 0 <= cp_height cp.
  Proof. pose proof (as_height _ _ _ A). lia. Qed.
  Lemma cp_good : cp_ok cp.
  Proof.
    split; [exact (as_root_length _ _ _ A)|]. split; [exact (as_root_nonzero _ _ _ A)|].
    pose proof (as_height _ _ _ A). lia.
  Qed.

  Notation forest := (forest H (cp_raw cp) (cp_height cp) (cp_prev_work cp)).
  Notation hdr := (hdr H).
  Notation idx := (idx cp).
  Notation chain_of := (chain_of H cp).
  Notation chain_list := (chain_list H cp).
  Notation mem_of := (mem_of H cp).
  Notation cache_ok := (cache_ok H).
  Notation view := (view cp).
  Notation extends := (extends H).
  Notation next_cache := (next_cache H max_cache cp).
  Notation connect := (connect H required max_cache cp).
  Notation reach := (reach H required max_cache cp U sets).
  Notation from_file := (from_file H max_cache cp).

  Definition root (w : Z) : entry := mk_entry (cp_raw cp) (cp_height cp) 0 (cp_prev_work cp + w) None.
  Definition root_cache (w : Z) := next_cache [] (root w) [].

  (** The memory states that come from reading headers one by one. *)
  Inductive built : list entry -> list (bytes * (header * nat)) -> Prop :=
  | built_root w : raw_work (cp_raw cp) w -> built [root w] (root_cache w)
  | built_step es cache raw j p w : built es cache -> extends es raw j p w -> zlen raw = 80 ->
      idx (length es) < 2 ^ 32 -> Z.of_nat (e_chain (new_entry es raw j p w)) < 2 ^ 16 ->
      built (es ++ [new_entry es raw j p w]) (next_cache es (new_entry es raw j p w) cache).

  Lemma root_work : exists w, raw_work (cp_raw cp) w.
  Proof.
    destruct (as_root_bits _ _ _ A) as (w & HW). exists w. unfold header_work in HW.
    rewrite header_bits_spec in HW by exact (as_root_length _ _ _ A). cbn [bind] in HW.
    now apply bits_to_work_spec in HW.
  Qed.

  Lemma all80_snoc es x : all80 es -> zlen (e_raw x) = 80 -> all80 (es ++ [x]).
  Proof. intros HE HX e HI. apply in_app_iff in HI as [HI|[<-|[]]]; auto. Qed.

  Lemma built_good es cache : built es cache -> forest es /\ all80 es /\ cache_ok es cache.
  Proof.
    induction 1 as [w HW|es cache raw j p w HB (HF & H80 & HC) HE HL Hi Hc].
    - split; [constructor; auto|]. assert (H80 : all80 [root w]).
      { intros e [<-|[]]. exact (as_root_length _ _ _ A). }
      split; [exact H80|]. intros k v HI. unfold root_cache, ChainFacts.next_cache, cache_add in HI.
      destruct (hdr_spec H (cp_raw cp) (cp_height cp) (as_root_length _ _ _ A)) as (_ & Hh & _).
      assert (HI' : (k, v) = (H (cp_raw cp), (hdr (cp_raw cp) (cp_height cp), O))).
      { destruct (max_cache <? _) in HI.
        - cbn [app] in HI. apply tips_update_In in HI as [HI|(i & c & HN & -> & ->)].
          + apply zdrop_in in HI. cbn [cache_set e_raw e_height e_chain root] in HI. rewrite Hh in HI.
            destruct HI as [<-|[]]. reflexivity.
          + destruct i as [|i]; [|destruct i; discriminate].
            cbn in HN. injection HN as <-. cbn. rewrite Hh. reflexivity.
        - cbn [cache_set e_raw e_height e_chain root] in HI. rewrite Hh in HI. destruct HI as [<-|[]]. reflexivity. }
      injection HI' as -> ->. exists O, (root w). repeat split.
    - pose proof (new_entry_forest H cp es raw j p w HF HE) as HF'.
      assert (H80' : all80 (es ++ [new_entry es raw j p w])) by (apply all80_snoc; auto).
      split; [exact HF'|]. split; [exact H80'|].
      apply next_cache_ok; auto using cp_nonneg.
  Qed.

  Lemma init_mem_Ok w : raw_work (cp_raw cp) w -> init_mem H max_cache cp = Ok (mem_of [root w] (root_cache w)).
  Proof.
    intros HW. pose proof (as_root_length _ _ _ A) as HL. pose proof (as_height _ _ _ A) as Hh. unfold init_mem.
    destruct (hdr_spec H (cp_raw cp) (cp_height cp) HL) as (-> & Hhash & _ & Hhh & _). cbn [bind].
    unfold new_chain. rewrite (hdr_work H (cp_raw cp) (cp_height cp) w HL HW). cbn [bind]. rewrite Hhh.
    rewrite arr_append_Ok by lia. cbn [bind app]. unfold add_chain, empty_mem. cbn [m_chains m_short m_heights m_cidx m_cache length app ch_tip].
    rewrite add_chain_tip_Ok; [|rewrite Hhh; lia|reflexivity]. cbn [m_chains m_short m_heights m_cidx m_cache bind app]. f_equal.
    unfold ChainFacts.mem_of. rewrite Hhh, Hhash.
    assert (EC : ChainFacts.chain_list H cp [root w] = [mk_chain None (hdr (cp_raw cp) (cp_height cp)) (cp_prev_work cp + w) (cp_height cp) [cp_height cp]]).
    { unfold ChainFacts.chain_list, nchains. cbn [fold_right root e_chain Nat.max seq map]. f_equal.
      unfold ChainFacts.chain_of, parent_chain, ent, pos. cbn. unfold ChainFacts.idx. f_equal. f_equal. cbn. lia. }
    rewrite EC. cbn [map concat root e_raw e_height e_chain short4]. unfold short4. cbn [e_raw]. rewrite app_nil_r. f_equal.
  Qed.

  Lemma view_app st es x : view st (es ++ x) -> view st es.
  Proof. intros HV i e HN. apply HV. now apply nth_error_app_l. Qed.

  (** Reading the file back gives the memory state that wrote it. *)
  Lemma reload es cache : built es cache -> forall st w, view st es -> raw_work (cp_raw cp) w ->
    read_headers H max_cache cp (mk_headers st (mem_of [root w] (root_cache w))) (zrange (cp_height cp + 1) (idx (length es)))
    = (mk_headers st (mem_of es cache), Ok tt).
  Proof.
    induction 1 as [w HW|es cache raw j p w HB IH HE HL Hi Hc]; intros st w0 HV HW0.
    - rewrite (raw_work_fun _ _ _ HW0 HW). cbn [length]. unfold ChainFacts.idx. rewrite zrange_nil by lia. reflexivity.
    - assert (Hlen : (1 <= length es)%nat).
      { destruct HE as (Hj & _). apply nth_error_lt in Hj. lia. }
      rewrite app_length. cbn [length]. replace (idx (length es + 1)) with (idx (length es) + 1) by (unfold ChainFacts.idx; lia).
      rewrite zrange_snoc by (unfold ChainFacts.idx; lia). rewrite read_headers_app.
      rewrite (IH st w0 (view_app _ _ _ HV) HW0). destruct (built_good es cache HB) as (HF & H80 & HC).
      cbn [read_headers]. rewrite (read_header_step H max_cache cp H32 cp_nonneg st es cache raw j p w); auto.
      + eapply view_app; eauto.
      + pose proof (HV (length es) _ (nth_error_last _ _)) as HX. exact HX.
  Qed.

  (** The state invariant. *)
  Record good (log : list bytes) (es : list entry) (bs : list bytes) (s : headers) : Prop := {
    g_log : map e_raw es = log;
    g_built : built es (m_cache (hs_mem s));
    g_mem : hs_mem s = mem_of es (m_cache (hs_mem s));
    g_rep : rep (hs_st s) bs (idx (length es));
    g_blocks : forall i e, nth_error es i = Some e -> block_get bs (idx i) = Ok (e_raw e);
    g_above : forall i, idx (length es) <= i -> block_get bs i = Err MissingHeader;
    g_U : forall e, In e es -> U (e_raw e) }.

  Lemma good_view log es bs s : good log es bs s -> view (hs_st s) es.
  Proof.
    intros G i e HN. rewrite (rep_get _ _ _ _ (g_rep _ _ _ _ G)); [eapply g_blocks; eauto|].
    pose proof cp_nonneg. unfold ChainFacts.idx. lia.
  Qed.
  Lemma good_state log es bs s : good log es bs s -> s = mk_headers (hs_st s) (mem_of es (m_cache (hs_mem s))).
  Proof. intros G. destruct s as [st m]. cbn [hs_st hs_mem]. f_equal. exact (g_mem _ _ _ _ G). Qed.

  Lemma created_good w : raw_work (cp_raw cp) w ->
    good [cp_raw cp] [root w] (created_blocks cp) (mk_headers (created cp) (mem_of [root w] (root_cache w))).
  Proof.
    intros HW. pose proof cp_nonneg as Hn. split.
    - reflexivity.
    - cbn. now constructor.
    - reflexivity.
    - cbn [hs_st length]. unfold ChainFacts.idx. exact (created_rep cp cp_good).
    - intros i e HN. destruct i as [|[|i]]; try discriminate. injection HN as <-.
      unfold ChainFacts.idx. rewrite created_get by (auto using cp_good; lia).
      replace (cp_height cp + Z.of_nat 0 =? cp_height cp) with true by (symmetry; apply Z.eqb_eq; lia). reflexivity.
    - unfold ChainFacts.idx. cbn [length]. intros i Hi. rewrite created_get by (auto using cp_good; lia).
      destruct (Z.eqb_spec i (cp_height cp)); [lia|reflexivity].
    - intros e [<-|[]]. exact (as_root _ _ _ A).
  Qed.

  Lemma make_good log es bs s : good log es bs s -> make_headers H max_cache cp (hs_st s) = Ok s.
  Proof.
    intros G. destruct root_work as (w & HW). unfold make_headers. rewrite (init_mem_Ok w HW). cbn [bind].
    rewrite (rep_len _ _ _ (g_rep _ _ _ _ G)). cbn [bind].
    rewrite (reload es _ (g_built _ _ _ _ G) (hs_st s) w (good_view _ _ _ _ G) HW). cbn [bind].
    now rewrite <- (good_state _ _ _ _ G).
  Qed.

  (** Reopening *)
  Lemma good_nonempty log es bs s : good log es bs s -> exists e, nth_error es 0 = Some e /\ e_raw e = cp_raw cp.
  Proof.
    intros G. destruct (built_good _ _ (g_built _ _ _ _ G)) as (HF & _).
    destruct (forest_nonempty _ _ _ _ es HF) as (w & _ & HN). eexists. split; [exact HN|reflexivity].
  Qed.
  Lemma good_reload log es bs s : good log es bs s ->
    from_file (Some (st_file (hs_st s))) = (Some (st_file (hs_st s)), Ok s).
  Proof.
    intros G. unfold Chain.from_file. pose proof (open_or_create_cases cp (Some (st_file (hs_st s))) cp_good) as HC.
    destruct (good_nonempty _ _ _ _ G) as (e0 & HN0 & HE0).
    rewrite (rep_open _ _ _ cp (g_rep _ _ _ _ G) cp_good) in HC.
    pose proof (g_blocks _ _ _ _ G 0%nat e0 HN0) as HB. unfold ChainFacts.idx in HB. rewrite Z.add_0_r in HB.
    rewrite HB in HC. cbn [bind] in HC. rewrite HE0, bytes_eqb_refl in HC. rewrite HC. cbn [bind].
    now rewrite (make_good _ _ _ _ G).
  Qed.
  Lemma from_file_new path : (path = None \/ open_file path cp = Err BadHeadersFile \/ open_file path cp = Err MissingHeader) ->
    exists w s, raw_work (cp_raw cp) w /\ from_file path = (Some (st_file (created cp)), Ok s) /\ good [cp_raw cp] [root w] (created_blocks cp) s.
  Proof.
    intros HP. destruct root_work as (w & HW). pose proof (open_or_create_cases cp path cp_good) as HC.
    assert (HO : open_or_create path cp = (Some (st_file (created cp)), Ok (created cp))).
    { destruct HP as [->|[HP|HP]]; [exact HC|rewrite HP in HC; exact HC|rewrite HP in HC; exact HC]. }
    pose proof (created_good w HW) as G. pose proof (make_good _ _ _ _ G) as HM. cbn [hs_st] in HM.
    exists w, (mk_headers (created cp) (mem_of [root w] (root_cache w))). split; [exact HW|]. split; [|exact G].
    unfold Chain.from_file. rewrite HO. cbn [bind]. now rewrite HM.
  Qed.

  (** set_one *)
  Lemma good_set log es bs s h raw : good log es bs s -> h <> cp_height cp ->
    exists bs', good log es bs' (fst (set_one cp s h raw)) /\
      hs_mem (fst (set_one cp s h raw)) = hs_mem s /\
      (forall i, 0 <= i -> i <> h -> block_get bs' i = block_get bs i) /\
      (0 <= h < cp_height cp -> zlen raw = 80 -> snd (set_one cp s h raw) = Ok tt /\
         block_get bs' h = if bytes_eqb raw empty_header then Err MissingHeader else Ok raw) /\
      (~ (0 <= h < cp_height cp) -> set_one cp s h raw = (s, Err ValueError)) /\
      (0 <= h < cp_height cp -> zlen raw <> 80 -> set_one cp s h raw = (s, Err TypeError)).
  Proof.
    intros G Hh. pose proof (as_height _ _ _ A) as Hcp. unfold set_one.
    destruct (Z.leb_spec 0 h); destruct (Z.leb_spec h (cp_height cp)); cbn [andb negb fst snd];
      try (exists bs; split; [exact G|]; repeat split; auto; intros; exfalso; lia).
    destruct (Z.eq_dec (zlen raw) 80) as [HL|HL].
    2:{ rewrite storage_set_len_err by auto. destruct s as [st m]. cbn [fst hs_st hs_mem]. exists bs.
        split; [exact G|]. repeat split; auto; intros; exfalso; lia. }
    destruct (rep_set (hs_st s) bs _ h raw (g_rep _ _ _ _ G) HL ltac:(lia) ltac:(lia)) as (st' & -> & HR).
    cbn [fst snd]. exists (zupdate (grown bs h) h raw).
    assert (HBG : forall i, 0 <= i -> i <> h -> block_get (zupdate (grown bs h) h raw) i = block_get bs i).
    { intros i Hi Hne. rewrite block_get_update by lia. destruct (Z.eqb_spec i h); [contradiction|reflexivity]. }
    split; [|split; [reflexivity|split; [exact HBG|]]].
    - destruct G as [G1 G2 G3 G4 G5 G6 G7]. split; cbn [hs_mem hs_st]; auto.
      + replace (Z.max (idx (length es)) (h + 1)) with (idx (length es)) in HR by (unfold ChainFacts.idx; lia). exact HR.
      + intros i e HN. rewrite HBG by (unfold ChainFacts.idx; lia). auto.
      + intros i Hi. rewrite HBG by (unfold ChainFacts.idx in Hi; lia). auto.
    - split; [|split; [intros; exfalso; lia|intros; exfalso; contradiction]].
      intros _ _. split; [reflexivity|]. rewrite block_get_update by lia. now rewrite Z.eqb_refl.
  Qed.

  Lemma classic_hash (es : list entry) (h : bytes) :
    (exists j p, nth_error es j = Some p /\ H (e_raw p) = h) \/ forall e, In e es -> H (e_raw e) <> h.
  Proof.
    destruct (in_dec (list_eq_dec Z.eq_dec) h (map (fun e => H (e_raw e)) es)) as [HI|HI].
    - left. apply in_map_iff in HI as (e & HE & HI). apply In_nth_error in HI as (j & HI). eauto.
    - right. intros e He HE. apply HI. rewrite <- HE. apply (in_map (fun e => H (e_raw e))). exact He.
  Qed.

  (** connect *)
  Inductive outcome (log : list bytes) (es : list entry) (s : headers) (raw : bytes) : headers * result (header * nat) -> Prop :=
  | out_length : zlen raw <> 80 -> outcome log es s raw (s, Err StructError)
  | out_orphan : zlen raw = 80 -> (forall e, In e es -> H (e_raw e) <> prev_of raw) -> outcome log es s raw (s, Err MissingHeader)
  | out_known i e : zlen raw = 80 -> nth_error es i = Some e -> e_raw e = raw -> raw <> cp_raw cp ->
      outcome log es s raw (s, Ok (hdr raw (e_height e), e_chain e))
  | out_required j p e : zlen raw = 80 -> nth_error es j = Some p -> H (e_raw p) = prev_of raw -> ~ In raw log ->
      required (raw_at s (e_chain p)) (e_height p + 1) (time_of raw) = Err e -> outcome log es s raw (s, Err e)
  | out_bits j p rb : zlen raw = 80 -> nth_error es j = Some p -> H (e_raw p) = prev_of raw -> ~ In raw log ->
      required (raw_at s (e_chain p)) (e_height p + 1) (time_of raw) = Ok rb -> bits_of raw <> rb ->
      outcome log es s raw (s, Err IncorrectBits)
  | out_target j p : zlen raw = 80 -> nth_error es j = Some p -> H (e_raw p) = prev_of raw -> ~ In raw log ->
      required (raw_at s (e_chain p)) (e_height p + 1) (time_of raw) = Ok (bits_of raw) ->
      (forall t, ~ compact (bits_of raw) t) -> outcome log es s raw (s, Err ValueError)
  | out_pow j p t : zlen raw = 80 -> nth_error es j = Some p -> H (e_raw p) = prev_of raw -> ~ In raw log ->
      required (raw_at s (e_chain p)) (e_height p + 1) (time_of raw) = Ok (bits_of raw) ->
      compact (bits_of raw) t -> t < le_int (H raw) -> outcome log es s raw (s, Err InsufficientPoW)
  | out_accept j p t w s' bs' : zlen raw = 80 -> nth_error es j = Some p -> H (e_raw p) = prev_of raw -> ~ In raw log ->
      required (raw_at s (e_chain p)) (e_height p + 1) (time_of raw) = Ok (bits_of raw) ->
      compact (bits_of raw) t -> le_int (H raw) <= t -> extends es raw j p w ->
      good (log ++ [raw]) (es ++ [new_entry es raw j p w]) bs' s' ->
      (exists bs, rep (hs_st s) bs (idx (length es)) /\ bs' = zupdate (grown bs (idx (length es))) (idx (length es)) raw) ->
      outcome log es s raw (s', Ok (hdr raw (e_height p + 1), e_chain (new_entry es raw j p w))).

  Lemma bits_to_target_err b e : bits_to_target b = Err e -> e = ValueError.
  Proof.
    unfold bits_to_target. repeat match goal with |- context [if ?c then _ else _] => destruct c end; congruence.
  Qed.

  Lemma log_In log es bs s raw : good log es bs s -> In raw log <-> exists i e, nth_error es i = Some e /\ e_raw e = raw.
  Proof.
    intros G. rewrite <- (g_log _ _ _ _ G), in_map_iff. split.
    - intros (e & HE & HI). apply In_nth_error in HI as (i & HI). eauto.
    - intros (i & e & HN & HE). apply nth_error_In in HN. eauto.
  Qed.

  Lemma root_raw_0 log es bs s i e : good log es bs s -> nth_error es i = Some e -> (e_raw e = cp_raw cp <-> i = O).
  Proof.
    intros G HN. destruct (good_nonempty _ _ _ _ G) as (e0 & HN0 & HE0). split; [|intros ->; congruence].
    intros HE. destruct (built_good _ _ (g_built _ _ _ _ G)) as (HF & _).
    eapply (forest_hash_inj _ _ _ _ es i O e e0 HF HN HN0). congruence.
  Qed.

  Lemma connect_outcome log es bs s raw : good log es bs s -> U raw ->
    zlen (m_chains (hs_mem s)) < 2 ^ 16 -> cp_height cp + zlen log < 2 ^ 32 - 1 ->
    outcome log es s raw (connect s raw).
  Proof.
    intros G HU Hch Hlen.
    destruct (built_good _ _ (g_built _ _ _ _ G)) as (HF & H80 & HC).
    pose proof (good_view _ _ _ _ G) as HV. pose proof (good_state _ _ _ _ G) as HS.
    set (cache := m_cache (hs_mem s)) in *. set (st := hs_st s) in *.
    assert (Hchains : m_chains (hs_mem s) = chain_list es) by (rewrite (g_mem _ _ _ _ G); reflexivity).
    rewrite Hchains in Hch. unfold zlen in Hch. rewrite chain_list_length in Hch.
    assert (HLk : forall h, lookup H cp s h = lookup H cp (mk_headers st (mem_of es cache)) h) by (intros; now rewrite <- HS).
    assert (Hl : length log = length es) by (rewrite <- (g_log _ _ _ _ G); apply map_length).
    destruct (Z.eq_dec (zlen raw) 80) as [HL|HL].
    2:{ replace (connect s raw) with (s, @Err (header * nat) StructError); [now apply out_length|].
        unfold Chain.connect, connect_check, deserialized_header, unpack_header.
        destruct (Z.eqb_spec (zlen raw) 80); [contradiction|]. reflexivity. }
    unfold Chain.connect, connect_check.
    destruct (hdr_spec H raw (-1) HL) as (-> & Hhash & _ & _ & Hprev & Hbits & Htime & Hwith). cbn [bind].
    rewrite Hprev.
    destruct (classic_hash es (prev_of raw)) as [(j & p & HNj & Hp)|Hnone].
    2:{ rewrite HLk. rewrite lookup_missing; auto; [apply out_orphan; auto|].
        assert (HP : length (prev_of raw) = 32%nat) by (apply prev_of_length; auto). unfold zlen. rewrite HP. lia. }
    rewrite HLk. rewrite <- Hp at 1. rewrite (lookup_found H cp H32 st es cache j p) by auto. cbn [bind].
    destruct (hdr_spec H (e_raw p) (e_height p) (H80 _ (nth_error_In _ _ HNj))) as (_ & Hphash & _ & Hph & _).
    rewrite Hphash, Hph. rewrite Hwith. rewrite Hchains.
    pose proof (chain_lt H cp es j p HF HNj) as Hcl. rewrite chain_list_nth by auto.
    destruct (hdr_spec H raw (e_height p + 1) HL) as (_ & Hhash' & _ & Hhh' & _ & Hbits' & Htime' & _).
    rewrite Hhash', Hhh', Hbits', Htime'.
    destruct (chain_of_spec H cp es (e_chain p) HF Hcl) as (et & HNt & Htip & _ & _). rewrite Htip.
    destruct (hdr_spec H (e_raw et) (e_height et) (H80 _ (nth_error_In _ _ HNt))) as (_ & -> & _).
    destruct (forest_pos _ _ _ _ es HF) as [_ Hleaf].
    (* is the header stored? *)
    assert (Hdec : (exists i e, nth_error es i = Some e /\ e_raw e = raw) \/ ~ In raw log).
    { destruct (in_dec (list_eq_dec Z.eq_dec) raw log) as [HI|HI]; [left|now right]. now apply (log_In _ _ _ _ raw G). }
    destruct Hdec as [(i & e & HNi & He)|Hnew].
    - (* stored *)
      assert (Hi0 : i <> O).
      { intros ->. apply (as_no_cycle _ _ _ A (e_raw p)); [eapply g_U; eauto using nth_error_In|].
        destruct (good_nonempty _ _ _ _ G) as (e0 & HN0 & HE0). assert (e0 = e) by congruence. subst e0.
        rewrite Hp. unfold prev_of. congruence. }
      assert (Hpar : e_parent e = Some j).
      { destruct (e_parent e) as [j'|] eqn:EP; [|exfalso; apply Hi0; eapply forest_root_only; eauto].
        destruct (forest_parent _ _ _ _ es i e j' HF HNi EP) as (p' & w' & _ & HNj' & Hp' & _).
        f_equal. eapply (forest_hash_inj _ _ _ _ es j' j p' p HF); auto. rewrite Hp, Hp', He. reflexivity. }
      assert (Hne : bytes_eqb (H (e_raw et)) (H (e_raw p)) = false).
      { destruct (bytes_eqb_spec (H (e_raw et)) (H (e_raw p))) as [Heq|]; [exfalso|reflexivity].
        assert (tip es (e_chain p) = j) by (eapply (forest_hash_inj _ _ _ _ es); eauto).
        apply (Hleaf j p HNj) in H0. exact (H0 e (nth_error_In _ _ HNi) Hpar). }
      rewrite Hne. rewrite HLk.
      replace (lookup H cp (mk_headers st (mem_of es cache)) (H raw)) with (@Ok (header * nat) (hdr raw (e_height e), e_chain e))
        by (rewrite <- He; symmetry; eapply lookup_found; eauto).
      subst raw. apply (out_known log es s (e_raw e) i e); auto.
      intros HR. apply Hi0. now apply (root_raw_0 _ _ _ _ i e G HNi).
    - (* new *)
      assert (Hfresh : forall e, In e es -> H (e_raw e) <> H raw).
      { intros e HI HE. apply Hnew. apply (as_no_collision _ _ _ A) in HE; auto; [|eapply g_U; eauto].
        rewrite <- (g_log _ _ _ _ G). rewrite <- HE. now apply in_map. }
      assert (Hk : (if bytes_eqb (H (e_raw et)) (H (e_raw p)) then Err MissingHeader else lookup H cp s (H raw)) = Err MissingHeader).
      { destruct (bytes_eqb _ _); [reflexivity|]. rewrite HLk. apply lookup_missing; auto. rewrite H32. lia. }
      rewrite Hk. clear Hk.
      destruct (required (raw_at s (e_chain p)) (e_height p + 1) (time_of raw)) as [rb|e] eqn:ER; cbn [bind];
        [|now apply (out_required log es s raw j p)].
      destruct (Z.eqb_spec (bits_of raw) rb) as [Hrb|Hrb]; cbn [negb]; [|now apply (out_bits log es s raw j p rb)]. subst rb.
      unfold header_obj_target, header_hash_value. rewrite Hbits', Hhash'.
      destruct (bits_to_target (bits_of raw)) as [t|e] eqn:ET; cbn [bind].
      2:{ rewrite (bits_to_target_err _ _ ET). apply (out_target log es s raw j p); auto.
          intros t Ht. apply bits_to_target_spec in Ht. congruence. }
      pose proof (proj1 (bits_to_target_spec _ _) ET) as HT.
      destruct (Z.ltb_spec t (le_int (H raw))) as [Hlt|Hge]; cbn [bind]; [now apply (out_pow log es s raw j p t)|].
      destruct (compact_work raw t HT) as (w & HW).
      assert (HE : extends es raw j p w) by (repeat split; auto).
      assert (Hidx : idx (length es) + 1 < 2 ^ 32) by (unfold zlen in Hlen; rewrite Hl in Hlen; unfold ChainFacts.idx; lia).
      assert (Hidx0 : 0 <= idx (length es)) by (pose proof cp_nonneg; unfold ChainFacts.idx; lia).
      assert (Hnz : raw <> empty_header).
      { intros Hraw. rewrite Hraw in HT, Hge, Hfresh, Hp. assert (Ht0 : t = 0).
        { destruct HT as [(_ & Ht0)|(Hb & _)]; [exact Ht0|exfalso; cbn in Hb; lia]. }
        rewrite Ht0 in Hge. apply le_int_0_zeros in Hge; [|apply (as_hash_bytes _ _ _ A)].
        assert (HL32 : length (H empty_header) = 32%nat) by (apply Nat2Z.inj; exact (H32 empty_header)).
        rewrite HL32 in Hge. apply (Hfresh p (nth_error_In _ _ HNj)). rewrite Hp, Hge. reflexivity. }
      fold st. destruct (rep_append st bs (idx (length es)) raw (g_rep _ _ _ _ G) HL Hidx) as (st' & -> & HR & _).
      set (bs' := zupdate (grown bs (idx (length es))) (idx (length es)) raw) in *.
      assert (HBG : forall i, 0 <= i -> block_get bs' i = if i =? idx (length es) then Ok raw else block_get bs i).
      { intros i Hi. unfold bs'. rewrite block_get_update by lia. destruct (i =? idx (length es)); [|reflexivity].
        destruct (bytes_eqb_spec raw empty_header); [contradiction|reflexivity]. }
      assert (Hchx : Z.of_nat (e_chain (new_entry es raw j p w)) < 2 ^ 16).
      { unfold new_entry. cbn [e_chain]. destruct (Nat.eqb _ _); lia. }
      rewrite (g_mem _ _ _ _ G). fold cache.
      assert (HV' : view st' es).
      { intros i e HN. rewrite (rep_get _ _ _ _ HR) by (unfold ChainFacts.idx; pose proof cp_nonneg; lia).
        rewrite HBG by (unfold ChainFacts.idx; pose proof cp_nonneg; lia).
        destruct (Z.eqb_spec (idx i) (idx (length es))) as [Hx|Hx].
        - apply nth_error_lt in HN. unfold ChainFacts.idx in Hx. lia.
        - exact (g_blocks _ _ _ _ G i e HN). }
      rewrite (read_header_step H max_cache cp H32 cp_nonneg st' es cache raw j p w); auto; [|rewrite (rep_get _ _ _ _ HR) by lia; rewrite HBG by lia; now rewrite Z.eqb_refl|lia].
      cbn [bind]. eapply (out_accept log es s raw j p t w _ bs'); eauto; [|exists bs; split; [exact (g_rep _ _ _ _ G)|reflexivity]].
      split; cbn [hs_mem hs_st m_cache ChainFacts.mem_of].
      + rewrite map_app. cbn [map new_entry e_raw]. now rewrite (g_log _ _ _ _ G).
      + apply built_step; auto; [exact (g_built _ _ _ _ G)|lia].
      + reflexivity.
      + rewrite app_length. cbn [length]. replace (idx (length es + 1)) with (idx (length es) + 1) by (unfold ChainFacts.idx; lia). exact HR.
      + intros i e HN. rewrite HBG by (unfold ChainFacts.idx; pose proof cp_nonneg; lia).
        apply nth_error_snoc in HN as [[HN _]|[-> ->]].
        * destruct (Z.eqb_spec (idx i) (idx (length es))) as [Hx|Hx].
          -- apply nth_error_lt in HN. unfold ChainFacts.idx in Hx. lia.
          -- exact (g_blocks _ _ _ _ G i e HN).
        * now rewrite Z.eqb_refl.
      + rewrite app_length. cbn [length]. intros i Hi. pose proof cp_nonneg as Hcpn. unfold ChainFacts.idx in Hi. rewrite HBG by lia.
        destruct (Z.eqb_spec i (idx (length es))) as [Hx|Hx]; [unfold ChainFacts.idx in Hx; lia|].
        apply (g_above _ _ _ _ G). unfold ChainFacts.idx. lia.
      + intros e HI. apply in_app_iff in HI as [HI|[<-|[]]]; [eapply g_U; eauto|exact HU].
  Qed.

  Theorem reach_good log s : reach log s -> exists es bs, good log es bs s.
  Proof.
    induction 1 as [path path' s HP HE|log s raw s' r HR (es & bs & G) HU Hch Hlen HE HI|log s raw s' r HR (es & bs & G) HU Hch Hlen HE HI
      |log s raw s' e HR (es & bs & G) HU Hch Hlen HE|log s h raw HR (es & bs & G) Hs Hh|log s path' s' HR (es & bs & G) HE].
    - destruct (from_file_new path HP) as (w & s0 & _ & HE0 & G). assert (s0 = s) by congruence. subst s0. eauto.
    - pose proof (connect_outcome log es bs s raw G HU Hch Hlen) as HO. rewrite HE in HO. inversion HO; subst.
      + exfalso. apply HI. apply (log_In _ _ _ _ _ G). eauto.
      + eauto.
    - pose proof (connect_outcome log es bs s raw G HU Hch Hlen) as HO. rewrite HE in HO. inversion HO; subst.
      + eauto.
      + contradiction.
    - pose proof (connect_outcome log es bs s raw G HU Hch Hlen) as HO. rewrite HE in HO. inversion HO; subst; eauto.
    - destruct (good_set log es bs s h raw G Hh) as (bs' & G' & _). eauto.
    - rewrite (good_reload _ _ _ _ G) in HE. injection HE as _ <-. eauto.
  Qed.
End Facts.
