(** Properties of reachable Headers objects, in terms of the object's own methods. *)
From Verif.Model Require Import Py Packing Bits Coin Work Storage Chain.
From Verif.Spec Require Import Numbers WorkSpec ChainSpec HeadersHistory.
From Verif.Proofs Require Import PyFacts PackingFacts NumbersFacts WorkFacts RequiredBitsFacts StorageFacts StorageHistory ForestFacts ChainFacts HeadersFacts ForkFacts.

Lemma Some_inj {A} (x y : A) : Some x = Some y -> x = y.
Proof. congruence. Qed.

Lemma work_sum_snoc f h n raw w v : work_sum f h n v -> f (h + Z.of_nat n) = Ok raw -> raw_work raw w ->
  work_sum f h (S n) (v + w).
Proof.
  intros HS. revert raw w. induction HS as [h|h n raw0 w0 v Hf HW HS IH]; intros raw w HF HW'.
  - rewrite Z.add_0_r in HF. replace (0 + w) with (w + 0) by lia. econstructor; eauto. constructor.
  - replace (w0 + v + w) with (w0 + (v + w)) by lia. econstructor; eauto. apply IH with raw; auto.
    replace (h + 1 + Z.of_nat n) with (h + Z.of_nat (S n)) by lia. exact HF.
Qed.

Lemma longest_fold (l : list (nat * chain)) (b0 : nat * chain) :
  let r := fold_left (fun best p => if ch_work (snd best) <? ch_work (snd p) then p else best) l b0 in
  (r = b0 /\ (forall p, In p l -> ch_work (snd p) <= ch_work (snd b0))) \/
  (exists l1 l2, l = l1 ++ r :: l2 /\ ch_work (snd b0) < ch_work (snd r) /\
     (forall p, In p l1 -> ch_work (snd p) < ch_work (snd r)) /\ (forall p, In p l2 -> ch_work (snd p) <= ch_work (snd r))).
Proof.
  revert b0. induction l as [|p l IH]; intros b0; cbv zeta; cbn [fold_left].
  - left. split; [reflexivity|]. intros p [].
  - destruct (Z.ltb_spec (ch_work (snd b0)) (ch_work (snd p))) as [Hl|Hl].
    + destruct (IH p) as [(E & Hall)|(l1 & l2 & El & Hr & H1 & H2)].
      * right. exists [], l. rewrite E. split; [reflexivity|]. split; [lia|]. split; [intros ? []|exact Hall].
      * right. set (r := fold_left _ l p) in *. exists (p :: l1), l2. rewrite El. split; [reflexivity|]. split; [lia|]. split; [|exact H2].
        intros q [<-|HI]; auto.
    + destruct (IH b0) as [(E & Hall)|(l1 & l2 & El & Hr & H1 & H2)].
      * left. rewrite E. split; [reflexivity|]. intros q [<-|HI]; auto.
      * right. set (r := fold_left _ l b0) in *. exists (p :: l1), l2. rewrite El. split; [reflexivity|]. split; [exact Hr|]. split; [|exact H2].
        intros q [<-|HI]; auto. lia.
Qed.
Lemma enum_from_nth {A} n (l : list A) i x : nth_error l i = Some x -> nth_error (enum_from n l) i = Some ((n + i)%nat, x).
Proof.
  revert n i. induction l as [|y l IH]; intros n i HN; [destruct i; discriminate|]. destruct i as [|i].
  - cbn in *. injection HN as ->. now rewrite Nat.add_0_r.
  - cbn [enum_from nth_error] in *. rewrite (IH (S n) i HN). f_equal. f_equal. lia.
Qed.
Lemma enum_from_nth_inv {A} n (l : list A) i p : nth_error (enum_from n l) i = Some p ->
  fst p = (n + i)%nat /\ nth_error l i = Some (snd p).
Proof.
  revert n i. induction l as [|y l IH]; intros n i HN; [destruct i; discriminate|]. destruct i as [|i].
  - cbn in *. injection HN as <-. cbn. split; [lia|reflexivity].
  - cbn [enum_from nth_error] in *. destruct (IH (S n) i HN) as [H1 H2]. split; [lia|exact H2].
Qed.

Lemma longest_chain_spec s : m_chains (hs_mem s) <> [] -> exists c ch, longest_chain s = Some c /\
  nth_error (m_chains (hs_mem s)) c = Some ch /\
  forall c' ch', nth_error (m_chains (hs_mem s)) c' = Some ch' ->
    ch_work ch' <= ch_work ch /\ ((c' < c)%nat -> ch_work ch' < ch_work ch).
Proof.
  intros Hne. unfold longest_chain. destruct (m_chains (hs_mem s)) as [|c0 l] eqn:EM; [contradiction|]. clear Hne.
  remember (enum_from 0 (c0 :: l)) as L eqn:EL.
  destruct (longest_fold L (O, c0)) as [(E & Hall)|(l1 & l2 & El & Hr & H1 & H2)].
  - exists O, c0. rewrite E. split; [reflexivity|]. split; [reflexivity|]. intros c' ch' HN. split; [|lia].
    apply (enum_from_nth 0) in HN. rewrite <- EL in HN. apply nth_error_In in HN. exact (Hall _ HN).
  - set (r := fold_left _ L (O, c0)) in *. exists (fst r), (snd r). split; [reflexivity|].
    assert (Hr1 : nth_error L (length l1) = Some r) by (rewrite El, nth_error_app2, Nat.sub_diag by lia; reflexivity).
    pose proof Hr1 as Hr2. rewrite EL in Hr2. destruct (enum_from_nth_inv 0 _ _ _ Hr2) as [Hf Hn]. cbn [Nat.add] in Hf. rewrite Hf. split; [exact Hn|].
    intros c' ch' HN. apply (enum_from_nth 0) in HN. rewrite <- EL in HN. cbn [Nat.add] in HN. rewrite El in HN.
    destruct (Nat.lt_trichotomy c' (length l1)) as [Hlt|[Heq|Hgt]].
    + rewrite nth_error_app1 in HN by auto. apply nth_error_In in HN. specialize (H1 _ HN). cbn [snd] in H1. split; lia.
    + rewrite nth_error_app2 in HN by lia. replace (c' - length l1)%nat with O in HN by lia. cbn in HN.
      injection HN as ->. cbn [snd]. split; lia.
    + rewrite nth_error_app2 in HN by lia. destruct (c' - length l1)%nat as [|m] eqn:Em; [lia|]. cbn in HN.
      apply nth_error_In in HN. specialize (H2 _ HN). cbn [snd] in H2. split; lia.
Qed.

Section Thms.
  Variable H : bytes -> bytes.
  Variable required : (Z -> result bytes) -> Z -> Z -> result Z.
  Variable max_cache : Z.
  Variable cp : checkpoint.
  Variable U : bytes -> Prop.
  Variable sets : list bytes -> Prop.
  Hypothesis A : assumptions H cp U.

  Notation reach := (reach H required max_cache cp U sets).
  Notation good := (good H max_cache cp U).
  Notation forest := (forest H (cp_raw cp) (cp_height cp) (cp_prev_work cp)).
  Notation hdr := (hdr H).
  Notation chain_of := (chain_of H cp).
  Notation chain_list := (chain_list H cp).
  Notation mem_of := (mem_of H cp).
  Let H32 := as_hash_length _ _ _ A.
  Let cpn : 0 <= cp_height cp := proj1 (as_height _ _ _ A).

  (** All the facts about a state at once. *)
  Record known (log : list bytes) (s : headers) (es : list entry) (cache : list (bytes * (header * nat))) : Prop := {
    k_forest : forest es; k_80 : all80 es; k_cache : cache_ok H es cache; k_view : view cp (hs_st s) es;
    k_state : s = mk_headers (hs_st s) (mem_of es cache); k_log : map e_raw es = log;
    k_chains : m_chains (hs_mem s) = chain_list es }.
  Lemma good_known log es bs s : good log es bs s -> known log s es (m_cache (hs_mem s)).
  Proof.
    intros G. destruct (built_good H max_cache cp U A _ _ (g_built _ _ _ _ _ _ _ _ G)) as (HF & H80 & HC).
    split; auto.
    - exact (good_view H required max_cache cp U sets A _ _ _ _ G).
    - exact (good_state _ _ _ _ _ _ _ _ G).
    - exact (g_log _ _ _ _ _ _ _ _ G).
    - rewrite (g_mem _ _ _ _ _ _ _ _ G). reflexivity.
  Qed.
  Lemma reach_known log s : reach log s -> exists es cache, known log s es cache.
  Proof.
    intros HR. destruct (reach_good _ _ _ _ _ _ A _ _ HR) as (es & bs & G). eauto using good_known.
  Qed.

  Lemma known_In log s es cache raw : known log s es cache -> In raw log <-> exists i e, nth_error es i = Some e /\ e_raw e = raw.
  Proof.
    intros K. rewrite <- (k_log _ _ _ _ K), in_map_iff. split.
    - intros (e & HE & HI). apply In_nth_error in HI as (i & HI). eauto.
    - intros (i & e & HN & HE). apply nth_error_In in HN. eauto.
  Qed.
  Lemma known_chain log s es cache c ch : known log s es cache -> nth_error (m_chains (hs_mem s)) c = Some ch ->
    (c < nchains es)%nat /\ ch = chain_of es c.
  Proof.
    intros K HN. rewrite (k_chains _ _ _ _ K) in HN.
    assert (Hc : (c < nchains es)%nat) by (rewrite <- (chain_list_length H cp es); eapply nth_error_lt; eauto).
    split; [exact Hc|]. rewrite chain_list_nth in HN by auto. congruence.
  Qed.
  Lemma known_lookup log s es cache i e : known log s es cache -> nth_error es i = Some e ->
    lookup H cp s (H (e_raw e)) = Ok (hdr (e_raw e) (e_height e), e_chain e).
  Proof. intros [HF H80 HC HV HS HL HCh] HN. rewrite HS. eapply lookup_found; eauto. Qed.
  Lemma known_raw_anc log s es cache c k ek : known log s es cache -> (c < nchains es)%nat ->
    ancestor es k (tip es c) -> nth_error es k = Some ek -> raw_at s c (e_height ek) = Ok (e_raw ek).
  Proof. intros [HF H80 HC HV HS HL HCh] Hc HA HN. rewrite HS. eapply raw_at_anc; eauto. Qed.
  Lemma known_raw_on log s es cache c e h : known log s es cache -> (c < nchains es)%nat ->
    nth_error es (tip es c) = Some e -> cp_height cp <= h <= e_height e ->
    exists k ek, raw_at s c h = Ok (e_raw ek) /\ ancestor es k (tip es c) /\ nth_error es k = Some ek /\ e_height ek = h.
  Proof. intros [HF H80 HC HV HS HL HCh] Hc HN Hh. rewrite HS. eapply raw_at_on; eauto. Qed.
  Lemma known_hdr log s es cache i e : known log s es cache -> nth_error es i = Some e -> zlen (e_raw e) = 80.
  Proof. intros K HN. apply (k_80 _ _ _ _ K). eapply nth_error_In; eauto. Qed.
  (** An entry lies on the own part of its chain. *)
  Lemma known_own log s es cache i e : known log s es cache -> nth_error es i = Some e ->
    nth_error (m_chains (hs_mem s)) (e_chain e) = Some (chain_of es (e_chain e)) /\
    ch_first (chain_of es (e_chain e)) <= e_height e <= ch_height (chain_of es (e_chain e)) /\
    raw_at s (e_chain e) (e_height e) = Ok (e_raw e).
  Proof.
    intros K HN. pose proof (k_forest _ _ _ _ K) as HF. pose proof (chain_lt H cp es i e HF HN) as Hc.
    split; [rewrite (k_chains _ _ _ _ K); apply chain_list_nth; exact Hc|].
    destruct (tip_spec H cp es _ HF Hc) as (et & HNt & HCt & _ & Hall). pose proof (Hall i e HN eq_refl) as HA.
    split.
    - split; [eapply chain_height_ge; eauto|].
      destruct (chain_of_spec H cp es _ HF Hc) as (e' & HN' & _ & _ & ->). assert (e' = et) as -> by congruence.
      destruct (ancestor_valid _ _ _ _ es _ _ HF HA) as (x & y & Nx & Ny & _ & Hle & _). congruence.
    - eapply known_raw_anc; eauto.
  Qed.

  (** C26 *)
  Theorem lookup_stored log s raw : reach log s -> In raw log ->
    exists hd c, lookup H cp s (H raw) = Ok (hd, c) /\ h_raw hd = raw /\ h_hash hd = H raw /\
      (exists ch, nth_error (m_chains (hs_mem s)) c = Some ch /\ ch_first ch <= h_height hd <= ch_height ch) /\
      raw_at s c (h_height hd) = Ok raw /\
      (raw = cp_raw cp /\ h_height hd = cp_height cp \/
       exists phd pc, In (h_raw phd) log /\ lookup H cp s (prev_of raw) = Ok (phd, pc) /\ h_height hd = h_height phd + 1).
  Proof.
    intros HR HI. destruct (reach_known log s HR) as (es & cache & K). destruct (proj1 (known_In _ _ _ _ raw K) HI) as (i & e & HN & HEq). subst.
    pose proof (k_forest _ _ _ _ K) as HF.
    destruct (hdr_spec H (e_raw e) (e_height e) (known_hdr _ _ _ _ _ _ K HN)) as (_ & Hh & Hr & Hht & _).
    destruct (known_own _ _ _ _ i e K HN) as (HO1 & HO2 & HO3).
    exists (hdr (e_raw e) (e_height e)), (e_chain e). rewrite Hht, Hh, Hr.
    split; [eapply known_lookup; eauto|]. split; [reflexivity|]. split; [reflexivity|]. split; [eauto|]. split; [exact HO3|].
    destruct (e_parent e) as [j|] eqn:EP.
    - right. destruct (forest_parent _ _ _ _ es i e j HF HN EP) as (p & w & _ & HNp & Hp & Hhp & _).
      destruct (hdr_spec H (e_raw p) (e_height p) (known_hdr _ _ _ _ _ _ K HNp)) as (_ & _ & Hpr & Hpht & _).
      exists (hdr (e_raw p) (e_height p)), (e_chain p). rewrite Hpr, Hpht. split; [|split].
      + apply (known_In _ _ _ _ _ K). eauto.
      + rewrite <- Hp. eapply known_lookup; eauto.
      + exact Hhp.
    - left. pose proof (forest_root_only _ _ _ _ es i e HF HN EP) as ->.
      destruct (forest_nonempty _ _ _ _ es HF) as (w & _ & HN0). rewrite HN in HN0. apply Some_inj in HN0. subst e. auto.
  Qed.
  Theorem lookup_unknown log s hash : reach log s -> 4 <= zlen hash -> (forall raw, In raw log -> H raw <> hash) ->
    lookup H cp s hash = Err MissingHeader.
  Proof.
    intros HR HL HN. destruct (reach_known log s HR) as (es & cache & K). destruct K as [HF H80 HC HV HS Hlog HCh].
    rewrite HS. apply lookup_missing; auto. intros e HI. apply HN. rewrite <- Hlog. now apply in_map.
  Qed.

  (** C28 *)
  Theorem chain_linked log s c ch : reach log s -> nth_error (m_chains (hs_mem s)) c = Some ch ->
    cp_height cp <= ch_height ch /\
    raw_at s c (cp_height cp) = Ok (cp_raw cp) /\
    raw_at s c (ch_height ch) = Ok (h_raw (ch_tip ch)) /\ h_height (ch_tip ch) = ch_height ch /\
    (forall h, cp_height cp < h <= ch_height ch -> exists a b, raw_at s c (h - 1) = Ok a /\ raw_at s c h = Ok b /\
       In a log /\ In b log /\ prev_of b = H a) /\
    (forall h, ch_height ch < h \/ h < 0 -> raw_at s c h = Err MissingHeader) /\
    (forall h, 0 <= h < cp_height cp -> raw_at s c h = storage_get (hs_st s) h).
  Proof.
    intros HR HN. destruct (reach_known log s HR) as (es & cache & K). destruct (known_chain _ _ _ _ _ _ K HN) as (Hc & ->).
    pose proof (k_forest _ _ _ _ K) as HF.
    destruct (chain_of_spec H cp es c HF Hc) as (et & HNt & Ht & _ & ->). rewrite Ht.
    destruct (hdr_spec H (e_raw et) (e_height et) (known_hdr _ _ _ _ _ _ K HNt)) as (_ & _ & -> & -> & _).
    destruct (forest_nonempty _ _ _ _ es HF) as (w & _ & HN0).
    pose proof (forest_height_ge _ _ _ _ es _ et HF HNt) as [Hge _].
    split; [lia|]. split; [|split; [|split; [|split; [|split]]]].
    - pose proof (known_raw_anc _ _ _ _ c O _ K Hc (ancestor_root _ _ _ _ es _ et HF HNt) HN0) as HX. exact HX.
    - eapply known_raw_anc; eauto. econstructor; eauto.
    - reflexivity.
    - intros h Hh. destruct (known_raw_on _ _ _ _ c et h K Hc HNt ltac:(lia)) as (k & ek & HRk & HAk & HNk & HHk).
      destruct (e_parent ek) as [j|] eqn:EP.
      + destruct (forest_parent _ _ _ _ es k ek j HF HNk EP) as (p & w' & _ & HNp & Hp & Hhp & _).
        exists (e_raw p), (e_raw ek). split; [|split; [exact HRk|split; [|split]]].
        * replace (h - 1) with (e_height p) by lia. apply (known_raw_anc _ _ _ _ c j p K Hc); [|exact HNp].
          eapply ancestor_trans; [|exact HAk]. eapply (ancestor_up es j j k ek); eauto. econstructor; eauto.
        * apply (known_In _ _ _ _ _ K). eauto.
        * apply (known_In _ _ _ _ _ K). eauto.
        * now rewrite Hp.
      + exfalso. pose proof (forest_root_only _ _ _ _ es k ek HF HNk EP) as ->. rewrite HN0 in HNk. apply Some_inj in HNk. subst ek. cbn in HHk. lia.
    - intros h Hh. rewrite (k_state _ _ _ _ K). destruct Hh as [Hh|Hh].
      + apply raw_at_above; auto. destruct (chain_of_spec H cp es c HF Hc) as (e' & HN' & _ & _ & ->). congruence.
      + rewrite raw_at_below by (auto; lia). destruct (Z.leb_spec 0 h); [lia|reflexivity].
    - intros h Hh. rewrite (k_state _ _ _ _ K) at 1. rewrite raw_at_below by (auto; lia). destruct (Z.leb_spec 0 h); [reflexivity|lia].
  Qed.

  Theorem header_at log s c ch h raw : reach log s -> nth_error (m_chains (hs_mem s)) c = Some ch -> cp_height cp <= h <= ch_height ch ->
    raw_at s c h = Ok raw -> exists hd, header_at_height H s c h = Ok hd /\ h_raw hd = raw /\ h_height hd = h /\ h_hash hd = H raw /\
      h_prev_hash hd = prev_of raw /\ h_bits hd = bits_of raw /\ h_timestamp hd = time_of raw.
  Proof.
    intros HR HN Hh HRaw. destruct (reach_known log s HR) as (es & cache & K). destruct (known_chain _ _ _ _ _ _ K HN) as (Hc & ->).
    destruct (chain_of_spec H cp es c (k_forest _ _ _ _ K) Hc) as (et & HNt & _ & _ & HE). rewrite HE in Hh.
    destruct (known_raw_on _ _ _ _ c et h K Hc HNt ltac:(lia)) as (k & ek & HRk & HAk & HNk & HHk).
    assert (raw = e_raw ek) as -> by congruence.
    destruct (hdr_spec H (e_raw ek) h (known_hdr _ _ _ _ _ _ K HNk)) as (Hd & H1 & H2 & H3 & H4 & H5 & H6 & _).
    exists (hdr (e_raw ek) h). unfold header_at_height. rewrite HRk. cbn [bind]. auto 10.
  Qed.

  (** C29 *)
  Theorem chain_work log s c ch h : reach log s -> nth_error (m_chains (hs_mem s)) c = Some ch ->
    cp_height cp <= h <= ch_height ch ->
    exists w, work_sum (raw_at s c) (cp_height cp) (Z.to_nat (h - cp_height cp + 1)) w /\
      chainwork_to_height s c h = Ok (cp_prev_work cp + w) /\
      (h = ch_height ch -> ch_work ch = cp_prev_work cp + w).
  Proof.
    intros HR HN Hh. destruct (reach_known log s HR) as (es & cache & K). destruct (known_chain _ _ _ _ _ _ K HN) as (Hc & ->).
    pose proof (k_forest _ _ _ _ K) as HF.
    destruct (chain_of_spec H cp es c HF Hc) as (et & HNt & _ & HWt & HE). rewrite HE in *.
    assert (HSum : forall n k ek, nth_error es k = Some ek -> ancestor es k (tip es c) -> e_height ek = cp_height cp + Z.of_nat n ->
      work_sum (raw_at s c) (cp_height cp) (S n) (e_work ek - cp_prev_work cp)).
    { induction n as [|n IH]; intros k ek HNk HAk HHk.
      - pose proof (forest_height_ge _ _ _ _ es k ek HF HNk) as [_ Hk0]. rewrite Hk0 in * by lia.
        destruct (forest_nonempty _ _ _ _ es HF) as (w & HW & HN0). rewrite HN0 in HNk. apply Some_inj in HNk. subst ek. cbn [e_work].
        replace (cp_prev_work cp + w - cp_prev_work cp) with (w + 0) by lia.
        econstructor; [|exact HW|constructor]. exact (known_raw_anc _ _ _ _ c O _ K Hc HAk HN0).
      - destruct (e_parent ek) as [j|] eqn:EP.
        + destruct (forest_parent _ _ _ _ es k ek j HF HNk EP) as (p & w & _ & HNp & Hp & Hhp & HW & HWe).
          assert (HAj : ancestor es j (tip es c)).
          { eapply ancestor_trans; [|exact HAk]. eapply (ancestor_up es j j k ek); eauto. econstructor; eauto. }
          specialize (IH j p HNp HAj ltac:(lia)).
          replace (e_work ek - cp_prev_work cp) with ((e_work p - cp_prev_work cp) + w) by lia.
          apply work_sum_snoc with (e_raw ek); [exact IH| |exact HW].
          replace (cp_height cp + Z.of_nat (S n)) with (e_height ek) by lia. exact (known_raw_anc _ _ _ _ c k ek K Hc HAk HNk).
        + exfalso. pose proof (forest_root_only _ _ _ _ es k ek HF HNk EP) as ->.
          destruct (forest_nonempty _ _ _ _ es HF) as (w & _ & HN0). rewrite HN0 in HNk. apply Some_inj in HNk. subst ek. cbn in HHk. lia. }
    destruct (known_raw_on _ _ _ _ c et h K Hc HNt ltac:(lia)) as (k & ek & HRk & HAk & HNk & HHk).
    exists (e_work ek - cp_prev_work cp). split; [|split].
    - replace (Z.to_nat (h - cp_height cp + 1)) with (S (Z.to_nat (h - cp_height cp))) by lia. apply (HSum _ k); auto. lia.
    - replace (cp_prev_work cp + (e_work ek - cp_prev_work cp)) with (e_work ek) by lia. rewrite <- HHk.
      rewrite (k_state _ _ _ _ K). eapply chainwork_to; eauto; [exact (k_80 _ _ _ _ K)|exact (k_view _ _ _ _ K)].
    - intros Hhe. rewrite HWt. assert (k = tip es c); [|subst; assert (et = ek) by congruence; subst; lia].
      eapply (ancestor_fun _ _ _ _ es k (tip es c) (tip es c) ek et); eauto; [econstructor; eauto|lia].
  Qed.

  (** C30 *)
  Theorem longest log s : reach log s -> exists c ch, longest_chain s = Some c /\
    nth_error (m_chains (hs_mem s)) c = Some ch /\
    forall c' ch', nth_error (m_chains (hs_mem s)) c' = Some ch' ->
      ch_work ch' <= ch_work ch /\ ((c' < c)%nat -> ch_work ch' < ch_work ch).
  Proof.
    intros HR. apply longest_chain_spec. destruct (reach_known log s HR) as (es & cache & K). rewrite (k_chains _ _ _ _ K).
    destruct (forest_nonempty _ _ _ _ es (k_forest _ _ _ _ K)) as (w & _ & HN0).
    pose proof (chain_lt H cp es _ _ (k_forest _ _ _ _ K) HN0) as Hc. intros E.
    rewrite <- (chain_list_length H cp es), E in Hc. cbn in Hc. lia.
  Qed.

  (** C31 *)
  Theorem one_chain log s raw : reach log s -> (In raw log <-> exists! c, own_part s c raw).
  Proof.
    intros HR. destruct (reach_known log s HR) as (es & cache & K). pose proof (k_forest _ _ _ _ K) as HF.
    assert (Hown : forall c raw, own_part s c raw -> exists k ek, nth_error es k = Some ek /\ e_raw ek = raw /\ e_chain ek = c).
    { intros c r (ch & h & HN & Hh & Hr). destruct (known_chain _ _ _ _ _ _ K HN) as (Hc & ->).
      destruct (tip_spec H cp es c HF Hc) as (et & HNt & HCt & (p0 & e0 & Ehd & HN0 & HC0 & HHt & Hl) & Hall).
      assert (Hfirst : ch_first (chain_of es c) = e_height e0).
      { unfold ChainFacts.chain_of. cbn [ch_first]. now rewrite Ehd, (ent_nth es _ _ HN0). }
      destruct (chain_of_spec H cp es c HF Hc) as (e' & HN' & _ & _ & HE). assert (e' = et) as -> by congruence. rewrite HE in Hh.
      pose proof (forest_height_ge _ _ _ _ es _ _ HF HN0) as [Hg _].
      destruct (known_raw_on _ _ _ _ c et h K Hc HNt ltac:(lia)) as (k & ek & HRk & HAk & HNk & HHk).
      exists k, ek. split; [exact HNk|]. split; [congruence|].
      (* the chain's own entry at that height is the same *)
      destruct (pos_struct H cp es c HF Hc) as (x0 & r0 & EP & HL & _). assert (x0 = p0) as -> by (rewrite EP in Ehd; exact Ehd).
      assert (HB : (Z.to_nat (h - e_height e0) < length (pos es c))%nat) by (unfold zlen in *; lia).
      destruct (nth_error (pos es c) (Z.to_nat (h - e_height e0))) as [x|] eqn:EX; [|apply nth_error_None in EX; lia].
      destruct (nth_error_pos es c _ x EX) as (ex & HNx & HCx). rewrite EP in EX.
      destruct (linked_ancestor _ _ _ _ es (p0 :: r0) 0 _ p0 x e0 HF HL ltac:(lia) eq_refl EX HN0) as (_ & ex' & HNx' & Hhx).
      assert (ex' = ex) as -> by congruence.
      assert (x = k) as ->; [|congruence].
      eapply (ancestor_fun _ _ _ _ es x k (tip es c) ex ek); eauto. lia. }
    split.
    - intros HI. destruct (proj1 (known_In _ _ _ _ raw K) HI) as (i & e & HN & HE). exists (e_chain e). split.
      + destruct (known_own _ _ _ _ i e K HN) as (HO1 & HO2 & HO3). exists (chain_of es (e_chain e)), (e_height e). rewrite <- HE. auto.
      + intros c Hc. destruct (Hown c raw Hc) as (k & ek & HNk & HEk & HCk).
        assert (k = i) by (eapply (forest_hash_inj _ _ _ _ es k i ek e HF); eauto; congruence). congruence.
    - intros (c & Hc & _). destruct (Hown c raw Hc) as (k & ek & HNk & HEk & HCk). apply (known_In _ _ _ _ raw K). eauto.
  Qed.

  Theorem tips_leaves log s raw : reach log s ->
    ((exists c ch, nth_error (m_chains (hs_mem s)) c = Some ch /\ h_raw (ch_tip ch) = raw) <->
     (In raw log /\ forall r, In r log -> prev_of r <> H raw)).
  Proof.
    intros HR. destruct (reach_good _ _ _ _ _ _ A _ _ HR) as (es & bs & G). pose proof (good_known _ _ _ _ G) as K.
    pose proof (k_forest _ _ _ _ K) as HF. destruct (forest_pos _ _ _ _ es HF) as [_ Hleaf].
    assert (HL : forall j p, nth_error es j = Some p -> (leaf es j <-> forall r, In r log -> prev_of r <> H (e_raw p))).
    { intros j p HNj. split.
      - intros Hl r HI HP. destruct (proj1 (known_In _ _ _ _ r K) HI) as (i & e & HN & HEq). subst.
        destruct (e_parent e) as [j'|] eqn:EP.
        + destruct (forest_parent _ _ _ _ es i e j' HF HN EP) as (p' & w & _ & HNp & Hp & _).
          assert (j' = j) as -> by (eapply (forest_hash_inj _ _ _ _ es j' j p' p HF); eauto; congruence).
          exact (Hl e (nth_error_In _ _ HN) EP).
        + pose proof (forest_root_only _ _ _ _ es i e HF HN EP) as ->.
          destruct (forest_nonempty _ _ _ _ es HF) as (w & _ & HN0). rewrite HN in HN0. apply Some_inj in HN0. subst e. cbn [e_raw] in HP.
          refine (as_no_cycle _ _ _ A (e_raw p) _ (eq_sym HP)). eapply (g_U _ _ _ _ _ _ _ _ G). eapply nth_error_In; eauto.
      - intros Hall e HI EP. apply In_nth_error in HI as (i & HN).
        destruct (forest_parent _ _ _ _ es i e j HF HN EP) as (p' & w & _ & HNp & Hp & _). assert (p' = p) as -> by congruence.
        apply (Hall (e_raw e)); [|auto]. apply (known_In _ _ _ _ _ K). eauto. }
    split.
    - intros (c & ch & HN & <-). destruct (known_chain _ _ _ _ _ _ K HN) as (Hc & ->).
      destruct (chain_of_spec H cp es c HF Hc) as (et & HNt & -> & _). destruct (hdr_spec H (e_raw et) (e_height et) (known_hdr _ _ _ _ _ _ K HNt)) as (_ & _ & -> & _).
      destruct (tip_spec H cp es c HF Hc) as (et' & HNt' & HCt & _). assert (et' = et) as -> by congruence.
      split; [apply (known_In _ _ _ _ _ K); eauto|]. apply (HL _ _ HNt). apply (Hleaf _ _ HNt). rewrite HCt. reflexivity.
    - intros [HI Hall]. destruct (proj1 (known_In _ _ _ _ raw K) HI) as (j & p & HNj & HEq). subst.
      pose proof (proj2 (HL j p HNj) Hall) as Hl. apply (Hleaf j p HNj) in Hl. pose proof (chain_lt H cp es j p HF HNj) as Hc.
      exists (e_chain p), (chain_of es (e_chain p)). split; [rewrite (k_chains _ _ _ _ K); now apply chain_list_nth|].
      destruct (chain_of_spec H cp es _ HF Hc) as (et & HNt & -> & _). unfold tip in HNt. rewrite Hl in HNt. assert (et = p) as -> by congruence.
      destruct (hdr_spec H (e_raw p) (e_height p) (known_hdr _ _ _ _ _ _ K HNj)) as (_ & _ & -> & _). reflexivity.
  Qed.

  (** C32 *)
  Theorem fork log s a b cha chb : reach log s -> nth_error (m_chains (hs_mem s)) a = Some cha -> nth_error (m_chains (hs_mem s)) b = Some chb ->
    exists c h ch, common_chain_and_height (m_chains (hs_mem s)) a b = (Some c, h) /\
      nth_error (m_chains (hs_mem s)) c = Some ch /\ ch_first ch <= h <= ch_height ch /\
      cp_height cp <= h <= Z.min (ch_height cha) (ch_height chb) /\
      (forall i, i <= h -> raw_at s a i = raw_at s b i /\ raw_at s a i = raw_at s c i) /\
      (forall i, h < i <= Z.min (ch_height cha) (ch_height chb) -> raw_at s a i <> raw_at s b i).
  Proof.
    intros HR Ha Hb. destruct (reach_known log s HR) as (es & cache & K). pose proof (k_forest _ _ _ _ K) as HF.
    destruct (known_chain _ _ _ _ _ _ K Ha) as (Hca & ->). destruct (known_chain _ _ _ _ _ _ K Hb) as (Hcb & ->).
    rewrite (k_chains _ _ _ _ K). destruct (fork_point H cp cpn es a b HF Hca Hcb) as (k & ek & -> & HNk & HAa & HAb & Hmax).
    exists (e_chain ek), (e_height ek), (chain_of es (e_chain ek)). split; [reflexivity|].
    destruct (known_own _ _ _ _ k ek K HNk) as (HO1 & HO2 & HO3). rewrite (k_chains _ _ _ _ K) in HO1. split; [exact HO1|]. split; [exact HO2|].
    destruct (chain_of_spec H cp es a HF Hca) as (ea & HNa & _ & _ & HEa). destruct (chain_of_spec H cp es b HF Hcb) as (eb & HNb & _ & _ & HEb).
    rewrite HEa, HEb. pose proof (forest_height_ge _ _ _ _ es _ _ HF HNk) as [Hg _].
    destruct (ancestor_valid _ _ _ _ es _ _ HF HAa) as (x & y & Nx & Ny & _ & Hlea & _). assert (x = ek) as -> by congruence. assert (y = ea) as -> by congruence.
    destruct (ancestor_valid _ _ _ _ es _ _ HF HAb) as (x & y' & Nx' & Ny' & _ & Hleb & _). assert (x = ek) as -> by congruence. assert (y' = eb) as -> by congruence.
    pose proof (chain_lt H cp es k ek HF HNk) as Hck. destruct (tip_spec H cp es _ HF Hck) as (ec & HNc & HCc & _ & Hallc).
    pose proof (Hallc k ek HNk eq_refl) as HAc.
    split; [lia|]. split.
    - intros i Hi. destruct (Z.lt_ge_cases i (cp_height cp)) as [Hlo|Hhi].
      + rewrite (k_state _ _ _ _ K). rewrite !raw_at_below by auto. auto.
      + destruct (ancestor_at _ _ _ _ es k ek i HF HNk ltac:(lia)) as (m & em & HAm & HNm & HHm).
        rewrite <- HHm. assert (HX : forall c, (c < nchains es)%nat -> ancestor es k (tip es c) -> raw_at s c (e_height em) = Ok (e_raw em)).
        { intros c Hc HAk. apply (known_raw_anc _ _ _ _ c m em K Hc); [|exact HNm]. eapply ancestor_trans; eauto. }
        rewrite (HX a), (HX b), (HX (e_chain ek)) by auto. auto.
    - intros i Hi HE.
      destruct (known_raw_on _ _ _ _ a ea i K Hca HNa ltac:(lia)) as (ka & xa & HRa & HAka & HNka & HHka).
      destruct (known_raw_on _ _ _ _ b eb i K Hcb HNb ltac:(lia)) as (kb & xb & HRb & HAkb & HNkb & HHkb).
      assert (ka = kb) as ->. { eapply (forest_hash_inj _ _ _ _ es ka kb xa xb HF); eauto. congruence. }
      assert (xa = xb) as -> by congruence. specialize (Hmax kb xb HAka HAkb HNkb). lia.
  Qed.
  Theorem fork_symmetric log s a b cha chb : reach log s -> nth_error (m_chains (hs_mem s)) a = Some cha -> nth_error (m_chains (hs_mem s)) b = Some chb ->
    common_chain_and_height (m_chains (hs_mem s)) a b = common_chain_and_height (m_chains (hs_mem s)) b a.
  Proof.
    intros HR Ha Hb. destruct (reach_known log s HR) as (es & cache & K). pose proof (k_forest _ _ _ _ K) as HF.
    destruct (known_chain _ _ _ _ _ _ K Ha) as (Hca & ->). destruct (known_chain _ _ _ _ _ _ K Hb) as (Hcb & ->).
    rewrite (k_chains _ _ _ _ K). destruct (fork_point H cp cpn es a b HF Hca Hcb) as (k & ek & -> & HNk & HAa & HAb & Hmax).
    destruct (fork_point H cp cpn es b a HF Hcb Hca) as (k' & ek' & -> & HNk' & HAb' & HAa' & Hmax').
    pose proof (Hmax k' ek' HAa' HAb' HNk'). pose proof (Hmax' k ek HAb HAa HNk).
    assert (k = k') as <-. { eapply (ancestor_fun _ _ _ _ es k k' (tip es a) ek ek'); eauto. lia. }
    congruence.
  Qed.

  (** C33 *)
  Theorem reload_same log s : reach log s ->
    from_file H max_cache cp (Some (st_file (hs_st s))) = (Some (st_file (hs_st s)), Ok s).
  Proof.
    intros HR. destruct (reach_good _ _ _ _ _ _ A _ _ HR) as (es & bs & G). eapply good_reload; eauto.
  Qed.

  (** C27 *)
  Notation connect := (connect H required max_cache cp).
  Notation room := (room cp).

  Theorem connect_raises log s raw s' e : reach log s -> U raw -> room log s -> connect s raw = (s', Err e) -> s' = s.
  Proof.
    intros HR HU [H1 H2] HE. destruct (reach_good _ _ _ _ _ _ A _ _ HR) as (es & bs & G).
    pose proof (connect_outcome H required max_cache cp U sets A log es bs s raw G HU H1 H2) as HO. rewrite HE in HO. inversion HO; reflexivity.
  Qed.
  Theorem connect_orphan log s raw : reach log s -> U raw -> room log s -> zlen raw = 80 ->
    (forall p, In p log -> H p <> prev_of raw) -> connect s raw = (s, Err MissingHeader).
  Proof.
    intros HR HU [H1 H2] HL HN. destruct (reach_good _ _ _ _ _ _ A _ _ HR) as (es & bs & G). pose proof (good_known _ _ _ _ G) as K.
    pose proof (connect_outcome H required max_cache cp U sets A log es bs s raw G HU H1 H2) as HO.
    assert (HX : forall i e, nth_error es i = Some e -> H (e_raw e) <> prev_of raw).
    { intros i e Hi. apply HN. apply (known_In _ _ _ _ _ K). eauto. }
    inversion HO; subst; try (exfalso; eapply HX; eassumption); try congruence.
    exfalso. destruct (e_parent e) as [j|] eqn:EP.
    - destruct (forest_parent _ _ _ _ es i e j (k_forest _ _ _ _ K) ltac:(eassumption) EP) as (p & w & _ & HNp & Hp & _). eapply HX; eauto.
    - assert (i = O) as -> by (eapply forest_root_only; eauto using k_forest).
      destruct (forest_nonempty _ _ _ _ es (k_forest _ _ _ _ K)) as (w & _ & HN0). match goal with HC : e_raw e <> cp_raw cp |- _ => apply HC end.
      replace e with (mk_entry (cp_raw cp) (cp_height cp) 0 (cp_prev_work cp + w) None) by congruence. reflexivity.
  Qed.
  Theorem connect_stored log s raw : reach log s -> U raw -> room log s -> In raw log ->
    (raw <> cp_raw cp -> exists r, lookup H cp s (H raw) = Ok r /\ connect s raw = (s, Ok r)) /\
    (raw = cp_raw cp -> connect s raw = (s, Err MissingHeader)).
  Proof.
    intros HR HU Hroom HI. destruct (reach_good _ _ _ _ _ _ A _ _ HR) as (es & bs & G). pose proof (good_known _ _ _ _ G) as K.
    split.
    - intros Hne. destruct Hroom as [H1 H2]. pose proof (connect_outcome H required max_cache cp U sets A log es bs s raw G HU H1 H2) as HO.
      destruct (proj1 (known_In _ _ _ _ raw K) HI) as (i & e & HN & HEq). subst raw.
      exists (hdr (e_raw e) (e_height e), e_chain e). split; [eapply known_lookup; eauto|].
      inversion HO; subst; try contradiction.
      + pose proof (known_hdr _ _ _ _ _ _ K HN). contradiction.
      + exfalso. destruct (e_parent e) as [j|] eqn:EP.
        * destruct (forest_parent _ _ _ _ es i e j (k_forest _ _ _ _ K) HN EP) as (p & w & _ & HNp & Hp & _).
          match goal with HX : forall e0, In e0 es -> _ |- _ => apply (HX p (nth_error_In _ _ HNp)) end. exact Hp.
        * assert (i = O) as -> by (eapply forest_root_only; eauto using k_forest).
          destruct (forest_nonempty _ _ _ _ es (k_forest _ _ _ _ K)) as (w & _ & HN0). apply Hne.
          replace e with (mk_entry (cp_raw cp) (cp_height cp) 0 (cp_prev_work cp + w) None) by congruence. reflexivity.
      + match goal with HX : nth_error es ?i' = Some ?e', HY : e_raw ?e' = e_raw e |- _ =>
          assert (i' = i) as -> by (eapply (forest_hash_inj _ _ _ _ es i' i e' e (k_forest _ _ _ _ K)); eauto; congruence);
          assert (e' = e) as -> by congruence end. reflexivity.
    - intros ->. apply (connect_orphan log); auto; [exact (as_root_length _ _ _ A)|].
      intros p HIp. destruct (proj1 (known_In _ _ _ _ p K) HIp) as (i & e & HN & HEq). subst p.
      apply (as_no_cycle _ _ _ A). eapply (g_U _ _ _ _ _ _ _ _ G). eapply nth_error_In; eauto.
  Qed.
  (** A new header below a stored one. *)
  Theorem connect_new log s raw phd pc : reach log s -> U raw -> room log s -> zlen raw = 80 -> ~ In raw log ->
    lookup H cp s (prev_of raw) = Ok (phd, pc) ->
    match required (raw_at s pc) (h_height phd + 1) (time_of raw) with
    | Err e => connect s raw = (s, Err e)
    | Ok rb =>
      (rb <> bits_of raw -> connect s raw = (s, Err IncorrectBits)) /\
      (rb = bits_of raw -> (forall t, ~ compact rb t) -> connect s raw = (s, Err ValueError)) /\
      (forall t, rb = bits_of raw -> compact rb t -> t < val_le (H raw) -> connect s raw = (s, Err InsufficientPoW)) /\
      (forall t, rb = bits_of raw -> compact rb t -> val_le (H raw) <= t ->
         exists s' hd c w pch, connect s raw = (s', Ok (hd, c)) /\ h_raw hd = raw /\ h_height hd = h_height phd + 1 /\
           lookup H cp s' (H raw) = Ok (hd, c) /\ raw_work raw w /\
           nth_error (m_chains (hs_mem s)) pc = Some pch /\
           (ch_tip pch = phd -> c = pc /\ m_chains (hs_mem s') = list_update (m_chains (hs_mem s)) pc
              (mk_chain (ch_parent pch) hd (ch_work pch + w) (ch_first pch) (ch_indices pch ++ [cp_height cp + zlen log]))) /\
           (ch_tip pch <> phd -> c = length (m_chains (hs_mem s)) /\ exists pw, chainwork_to_height s pc (h_height phd) = Ok pw /\
              m_chains (hs_mem s') = m_chains (hs_mem s) ++ [mk_chain (Some pc) hd (pw + w) (h_height hd) [cp_height cp + zlen log]]) /\
           storage_len (hs_st s') = Ok (cp_height cp + zlen log + 1) /\
           storage_get (hs_st s') (cp_height cp + zlen log) = Ok raw /\
           forall i, 0 <= i -> i <> cp_height cp + zlen log -> storage_get (hs_st s') i = storage_get (hs_st s) i)
    end.
  Proof.
    intros HR HU [H1 H2] HL HNew HLk. destruct (reach_good _ _ _ _ _ _ A _ _ HR) as (es & bs & G). pose proof (good_known _ _ _ _ G) as K.
    pose proof (k_forest _ _ _ _ K) as HF.
    pose proof (connect_outcome H required max_cache cp U sets A log es bs s raw G HU H1 H2) as HO.
    assert (HLe : zlen log = Z.of_nat (length es)) by (rewrite <- (k_log _ _ _ _ K); unfold zlen; now rewrite map_length).
    (* the parent *)
    destruct (classic_hash H es (prev_of raw)) as [(j & p & HNj & Hp)|Hnone].
    2:{ exfalso. rewrite (lookup_unknown log s (prev_of raw) HR) in HLk; [discriminate| |].
        - assert (HX : length (prev_of raw) = 32%nat) by (apply prev_of_length; auto). unfold zlen. rewrite HX. lia.
        - intros r HI. destruct (proj1 (known_In _ _ _ _ r K) HI) as (i & e & HN & HEq). subst r. apply Hnone. eapply nth_error_In; eauto. }
    assert (HPP : phd = hdr (e_raw p) (e_height p) /\ pc = e_chain p).
    { rewrite <- Hp in HLk. rewrite (known_lookup _ _ _ _ j p K HNj) in HLk. injection HLk as -> ->. auto. }
    destruct HPP as [-> ->].
    destruct (hdr_spec H (e_raw p) (e_height p) (known_hdr _ _ _ _ _ _ K HNj)) as (_ & _ & _ & -> & _).
    assert (HSame : forall j' p', nth_error es j' = Some p' -> H (e_raw p') = prev_of raw -> j' = j /\ p' = p).
    { intros j' p' HN' Hp'. assert (j' = j) as -> by (eapply (forest_hash_inj _ _ _ _ es j' j p' p HF); eauto; congruence). split; congruence. }
    change val_le with le_int.
    inversion HO as [HLn|_ Hn|i e _ HNi HEi Hne|j' p' e _ HN' Hp' _ HRq|j' p' rb _ HN' Hp' _ HRq Hb|j' p' _ HN' Hp' _ HRq Hb|j' p' t _ HN' Hp' _ HRq Hb Ht
      |j' p' t w s' bs' _ HN' Hp' _ HRq Hb Ht HE G' Hbs EQ]; try contradiction.
    - exfalso. apply (Hn p (nth_error_In _ _ HNj)). exact Hp.
    - exfalso. apply HNew. apply (known_In _ _ _ _ _ K). eauto.
    - destruct (HSame _ _ HN' Hp') as [-> ->]. rewrite HRq. reflexivity.
    - destruct (HSame _ _ HN' Hp') as [-> ->]. rewrite HRq. split; [reflexivity|]. split; [intros; congruence|].
      split; intros; congruence.
    - destruct (HSame _ _ HN' Hp') as [-> ->]. rewrite HRq. split; [congruence|]. split; [reflexivity|].
      split; intros t _ HC; exfalso; exact (Hb t HC).
    - destruct (HSame _ _ HN' Hp') as [-> ->]. rewrite HRq. split; [congruence|]. split; [intros _ HC; exfalso; exact (HC t Hb)|].
      split; [reflexivity|]. intros t' _ HC Hle. exfalso. rewrite (compact_fun _ _ _ HC Hb) in Hle. lia.
    - destruct (HSame _ _ HN' Hp') as [-> ->]. rewrite HRq. split; [congruence|]. split; [intros _ HC; exfalso; exact (HC t Hb)|].
      split; [intros t' _ HC Hle; exfalso; rewrite (compact_fun _ _ _ HC Hb) in Hle; lia|].
      intros t' _ _ _. pose proof (good_known _ _ _ _ G') as K'.
      set (x := new_entry es raw j p w) in *.
      pose proof (chain_lt H cp es j p HF HNj) as Hcl. pose proof HE as (_ & _ & _ & HW).
      assert (HNx : nth_error (es ++ [x]) (length es) = Some x) by apply nth_error_last.
      destruct (hdr_spec H raw (e_height p + 1) HL) as (_ & _ & Hr & Hh & _).
      exists s', (hdr raw (e_height p + 1)), (e_chain x), w, (chain_of es (e_chain p)).
      split; [reflexivity|]. split; [exact Hr|]. split; [exact Hh|]. split; [exact (known_lookup _ _ _ _ _ x K' HNx)|]. split; [exact HW|].
      split; [rewrite (k_chains _ _ _ _ K); now apply chain_list_nth|].
      destruct (chain_of_spec H cp es (e_chain p) HF Hcl) as (et & HNt & Ht' & HWt & HHt).
      destruct (tip_spec H cp es (e_chain p) HF Hcl) as (et' & HNt' & HCt & _ & Hallt). assert (et' = et) as -> by congruence.
      assert (Hdec : tip es (e_chain p) = j <-> ch_tip (chain_of es (e_chain p)) = hdr (e_raw p) (e_height p)).
      { rewrite Ht'. split.
        - intros Hj. assert (et = p) as -> by congruence. reflexivity.
        - intros Heq. assert (e_raw et = e_raw p).
          { destruct (hdr_spec H (e_raw et) (e_height et) (known_hdr _ _ _ _ _ _ K HNt)) as (_ & _ & <- & _).
            destruct (hdr_spec H (e_raw p) (e_height p) (known_hdr _ _ _ _ _ _ K HNj)) as (_ & _ & <- & _). now rewrite Heq. }
          eapply (forest_hash_inj _ _ _ _ es _ j et p HF); eauto. congruence. }
      rewrite HLe. fold (idx cp (length es)).
      split; [|split].
      + intros Heq. apply Hdec in Heq. split; [unfold x, new_entry; cbn [e_chain]; now rewrite Heq, Nat.eqb_refl|].
        rewrite (k_chains _ _ _ _ K'), (k_chains _ _ _ _ K). unfold x. rewrite (chain_list_continue H cp H32 es raw j p w HF HE Heq).
        f_equal. f_equal. rewrite HWt. rewrite Heq in HNt. replace et with p by congruence. reflexivity.
      + intros Hne. assert (Hnt : tip es (e_chain p) <> j) by (intros HX; apply Hne, Hdec, HX).
        split; [unfold x, new_entry; cbn [e_chain]; destruct (Nat.eqb_spec (tip es (e_chain p)) j); [contradiction|];
          rewrite (k_chains _ _ _ _ K); symmetry; apply chain_list_length|].
        exists (e_work p). split.
        * rewrite (k_state _ _ _ _ K). eapply chainwork_to; eauto; [exact (k_80 _ _ _ _ K)|exact (k_view _ _ _ _ K)].
        * rewrite (k_chains _ _ _ _ K'), (k_chains _ _ _ _ K). unfold x. rewrite (chain_list_branch H cp H32 es raw j p w HF HE Hnt). now rewrite Hh.
      + destruct Hbs as (bs0 & HR0 & ->). pose proof (g_rep _ _ _ _ _ _ _ _ G') as HR'. rewrite app_length in HR'. cbn [length] in HR'.
        assert (HI0 : 0 <= idx cp (length es)) by (unfold idx; lia).
        split; [|split].
        * rewrite (rep_len _ _ _ HR'). f_equal. unfold idx. lia.
        * apply (k_view _ _ _ _ K' _ _ HNx).
        * intros i Hi Hne. rewrite (rep_get _ _ _ _ HR'), (rep_get _ _ _ _ HR0) by auto. rewrite block_get_update by auto.
          destruct (Z.eqb_spec i (idx cp (length es))); [contradiction|reflexivity].
  Qed.

  (** C34: each accepted header passed the checks in the state it was connected to. *)
  Theorem checked_when_connected log s : reach log s -> forall l1 raw l2, log = l1 ++ raw :: l2 -> l1 <> [] ->
    exists s0 phd pc t, reach l1 s0 /\ lookup H cp s0 (prev_of raw) = Ok (phd, pc) /\
      required (raw_at s0 pc) (h_height phd + 1) (time_of raw) = Ok (bits_of raw) /\
      compact (bits_of raw) t /\ val_le (H raw) <= t.
  Proof.
    induction 1 as [path path' s HP HE|log s raw0 s' r HR IH HU Hch Hlen HE HI|log s raw0 s' r HR IH HU Hch Hlen HE HI
      |log s raw0 s' e HR IH HU Hch Hlen HE|log s h raw0 HR IH Hs Hh|log s path' s' HR IH HE]; intros l1 raw l2 EL Hne; eauto.
    - exfalso. destruct l1 as [|x l1]; [contradiction|]. injection EL as _ EL. destruct l1; discriminate.
    - destruct (exists_last (l := raw :: l2) ltac:(discriminate)) as (m & z & Em).
      rewrite Em, app_assoc in EL. apply app_inj_tail in EL as [EL <-]. destruct m as [|y m].
      + cbn in Em. injection Em as <- ->. rewrite app_nil_r in EL. subst l1.
        destruct (reach_good _ _ _ _ _ _ A _ _ HR) as (es & bs & G). pose proof (good_known _ _ _ _ G) as K.
        pose proof (connect_outcome H required max_cache cp U sets A log es bs s raw G HU Hch Hlen) as HO. rewrite HE in HO.
        inversion HO as [HLn|_ Hn|i e _ HNi HEi Hn EQ|j' p' e _ HN' Hp' _ HRq|j' p' rb _ HN' Hp' _ HRq Hb|j' p' _ HN' Hp' _ HRq Hb|j' p' t _ HN' Hp' _ HRq Hb Ht
          |j' p' t w s'' bs' _ HN' Hp' _ HRq Hb Ht HX G' Hbs EQ].
        * exfalso. apply HI. apply (known_In _ _ _ _ _ K). eauto.
        * exists s, (hdr (e_raw p') (e_height p')), (e_chain p'), t. split; [exact HR|]. split; [rewrite <- Hp'; eapply known_lookup; eauto|].
          destruct (hdr_spec H (e_raw p') (e_height p') (known_hdr _ _ _ _ _ _ K HN')) as (_ & _ & _ & -> & _). auto.
      + injection Em as <- Em. apply (IH l1 raw m); auto.
  Qed.

  (** Two states agree along the ancestors of an entry that both have. *)
  Lemma same_below log s es cache log' s' ext cache' k ek c c' : known log s es cache -> known log' s' (es ++ ext) cache' ->
    (forall i, 0 <= i < cp_height cp -> storage_get (hs_st s') i = storage_get (hs_st s) i) ->
    nth_error es k = Some ek -> (c < nchains es)%nat -> ancestor es k (tip es c) ->
    (c' < nchains (es ++ ext))%nat -> ancestor (es ++ ext) k (tip (es ++ ext) c') ->
    forall h, h <= e_height ek -> raw_at s' c' h = raw_at s c h.
  Proof.
    intros K K' HS HN Hc HA Hc' HA' h Hh. destruct (Z.lt_ge_cases h (cp_height cp)) as [Hlo|Hhi].
    - rewrite (k_state _ _ _ _ K), (k_state _ _ _ _ K'). rewrite !raw_at_below by (eauto using k_forest).
      destruct (Z.leb_spec 0 h); [apply HS; lia|reflexivity].
    - destruct (ancestor_at _ _ _ _ es k ek h (k_forest _ _ _ _ K) HN ltac:(lia)) as (m & em & HAm & HNm & HHm). rewrite <- HHm.
      rewrite (known_raw_anc _ _ _ _ c m em K Hc (ancestor_trans _ _ _ _ HAm HA) HNm).
      apply (known_raw_anc _ _ _ _ c' m em K' Hc'); [|now apply nth_error_app_l].
      eapply ancestor_trans; [|exact HA']. clear - HAm. induction HAm as [i e HN|a b i e HA IH HN HE].
      + econstructor. now apply nth_error_app_l; eauto.
      + eapply ancestor_up; [exact IH|now apply nth_error_app_l; eauto|exact HE].
  Qed.

  Hypothesis required_local : forall f g h t, (forall i, i < h -> f i = g i) -> required f h t = required g h t.
  Hypothesis sets_early : forall log, sets log -> log = [cp_raw cp].

  Definition checked (s : headers) (es : list entry) : Prop :=
    forall k ek j, nth_error es k = Some ek -> e_parent ek = Some j ->
      required (raw_at s (e_chain ek)) (e_height ek) (time_of (e_raw ek)) = Ok (bits_of (e_raw ek)) /\
      exists t, compact (bits_of (e_raw ek)) t /\ val_le (H (e_raw ek)) <= t.
  Lemma checked_root w s : checked s [root cp w].
  Proof. intros k ek j HN HP. destruct k as [|[|k]]; try discriminate. injection HN as <-. discriminate. Qed.
  Lemma known_unique log s es cache s' es' cache' : known log s es cache -> known log s' es' cache' -> es = es'.
  Proof.
    intros K K'. eapply forest_unique; [exact (k_forest _ _ _ _ K)|exact (k_forest _ _ _ _ K')|].
    now rewrite (k_log _ _ _ _ K), (k_log _ _ _ _ K').
  Qed.

  Lemma reach_checked log s : reach log s -> forall es cache, known log s es cache -> checked s es.
  Proof.
    induction 1 as [path path' s HP HE|log s raw0 s' r HR IH HU Hch Hlen HE HI|log s raw0 s' r HR IH HU Hch Hlen HE HI
      |log s raw0 s' e HR IH HU Hch Hlen HE|log s h raw0 HR IH Hs Hh|log s path' s' HR IH HE]; intros es cache K.
    - destruct (from_file_new H required max_cache cp U sets A path HP) as (w & s0 & HW & HE0 & G).
      rewrite <- (known_unique _ _ _ _ _ _ _ (good_known _ _ _ _ G) K). apply checked_root.
    - destruct (reach_good _ _ _ _ _ _ A _ _ HR) as (es0 & bs & G). pose proof (good_known _ _ _ _ G) as K0.
      specialize (IH _ _ K0).
      pose proof (connect_outcome H required max_cache cp U sets A log es0 bs s raw0 G HU Hch Hlen) as HO. rewrite HE in HO.
      inversion HO as [HLn|_ Hn|i e _ HNi HEi Hn EQ|j' p' e _ HN' Hp' _ HRq|j' p' rb _ HN' Hp' _ HRq Hb|j' p' _ HN' Hp' _ HRq Hb|j' p' t _ HN' Hp' _ HRq Hb Ht
          |j p t w s'' bs' HL80 HNj Hp _ HRq Hb Ht HX G' Hbs EQ].
      1:{ exfalso. apply HI. apply (known_In _ _ _ _ _ K0). eauto. }
      clear EQ HO. pose proof (good_known _ _ _ _ G') as K1.
      rewrite <- (known_unique _ _ _ _ _ _ _ K1 K). set (x := new_entry es0 raw0 j p w) in *.
      assert (HSt : forall i, 0 <= i < cp_height cp -> storage_get (hs_st s') i = storage_get (hs_st s) i).
      { intros i Hi. destruct Hbs as (bs0 & HR0 & ->). rewrite (rep_get _ _ _ _ (g_rep _ _ _ _ _ _ _ _ G')), (rep_get _ _ _ _ HR0) by lia.
        rewrite block_get_update by (unfold idx; lia). destruct (Z.eqb_spec i (idx cp (length es0))) as [Hx|]; [unfold idx in Hx; lia|reflexivity]. }
      assert (Hown : forall es1 log1 s1 ca1 i e, known log1 s1 es1 ca1 -> nth_error es1 i = Some e -> (e_chain e < nchains es1)%nat /\ ancestor es1 i (tip es1 (e_chain e))).
      { intros es1 log1 s1 ca1 i e K2 HN. pose proof (chain_lt H cp es1 i e (k_forest _ _ _ _ K2) HN) as Hc. split; [exact Hc|].
        destruct (tip_spec H cp es1 _ (k_forest _ _ _ _ K2) Hc) as (et & _ & _ & _ & Hall). eauto. }
      intros k ek j0 HNk HPk. apply nth_error_snoc in HNk as [[HNk Hk]|[-> ->]].
      + destruct (IH k ek j0 HNk HPk) as [HRk HT]. split; [|exact HT]. rewrite <- HRk. apply required_local. intros i Hi.
        destruct (Hown _ _ _ _ k ek K0 HNk) as [Hc0 HA0].
        destruct (Hown _ _ _ _ k ek K1 (nth_error_app_l _ _ _ _ HNk)) as [Hc1 HA1].
        eapply (same_below _ _ _ _ _ _ [x] _ k ek _ _ K0 K1); eauto. lia.
      + split; [|eauto]. unfold x at 2 3 4. unfold new_entry. cbn [e_height e_raw]. rewrite <- HRq. apply required_local. intros i Hi.
        destruct (Hown _ _ _ _ j p K0 HNj) as [Hc0 HA0].
        destruct (Hown _ _ _ _ (length es0) x K1 (nth_error_last _ _)) as [Hc1 HA1].
        eapply (same_below _ _ _ _ _ _ [x] _ j p _ _ K0 K1); eauto; [|lia].
        eapply ancestor_trans; [|exact HA1]. eapply (ancestor_up _ j j (length es0) x); [|apply nth_error_last|reflexivity].
        apply (ancestor_self _ j p). now apply nth_error_app_l.
    - assert (s' = s) as ->; [|eauto].
      destruct (reach_good _ _ _ _ _ _ A _ _ HR) as (es0 & bs & G). pose proof (good_known _ _ _ _ G) as K0.
      pose proof (connect_outcome H required max_cache cp U sets A log es0 bs s raw0 G HU Hch Hlen) as HO. rewrite HE in HO.
      inversion HO; try reflexivity. contradiction.
    - assert (s' = s) as ->; [|eauto]. eapply connect_raises; eauto. split; auto.
    - pose proof (sets_early _ Hs) as ->. destruct (root_work H cp U A) as (w & HW).
      assert (es = [root cp w]) as ->; [|apply checked_root].
      eapply forest_unique; [exact (k_forest _ _ _ _ K)|constructor; exact HW|]. rewrite (k_log _ _ _ _ K). reflexivity.
    - destruct (reach_good _ _ _ _ _ _ A _ _ HR) as (es0 & bs & G).
      rewrite (good_reload H required max_cache cp U sets A _ _ _ _ G) in HE. injection HE as _ <-. eauto.
  Qed.

  Theorem all_checked log s c ch h raw : reach log s -> nth_error (m_chains (hs_mem s)) c = Some ch ->
    cp_height cp < h <= ch_height ch -> raw_at s c h = Ok raw ->
    required (raw_at s c) h (time_of raw) = Ok (bits_of raw) /\
    exists t, compact (bits_of raw) t /\ val_le (H raw) <= t.
  Proof.
    intros HR HN Hh HRaw. destruct (reach_known log s HR) as (es & cache & K). pose proof (reach_checked log s HR es cache K) as HCk.
    pose proof (k_forest _ _ _ _ K) as HF. destruct (known_chain _ _ _ _ _ _ K HN) as (Hc & ->).
    destruct (chain_of_spec H cp es c HF Hc) as (et & HNt & _ & _ & HE). rewrite HE in *.
    destruct (known_raw_on _ _ _ _ c et h K Hc HNt ltac:(lia)) as (k & ek & HRk & HAk & HNk & HHk).
    assert (raw = e_raw ek) as -> by congruence.
    destruct (e_parent ek) as [j|] eqn:EP.
    - destruct (HCk k ek j HNk EP) as [HRq HT]. split; [|exact HT]. rewrite <- HRq, HHk. apply required_local. intros i Hi.
      assert (K2 : known log s (es ++ []) cache) by (rewrite app_nil_r; exact K).
      pose proof (chain_lt H cp es k ek HF HNk) as Hck. destruct (tip_spec H cp es _ HF Hck) as (ec & _ & _ & _ & Hall).
      eapply (same_below _ _ _ _ _ _ [] _ k ek _ _ K K2); eauto; rewrite ?app_nil_r; auto. lia.
    - exfalso. pose proof (forest_root_only _ _ _ _ es k ek HF HNk EP) as ->.
      destruct (forest_nonempty _ _ _ _ es HF) as (w & _ & HN0). rewrite HN0 in HNk. apply Some_inj in HNk. subst ek. cbn in HHk. lia.
  Qed.
End Thms.

