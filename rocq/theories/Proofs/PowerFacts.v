(** Headers files after a power failure. *)
From Verif.Model Require Import Py Packing Bits Coin Work Storage Chain.
From Verif.Spec Require Import Numbers WorkSpec ChainSpec HeadersHistory PowerSpec.
From Verif.Proofs Require Import PyFacts PackingFacts NumbersFacts WorkFacts RequiredBitsFacts StorageFacts StorageHistory ForestFacts ChainFacts HeadersFacts ForkFacts ChainTheorems ChainTheorems2.

(** [f] has the bytes of [g] between the count and offset [m]. *)
Definition agree (m : Z) (g f : bytes) : Prop := m <= zlen f /\ forall i, 8 <= i < m -> znth f i = znth g i.
(** Effects that leave them alone. *)
Definition safe (m : Z) (e : effect) : Prop :=
  match e with
  | Truncate size => m <= size
  | Write off data => (0 <= off /\ off + zlen data <= 8) \/ m <= off
  end.
Lemma agree_trans m g h f : agree m g h -> agree m h f -> agree m g f.
Proof. intros [_ H1] [H2 H3]. split; [exact H2|]. intros i Hi. rewrite H3 by exact Hi. auto. Qed.
Lemma safe_agree m f e : 8 <= m -> m <= zlen f -> safe m e -> agree m f (apply_effect f e).
Proof.
  intros Hm Hl HS. destruct e as [size|off data]; cbn [apply_effect safe] in *.
  - split.
    + rewrite zlen_app, zlen_ztake. unfold zrepeat, zlen at 2. rewrite repeat_length. lia.
    + intros i Hi. rewrite znth_app_l by (rewrite zlen_ztake; lia). apply znth_ztake. lia.
  - pose proof (zlen_nonneg data). destruct HS as [[H0 H8]|Hoff].
    + unfold zrepeat. replace (Z.to_nat (off - zlen f)) with O by lia. cbn [repeat app]. split.
      * rewrite !zlen_app, zlen_ztake, zlen_zdrop. lia.
      * intros i Hi. rewrite app_assoc, znth_app_r by (rewrite zlen_app, zlen_ztake; lia).
        rewrite zlen_app, zlen_ztake, znth_zdrop by lia. f_equal. lia.
    + split.
      * rewrite !zlen_app, zlen_ztake, zlen_zdrop. unfold zrepeat, zlen at 2. rewrite repeat_length. lia.
      * intros i Hi. rewrite znth_app_l by (rewrite zlen_ztake; lia). apply znth_ztake. lia.
Qed.
Lemma safe_agrees m es : forall f, 8 <= m -> m <= zlen f -> Forall (safe m) es -> agree m f (apply_effects f es).
Proof.
  unfold apply_effects. induction es as [|e es IH]; intros f Hm Hl HS; cbn [fold_left].
  - split; [exact Hl|reflexivity].
  - inversion_clear HS as [|? ? He Hes]. pose proof (safe_agree m f e Hm Hl He) as HA.
    eapply agree_trans; [exact HA|]. apply IH; auto. exact (proj1 HA).
Qed.
Lemma Forall_firstn {A} (P : A -> Prop) k : forall l, Forall P l -> Forall P (firstn k l).
Proof. induction k as [|k IH]; intros l HF; [constructor|]. destruct HF; cbn [firstn]; constructor; auto. Qed.

(** Appending leaves the headers before it alone at every moment. *)
Lemma append_agree st bs n raw k m : rep st bs n -> zlen raw = 80 -> n + 1 < 2 ^ 32 -> 8 <= m <= 8 + 80 * n ->
  agree m (st_file st) (apply_effects (st_file st) (firstn k (append_effects st raw))).
Proof.
  intros HR Hl Hn Hm. destruct (rep_append st bs n raw HR Hl Hn) as (_ & _ & _ & ->).
  pose proof HR as (_ & Hf & HB & Hn0 & _). apply safe_agrees; [lia|rewrite Hf, zlen_app, zlen_file8, zlen_concat80 by auto; lia|].
  apply Forall_firstn. unfold set_effects. rewrite !Forall_app. split; [|split].
  - destruct (zlen bs <=? n); constructor; [|constructor]. cbn [safe]. lia.
  - destruct (n <=? n); constructor; [|constructor]. cbn [safe]. rewrite zlen_le_digits. lia.
  - constructor; [|constructor]. cbn [safe]. right. lia.
Qed.

(** Reading below [m] *)
Lemma agree_get f g i n : agree (8 + 80 * n) g f -> 8 + 80 * n <= zlen g -> 0 <= i < n ->
  storage_get (mk_storage f 8) i = storage_get (mk_storage g 8) i.
Proof.
  intros [HL HA] HG Hi. unfold storage_get. destruct (Z.ltb_spec i 0); [lia|]. unfold storage_header, offset. cbn [st_file st_reserved].
  rewrite !pyslice_nonneg by lia.
  replace (ztake (8 + i * 80 + 80 - (8 + i * 80)) (zdrop (8 + i * 80) f)) with (ztake (8 + i * 80 + 80 - (8 + i * 80)) (zdrop (8 + i * 80) g)); [reflexivity|].
  replace (8 + i * 80 + 80 - (8 + i * 80)) with 80 by lia. apply znth_ext. intros j Hj. destruct (Z.lt_ge_cases j 80) as [Hlt|Hge].
  - rewrite !znth_ztake by lia. rewrite !znth_zdrop by lia. symmetry. apply HA. lia.
  - transitivity (@None Z); [|symmetry]; apply znth_None; right; rewrite zlen_ztake; lia.
Qed.

Lemma head8 (f g : bytes) : firstn 8 f = firstn 8 g -> forall a b, 0 <= a -> b <= 8 -> a <= b -> pyslice f a b = pyslice g a b.
Proof.
  intros HE a b Ha Hb Hab. rewrite !pyslice_nonneg by lia. change 8%nat with (Z.to_nat 8) in HE. rewrite <- !ztake_firstn in HE.
  apply znth_ext. intros j Hj. destruct (Z.lt_ge_cases j (b - a)) as [Hlt|Hge].
  - rewrite !znth_ztake, !znth_zdrop by lia. rewrite <- (znth_ztake f 8), HE, znth_ztake by lia. reflexivity.
  - transitivity (@None Z); [|symmetry]; apply znth_None; right; rewrite zlen_ztake; lia.
Qed.

(** Each byte of the file left is a byte of some version. *)
Lemma power_agree page vs f m g : 0 < page -> power_failure page vs f -> (forall v, In v vs -> agree m g v) -> agree m g f.
Proof.
  intros Hp [(v & Hv & Hl) Hpg] HA. split; [rewrite Hl; exact (proj1 (HA v Hv))|].
  intros i Hi. pose proof (Z.div_mod i page ltac:(lia)) as HD. pose proof (Z.mod_pos_bound i page Hp) as HM.
  pose proof (Z.div_pos i page ltac:(lia) Hp) as H0.
  assert (Hlt : i < zlen f) by (rewrite Hl; pose proof (proj1 (HA v Hv)); lia).
  assert (Hpage : i / page * page <= i < (i / page + 1) * page) by nia.
  destruct (Hpg (i / page) H0) as (u & Hu & HE).
  rewrite (HE i Hpage Hlt). apply (proj2 (HA u Hu)). exact Hi.
Qed.

Section Power.
  Variable H : bytes -> bytes.
  Variable required : (Z -> result bytes) -> Z -> Z -> result Z.
  Variable max_cache : Z.
  Variable cp : checkpoint.
  Variable U : bytes -> Prop.
  Variable sets : list bytes -> Prop.
  Hypothesis A : assumptions H cp U.
  Notation reach := (reach H required max_cache cp U sets).
  Notation good := (good H max_cache cp U).
  Notation connect := (connect H required max_cache cp).
  Notation session := (session H required max_cache cp U).
  Notation from_file := (from_file H max_cache cp).
  Notation idx := (idx cp).

  Lemma session_reach log s vs log' s' : reach log s -> session log s vs log' s' -> reach log' s' /\ zlen log <= zlen log'.
  Proof.
    intros HR. induction 1 as [|vs log1 s1 raw s2 r HS (IH & HL) HU [Hc Hi] HN HE|vs log1 s1 raw s2 r HS (IH & HL) HU [Hc Hi] HN HE|vs log1 s1 raw s2 e HS (IH & HL) HU [Hc Hi] HE].
    - split; [exact HR|lia].
    - split; [eapply HeadersHistory.reach_accept; eauto|]. rewrite zlen_app. change (zlen [raw]) with 1. lia.
    - split; [eapply HeadersHistory.reach_known; eauto|exact HL].
    - split; [eapply HeadersHistory.reach_reject; eauto|exact HL].
  Qed.

  Lemma accepted_80 s raw s' r : connect s raw = (s', Ok r) -> zlen raw = 80.
  Proof.
    intros HE. destruct (Z.eq_dec (zlen raw) 80) as [HL|HL]; [exact HL|exfalso].
    unfold Chain.connect, connect_check, deserialized_header, unpack_header in HE.
    destruct (Z.eqb_spec (zlen raw) 80); [contradiction|]. discriminate HE.
  Qed.
  Lemma good_len log es bs s : good log es bs s -> zlen log = Z.of_nat (length es).
  Proof. intros G. rewrite <- (g_log _ _ _ _ _ _ _ _ G). unfold zlen. now rewrite map_length. Qed.

  Lemma good_rep log es bs bs0 s : good log es bs s -> rep (hs_st s) bs0 (idx (length es)) -> good log es bs0 s.
  Proof.
    intros G HR. pose proof (as_height _ _ _ A) as Hcp. pose proof (g_rep _ _ _ _ _ _ _ _ G) as HR0.
    assert (HB : forall i, 0 <= i -> block_get bs0 i = block_get bs i).
    { intros i Hi. now rewrite <- (rep_get _ _ _ _ HR Hi), (rep_get _ _ _ _ HR0 Hi). }
    destruct G as [G1 G2 G3 G4 G5 G6 G7]. split; auto.
    - intros i e HN. rewrite HB by (unfold ChainFacts.idx; lia). auto.
    - intros i Hi. rewrite HB by (unfold ChainFacts.idx in Hi; lia). auto.
  Qed.

  (** What an accepted header does to the file. *)
  Lemma accept_file log s raw s' r : reach log s -> U raw -> room cp log s -> ~ In raw log -> connect s raw = (s', Ok r) ->
    exists es bs j p w, good log es bs s /\ zlen raw = 80 /\ nth_error es j = Some p /\ H (e_raw p) = prev_of raw /\ raw_work raw w /\
      let n := cp_height cp + zlen log in
      idx (length es) = n /\ n + 1 < 2 ^ 32 /\
      st_file (hs_st s') = crashed s raw (length (append_effects (hs_st s) raw)) /\
      st_file (hs_st s') = file8 (n + 1) ++ concat (zupdate (grown bs n) n raw) /\
      crashed s raw (pred (length (append_effects (hs_st s) raw))) = file8 (n + 1) ++ concat (grown bs n) /\
      block_get bs n = Err MissingHeader.
  Proof.
    intros HR HU [Hch Hlen] HN HE. destruct (reach_good _ _ _ _ _ _ A _ _ HR) as (es & bs & G).
    pose proof (connect_outcome H required max_cache cp U sets A log es bs s raw G HU Hch Hlen) as HO. rewrite HE in HO.
    pose proof (good_len _ _ _ _ G) as HLe.
    inversion HO as [|?|i e HL HNi HEi Hne EQ| | | | |j p t w s2 bs' HL HNj Hp _ HRq Hb Ht HX G' (bs0 & HR0 & Hbs) EQ].
    { exfalso. apply HN. rewrite <- (g_log _ _ _ _ _ _ _ _ G). apply in_map_iff. exists e. split; [exact HEi|]. eapply nth_error_In; eauto. }
    subst s2. pose proof (good_rep _ _ _ bs0 _ G HR0) as G0. pose proof HX as (_ & _ & _ & HW).
    assert (Hidx : idx (length es) = cp_height cp + zlen log) by (unfold ChainFacts.idx; lia).
    exists es, bs0, j, p, w. split; [exact G0|]. split; [exact HL|]. split; [exact HNj|]. split; [exact Hp|]. split; [exact HW|].
    cbv zeta. split; [exact Hidx|]. split; [lia|]. rewrite <- Hidx in *. set (n := idx (length es)) in *.
    pose proof (g_rep _ _ _ _ _ _ _ _ G') as HR'. rewrite app_length in HR'. cbn [length] in HR'.
    replace (idx (length es + 1)) with (n + 1) in HR' by (unfold n, ChainFacts.idx; lia).
    rewrite Hbs in HR'. destruct HR' as (_ & HF' & _).
    destruct (rep_append (hs_st s) bs0 n raw HR0 HL ltac:(lia)) as (sa & HA & HRA & HEf). pose proof HRA as (_ & HFA & _).
    split; [|split; [exact HF'|split]].
    - rewrite HF', <- HFA. unfold crashed. rewrite firstn_all. unfold storage_append in HA. unfold append_effects.
      destruct (storage_len (hs_st s)); [|discriminate HA]. destruct (set_raw_header (hs_st s) a raw) as [ef rr]. cbn [fst].
      injection HA as HA _. rewrite <- HA. reflexivity.
    - unfold crashed. rewrite HEf. pose proof HR0 as (_ & Hf & HB & Hn0 & _). rewrite Hf.
      unfold set_effects. rewrite Z.leb_refl. unfold grown. destruct (Z.leb_spec (zlen bs0) n) as [Hle|Hle].
      + cbn [app length pred firstn apply_effects fold_left]. rewrite truncate_grow by (auto; lia). now rewrite write_count.
      + cbn [app length pred firstn apply_effects fold_left]. now rewrite write_count.
    - apply (g_above _ _ _ _ _ _ _ _ G0). fold n. lia.
  Qed.

  Lemma session_agree log s vs log' s' : reach log s -> session log s vs log' s' ->
    (forall v, In v vs -> agree (8 + 80 * (cp_height cp + zlen log)) (st_file (hs_st s)) v) /\
    agree (8 + 80 * (cp_height cp + zlen log)) (st_file (hs_st s)) (st_file (hs_st s')).
  Proof.
    intros HR HS. pose proof (as_height _ _ _ A) as Hcp. pose proof (zlen_nonneg log) as Hlog.
    induction HS as [|vs log1 s1 raw s2 r HS (IHv & IHs) HU HRm HN HE|vs log1 s1 raw s2 r HS (IHv & IHs) HU HRm HN HE|vs log1 s1 raw s2 e HS (IHv & IHs) HU HRm HE].
    - assert (HA : agree (8 + 80 * (cp_height cp + zlen log)) (st_file (hs_st s)) (st_file (hs_st s))).
      { split; [|reflexivity]. destruct (reach_good _ _ _ _ _ _ A _ _ HR) as (es & bs & G).
        pose proof (g_rep _ _ _ _ _ _ _ _ G) as (_ & Hf & HB & Hn & _). rewrite Hf, zlen_app, zlen_file8, zlen_concat80 by auto.
        rewrite (good_len _ _ _ _ G). unfold ChainFacts.idx in Hn. lia. }
      split; [|exact HA]. intros v [<-|[]]. exact HA.
    - destruct (session_reach _ _ _ _ _ HR HS) as [HR1 HL1].
      destruct (accept_file _ _ _ _ _ HR1 HU HRm HN HE) as (es & bs & j & p & w & G & HL & _ & _ & _ & Hi & Hn & HF & _).
      assert (HX : forall k, agree (8 + 80 * (cp_height cp + zlen log)) (st_file (hs_st s)) (crashed s1 raw k)).
      { intros k. eapply agree_trans; [exact IHs|]. unfold crashed.
        apply (append_agree _ bs (idx (length es))); [exact (g_rep _ _ _ _ _ _ _ _ G)|exact HL| |]; lia. }
      split.
      + intros v HI. apply in_app_iff in HI as [HI|HI]; [auto|]. unfold append_versions in HI. apply in_map_iff in HI as (k & <- & _). apply HX.
      + rewrite HF. apply HX.
    - destruct (session_reach _ _ _ _ _ HR HS) as [HR1 _]. destruct HRm as [Hc Hi].
      destruct (reach_good _ _ _ _ _ _ A _ _ HR1) as (es & bs & G).
      pose proof (connect_outcome H required max_cache cp U sets A log1 es bs s1 raw G HU Hc Hi) as HO. rewrite HE in HO.
      inversion HO; subst; [auto|contradiction].
    - destruct (session_reach _ _ _ _ _ HR HS) as [HR1 _]. destruct HRm as [Hc Hi].
      destruct (reach_good _ _ _ _ _ _ A _ _ HR1) as (es & bs & G).
      pose proof (connect_outcome H required max_cache cp U sets A log1 es bs s1 raw G HU Hc Hi) as HO. rewrite HE in HO.
      inversion HO; subst; auto.
  Qed.

  (** The headers that were flushed are there. *)
  Theorem power_keeps page log s vs log' s' f : 0 < page -> reach log s -> session log s vs log' s' -> power_failure page vs f ->
    forall i, 0 <= i < cp_height cp + zlen log -> storage_get (mk_storage f 8) i = storage_get (hs_st s) i.
  Proof.
    intros Hp HR HS HP i Hi. destruct (session_agree _ _ _ _ _ HR HS) as [HA _].
    pose proof (power_agree page vs f _ _ Hp HP HA) as HF. destruct (reach_good _ _ _ _ _ _ A _ _ HR) as (es & bs & G).
    pose proof (g_rep _ _ _ _ _ _ _ _ G) as (Hr & Hf & HB & Hn & _). pose proof (good_len _ _ _ _ G) as HLe.
    destruct (hs_st s) as [g r]. cbn [st_reserved st_file] in *. subst r.
    apply (agree_get f g i (cp_height cp + zlen log)); [exact HF| |exact Hi]. rewrite Hf, zlen_app, zlen_file8, zlen_concat80 by auto. unfold ChainFacts.idx in Hn. lia.
  Qed.

  (** With the count as flushed, everything flushed is recovered. *)
  Theorem power_recovers page log s vs log' s' f : 0 < page -> reach log s -> session log s vs log' s' -> power_failure page vs f ->
    firstn 8 f = firstn 8 (st_file (hs_st s)) ->
    exists s1, from_file (Some f) = (Some f, Ok s1) /\ hs_mem s1 = hs_mem s /\ storage_len (hs_st s1) = storage_len (hs_st s) /\
      forall i, 0 <= i < cp_height cp + zlen log -> storage_get (hs_st s1) i = storage_get (hs_st s) i.
  Proof.
    intros Hp HR HS HP H8. pose proof (power_keeps page log s vs log' s' f Hp HR HS HP) as HK.
    destruct (session_agree _ _ _ _ _ HR HS) as [HA _]. pose proof (power_agree page vs f _ _ Hp HP HA) as [HFl _].
    destruct (reach_good _ _ _ _ _ _ A _ _ HR) as (es & bs & G). pose proof (good_len _ _ _ _ G) as HLe.
    pose proof (as_height _ _ _ A) as Hcp. pose proof (zlen_nonneg log) as Hlog.
    pose proof (g_rep _ _ _ _ _ _ _ _ G) as HRep. pose proof HRep as (Hr & Hf & HB & Hn & Hn2).
    set (st1 := mk_storage f 8) in *. set (s1 := mk_headers st1 (hs_mem s)).
    assert (HLen : storage_len st1 = Ok (idx (length es))).
    { rewrite <- (rep_len _ _ _ HRep). unfold storage_len, st1. cbn [st_file]. f_equal. apply head8; [exact H8|lia|lia|lia]. }
    destruct (good_nonempty H max_cache cp U A _ _ _ _ G) as (e0 & HN0 & HE0).
    assert (Hlen1 : (1 <= length es)%nat) by (apply nth_error_lt in HN0; lia).
    assert (HV : view cp st1 es).
    { intros i e HN. pose proof (nth_error_lt _ _ _ HN). rewrite HK by (unfold ChainFacts.idx; lia).
      exact (good_view H required max_cache cp U sets A _ _ _ _ G i e HN). }
    assert (HO : open_file (Some f) cp = Ok st1).
    { pose proof (rep_open _ _ _ cp HRep (cp_good H required max_cache cp U A)) as HX.
      unfold open_file in *. destruct f as [|b f']; [exfalso; change (zlen []) with 0 in HFl; lia|].
      set (ff := b :: f') in *. destruct (Z.leb_spec 8 (zlen ff)); [|lia].
      rewrite !(head8 _ _ H8) by lia. rewrite Hf. rewrite !pyslice_nonneg by lia.
      change (ztake (2 - 0) (zdrop 0 (file8 (idx (length es)) ++ concat bs))) with (8 :: [0] ++ ztake 0 ([0; 0] ++ le_digits 4 (idx (length es)) ++ concat bs)).
      change (ztake (4 - 2) (zdrop 2 (file8 (idx (length es)) ++ concat bs))) with (0 :: [0] ++ ztake 0 (le_digits 4 (idx (length es)) ++ concat bs)).
      rewrite !ztake_0 by lia. change (unpack_le_uint16 (8 :: [0] ++ [])) with (Ok 8). change (unpack_le_uint16 (0 :: [0] ++ [])) with (Ok 0).
      cbn [bind Z.eqb]. fold st1. pose proof (HV 0%nat e0 HN0) as HV0. unfold ChainFacts.idx in HV0. rewrite Z.add_0_r in HV0.
      rewrite HV0. cbn [bind]. now rewrite HE0, bytes_eqb_refl. }
    exists s1. split; [|split; [reflexivity|split; [cbn [s1 hs_st]; now rewrite HLen, (rep_len _ _ _ HRep)|exact HK]]].
    unfold Chain.from_file. pose proof (open_or_create_cases cp (Some f) (cp_good H required max_cache cp U A)) as HC. rewrite HO in HC. rewrite HC. cbn [bind].
    f_equal. unfold make_headers. destruct (root_work H cp U A) as (w & HW). rewrite (init_mem_Ok H required max_cache cp U A w HW). cbn [bind].
    rewrite HLen. cbn [bind]. rewrite (reload H required max_cache cp U A es _ (g_built _ _ _ _ _ _ _ _ G) st1 w HV HW). cbn [bind].
    unfold s1. now rewrite <- (g_mem _ _ _ _ _ _ _ _ G).
  Qed.

  (** A moment since the flush is a possible outcome. *)
  Lemma power_moment page vs v : In v vs -> power_failure page vs v.
  Proof. intros HI. split; [eauto|]. intros k _. exists v. auto. Qed.

  Theorem power_breaks page log s raw s' r : reach log s -> U raw -> room cp log s -> ~ In raw log -> connect s raw = (s', Ok r) ->
    exists vs f, session log s vs (log ++ [raw]) s' /\ power_failure page vs f /\ from_file (Some f) = (Some f, Err MissingHeader).
  Proof.
    intros HR HU HRm HN HE. destruct (connect_crash_bad H required max_cache cp U sets A log s raw HR HRm (accepted_80 _ _ _ _ HE)) as (k & Hk & HF).
    exists ([st_file (hs_st s)] ++ append_versions s raw), (crashed s raw k). split; [eapply session_new; eauto; constructor|]. split; [|exact HF].
    apply power_moment. apply in_app_iff. right. apply in_map_iff. exists k. split; [reflexivity|]. apply in_seq. lia.
  Qed.
End Power.

(** Torn headers *)
Lemma torn_80 d raw : zlen raw = 80 -> 0 <= d <= 80 -> zlen (torn d raw) = 80.
Proof.
  intros HL Hd. unfold torn. unfold zlen in *. rewrite app_length, firstn_length, repeat_length. lia.
Qed.
Lemma torn_prev d raw : zlen raw = 80 -> 36 <= d <= 80 -> prev_of (torn d raw) = prev_of raw.
Proof.
  intros HL Hd. unfold prev_of, torn. rewrite skipn_app, firstn_app. unfold zlen in HL.
  assert (HX : length (skipn 4 (firstn (Z.to_nat d) raw)) = (Z.to_nat d - 4)%nat) by (rewrite skipn_length, firstn_length; lia).
  rewrite HX. replace (32 - (Z.to_nat d - 4))%nat with O by lia. rewrite firstn_O, app_nil_r.
  rewrite skipn_firstn_comm, firstn_firstn. f_equal. lia.
Qed.
Lemma torn_bits d raw : zlen raw = 80 -> 0 <= d <= 72 -> bits_of (torn d raw) = 0.
Proof.
  intros HL Hd. unfold bits_of, torn. unfold zlen in HL. rewrite skipn_app.
  rewrite (skipn_all2 (n := 72) (firstn _ raw)) by (rewrite firstn_length; lia). cbn [app].
  rewrite firstn_length. replace (80 - Z.to_nat d)%nat with ((72 - Nat.min (Z.to_nat d) (length raw)) + 8)%nat by lia.
  rewrite repeat_app, skipn_app, skipn_all2 by (rewrite repeat_length; lia). rewrite repeat_length, Nat.sub_diag. reflexivity.
Qed.
Lemma raw_work_zero raw : bits_of raw = 0 -> raw_work raw (2 ^ 256).
Proof. intros HB. exists 0. split; [left; auto|]. unfold work_of_target. lia. Qed.
Lemma zero_block bs n : 0 <= n -> blocks80 bs -> block_get bs n = Err MissingHeader -> znth (grown bs n) n = Some empty_header.
Proof.
  intros Hn HB HG. rewrite <- (grown_get bs n n Hn Hn) in HG. unfold block_get in HG. pose proof (zlen_grown bs n Hn) as [Hl _].
  destruct (znth_is_Some (grown bs n) n ltac:(lia)) as (b & Hb). rewrite Hb in HG |- *. destruct (bytes_eqb_spec b empty_header) as [E|E]; [now rewrite E|discriminate].
Qed.

(** The file with the page that [raw] begins on written back and the next one not. *)
Lemma torn_power n bs d page raw vs q : 0 <= n -> blocks80 bs -> zlen raw = 80 -> 0 <= d <= 80 -> 0 < page ->
  8 + 80 * n + d = q * page -> block_get bs n = Err MissingHeader ->
  In (file8 (n + 1) ++ concat (zupdate (grown bs n) n raw)) vs -> In (file8 (n + 1) ++ concat (grown bs n)) vs ->
  power_failure page vs (file8 (n + 1) ++ concat (zupdate (grown bs n) n (torn d raw))).
Proof.
  intros Hn HB HL Hd Hp Hq HG Hnew Hold. pose proof (zero_block bs n Hn HB HG) as HZ.
  pose proof (grown_80 bs n HB) as HGB. pose proof (zlen_grown bs n Hn) as [Hl _]. set (g := grown bs n) in *. clearbody g.
  set (a := file8 (n + 1) ++ ztake (80 * n) (concat g)). set (z := zdrop (80 * n + 80) (concat g)).
  assert (HA : zlen a = 8 + 80 * n).
  { unfold a. rewrite zlen_app, zlen_file8, zlen_ztake, zlen_concat80 by auto. lia. }
  assert (HU : forall x, zlen x = 80 -> file8 (n + 1) ++ concat (zupdate g n x) = a ++ x ++ z).
  { intros x Hx. unfold a, z. rewrite <- (concat_update g n x HGB Hx ltac:(lia)). now rewrite <- app_assoc. }
  assert (HO : file8 (n + 1) ++ concat g = a ++ empty_header ++ z).
  { rewrite <- HU by reflexivity. f_equal. f_equal. apply znth_ext. intros i Hi. rewrite znth_zupdate by lia.
    destruct (Z.eqb_spec i n) as [->|]; [exact HZ|reflexivity]. }
  rewrite (HU raw HL) in Hnew. rewrite HO in Hold. rewrite (HU _ (torn_80 d raw HL Hd)).
  split.
  - exists (a ++ raw ++ z). split; [exact Hnew|]. rewrite !zlen_app, (torn_80 d raw HL Hd). lia.
  - intros k Hk. assert (HT : zlen (ztake d raw) = d) by (rewrite zlen_ztake; lia).
    assert (ET : torn d raw = ztake d raw ++ repeat 0 (80 - Z.to_nat d)) by (unfold torn; now rewrite ztake_firstn).
    destruct (Z.le_gt_cases q k) as [Hge|Hlt].
    + exists (a ++ empty_header ++ z). split; [exact Hold|]. intros i Hi Hil. assert (Hx : 8 + 80 * n + d <= i) by nia.
      rewrite ET. replace empty_header with (repeat 0 (Z.to_nat d) ++ repeat 0 (80 - Z.to_nat d)) by (rewrite <- repeat_app; unfold empty_header; f_equal; lia).
      rewrite !app_assoc. rewrite <- !(app_assoc _ (repeat 0 (80 - Z.to_nat d)) z).
      assert (HR : zlen (repeat 0 (Z.to_nat d)) = d) by (unfold zlen; rewrite repeat_length; lia).
      rewrite !(znth_app_r (a ++ _)) by (rewrite zlen_app; lia). rewrite !zlen_app, HT, HR. reflexivity.
    + exists (a ++ raw ++ z). split; [exact Hnew|]. intros i Hi Hil. assert (Hx : i < 8 + 80 * n + d) by nia.
      rewrite ET. rewrite <- (ztake_zdrop d raw) at 2. rewrite !app_assoc. rewrite <- !(app_assoc (a ++ ztake d raw)).
      rewrite !(znth_app_l (a ++ ztake d raw)) by (rewrite zlen_app; lia). reflexivity.
Qed.

Section Torn.
  Variable H : bytes -> bytes.
  Variable required : (Z -> result bytes) -> Z -> Z -> result Z.
  Variable max_cache : Z.
  Variable cp : checkpoint.
  Variable U : bytes -> Prop.
  Variable sets : list bytes -> Prop.
  Hypothesis A : assumptions H cp U.
  Notation reach := (reach H required max_cache cp U sets).
  Notation connect := (connect H required max_cache cp).
  Notation session := (session H required max_cache cp U).
  Notation from_file := (from_file H max_cache cp).

  Theorem power_torn page d log s raw s' r : reach log s -> U raw -> room cp log s -> ~ In raw log -> connect s raw = (s', Ok r) ->
    0 < page -> 36 <= d <= 72 -> (8 + 80 * (cp_height cp + zlen log) + d) mod page = 0 ->
    U (torn d raw) -> ~ In (torn d raw) log -> torn d raw <> repeat 0 80 -> H (torn d raw) <> repeat 0 32 ->
    (forall x, snd (connect s (torn d raw)) <> Ok x) /\
    exists vs f s1 hd c ch phd pc pw, session log s vs (log ++ [raw]) s' /\ power_failure page vs f /\
      from_file (Some f) = (Some f, Ok s1) /\
      lookup H cp s1 (H (torn d raw)) = Ok (hd, c) /\ h_raw hd = torn d raw /\
      nth_error (m_chains (hs_mem s1)) c = Some ch /\ ch_tip ch = hd /\
      lookup H cp s (prev_of raw) = Ok (phd, pc) /\ chainwork_to_height s pc (h_height phd) = Ok pw /\ ch_work ch = pw + 2 ^ 256 /\
      ((forall ch', In ch' (m_chains (hs_mem s)) -> ch_work ch' < pw + 2 ^ 256) -> longest_chain s1 = Some c).
  Proof.
    intros HR HU HRm HN HE Hp Hd Hmod HUt HNt Hnz HHz. set (x := torn d raw) in *.
    destruct (accept_file H required max_cache cp U sets A log s raw s' r HR HU HRm HN HE) as (es & bs & j & p & w & G & HL & HNj & Hpr & HW & Hi & Hn & HF & HFn & HFo & HB).
    cbv zeta in *. pose proof (good_known H required max_cache cp U sets A _ _ _ _ G) as K. destruct HRm as [Hch Hlen].
    assert (HLx : zlen x = 80) by (apply torn_80; lia). assert (HPx : prev_of x = prev_of raw) by (apply torn_prev; lia).
    assert (HBx : bits_of x = 0) by (apply torn_bits; lia).
    assert (Href : forall y, snd (connect s x) <> Ok y).
    { intros y HY. destruct (connect s x) as [sx rx] eqn:EX. cbn [snd] in HY. subst rx.
      pose proof (connect_outcome H required max_cache cp U sets A log es bs s x G HUt Hch Hlen) as HO. rewrite EX in HO.
      inversion HO as [|?|i e _ HNi HEi Hne EQ| | | | |j' p' t w' s2 bs' _ HNj' Hp' _ HRq Hb Ht HX G' Hbs EQ].
      - apply HNt. rewrite <- (g_log _ _ _ _ _ _ _ _ G). apply in_map_iff. exists e. split; [exact HEi|]. eapply nth_error_In; eauto.
      - assert (t = 0) as ->. { destruct Hb as [(_ & ->)|(Hb & _)]; [reflexivity|exfalso; rewrite HBx in Hb; lia]. }
        apply le_int_0_zeros in Ht; [|apply (as_hash_bytes _ _ _ A)].
        assert (HL32 : length (H x) = 32%nat) by (apply Nat2Z.inj; exact (as_hash_length _ _ _ A x)). rewrite HL32 in Ht. contradiction. }
    split; [exact Href|].
    set (n := cp_height cp + zlen log) in *.
    assert (HE' : extends H es x j p (2 ^ 256)).
    { split; [exact HNj|]. split; [congruence|]. split; [|apply raw_work_zero; exact HBx].
      intros e HI HEq. apply HNt. apply (as_no_collision _ _ _ A) in HEq; [|eapply g_U; eauto|exact HUt].
      rewrite <- (g_log _ _ _ _ _ _ _ _ G), <- HEq. now apply in_map. }
    pose proof (k_forest _ _ _ _ _ _ K) as HFo'. pose proof (chain_lt H cp es j p HFo' HNj) as Hcl.
    set (y := new_entry es x j p (2 ^ 256)) in *.
    set (f := file8 (n + 1) ++ concat (zupdate (grown bs n) n x)).
    set (st1 := mk_storage f 8). set (cache1 := next_cache H max_cache cp es y (m_cache (hs_mem s))).
    set (s1 := mk_headers st1 (mem_of H cp (es ++ [y]) cache1)).
    pose proof (g_rep _ _ _ _ _ _ _ _ G) as (_ & Hf0 & HB80 & Hn0 & _). rewrite Hi in Hn0.
    assert (HBG : forall i, 0 <= i -> block_get (zupdate (grown bs n) n x) i = if i =? n then Ok x else block_get bs i).
    { intros i Hi0. rewrite block_get_update by lia. destruct (i =? n); [|reflexivity].
      destruct (bytes_eqb_spec x empty_header); [contradiction|reflexivity]. }
    pose proof (as_height _ _ _ A) as Hcp.
    assert (G1 : good H max_cache cp U (log ++ [x]) (es ++ [y]) (zupdate (grown bs n) n x) s1).
    { split; cbn [s1 hs_mem hs_st m_cache ChainFacts.mem_of].
      - rewrite map_app. cbn [map y new_entry e_raw]. now rewrite (g_log _ _ _ _ _ _ _ _ G).
      - unfold cache1, y. apply built_step; auto; [exact (g_built _ _ _ _ _ _ _ _ G)|lia|].
        unfold new_entry. cbn [e_chain]. rewrite (k_chains _ _ _ _ _ _ K) in Hch. unfold zlen in Hch. rewrite chain_list_length in Hch.
        destruct (Nat.eqb _ _); lia.
      - reflexivity.
      - rewrite app_length. cbn [length]. replace (idx cp (length es + 1)) with (n + 1) by (rewrite <- Hi; unfold idx; lia).
        pose proof (zlen_grown bs n ltac:(lia)) as [Hg1 Hg2]. split; [reflexivity|]. split; [reflexivity|].
        split; [apply blocks80_zupdate; [now apply grown_80|exact HLx]|]. rewrite zlen_zupdate by lia. lia.
      - intros i e HNi. rewrite HBG by (unfold idx; lia). apply nth_error_snoc in HNi as [[HNi _]|[-> ->]].
        + destruct (Z.eqb_spec (idx cp i) n) as [Hx|Hx].
          * apply nth_error_lt in HNi. rewrite <- Hi in Hx. unfold idx in Hx. lia.
          * exact (g_blocks _ _ _ _ _ _ _ _ G i e HNi).
        + now rewrite Hi, Z.eqb_refl.
      - rewrite app_length. cbn [length]. intros i Hii. assert (n < i) by (rewrite <- Hi; unfold idx in *; lia). rewrite HBG by lia.
        destruct (Z.eqb_spec i n) as [Hx|Hx]; [lia|]. apply (g_above _ _ _ _ _ _ _ _ G). lia.
      - intros e HI. apply in_app_iff in HI as [HI|[<-|[]]]; [eapply g_U; eauto|exact HUt]. }
    pose proof (good_known H required max_cache cp U sets A _ _ _ _ G1) as K1.
    pose proof (good_reload H required max_cache cp U sets A _ _ _ _ G1) as HRe. cbn [s1 hs_st st1 st_file] in HRe. fold st1 s1 in HRe.
    assert (HNy : nth_error (es ++ [y]) (length es) = Some y) by apply nth_error_last.
    pose proof (k_forest _ _ _ _ _ _ K1) as HF1. pose proof (chain_lt H cp _ _ _ HF1 HNy) as Hcy.
    destruct (chain_of_spec H cp (es ++ [y]) (e_chain y) HF1 Hcy) as (et & HNe & Htip & Hwork & _).
    assert (Hty : tip (es ++ [y]) (e_chain y) = length es).
    { unfold tip. rewrite pos_snoc, Nat.eqb_refl. apply last_last. }
    rewrite Hty, HNy in HNe. injection HNe as <-.
    destruct (hdr_spec H x (e_height p + 1) HLx) as (_ & _ & Hraw & _).
    destruct (hdr_spec H (e_raw p) (e_height p) (known_hdr _ _ _ _ _ _ _ _ K HNj)) as (_ & _ & _ & Hph & _).
    exists ([st_file (hs_st s)] ++ append_versions s raw), f, s1, (hdr H x (e_height p + 1)), (e_chain y), (chain_of H cp (es ++ [y]) (e_chain y)), (hdr H (e_raw p) (e_height p)), (e_chain p), (e_work p).
    split; [eapply session_new; eauto; [constructor|split; auto]|]. split; [|split; [exact HRe|]].
    { pose proof (Z.div_mod (8 + 80 * n + d) page ltac:(lia)) as HD. rewrite Hmod in HD.
      apply (torn_power n bs d page raw _ ((8 + 80 * n + d) / page)); auto; try lia.
      - rewrite <- HFn, HF. apply in_app_iff. right. unfold append_versions. apply in_map. apply in_seq. lia.
      - rewrite <- HFo. apply in_app_iff. right. unfold append_versions. apply in_map. apply in_seq. lia. }
    split; [exact (known_lookup _ _ _ A _ _ _ _ _ y K1 HNy)|]. split; [exact Hraw|].
    split; [rewrite (k_chains _ _ _ _ _ _ K1); now apply chain_list_nth|]. split; [exact Htip|].
    split; [rewrite <- Hpr; exact (known_lookup _ _ _ A _ _ _ _ _ p K HNj)|]. rewrite Hph.
    split; [|split; [exact Hwork|]].
    2:{ intros Hmax. destruct (longest_chain_spec s1) as (c1 & ch1 & HLc & HNc & Hbest).
        { rewrite (k_chains _ _ _ _ _ _ K1). intros HX. apply (f_equal (@length _)) in HX. rewrite chain_list_length in HX. cbn [length] in HX. lia. }
        rewrite HLc. destruct (Nat.eq_dec c1 (e_chain y)) as [->|Hne]; [reflexivity|exfalso].
        destruct (known_chain _ _ _ _ _ _ _ _ K1 HNc) as (Hc1 & ->).
        assert (Hc1' : (c1 < nchains es)%nat).
        { rewrite nchains_app in Hc1. pose proof (eq_refl (e_chain y)) as EY. unfold y at 2 in EY. unfold new_entry in EY. cbn [e_chain] in EY. destruct (Nat.eqb _ _) in EY; lia. }
        rewrite (chain_of_other H cp es y c1 HFo' Hc1' ltac:(congruence)) in Hbest.
        destruct (Hbest (e_chain y) (chain_of H cp (es ++ [y]) (e_chain y))) as [Hb _].
        { rewrite (k_chains _ _ _ _ _ _ K1). now apply chain_list_nth. }
        rewrite Hwork in Hb. cbn [y new_entry e_work] in Hb.
        assert (HIn : In (chain_of H cp es c1) (m_chains (hs_mem s))).
        { rewrite (k_chains _ _ _ _ _ _ K). eapply nth_error_In. now apply chain_list_nth. }
        specialize (Hmax _ HIn). lia. }
    rewrite (k_state _ _ _ _ _ _ K).
    destruct (tip_spec H cp es (e_chain p) HFo' Hcl) as (_ & _ & _ & _ & Hallt).
    eapply chainwork_to; eauto; [exact (as_hash_length _ _ _ A)|exact (k_80 _ _ _ _ _ _ K)|exact (k_view _ _ _ _ _ _ K)].
  Qed.
End Torn.
