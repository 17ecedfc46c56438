(** C23, C26 - C35: the tree of headers held by a Headers object. *)
From Verif.Model Require Import Py Packing Bits Coin Work Storage Chain.
From Verif.Spec Require Import Numbers WorkSpec ChainSpec HeadersHistory.
From Verif.Proofs Require Import PyFacts WorkFacts RequiredBitsFacts StorageFacts HeadersFacts ChainTheorems ChainTheorems2.

Section Props.
  Variable H : bytes -> bytes.
  Variable required : (Z -> result bytes) -> Z -> Z -> result Z.
  Variable max_cache : Z.
  Variable cp : checkpoint.
  Variable U : bytes -> Prop.
  Variable sets : list bytes -> Prop.
  Hypothesis A : assumptions H cp U.
  Notation reach := (reach H required max_cache cp U sets).
  Notation connect := (connect H required max_cache cp).
  Notation from_file := (from_file H max_cache cp).

  (** C23. If the process dies anywhere during the append of an accepted header, opening the file gives
      the old object, or the new one, or raises MissingHeader every time. *)
  Theorem C23_connect_crash_partial log s raw s' r k :
    reach log s -> U raw -> room cp log s -> ~ In raw log -> connect s raw = (s', Ok r) ->
    let f := crashed s raw k in
    (exists s1, from_file (Some f) = (Some f, Ok s1) /\ hs_mem s1 = hs_mem s /\
       storage_len (hs_st s1) = storage_len (hs_st s) /\
       forall i, 0 <= i -> storage_get (hs_st s1) i = storage_get (hs_st s) i) \/
    (f = st_file (hs_st s') /\ from_file (Some f) = (Some f, Ok s')) \/
    from_file (Some f) = (Some f, Err MissingHeader).
  Proof. exact (connect_crash H required max_cache cp U sets A log s raw s' r k). Qed.
  (** C23 is false: the third case does arise, from every state and for every header. *)
  Theorem C23_connect_crash_refuted log s raw : reach log s -> room cp log s -> zlen raw = 80 ->
    exists k, (k < length (append_effects (hs_st s) raw))%nat /\
      from_file (Some (crashed s raw k)) = (Some (crashed s raw k), Err MissingHeader).
  Proof. exact (connect_crash_bad H required max_cache cp U sets A log s raw). Qed.

  (** C26. Every header accepted is found, with its bytes, the height above its parent's, and the chain it
      lies on. *)
  Theorem C26_stored_found log s raw : reach log s -> In raw log ->
    exists hd c, lookup H cp s (H raw) = Ok (hd, c) /\ h_raw hd = raw /\ h_hash hd = H raw /\
      (exists ch, nth_error (m_chains (hs_mem s)) c = Some ch /\ ch_first ch <= h_height hd <= ch_height ch) /\
      raw_at s c (h_height hd) = Ok raw /\
      (raw = cp_raw cp /\ h_height hd = cp_height cp \/
       exists phd pc, In (h_raw phd) log /\ lookup H cp s (prev_of raw) = Ok (phd, pc) /\ h_height hd = h_height phd + 1).
  Proof. exact (lookup_stored H required max_cache cp U sets A log s raw). Qed.
  Theorem C26_others_missing log s hash : reach log s -> 4 <= zlen hash -> (forall raw, In raw log -> H raw <> hash) ->
    lookup H cp s hash = Err MissingHeader.
  Proof. exact (lookup_unknown H required max_cache cp U sets A log s hash). Qed.

  (** C27, case by case. *)
  Theorem C27_raising_changes_nothing log s raw s' e :
    reach log s -> U raw -> room cp log s -> connect s raw = (s', Err e) -> s' = s.
  Proof. exact (connect_raises H required max_cache cp U sets A log s raw s' e). Qed.
  Theorem C27_no_parent log s raw : reach log s -> U raw -> room cp log s -> zlen raw = 80 ->
    (forall p, In p log -> H p <> prev_of raw) -> connect s raw = (s, Err MissingHeader).
  Proof. exact (connect_orphan H required max_cache cp U sets A log s raw). Qed.
  Theorem C27_stored log s raw : reach log s -> U raw -> room cp log s -> In raw log ->
    (raw <> cp_raw cp -> exists r, lookup H cp s (H raw) = Ok r /\ connect s raw = (s, Ok r)) /\
    (raw = cp_raw cp -> connect s raw = (s, Err MissingHeader)).
  Proof. exact (connect_stored H required max_cache cp U sets A log s raw). Qed.
  Theorem C27_new log s raw phd pc : reach log s -> U raw -> room cp log s -> zlen raw = 80 -> ~ In raw log ->
    lookup H cp s (prev_of raw) = Ok (phd, pc) ->
    match required (raw_at s pc) (h_height phd + 1) (time_of raw) with
    | Err e => connect s raw = (s, Err e)
    | Ok rb =>
      (rb <> bits_of raw -> connect s raw = (s, Err IncorrectBits)) /\
      (rb = bits_of raw -> (forall t, ~ compact rb t) -> connect s raw = (s, Err ValueError)) /\
      (forall t, rb = bits_of raw -> compact rb t -> t < val_le (H raw) -> connect s raw = (s, Err InsufficientPoW)) /\
      (forall t, rb = bits_of raw -> compact rb t -> val_le (H raw) <= t ->
         exists s' hd c w pch, connect s raw = (s', Ok (hd, c)) /\ h_raw hd = raw /\ h_height hd = h_height phd + 1 /\
           lookup H cp s' (H raw) = Ok (hd, c) /\ raw_work raw w /\
           nth_error (m_chains (hs_mem s)) pc = Some pch /\
           (ch_tip pch = phd -> c = pc /\ m_chains (hs_mem s') = list_update (m_chains (hs_mem s)) pc
              (mk_chain (ch_parent pch) hd (ch_work pch + w) (ch_first pch) (ch_indices pch ++ [cp_height cp + zlen log]))) /\
           (ch_tip pch <> phd -> c = length (m_chains (hs_mem s)) /\ exists pw, chainwork_to_height s pc (h_height phd) = Ok pw /\
              m_chains (hs_mem s') = m_chains (hs_mem s) ++ [mk_chain (Some pc) hd (pw + w) (h_height hd) [cp_height cp + zlen log]]) /\
           storage_len (hs_st s') = Ok (cp_height cp + zlen log + 1) /\
           storage_get (hs_st s') (cp_height cp + zlen log) = Ok raw /\
           forall i, 0 <= i -> i <> cp_height cp + zlen log -> storage_get (hs_st s') i = storage_get (hs_st s) i)
    end.
  Proof. exact (connect_new H required max_cache cp U sets A log s raw phd pc). Qed.

  (** C28 *)
  Theorem C28_hash_linked log s c ch : reach log s -> nth_error (m_chains (hs_mem s)) c = Some ch ->
    cp_height cp <= ch_height ch /\
    raw_at s c (cp_height cp) = Ok (cp_raw cp) /\
    raw_at s c (ch_height ch) = Ok (h_raw (ch_tip ch)) /\ h_height (ch_tip ch) = ch_height ch /\
    (forall h, cp_height cp < h <= ch_height ch -> exists a b, raw_at s c (h - 1) = Ok a /\ raw_at s c h = Ok b /\
       In a log /\ In b log /\ prev_of b = H a) /\
    (forall h, ch_height ch < h \/ h < 0 -> raw_at s c h = Err MissingHeader) /\
    (forall h, 0 <= h < cp_height cp -> raw_at s c h = storage_get (hs_st s) h).
  Proof. exact (chain_linked H required max_cache cp U sets A log s c ch). Qed.
  Theorem C28_header_at_height log s c ch h raw : reach log s -> nth_error (m_chains (hs_mem s)) c = Some ch ->
    cp_height cp <= h <= ch_height ch -> raw_at s c h = Ok raw ->
    exists hd, header_at_height H s c h = Ok hd /\ h_raw hd = raw /\ h_height hd = h /\ h_hash hd = H raw /\
      h_prev_hash hd = prev_of raw /\ h_bits hd = bits_of raw /\ h_timestamp hd = time_of raw.
  Proof. exact (header_at H required max_cache cp U sets A log s c ch h raw). Qed.

  (** C29 *)
  Theorem C29_work log s c ch h : reach log s -> nth_error (m_chains (hs_mem s)) c = Some ch ->
    cp_height cp <= h <= ch_height ch ->
    exists w, work_sum (raw_at s c) (cp_height cp) (Z.to_nat (h - cp_height cp + 1)) w /\
      chainwork_to_height s c h = Ok (cp_prev_work cp + w) /\
      (h = ch_height ch -> ch_work ch = cp_prev_work cp + w).
  Proof. exact (chain_work H required max_cache cp U sets A log s c ch h). Qed.

  (** C30 *)
  Theorem C30_longest log s : reach log s -> exists c ch, longest_chain s = Some c /\
    nth_error (m_chains (hs_mem s)) c = Some ch /\
    forall c' ch', nth_error (m_chains (hs_mem s)) c' = Some ch' ->
      ch_work ch' <= ch_work ch /\ ((c' < c)%nat -> ch_work ch' < ch_work ch).
  Proof. exact (longest H required max_cache cp U sets A log s). Qed.

  (** C31 *)
  Theorem C31_one_chain log s raw : reach log s -> (In raw log <-> exists! c, own_part s c raw).
  Proof. exact (one_chain H required max_cache cp U sets A log s raw). Qed.
  Theorem C31_tips_are_leaves log s raw : reach log s ->
    ((exists c ch, nth_error (m_chains (hs_mem s)) c = Some ch /\ h_raw (ch_tip ch) = raw) <->
     (In raw log /\ forall r, In r log -> prev_of r <> H raw)).
  Proof. exact (tips_leaves H required max_cache cp U sets A log s raw). Qed.

  (** C32 *)
  Theorem C32_fork_point log s a b cha chb : reach log s ->
    nth_error (m_chains (hs_mem s)) a = Some cha -> nth_error (m_chains (hs_mem s)) b = Some chb ->
    exists c h ch, common_chain_and_height (m_chains (hs_mem s)) a b = (Some c, h) /\
      nth_error (m_chains (hs_mem s)) c = Some ch /\ ch_first ch <= h <= ch_height ch /\
      cp_height cp <= h <= Z.min (ch_height cha) (ch_height chb) /\
      (forall i, i <= h -> raw_at s a i = raw_at s b i /\ raw_at s a i = raw_at s c i) /\
      (forall i, h < i <= Z.min (ch_height cha) (ch_height chb) -> raw_at s a i <> raw_at s b i).
  Proof. exact (fork H required max_cache cp U sets A log s a b cha chb). Qed.
  Theorem C32_symmetric log s a b cha chb : reach log s ->
    nth_error (m_chains (hs_mem s)) a = Some cha -> nth_error (m_chains (hs_mem s)) b = Some chb ->
    common_chain_and_height (m_chains (hs_mem s)) a b = common_chain_and_height (m_chains (hs_mem s)) b a.
  Proof. exact (fork_symmetric H required max_cache cp U sets A log s a b cha chb). Qed.

  (** C33. Even the cache comes back. *)
  Theorem C33_reload log s : reach log s ->
    from_file (Some (st_file (hs_st s))) = (Some (st_file (hs_st s)), Ok s).
  Proof. exact (reload_same H required max_cache cp U sets A log s). Qed.

  (** C34. Each header accepted had the bits that were required and enough work when it was connected. *)
  Theorem C34_checked_when_connected log s : reach log s -> forall l1 raw l2, log = l1 ++ raw :: l2 -> l1 <> [] ->
    exists s0 phd pc t, reach l1 s0 /\ lookup H cp s0 (prev_of raw) = Ok (phd, pc) /\
      required (raw_at s0 pc) (h_height phd + 1) (time_of raw) = Ok (bits_of raw) /\
      compact (bits_of raw) t /\ val_le (H raw) <= t.
  Proof. exact (checked_when_connected H required max_cache cp U sets A log s). Qed.

  (** C35 *)
  Theorem C35_set_one_below log s h raw : reach log s -> 0 <= h < cp_height cp -> zlen raw = 80 ->
    exists s', set_one cp s h raw = (s', Ok tt) /\ hs_mem s' = hs_mem s /\
      storage_len (hs_st s') = storage_len (hs_st s) /\
      (forall hash, 4 <= zlen hash -> lookup H cp s' hash = lookup H cp s hash) /\
      forall c ch, nth_error (m_chains (hs_mem s)) c = Some ch ->
        raw_at s' c h = (if list_eq_dec Z.eq_dec raw (repeat 0 80) then Err MissingHeader else Ok raw) /\
        forall i, i <> h -> raw_at s' c i = raw_at s c i.
  Proof. exact (set_one_below H required max_cache cp U sets A log s h raw). Qed.
  Theorem C35_set_one_out_of_range log s h raw : reach log s -> ~ (0 <= h <= cp_height cp) ->
    set_one cp s h raw = (s, Err ValueError).
  Proof. exact (set_one_out H required max_cache cp U sets A log s h raw). Qed.
  (** The checkpoint itself can be overwritten; then reopening the file loses every header. *)
  Theorem C35_set_one_checkpoint log s raw : reach log s -> zlen raw = 80 -> raw <> cp_raw cp ->
    exists s', set_one cp s (cp_height cp) raw = (s', Ok tt) /\ hs_mem s' = hs_mem s /\
    exists s'', from_file (Some (st_file (hs_st s'))) = (Some (st_file (created cp)), Ok s'') /\
      reach [cp_raw cp] s''.
  Proof. exact (set_one_checkpoint H required max_cache cp U sets A log s raw). Qed.
End Props.

(** C26. Nothing depends on the size of the cache. *)
Theorem C26_cache_independent : forall H cp U r1 r2 mc1 mc2 sets1 sets2 log s1 s2, assumptions H cp U ->
  reach H r1 mc1 cp U sets1 log s1 -> reach H r2 mc2 cp U sets2 log s2 ->
  m_chains (hs_mem s1) = m_chains (hs_mem s2) /\
  forall hash, 4 <= zlen hash -> lookup H cp s1 hash = lookup H cp s2 hash.
Proof. exact cache_independent. Qed.

(** C34. For each of the coins: if set_one is only called before the first connect, then in every state
    every header above the checkpoint has, on every chain, the bits required there, and meets its target. *)
Theorem C34_all_checked : forall H coin max_cache cp U log s c ch h raw, assumptions H cp U ->
  reach H (coin_required_bits coin) max_cache cp U (fun l => l = [cp_raw cp]) log s ->
  nth_error (m_chains (hs_mem s)) c = Some ch ->
  cp_height cp < h <= ch_height ch -> raw_at s c h = Ok raw ->
  coin_required_bits coin (raw_at s c) h (time_of raw) = Ok (bits_of raw) /\
  exists t, compact (bits_of raw) t /\ val_le (H raw) <= t.
Proof.
  intros H coin max_cache cp U log s c ch h raw A. apply (all_checked H _ max_cache cp U _ A).
  - intros f g i t Hfg. now apply coin_required_bits_local.
  - auto.
Qed.

(** A concrete case: three headers on a fork, with a hash that reads the merkle root field. *)
Module Example.
  Definition H (b : bytes) : bytes := map (fun x => x mod 256) (firstn 32 (skipn 36 b ++ repeat 0 32)).
  Definition hash_of (n : Z) : bytes := n :: repeat 0 31.
  Definition raw (prev n : Z) : bytes :=
    [1; 0; 0; 0] ++ hash_of prev ++ hash_of n ++ [n; 0; 0; 0] ++ [255; 255; 127; 32] ++ [0; 0; 0; 0].
  Definition cp : checkpoint := mk_checkpoint (raw 0 1) 2 5.
  Definition a := raw 1 2.
  Definition b := raw 1 3.
  Definition c := raw 3 4.
  Definition U (x : bytes) : Prop := In x [raw 0 1; a; b; c].
  Lemma ok : assumptions H cp U.
  Proof.
    split.
    - intros x. unfold H, zlen. rewrite map_length, firstn_length, app_length, repeat_length. lia.
    - intros x. unfold H. generalize (firstn 32 (skipn 36 x ++ repeat 0 32)). intros l. induction l as [|y l IH]; [reflexivity|].
      cbn [map]. rewrite bytes_ok_cons, IH, andb_true_r. apply byte_ok_iff. apply Z.mod_pos_bound. lia.
    - intros x y Hx Hy. unfold U in *. cbn [In] in *.
      repeat match goal with HX : _ \/ _ |- _ => destruct HX as [<-|HX] | HX : False |- _ => destruct HX end;
        vm_compute; congruence.
    - left. reflexivity.
    - intros x Hx. unfold U in *. cbn [In] in *.
      repeat match goal with HX : _ \/ _ |- _ => destruct HX as [<-|HX] | HX : False |- _ => destruct HX end;
        vm_compute; congruence.
    - reflexivity.
    - discriminate.
    - vm_compute. split; congruence.
    - eexists. vm_compute. reflexivity.
  Qed.
  Notation reach := (reach H (coin_required_bits BitcoinRegtest) 3 cp U (fun l => l = [cp_raw cp])).
  Notation step s r := (fst (connect H (coin_required_bits BitcoinRegtest) 3 cp s r)).
  Definition s0 : headers := match snd (from_file H 3 cp None) with Ok s => s | Err _ => mk_headers (created cp) empty_mem end.
  Definition s3 : headers := step (step (step s0 a) b) c.
  Notation chains s := (zlen (m_chains (hs_mem s))).
  Definition accepted (p : headers * result (header * nat)) : bool := match snd p with Ok _ => true | Err _ => false end.
  (** The three steps, computed once *)
  Lemma steps : let p := connect H (coin_required_bits BitcoinRegtest) 3 cp in let p1 := p s0 a in let p2 := p (fst p1) b in let p3 := p (fst p2) c in
    (accepted p1, accepted p2, accepted p3, chains s0, chains (fst p1), chains (fst p2),
     map (fun ch => (ch_parent ch, ch_height ch, ch_work ch)) (m_chains (hs_mem (fst p3))), longest_chain (fst p3), common_chain_and_height (m_chains (hs_mem (fst p3))) 0 1,
     raw_at (fst p3) 1 4, raw_at (fst p3) 0 4, length (m_cache (hs_mem (fst p3))), storage_len (hs_st (fst p3))) =
    (true, true, true, 1, 1, 2, [(None, 3, 9); (Some O, 4, 11)], Some 1%nat, (Some O, 2), Ok c, Err MissingHeader, 3%nat, Ok 6).
  Proof. vm_compute. reflexivity. Qed.
  Lemma step_reach log s r : reach log s -> U r -> chains s < 2 ^ 16 -> cp_height cp + zlen log < 2 ^ 32 - 1 ->
    accepted (connect H (coin_required_bits BitcoinRegtest) 3 cp s r) = true -> ~ In r log -> reach (log ++ [r]) (step s r).
  Proof.
    intros HR HU H1 H2 HE HI. unfold accepted in *. destruct (connect H _ 3 cp s r) as [s' [v|]] eqn:EC; [|discriminate]. cbn [fst snd]. eapply reach_accept; eauto.
  Qed.
  Example reached : reach [raw 0 1; a; b; c] s3.
  Proof.
    assert (R0 : reach [cp_raw cp] s0).
    { apply (reach_new _ _ _ _ _ _ None (fst (from_file H 3 cp None))); [auto|]. unfold s0.
      destruct (from_file H 3 cp None) as [p r] eqn:E. destruct r as [s|e] eqn:ER; [reflexivity|].
      assert (HX : snd (from_file H 3 cp None) = Err e) by (rewrite E; reflexivity). vm_compute in HX. discriminate. }
    pose proof steps as HS. cbv zeta in HS. do 7 (apply pair_equal_spec in HS as [HS _]). apply pair_equal_spec in HS as [HS C2]. apply pair_equal_spec in HS as [HS C1]. apply pair_equal_spec in HS as [HS C0]. apply pair_equal_spec in HS as [HS A3]. apply pair_equal_spec in HS as [A1 A2].
    assert (R1 : reach ([cp_raw cp] ++ [a]) (step s0 a)) by (apply step_reach; [exact R0|right; left; reflexivity|rewrite C0; reflexivity|reflexivity|exact A1|intros [HX|[]]; discriminate HX]).
    assert (R2 : reach (([cp_raw cp] ++ [a]) ++ [b]) (step (step s0 a) b)) by (apply step_reach; [exact R1|right; right; left; reflexivity|rewrite C1; reflexivity|reflexivity|exact A2|intros [HX|[HX|[]]]; discriminate HX]).
    unfold s3. apply (step_reach (([cp_raw cp] ++ [a]) ++ [b])); [exact R2|do 3 right; left; reflexivity|rewrite C2; reflexivity|reflexivity|exact A3|intros [HX|[HX|[HX|[]]]]; discriminate HX].
  Qed.
  (** Two chains forking at the checkpoint; the second has more work. *)
  Example shape : map (fun ch => (ch_parent ch, ch_height ch, ch_work ch)) (m_chains (hs_mem s3)) =
      [(None, 3, 9); (Some O, 4, 11)] /\
    longest_chain s3 = Some 1%nat /\ common_chain_and_height (m_chains (hs_mem s3)) 0 1 = (Some O, 2) /\
    raw_at s3 1 4 = Ok c /\ raw_at s3 0 4 = Err MissingHeader /\
    length (m_cache (hs_mem s3)) = 3%nat /\ storage_len (hs_st s3) = Ok 6.
  Proof.
    unfold s3. pose proof steps as HS. cbv zeta in HS.
    apply pair_equal_spec in HS as [HS E7]. apply pair_equal_spec in HS as [HS E6]. apply pair_equal_spec in HS as [HS E5]. apply pair_equal_spec in HS as [HS E4]. apply pair_equal_spec in HS as [HS E3]. apply pair_equal_spec in HS as [HS E2]. apply pair_equal_spec in HS as [_ E1].
    exact (conj E1 (conj E2 (conj E3 (conj E4 (conj E5 (conj E6 E7)))))).
  Qed.
  Example room3 : room cp [raw 0 1; a; b] (step (step s0 a) b).
  Proof.
    pose proof steps as HS. cbv zeta in HS. do 7 (apply pair_equal_spec in HS as [HS _]). apply pair_equal_spec in HS as [_ C2].
    split; [rewrite C2; reflexivity|reflexivity].
  Qed.
End Example.

Print Assumptions C23_connect_crash_partial.
Print Assumptions C23_connect_crash_refuted.
Print Assumptions C26_stored_found.
Print Assumptions C26_others_missing.
Print Assumptions C26_cache_independent.
Print Assumptions C27_raising_changes_nothing.
Print Assumptions C27_no_parent.
Print Assumptions C27_stored.
Print Assumptions C27_new.
Print Assumptions C28_hash_linked.
Print Assumptions C28_header_at_height.
Print Assumptions C29_work.
Print Assumptions C30_longest.
Print Assumptions C31_one_chain.
Print Assumptions C31_tips_are_leaves.
Print Assumptions C32_fork_point.
Print Assumptions C32_symmetric.
Print Assumptions C33_reload.
Print Assumptions C34_checked_when_connected.
Print Assumptions C34_all_checked.
Print Assumptions C35_set_one_below.
Print Assumptions C35_set_one_out_of_range.
Print Assumptions C35_set_one_checkpoint.
