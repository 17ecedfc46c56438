(** The in-memory structures of Headers represent the tree of stored headers. *)
From Verif.Model Require Import Py Packing Bits Coin Work Storage Chain.
From Verif.Spec Require Import Numbers WorkSpec ChainSpec.
From Verif.Proofs Require Import PyFacts PackingFacts NumbersFacts WorkFacts RequiredBitsFacts StorageFacts ForestFacts.

(** [bytearray.find] *)
Lemma starts_with_firstn a b : starts_with a b = true <-> firstn (length b) a = b.
Proof.
  revert a. induction b as [|y b IH]; intros a.
  - destruct a; split; auto.
  - destruct a as [|x a]; [split; discriminate|]. cbn [starts_with length firstn]. rewrite andb_true_iff, Z.eqb_eq, IH. split.
    + intros [-> ->]. reflexivity.
    + intros E. injection E as -> E. auto.
Qed.

Lemma find_from_spec key s i : 0 <= i ->
  (find_from key s i = -1 /\ forall d, (d <= length s)%nat -> firstn (length key) (skipn d s) <> key) \/
  exists d, (d <= length s)%nat /\ find_from key s i = i + Z.of_nat d /\
    firstn (length key) (skipn d s) = key /\
    forall d', (d' < d)%nat -> firstn (length key) (skipn d' s) <> key.
Proof.
  revert i. induction s as [|x s IH]; intros i Hi; cbn [find_from].
  - destruct (starts_with [] key) eqn:E.
    + right. exists O. apply starts_with_firstn in E. repeat split; auto; lia.
    + left. split; [reflexivity|]. intros d Hd HF. cbn in Hd. assert (d = O) as -> by lia.
      cbn [skipn] in HF. apply starts_with_firstn in HF. congruence.
  - destruct (starts_with (x :: s) key) eqn:E.
    + right. exists O. apply starts_with_firstn in E. repeat split; auto; cbn; lia.
    + destruct (IH (i + 1) ltac:(lia)) as [[HF HN]|(d & Hd & HF & HM & HN)].
      * left. split; [exact HF|]. intros [|d] Hd HX; [cbn [skipn] in HX; apply starts_with_firstn in HX; congruence|].
        cbn in Hd. apply (HN d); [lia|exact HX].
      * right. exists (S d). cbn [length skipn]. split; [lia|]. split; [rewrite HF; lia|]. split; [exact HM|].
        intros [|d'] Hd' HX; [cbn [skipn] in HX; apply starts_with_firstn in HX; congruence|]. apply (HN d'); [lia|exact HX].
Qed.

(** Least match at or after [start], or -1. *)
Lemma bytes_find_spec s key (start : nat) :
  (bytes_find s key (Z.of_nat start) = -1 /\ forall d, (start <= d <= length s)%nat -> firstn (length key) (skipn d s) <> key) \/
  exists d, (start <= d <= length s)%nat /\ bytes_find s key (Z.of_nat start) = Z.of_nat d /\
    firstn (length key) (skipn d s) = key /\
    forall d', (start <= d' < d)%nat -> firstn (length key) (skipn d' s) <> key.
Proof.
  unfold bytes_find. unfold zlen. destruct (Z.ltb_spec (Z.of_nat (length s)) (Z.of_nat start)) as [Hl|Hl].
  - left. split; [reflexivity|]. intros d Hd. lia.
  - rewrite zdrop_skipn, Nat2Z.id.
    destruct (find_from_spec key (skipn start s) (Z.of_nat start) ltac:(lia)) as [[HF HN]|(d & Hd & HF & HM & HN)].
    + left. split; [exact HF|]. intros d Hd HX. apply (HN (d - start)%nat).
      * rewrite skipn_length. lia.
      * rewrite skipn_skipn. replace (start + (d - start))%nat with d by lia. exact HX.
    + right. exists (start + d)%nat. rewrite skipn_length in Hd. split; [lia|]. split; [rewrite HF; lia|].
      rewrite skipn_skipn in HM. split; [exact HM|]. intros d' Hd' HX. apply (HN (d' - start)%nat); [lia|].
      rewrite skipn_skipn. replace (start + (d' - start))%nat with d' by lia. exact HX.
Qed.

(** Concatenations of 4-byte pieces *)
Lemma concat4_skipn {A} (f : A -> bytes) (l : list A) i : (forall x, length (f x) = 4%nat) ->
  skipn (4 * i) (concat (map f l)) = concat (map f (skipn i l)).
Proof.
  intros Hf. revert l. induction i as [|i IH]; intros l; [reflexivity|].
  destruct l as [|x l]; [now rewrite !skipn_nil|]. cbn [map concat skipn].
  replace (4 * S i)%nat with (4 + 4 * i)%nat by lia. rewrite <- skipn_skipn.
  rewrite (skipn_app 4). rewrite Hf. rewrite (skipn_all2 (f x)) by (rewrite Hf; lia). cbn [Nat.sub app skipn]. apply IH.
Qed.
Lemma concat4_nth {A} (f : A -> bytes) (l : list A) i x : (forall x, length (f x) = 4%nat) ->
  nth_error l i = Some x -> firstn 4 (skipn (4 * i) (concat (map f l))) = f x.
Proof.
  intros Hf HN. rewrite concat4_skipn by auto.
  assert (E : skipn i l = x :: skipn (S i) l).
  { clear Hf. revert l HN. induction i as [|i IH]; intros [|y l] HN; try discriminate; [now injection HN as ->|].
    cbn [skipn]. apply IH. exact HN. }
  rewrite E. cbn [map concat]. rewrite firstn_app, Hf. rewrite firstn_all2 by (rewrite Hf; lia).
  cbn [Nat.sub firstn]. apply app_nil_r.
Qed.
Lemma concat4_length {A} (f : A -> bytes) (l : list A) : (forall x, length (f x) = 4%nat) ->
  length (concat (map f l)) = (4 * length l)%nat.
Proof. intros Hf. induction l as [|x l IH]; [reflexivity|]. cbn [map concat length]. rewrite app_length, Hf, IH. lia. Qed.

(** The cache *)
Lemma cache_get_In k l v : cache_get k l = Some v -> In (k, v) l.
Proof.
  induction l as [|[k' v'] l IH]; cbn [cache_get]; [discriminate|].
  destruct (bytes_eqb_spec k k') as [->|]; [intros E; injection E as ->; now left|]. intros E. right. auto.
Qed.
Lemma cache_set_In k v l k' v' : In (k', v') (cache_set k v l) -> (k' = k /\ v' = v) \/ In (k', v') l.
Proof.
  induction l as [|[k2 v2] l IH]; cbn [cache_set].
  - intros [E|[]]. left. split; congruence.
  - destruct (bytes_eqb_spec k k2) as [->|].
    + intros [E|HI]; [left; split; congruence|right; now right].
    + intros [E|HI]; [right; now left|]. destruct (IH HI); [auto|right; now right].
Qed.

Lemma nth_error_ext {A} (a b : list A) : (forall i, nth_error a i = nth_error b i) -> a = b.
Proof.
  revert b. induction a as [|x a IH]; intros [|y b] HE; auto.
  - specialize (HE O). discriminate.
  - specialize (HE O). discriminate.
  - pose proof (HE O) as H0. cbn in H0. injection H0 as ->. f_equal. apply IH. intros i. exact (HE (S i)).
Qed.
Lemma list_update_length {A} (l : list A) i x : (i < length l)%nat -> length (list_update l i x) = length l.
Proof. intros. unfold list_update. rewrite app_length, firstn_length. cbn [length]. rewrite skipn_length. lia. Qed.
Lemma nth_error_update {A} (l : list A) i x j : (i < length l)%nat ->
  nth_error (list_update l i x) j = if Nat.eqb j i then Some x else nth_error l j.
Proof.
  intros Hi. unfold list_update. destruct (Nat.eqb_spec j i) as [->|Hne].
  - rewrite nth_error_app2; rewrite firstn_length; [|lia]. replace (i - Nat.min i (length l))%nat with O by lia. reflexivity.
  - destruct (Nat.lt_ge_cases j i).
    + rewrite nth_error_app1 by (rewrite firstn_length; lia).
      rewrite <- (firstn_skipn i l) at 2. rewrite nth_error_app1 by (rewrite firstn_length; lia). reflexivity.
    + rewrite nth_error_app2; rewrite firstn_length; [|lia]. replace (j - Nat.min i (length l))%nat with (S (j - S i)) by lia.
      cbn [nth_error]. rewrite <- (firstn_skipn (S i) l) at 2.
      rewrite nth_error_app2; rewrite firstn_length; [|lia]. f_equal. lia.
Qed.

Lemma znth_of_nat {A} (l : list A) i : znth l (Z.of_nat i) = nth_error l i.
Proof. rewrite znth_nth_error by lia. now rewrite Nat2Z.id. Qed.
Lemma pyindex_of_nat {A} (l : list A) i x : nth_error l i = Some x -> pyindex l (Z.of_nat i) = Ok x.
Proof.
  intros HN. unfold pyindex. destruct (Z.ltb_spec (Z.of_nat i) 0); [lia|]. now rewrite znth_of_nat, HN.
Qed.
Lemma arr_append_Ok bits l v : 0 <= v < 2 ^ bits -> arr_append bits l v = Ok (l ++ [v]).
Proof. intros Hv. unfold arr_append. destruct (Z.leb_spec 0 v); [|lia]. destruct (Z.ltb_spec v (2 ^ bits)); [reflexivity|lia]. Qed.

Lemma skipn_snoc {A} (l : list A) x : skipn (length l) (l ++ [x]) = [x].
Proof. rewrite skipn_app, skipn_all, Nat.sub_diag. reflexivity. Qed.

Lemma fold_add_start l a : fold_left Z.add l a = a + fold_left Z.add l 0.
Proof. revert a. induction l as [|x l IH]; intros a; cbn [fold_left]; [lia|]. rewrite IH, (IH (0 + x)). lia. Qed.

(** Fields of an 80-byte header *)
Section Hdr.
  Variable H : bytes -> bytes.
  Definition hdr (raw : bytes) (h : Z) : header :=
    match deserialized_header H raw h with
    | Ok x => x
    | Err _ => mk_header 0 [] [] 0 0 0 [] [] 0
    end.
  Lemma hdr_spec raw h : zlen raw = 80 ->
    deserialized_header H raw h = Ok (hdr raw h) /\ h_hash (hdr raw h) = H raw /\ h_raw (hdr raw h) = raw /\
    h_height (hdr raw h) = h /\ h_prev_hash (hdr raw h) = prev_of raw /\ h_bits (hdr raw h) = bits_of raw /\
    h_timestamp (hdr raw h) = time_of raw /\ forall h', with_height (hdr raw h) h' = hdr raw h'.
  Proof.
    intros HL. unfold hdr, deserialized_header. destruct (unpack_header_Ok raw HL) as (v & ->). cbn [bind].
    cbn [h_hash h_raw h_height h_prev_hash h_bits h_timestamp with_height]. rewrite ztake_firstn, zdrop_skipn.
    repeat split.
  Qed.
  Lemma hdr_work raw h w : zlen raw = 80 -> raw_work raw w -> header_obj_work (hdr raw h) = Ok w.
  Proof.
    intros HL HW. unfold header_obj_work. destruct (hdr_spec raw h HL) as (_ & _ & _ & _ & _ & -> & _).
    apply bits_to_work_spec. exact HW.
  Qed.
  Lemma header_work_spec raw w : zlen raw = 80 -> raw_work raw w -> header_work raw = Ok w.
  Proof.
    intros HL HW. unfold header_work. rewrite header_bits_spec by auto. cbn [bind]. apply bits_to_work_spec. exact HW.
  Qed.
  Lemma prev_of_length raw : zlen raw = 80 -> length (prev_of raw) = 32%nat.
  Proof. intros HL. unfold prev_of. rewrite firstn_length, skipn_length. unfold zlen in HL. lia. Qed.
End Hdr.

Definition ent (es : list entry) (i : nat) : entry := nth i es (mk_entry [] 0 0 0 None).
Lemma ent_nth es i e : nth_error es i = Some e -> ent es i = e.
Proof. intros HN. unfold ent. now apply nth_error_nth. Qed.
Definition nchains (es : list entry) : nat := fold_right (fun e n => Nat.max (S (e_chain e)) n) O es.
Definition all80 (es : list entry) : Prop := forall e, In e es -> zlen (e_raw e) = 80.

Lemma nchains_used es n : chains_used es n -> n = nchains es.
Proof.
  intros HC.
  assert (H1 : forall m, (forall e, In e es -> (e_chain e < m)%nat) -> (nchains es <= m)%nat).
  { clear. induction es as [|e es IH]; intros m Hm; unfold nchains; cbn [fold_right]; [lia|]. fold (nchains es). pose proof (Hm e (or_introl eq_refl)).
    pose proof (IH m ltac:(intros; apply Hm; now right)). lia. }
  assert (H2 : forall e, In e es -> (e_chain e < nchains es)%nat).
  { clear. induction es as [|e' es IH]; intros e HI; [contradiction|]. unfold nchains. cbn [fold_right]. fold (nchains es).
    destruct HI as [->|HI]; [lia|]. specialize (IH e HI). lia. }
  apply Nat.le_antisymm.
  - destruct n as [|n]; [lia|]. destruct (proj1 (HC n) ltac:(lia)) as (e & HI & HE).
    pose proof (H2 e HI). lia.
  - apply H1. intros e HI. apply HC. eauto.
Qed.

Definition tip (es : list entry) (c : nat) : nat := last (pos es c) O.
Definition new_entry (es : list entry) (raw : bytes) (j : nat) (p : entry) (w : Z) : entry :=
  mk_entry raw (e_height p + 1) (if Nat.eqb (tip es (e_chain p)) j then e_chain p else nchains es)
           (e_work p + w) (Some j).

Lemma nchains_app es x : nchains (es ++ [x]) = Nat.max (nchains es) (S (e_chain x)).
Proof.
  unfold nchains. induction es as [|e es IH]; cbn [app fold_right]; [lia|]. rewrite IH. lia.
Qed.
Lemma ent_app es x i : (i < length es)%nat -> ent (es ++ x) i = ent es i.
Proof. intros Hi. unfold ent. now rewrite app_nth1. Qed.
Lemma ent_last es x : ent (es ++ [x]) (length es) = x.
Proof. apply ent_nth, nth_error_last. Qed.
Lemma last_In {A} (l : list A) d : l <> [] -> In (last l d) l.
Proof. intros Hl. destruct (exists_last Hl) as (r & x & ->). rewrite last_last. apply in_or_app. right. now left. Qed.
Lemma hd_app {A} (l r : list A) d : l <> [] -> hd d (l ++ r) = hd d l.
Proof. destruct l; [contradiction|reflexivity]. Qed.
Lemma enum_from_In {A} n (l : list A) i x : In (i, x) (enum_from n l) -> (n <= i)%nat /\ nth_error l (i - n) = Some x.
Proof.
  revert n. induction l as [|y l IH]; intros n; cbn [enum_from In]; [contradiction|]. intros [E|HI].
  - injection E as -> ->. rewrite Nat.sub_diag. split; [lia|reflexivity].
  - destruct (IH (S n) HI) as [Hn HE]. split; [lia|]. replace (i - n)%nat with (S (i - S n)) by lia. exact HE.
Qed.

Section Mem.
  Variable H : bytes -> bytes.
  Variable max_cache : Z.
  Variable cp : checkpoint.
  Hypothesis H32 : forall x, zlen (H x) = 32.
  Hypothesis cp_nonneg : 0 <= cp_height cp.

  Notation forest := (forest H (cp_raw cp) (cp_height cp) (cp_prev_work cp)).
  Notation hdr := (hdr H).
  Definition idx (i : nat) : Z := cp_height cp + Z.of_nat i.
  Definition short4 (e : entry) : bytes := ztake 4 (H (e_raw e)).
  Definition parent_chain (es : list entry) (i : nat) : option nat :=
    match e_parent (ent es i) with Some j => Some (e_chain (ent es j)) | None => None end.
  Definition chain_of (es : list entry) (c : nat) : chain :=
    let p := pos es c in
    mk_chain (parent_chain es (hd O p))
      (hdr (e_raw (ent es (last p O))) (e_height (ent es (last p O))))
      (e_work (ent es (last p O))) (e_height (ent es (hd O p))) (map idx p).
  Definition chain_list (es : list entry) : list chain := map (chain_of es) (seq 0 (nchains es)).
  Definition mem_of (es : list entry) (cache : list (bytes * (header * nat))) : mem :=
    mk_mem (chain_list es) (concat (map short4 es)) (map e_height es)
           (map (fun e => Z.of_nat (e_chain e)) es) cache.
  Definition cache_ok (es : list entry) (cache : list (bytes * (header * nat))) : Prop :=
    forall k v, In (k, v) cache -> exists i e, nth_error es i = Some e /\ k = H (e_raw e) /\
      v = (hdr (e_raw e) (e_height e), e_chain e).
  Definition view (st : storage) (es : list entry) : Prop :=
    forall i e, nth_error es i = Some e -> storage_get st (idx i) = Ok (e_raw e).

  Lemma short4_length e : length (short4 e) = 4%nat.
  Proof.
    unfold short4. apply Nat2Z.inj. fold (zlen (ztake 4 (H (e_raw e)))). rewrite zlen_ztake, H32. reflexivity.
  Qed.
  Lemma chains_used_n es : forest es -> chains_used es (nchains es).
  Proof. intros HF. destruct (forest_chains _ _ _ _ es HF) as (n & Hn). pose proof (nchains_used _ _ Hn). now subst. Qed.
  Lemma chain_lt es i e : forest es -> nth_error es i = Some e -> (e_chain e < nchains es)%nat.
  Proof. intros HF HN. apply (chains_used_n es HF). exists e. split; auto. eapply nth_error_In; eauto. Qed.
  Lemma chain_list_nth es c : (c < nchains es)%nat -> nth_error (chain_list es) c = Some (chain_of es c).
  Proof.
    intros Hc. unfold chain_list. rewrite nth_error_map.
    rewrite (nth_error_nth' _ O) by (rewrite seq_length; lia). rewrite seq_nth by lia. reflexivity.
  Qed.
  Lemma chain_list_length es : length (chain_list es) = nchains es.
  Proof. unfold chain_list. now rewrite map_length, seq_length. Qed.

  Lemma slow_found st es cache i e : forest es -> view st es -> nth_error es i = Some e ->
    header_index_slow H cp (mk_headers st (mem_of es cache)) (H (e_raw e)) = Ok (e_raw e, Z.of_nat i).
  Proof.
    intros HF HV HN. unfold header_index_slow. cbn [hs_mem mem_of m_short].
    set (short := concat (map short4 es)).
    assert (HL : length short = (4 * length es)%nat) by (apply concat4_length, short4_length).
    pose proof (nth_error_lt _ _ _ HN) as Hi.
    assert (HG : forall fuel start, (start <= 4 * i)%nat -> (4 * i - start < fuel)%nat ->
      header_index_slow_loop H cp fuel (mk_headers st (mem_of es cache)) (H (e_raw e)) (Z.of_nat start) = Ok (e_raw e, Z.of_nat i)).
    2:{ apply (HG _ O); lia. }
    assert (HK : slice_to (H (e_raw e)) 4 = short4 e) by (rewrite slice_to_nonneg by lia; reflexivity).
    induction fuel as [|fuel IH]; intros start Hs Hf; [lia|].
    cbn [header_index_slow_loop hs_mem mem_of m_short hs_st]. fold short. rewrite HK.
    assert (HM : firstn (length (short4 e)) (skipn (4 * i) short) = short4 e).
    { rewrite short4_length. apply concat4_nth; [apply short4_length|exact HN]. }
    destruct (bytes_find_spec short (short4 e) start) as [[_ HNo]|(d & Hd & -> & HMd & HNo)].
    { exfalso. apply (HNo (4 * i)%nat); [lia|exact HM]. }
    assert (Hdi : (d <= 4 * i)%nat).
    { destruct (Nat.le_gt_cases d (4 * i)); auto. exfalso. apply (HNo (4 * i)%nat); [lia|exact HM]. }
    assert (Hneg : (Z.of_nat d =? -1) = false) by (apply Z.eqb_neq; lia). rewrite Hneg.
    assert (Hnext : d <> (4 * i)%nat -> header_index_slow_loop H cp fuel (mk_headers st (mem_of es cache)) (H (e_raw e)) (Z.of_nat start + 1) = Ok (e_raw e, Z.of_nat i)).
    { intros Hne. replace (Z.of_nat start + 1) with (Z.of_nat (S start)) by lia. apply IH; lia. }
    destruct (Z.eqb_spec (Z.of_nat d mod 4) 0) as [Hal|Hal].
    - assert (Hq : exists q, d = (4 * q)%nat).
      { exists (d / 4)%nat. apply Nat2Z.inj. rewrite Nat2Z.inj_mul, Nat2Z.inj_div. change (Z.of_nat 4) with 4.
        pose proof (Z.div_mod (Z.of_nat d) 4 ltac:(lia)). lia. }
      destruct Hq as (q & ->). replace (Z.of_nat (4 * q) / 4) with (Z.of_nat q) by (rewrite Nat2Z.inj_mul, Z.mul_comm; change (Z.of_nat 4) with 4; now rewrite Z.div_mul by lia).
      destruct (nth_error es q) as [eq|] eqn:HQ; [|apply nth_error_None in HQ; lia].
      rewrite Z.add_comm. change (cp_height cp + Z.of_nat q) with (idx q). rewrite (HV q eq HQ). cbn [bind].
      destruct (bytes_eqb_spec (H (e_raw eq)) (H (e_raw e))) as [HE|HE].
      + pose proof (forest_hash_inj _ _ _ _ es q i eq e HF HQ HN HE) as ->. cbn [bind]. congruence.
      + cbn [bind]. apply Hnext. intros HX. apply HE. assert (q = i) as -> by lia. congruence.
    - cbn [bind]. apply Hnext. intros ->. apply Hal. rewrite Nat2Z.inj_mul. change (Z.of_nat 4) with 4. rewrite Z.mul_comm. now apply Z.mod_mul.
  Qed.

  Lemma slow_missing st es cache hash : forest es -> view st es -> 4 <= zlen hash ->
    (forall e, In e es -> H (e_raw e) <> hash) ->
    header_index_slow H cp (mk_headers st (mem_of es cache)) hash = Err MissingHeader.
  Proof.
    intros HF HV H4 HNone. unfold header_index_slow. cbn [hs_mem mem_of m_short].
    set (short := concat (map short4 es)).
    assert (HL : length short = (4 * length es)%nat) by (apply concat4_length, short4_length).
    set (key := slice_to hash 4).
    assert (HK : length key = 4%nat).
    { apply Nat2Z.inj. fold (zlen key). unfold key. rewrite slice_to_nonneg, zlen_ztake by lia. lia. }
    assert (HG : forall fuel start, (start <= length short + 1)%nat -> (length short + 2 - start < fuel)%nat ->
      header_index_slow_loop H cp fuel (mk_headers st (mem_of es cache)) hash (Z.of_nat start) = Err MissingHeader).
    2:{ apply (HG _ O); lia. }
    induction fuel as [|fuel IH]; intros start Hs Hf; [lia|].
    cbn [header_index_slow_loop hs_mem mem_of m_short hs_st]. fold short. fold key.
    destruct (bytes_find_spec short key start) as [[-> HNo]|(d & Hd & -> & HMd & HNo)]; [reflexivity|].
    assert (Hneg : (Z.of_nat d =? -1) = false) by (apply Z.eqb_neq; lia). rewrite Hneg.
    assert (Hnext : header_index_slow_loop H cp fuel (mk_headers st (mem_of es cache)) hash (Z.of_nat start + 1) = Err MissingHeader).
    { replace (Z.of_nat start + 1) with (Z.of_nat (S start)) by lia. apply IH; lia. }
    destruct (Z.eqb_spec (Z.of_nat d mod 4) 0) as [Hal|Hal]; [|cbn [bind]; exact Hnext].
    assert (Hq : exists q, d = (4 * q)%nat).
    { exists (d / 4)%nat. apply Nat2Z.inj. rewrite Nat2Z.inj_mul, Nat2Z.inj_div. change (Z.of_nat 4) with 4.
      pose proof (Z.div_mod (Z.of_nat d) 4 ltac:(lia)). lia. }
    destruct Hq as (q & ->). replace (Z.of_nat (4 * q) / 4) with (Z.of_nat q) by (rewrite Nat2Z.inj_mul, Z.mul_comm; change (Z.of_nat 4) with 4; now rewrite Z.div_mul by lia).
    assert (Hql : (q < length es)%nat).
    { assert (HX : length (firstn (length key) (skipn (4 * q) short)) = 4%nat) by (rewrite HMd; exact HK).
      rewrite firstn_length, skipn_length in HX. lia. }
    destruct (nth_error es q) as [eq|] eqn:HQ; [|apply nth_error_None in HQ; lia].
    rewrite Z.add_comm. change (cp_height cp + Z.of_nat q) with (idx q). rewrite (HV q eq HQ). cbn [bind].
    destruct (bytes_eqb_spec (H (e_raw eq)) hash) as [HE|HE]; [|cbn [bind]; exact Hnext].
    exfalso. apply (HNone eq); [eapply nth_error_In; eauto|exact HE].
  Qed.

  (** [lookup] *)
  Lemma lookup_found st es cache i e : forest es -> all80 es -> view st es -> cache_ok es cache -> nth_error es i = Some e ->
    lookup H cp (mk_headers st (mem_of es cache)) (H (e_raw e)) = Ok (hdr (e_raw e) (e_height e), e_chain e).
  Proof.
    intros HF H80 HV HC HN. unfold lookup. cbn [hs_mem mem_of m_cache].
    destruct (cache_get (H (e_raw e)) cache) as [v|] eqn:EC.
    - apply cache_get_In in EC. destruct (HC _ _ EC) as (i' & e' & HN' & Hk & ->).
      pose proof (forest_hash_inj _ _ _ _ es i i' e e' HF HN HN' Hk) as <-. congruence.
    - rewrite (slow_found st es cache i e HF HV HN). cbn [bind mem_of m_heights m_cidx m_chains].
      rewrite (pyindex_of_nat _ i (e_height e)) by (rewrite nth_error_map, HN; reflexivity). cbn [bind].
      destruct (hdr_spec H (e_raw e) (e_height e) (H80 e ltac:(eapply nth_error_In; eauto))) as (-> & _). cbn [bind].
      rewrite (pyindex_of_nat _ i (Z.of_nat (e_chain e))) by (rewrite nth_error_map, HN; reflexivity). cbn [bind].
      rewrite (pyindex_of_nat _ (e_chain e) (chain_of es (e_chain e))) by (apply chain_list_nth; eapply chain_lt; eauto).
      cbn [bind]. now rewrite Nat2Z.id.
  Qed.
  Lemma lookup_missing st es cache hash : forest es -> view st es -> cache_ok es cache -> 4 <= zlen hash ->
    (forall e, In e es -> H (e_raw e) <> hash) ->
    lookup H cp (mk_headers st (mem_of es cache)) hash = Err MissingHeader.
  Proof.
    intros HF HV HC H4 HNone. unfold lookup. cbn [hs_mem mem_of m_cache].
    destruct (cache_get hash cache) as [v|] eqn:EC.
    - apply cache_get_In in EC. destruct (HC _ _ EC) as (i' & e' & HN' & Hk & ->).
      exfalso. apply (HNone e'); [eapply nth_error_In; eauto|auto].
    - now rewrite (slow_missing st es cache hash HF HV H4 HNone).
  Qed.

  (** Positions of a chain *)
  Lemma pos_struct es c : forest es -> (c < nchains es)%nat ->
    exists h r, pos es c = h :: r /\ linked es (h :: r) /\ head_ok es c (h :: r).
  Proof.
    intros HF Hc. destruct (forest_pos _ _ _ _ es HF) as [HP _].
    destruct (HP (nchains es) c (chains_used_n es HF) Hc) as [HL HH].
    destruct (pos es c) as [|h r] eqn:EP; [contradiction|]. eauto.
  Qed.
  Lemma nth_error_pos es c b i : nth_error (pos es c) b = Some i -> exists e, nth_error es i = Some e /\ e_chain e = c.
  Proof. intros HN. apply nth_error_In in HN. apply pos_In. exact HN. Qed.
  Lemma nth_last {A} (l : list A) d : l <> [] -> nth_error l (length l - 1) = Some (last l d).
  Proof.
    intros Hl. destruct (exists_last Hl) as (r & x & ->). rewrite last_last, app_length. cbn [length].
    replace (length r + 1 - 1)%nat with (length r) by lia. apply nth_error_last.
  Qed.

  Lemma tip_spec es c : forest es -> (c < nchains es)%nat ->
    exists e, nth_error es (tip es c) = Some e /\ e_chain e = c /\
      (exists h eh, hd O (pos es c) = h /\ nth_error es h = Some eh /\ e_chain eh = c /\
         e_height e = e_height eh + zlen (pos es c) - 1 /\ 1 <= zlen (pos es c)) /\
      forall i e', nth_error es i = Some e' -> e_chain e' = c -> ancestor es i (tip es c).
  Proof.
    intros HF Hc. destruct (pos_struct es c HF Hc) as (h & r & EP & HL & HH). unfold tip.
    assert (HN0 : pos es c <> []) by (rewrite EP; discriminate).
    pose proof (nth_last (pos es c) O HN0) as HLast. rewrite <- EP in HL.
    destruct (nth_error_pos _ _ _ _ HLast) as (e & HNe & HCe). exists e. split; [exact HNe|]. split; [exact HCe|].
    assert (H0 : nth_error (pos es c) 0 = Some h) by (rewrite EP; reflexivity).
    destruct (nth_error_pos _ _ _ _ H0) as (eh & HNh & HCh). 
    assert (HLen : (1 <= length (pos es c))%nat) by (rewrite EP; cbn; lia).
    split.
    - exists h, eh. split; [rewrite EP; reflexivity|]. split; [auto|]. split; [auto|].
      destruct (linked_ancestor _ _ _ _ es (pos es c) 0 _ h _ eh HF HL ltac:(lia) H0 HLast HNh) as [_ (ek & HNk & Hh)].
      assert (ek = e) as -> by congruence. unfold zlen. lia.
    - intros i e' HN HE. assert (HI : In i (pos es c)) by (apply pos_In; eauto).
      apply In_nth_error in HI as (b & Hb). pose proof (nth_error_lt _ _ _ Hb).
      eapply (linked_ancestor _ _ _ _ es (pos es c) b _ i _ e' HF HL); [|exact Hb|exact HLast|exact HN]. lia.
  Qed.

  Lemma chain_of_spec es c : forest es -> (c < nchains es)%nat -> exists e,
    nth_error es (tip es c) = Some e /\ ch_tip (chain_of es c) = hdr (e_raw e) (e_height e) /\
    ch_work (chain_of es c) = e_work e /\ ch_height (chain_of es c) = e_height e.
  Proof.
    intros HF Hc. destruct (tip_spec es c HF Hc) as (e & HN & HC & (h & eh & Hh & HNh & _ & HH & Hl) & _).
    exists e. split; [exact HN|]. unfold chain_of. fold (tip es c). cbn [ch_tip ch_work ch_height ch_first ch_indices].
    rewrite (ent_nth _ _ _ HN). split; [reflexivity|]. split; [reflexivity|].
    unfold ch_height. cbn [ch_first ch_indices]. rewrite Hh, (ent_nth _ _ _ HNh), zlen_map. lia.
  Qed.

  (** [header_index] *)
  Lemma index_on_chain es fuel : forest es -> forall c i e h,
    (c < fuel)%nat -> nth_error es i = Some e -> e_chain e = c -> cp_height cp <= h <= e_height e ->
    exists k ek, header_index fuel (chain_list es) c h = Ok (idx k) /\ ancestor es k i /\
      nth_error es k = Some ek /\ e_height ek = h.
  Proof.
    intros HF. induction fuel as [|fuel IH]; intros c i e h Hc HN HE Hh; [lia|].
    cbn [header_index]. assert (Hcn : (c < nchains es)%nat) by (rewrite <- HE; eapply chain_lt; eauto).
    rewrite chain_list_nth by auto. unfold chain_of. cbn [ch_first ch_indices ch_parent].
    destruct (pos_struct es c HF Hcn) as (p0 & r & EP & HL & HH). rewrite <- EP in HL, HH.
    assert (H0 : nth_error (pos es c) 0 = Some p0) by (rewrite EP; reflexivity).
    destruct (nth_error_pos _ _ _ _ H0) as (e0 & HN0 & HC0).
    assert (Ehd : hd O (pos es c) = p0) by (rewrite EP; reflexivity). rewrite Ehd, (ent_nth _ _ _ HN0).
    assert (HI : In i (pos es c)) by (apply pos_In; eauto).
    apply In_nth_error in HI as (b & Hb).
    destruct (linked_ancestor _ _ _ _ es (pos es c) 0 b p0 i e0 HF HL ltac:(lia) H0 Hb HN0) as [HA (ei & HNi & Hhi)].
    assert (ei = e) as -> by congruence.
    destruct (Z.leb_spec (e_height e0) h) as [Hle|Hlt].
    - set (d := Z.to_nat (h - e_height e0)). assert (Hd : (d <= b)%nat) by lia.
      assert (Hk : exists k, nth_error (pos es c) d = Some k).
      { destruct (nth_error (pos es c) d) as [k|] eqn:E; [eauto|]. apply nth_error_None in E. apply nth_error_lt in Hb. lia. }
      destruct Hk as (k & Hk). rewrite znth_map.
      replace (h - e_height e0) with (Z.of_nat d) by lia. rewrite znth_of_nat, Hk. cbn [option_map].
      destruct (linked_ancestor _ _ _ _ es (pos es c) 0 d p0 k e0 HF HL ltac:(lia) H0 Hk HN0) as [_ (ek & HNk & Hhk)].
      exists k, ek. split; [reflexivity|]. split; [|split; [auto|lia]].
      eapply (linked_ancestor _ _ _ _ es (pos es c) d b k i ek HF HL Hd Hk Hb HNk).
    - unfold parent_chain. rewrite EP in HH. cbn [head_ok] in HH. destruct c as [|c'].
      + subst p0. destruct (forest_nonempty _ _ _ _ es HF) as (w & _ & HR).
        assert (e0 = mk_entry (cp_raw cp) (cp_height cp) 0 (cp_prev_work cp + w) None) as -> by congruence. cbn in Hlt. lia.
      + destruct HH as (e0' & j & pj & HNe & HPe & HNj & Hcj). assert (e0' = e0) as -> by congruence.
        rewrite (ent_nth _ _ _ HN0), HPe, (ent_nth _ _ _ HNj).
        destruct (forest_parent _ _ _ _ es p0 e0 j HF HN0 HPe) as (pj' & w & Hltj & HNj' & _ & Hhj & _).
        assert (pj' = pj) as -> by congruence.
        destruct (IH (e_chain pj) j pj h ltac:(lia) HNj eq_refl ltac:(lia)) as (k & ek & HI & HAk & HNk & Hhk).
        exists k, ek. split; [exact HI|]. split; [|auto].
        eapply ancestor_trans; [exact HAk|]. eapply ancestor_trans; [|exact HA].
        eapply ancestor_up; [econstructor; eauto|eauto|eauto].
  Qed.
  Lemma index_below es fuel : forest es -> forall c h, (c < fuel)%nat -> (c < nchains es)%nat -> h < cp_height cp ->
    header_index fuel (chain_list es) c h = if 0 <=? h then Ok h else Err MissingHeader.
  Proof.
    intros HF. induction fuel as [|fuel IH]; intros c h Hc Hcn Hh; [lia|].
    cbn [header_index]. rewrite chain_list_nth by auto. unfold chain_of. cbn [ch_first ch_indices ch_parent].
    destruct (pos_struct es c HF Hcn) as (p0 & r & EP & HL & HH). rewrite <- EP in HL.
    assert (H0 : nth_error (pos es c) 0 = Some p0) by (rewrite EP; reflexivity).
    destruct (nth_error_pos _ _ _ _ H0) as (e0 & HN0 & HC0).
    assert (Ehd : hd O (pos es c) = p0) by (rewrite EP; reflexivity). rewrite Ehd, (ent_nth _ _ _ HN0).
    destruct (forest_height_ge _ _ _ _ es p0 e0 HF HN0) as [Hge _].
    destruct (Z.leb_spec (e_height e0) h); [lia|]. unfold parent_chain. rewrite (ent_nth _ _ _ HN0).
    cbn [head_ok] in HH. destruct c as [|c'].
    - subst p0. destruct (forest_nonempty _ _ _ _ es HF) as (w & _ & HR).
      assert (e0 = mk_entry (cp_raw cp) (cp_height cp) 0 (cp_prev_work cp + w) None) as -> by congruence. reflexivity.
    - destruct HH as (e0' & j & pj & HNe & HPe & HNj & Hcj). assert (e0' = e0) as -> by congruence.
      rewrite HPe, (ent_nth _ _ _ HNj). apply IH; auto; [lia|]. eapply chain_lt; eauto.
  Qed.
  Lemma index_above es fuel c h : forest es -> (c < nchains es)%nat -> ch_height (chain_of es c) < h ->
    header_index (S fuel) (chain_list es) c h = Err MissingHeader.
  Proof.
    intros HF Hcn Hh. cbn [header_index]. rewrite chain_list_nth by auto.
    destruct (tip_spec es c HF Hcn) as (e & HN & HC & (p0 & e0 & Ehd & HN0 & _ & HHt & Hl) & _).
    unfold ch_height in Hh. unfold chain_of in *. cbn [ch_first ch_indices ch_parent] in *.
    rewrite Ehd, (ent_nth _ _ _ HN0) in *. rewrite zlen_map in Hh.
    destruct (Z.leb_spec (e_height e0) h); [|lia]. rewrite (proj2 (znth_None _ _)); [reflexivity|].
    right. rewrite zlen_map. lia.
  Qed.

  (** [raw_header_at_height] *)
  Lemma raw_at_on st es cache c e h : forest es -> view st es -> (c < nchains es)%nat ->
    nth_error es (tip es c) = Some e -> cp_height cp <= h <= e_height e ->
    exists k ek, raw_at (mk_headers st (mem_of es cache)) c h = Ok (e_raw ek) /\ ancestor es k (tip es c) /\
      nth_error es k = Some ek /\ e_height ek = h.
  Proof.
    intros HF HV Hc HN Hh. destruct (tip_spec es c HF Hc) as (e' & HN' & HC & _). assert (e' = e) as -> by congruence.
    destruct (index_on_chain es (S (length (chain_list es))) HF c (tip es c) e h) as (k & ek & HI & HA & HNk & Hk); auto.
    { rewrite chain_list_length. lia. }
    exists k, ek. split; [|auto]. unfold raw_at. cbn [hs_mem mem_of m_chains hs_st].
    rewrite HI. cbn [bind]. now apply HV.
  Qed.
  Lemma raw_at_anc st es cache c k ek : forest es -> view st es -> (c < nchains es)%nat ->
    ancestor es k (tip es c) -> nth_error es k = Some ek ->
    raw_at (mk_headers st (mem_of es cache)) c (e_height ek) = Ok (e_raw ek).
  Proof.
    intros HF HV Hc HA HN. destruct (ancestor_valid _ _ _ _ es _ _ HF HA) as (a & b & H1 & H2 & H3 & H4 & _).
    assert (a = ek) as -> by congruence. destruct (forest_height_ge _ _ _ _ es k ek HF HN) as [Hge _].
    destruct (raw_at_on st es cache c b (e_height ek) HF HV Hc H2 ltac:(lia)) as (k' & ek' & HR & HA' & HN' & Hh).
    rewrite HR. assert (k' = k) as -> by (eapply ancestor_fun; eauto). congruence.
  Qed.
  Lemma raw_at_below st es cache c h : forest es -> (c < nchains es)%nat -> h < cp_height cp ->
    raw_at (mk_headers st (mem_of es cache)) c h = if 0 <=? h then storage_get st h else Err MissingHeader.
  Proof.
    intros HF Hc Hh. unfold raw_at. cbn [hs_mem mem_of m_chains hs_st].
    rewrite index_below; auto; [|rewrite chain_list_length; lia]. now destruct (0 <=? h).
  Qed.
  Lemma raw_at_above st es cache c h : forest es -> (c < nchains es)%nat -> ch_height (chain_of es c) < h ->
    raw_at (mk_headers st (mem_of es cache)) c h = Err MissingHeader.
  Proof.
    intros HF Hc Hh. unfold raw_at. cbn [hs_mem mem_of m_chains hs_st].
    rewrite index_above; auto.
  Qed.

  (** Chain work *)
  Lemma chainwork_up st es cache c : forest es -> all80 es -> view st es -> (c < nchains es)%nat ->
    forall (n : nat) k ek e, nth_error es k = Some ek -> ancestor es k (tip es c) -> nth_error es (tip es c) = Some e ->
    e_height e = e_height ek + Z.of_nat n ->
    chainwork_range (raw_at (mk_headers st (mem_of es cache)) c) (e_height ek + 1) (e_height e + 1) = Ok (e_work e - e_work ek).
  Proof.
    intros HF H80 HV Hc. induction n as [|n IH]; intros k ek e HN HA HT Hn.
    - destruct (ancestor_valid _ _ _ _ es _ _ HF HA) as (a & b & H1 & H2 & _ & _ & H5).
      assert (k = tip es c) as -> by (apply H5; rewrite HN in H1; rewrite HT in H2; injection H1 as <-; injection H2 as <-; lia).
      assert (ek = e) as -> by congruence. unfold chainwork_range. rewrite zrange_nil by lia. cbn. f_equal. lia.
    - destruct (ancestor_at _ _ _ _ es (tip es c) e (e_height ek + 1) HF HT) as (m & em & HAm & HNm & Hhm).
      { destruct (forest_height_ge _ _ _ _ es k ek HF HN) as [Hge _]. lia. }
      assert (HP : e_parent em = Some k).
      { destruct (e_parent em) as [k'|] eqn:EP.
        - destruct (forest_parent _ _ _ _ es m em k' HF HNm EP) as (pk & w & _ & HNp & _ & Hh & _).
          f_equal. eapply (ancestor_fun _ _ _ _ es k' k (tip es c)); eauto; [|lia].
          eapply ancestor_trans; [|exact HAm]. eapply ancestor_up; [econstructor; eauto|eauto|eauto].
        - pose proof (forest_root_only _ _ _ _ es m em HF HNm EP) as ->.
          destruct (forest_height_ge _ _ _ _ es k ek HF HN) as [Hge _].
          destruct (forest_height_ge _ _ _ _ es O em HF HNm) as [Hge' _]. lia. }
      destruct (forest_parent _ _ _ _ es m em k HF HNm HP) as (pk & w & _ & HNp & _ & Hh & HW & Hw).
      assert (pk = ek) as -> by congruence.
      pose proof (IH m em e HNm HAm HT ltac:(lia)) as IHm. unfold chainwork_range in *.
      rewrite zrange_cons by lia. cbn [mapM]. rewrite <- Hhm at 1.
      rewrite (raw_at_anc st es cache c m em HF HV Hc HAm HNm). cbn [bind].
      rewrite (header_work_spec (e_raw em) w (H80 em ltac:(eapply nth_error_In; eauto)) HW). cbn [bind].
      rewrite <- Hhm.
      destruct (mapM _ (zrange (e_height em + 1) (e_height e + 1))) as [l|]; [|discriminate].
      cbn [bind fold_left] in *. injection IHm as IHm. rewrite fold_add_start. f_equal. lia.
  Qed.
  Lemma chainwork_to st es cache c k ek : forest es -> all80 es -> view st es -> (c < nchains es)%nat ->
    nth_error es k = Some ek -> ancestor es k (tip es c) ->
    chainwork_to_height (mk_headers st (mem_of es cache)) c (e_height ek) = Ok (e_work ek).
  Proof.
    intros HF H80 HV Hc HN HA. unfold chainwork_to_height. cbn [hs_mem mem_of m_chains].
    rewrite chain_list_nth by auto. destruct (chain_of_spec es c HF Hc) as (e & HT & HTip & HW & _).
    rewrite HTip, HW. destruct (hdr_spec H (e_raw e) (e_height e) (H80 e ltac:(eapply nth_error_In; eauto))) as (_ & _ & _ & -> & _).
    destruct (ancestor_valid _ _ _ _ es _ _ HF HA) as (a & b & H1 & H2 & _ & H4 & _).
    assert (a = ek) as -> by congruence. assert (b = e) as -> by congruence.
    rewrite (chainwork_up st es cache c HF H80 HV Hc (Z.to_nat (e_height e - e_height ek)) k ek e HN HA HT) by lia.
    cbn [bind]. f_equal. lia.
  Qed.
  Definition next_cache (es : list entry) (x : entry) (cache : list (bytes * (header * nat))) :=
    cache_add max_cache (chain_list (es ++ [x])) (hdr (e_raw x) (e_height x)) (e_chain x) cache.

  (** A valid extension of the tree. *)
  Definition extends (es : list entry) (raw : bytes) (j : nat) (p : entry) (w : Z) : Prop :=
    nth_error es j = Some p /\ H (e_raw p) = prev_of raw /\ (forall e, In e es -> H (e_raw e) <> H raw) /\
    raw_work raw w.

  Lemma new_entry_forest es raw j p w : forest es -> extends es raw j p w -> forest (es ++ [new_entry es raw j p w]).
  Proof.
    intros HF (Hj & HP & Hfresh & HW). unfold new_entry, tip.
    destruct (forest_pos _ _ _ _ es HF) as [_ HL].
    destruct (Nat.eqb_spec (last (pos es (e_chain p)) 0%nat) j) as [He|He].
    - apply forest_continue; auto. now apply (HL j p Hj).
    - apply forest_branch; auto; [intros HX; apply He; now apply (HL j p Hj)|].
      eapply chains_used_n; eauto.
  Qed.

  Lemma pos_lt es c i : In i (pos es c) -> (i < length es)%nat.
  Proof. intros HI. apply pos_In in HI as (e & HN & _). eapply nth_error_lt; eauto. Qed.

  Lemma chain_of_other es x c : forest es -> (c < nchains es)%nat -> e_chain x <> c ->
    chain_of (es ++ [x]) c = chain_of es c.
  Proof.
    intros HF Hc Hx. unfold chain_of. rewrite pos_snoc. destruct (Nat.eqb_spec (e_chain x) c); [contradiction|].
    rewrite app_nil_r. destruct (pos_struct es c HF Hc) as (h & r & EP & _ & _).
    assert (HNe : pos es c <> []) by (rewrite EP; discriminate).
    assert (HLst : (last (pos es c) 0 < length es)%nat) by (apply (pos_lt es c), last_In, HNe).
    assert (Hhd : (hd O (pos es c) < length es)%nat) by (rewrite EP; cbn [hd]; apply (pos_lt es c); rewrite EP; now left).
    rewrite !(ent_app es [x]) by auto. f_equal. unfold parent_chain. rewrite ent_app by auto.
    destruct (e_parent (ent es (hd O (pos es c)))) as [j|] eqn:EPj; [|reflexivity].
    destruct (nth_error es (hd O (pos es c))) as [eh|] eqn:EN; [|apply nth_error_None in EN; lia].
    rewrite (ent_nth _ _ _ EN) in EPj.
    destruct (forest_parent _ _ _ _ es _ eh j HF EN EPj) as (pj & w & Hlt & _). rewrite ent_app by lia. reflexivity.
  Qed.

  Lemma chain_list_continue es raw j p w : forest es -> extends es raw j p w -> tip es (e_chain p) = j ->
    let x := new_entry es raw j p w in let c := e_chain p in
    chain_list (es ++ [x]) =
    list_update (chain_list es) c
      (mk_chain (ch_parent (chain_of es c)) (hdr raw (e_height p + 1)) (e_work p + w)
                (ch_first (chain_of es c)) (ch_indices (chain_of es c) ++ [idx (length es)])).
  Proof.
    intros HF (Hj & HP & Hfresh & HW) Ht x c.
    assert (Hx : e_chain x = c) by (unfold x, new_entry; cbn [e_chain]; now rewrite Ht, Nat.eqb_refl).
    assert (Hc : (c < nchains es)%nat) by (eapply chain_lt; eauto).
    assert (HNC : nchains (es ++ [x]) = nchains es) by (rewrite nchains_app, Hx; lia).
    apply nth_error_ext. intros i. rewrite nth_error_update by (rewrite chain_list_length; auto).
    destruct (Nat.lt_ge_cases i (nchains es)) as [Hi|Hi].
    - rewrite (chain_list_nth (es ++ [x])) by (rewrite HNC; exact Hi). destruct (Nat.eqb_spec i c) as [->|Hne].
      + f_equal. unfold chain_of. rewrite pos_snoc, Hx, Nat.eqb_refl.
        destruct (pos_struct es c HF Hc) as (h & r & EP & _ & _).
        assert (HNe : pos es c <> []) by (rewrite EP; discriminate).
        assert (Hhd : (hd O (pos es c) < length es)%nat) by (rewrite EP; cbn [hd]; apply (pos_lt es c); rewrite EP; now left).
        rewrite hd_app by auto. rewrite last_last, ent_last. cbn [ch_parent ch_first ch_indices].
        rewrite (ent_app es [x]) by auto. rewrite map_app. cbn [map].
        f_equal. unfold parent_chain. rewrite ent_app by auto.
        destruct (e_parent (ent es (hd O (pos es c)))) as [k|] eqn:EPj; [|reflexivity].
        destruct (nth_error es (hd O (pos es c))) as [eh|] eqn:EN; [|apply nth_error_None in EN; lia].
        rewrite (ent_nth _ _ _ EN) in EPj.
        destruct (forest_parent _ _ _ _ es _ eh k HF EN EPj) as (pj & w' & Hlt & _). rewrite ent_app by lia. reflexivity.
      + rewrite chain_list_nth by auto. f_equal. apply chain_of_other; auto. congruence.
    - destruct (Nat.eqb_spec i c); [lia|].
      rewrite !(proj2 (nth_error_None _ _)); [reflexivity| |]; rewrite chain_list_length, ?HNC; exact Hi.
  Qed.

  Lemma chain_list_branch es raw j p w : forest es -> extends es raw j p w -> tip es (e_chain p) <> j ->
    let x := new_entry es raw j p w in
    chain_list (es ++ [x]) =
    chain_list es ++ [mk_chain (Some (e_chain p)) (hdr raw (e_height p + 1)) (e_work p + w) (e_height p + 1) [idx (length es)]].
  Proof.
    intros HF (Hj & HP & Hfresh & HW) Ht x.
    assert (Hx : e_chain x = nchains es) by (unfold x, new_entry; cbn [e_chain]; destruct (Nat.eqb_spec (tip es (e_chain p)) j); [contradiction|reflexivity]).
    assert (HNC : nchains (es ++ [x]) = S (nchains es)) by (rewrite nchains_app, Hx; lia).
    unfold chain_list. rewrite HNC, seq_S, map_app. cbn [Nat.add map]. f_equal.
    - apply map_ext_in. intros c Hc. apply in_seq in Hc. apply chain_of_other; auto; lia.
    - f_equal. unfold chain_of. rewrite pos_snoc, Hx, Nat.eqb_refl.
      assert (Hnone : pos es (nchains es) = []).
      { destruct (pos es (nchains es)) as [|i l] eqn:EP; [reflexivity|].
        assert (HI : In i (pos es (nchains es))) by (rewrite EP; now left). apply pos_In in HI as (e & HI & HE).
        pose proof (chain_lt es i e HF HI). lia. }
      rewrite Hnone. cbn [app hd last map]. rewrite ent_last. f_equal. unfold parent_chain. rewrite ent_last.
      cbn [x new_entry e_parent]. rewrite ent_app by (eapply nth_error_lt; eauto). now rewrite (ent_nth _ _ _ Hj).
  Qed.

  Lemma tips_update_In chains cache k v : In (k, v) (tips_update chains cache) ->
    In (k, v) cache \/ exists i c, nth_error chains i = Some c /\ k = h_hash (ch_tip c) /\ v = (ch_tip c, i).
  Proof.
    unfold tips_update. intros HI.
    assert (HG : forall l, In (k, v) (fold_left (fun c p => cache_set (h_hash (ch_tip (snd p))) (ch_tip (snd p), fst p) c) l cache) ->
      In (k, v) cache \/ exists p, In p l /\ k = h_hash (ch_tip (snd p)) /\ v = (ch_tip (snd p), fst p)).
    { clear HI. intros l. revert cache. induction l as [|p l IH]; intros cache HF; [auto|]. cbn [fold_left] in HF.
      destruct (IH _ HF) as [HX|(q & Hq & Hk & Hv)].
      - apply cache_set_In in HX as [[-> ->]|HX]; [right; exists p; split; [now left|auto]|auto].
      - right. exists q. split; [now right|auto]. }
    destruct (HG _ HI) as [HX|([i c] & Hp & Hk & Hv)]; [auto|]. right. apply enum_from_In in Hp as [_ Hp].
    rewrite Nat.sub_0_r in Hp. cbn [fst snd] in *. eauto.
  Qed.

  Lemma next_cache_ok es raw j p w cache : forest es -> extends es raw j p w -> all80 (es ++ [new_entry es raw j p w]) ->
    cache_ok es cache -> cache_ok (es ++ [new_entry es raw j p w]) (next_cache es (new_entry es raw j p w) cache).
  Proof.
    intros HF HE H80 HC. set (x := new_entry es raw j p w) in *. pose proof (new_entry_forest es raw j p w HF HE) as HF'. fold x in HF'.
    assert (HS : cache_ok (es ++ [x]) (cache_set (h_hash (hdr (e_raw x) (e_height x))) (hdr (e_raw x) (e_height x), e_chain x) cache)).
    { intros k v HI. apply cache_set_In in HI as [[-> ->]|HI].
      - exists (length es), x. split; [apply nth_error_last|]. split; [|reflexivity].
        apply (hdr_spec H (e_raw x) (e_height x)). apply H80. apply in_or_app. right. now left.
      - destruct (HC k v HI) as (i & e & HN & ? & ?). exists i, e. split; [now apply nth_error_app_l|auto]. }
    unfold next_cache, cache_add. destruct (max_cache <? _); [|exact HS].
    intros k v HI. apply tips_update_In in HI as [HI|(i & c & HN & -> & ->)]; [apply HS; eapply zdrop_in; eauto|].
    pose proof (nth_error_lt _ _ _ HN) as Hi. rewrite chain_list_length in Hi. rewrite chain_list_nth in HN by auto. injection HN as <-.
    destruct (chain_of_spec (es ++ [x]) i HF' Hi) as (e & HNe & HT & _). destruct (tip_spec (es ++ [x]) i HF' Hi) as (e' & HNe' & HCe & _).
    assert (e' = e) as -> by congruence. exists (tip (es ++ [x]) i), e. split; [exact HNe|]. rewrite HT, HCe. split; [|reflexivity].
    apply (hdr_spec H (e_raw e) (e_height e)). apply H80. eapply nth_error_In; eauto.
  Qed.

  Lemma add_chain_tip_Ok m ci hd0 : 0 <= h_height hd0 < 2 ^ 32 -> Z.of_nat ci < 2 ^ 16 ->
    add_chain_tip max_cache m ci hd0 =
    (mk_mem (m_chains m) (m_short m ++ ztake 4 (h_hash hd0)) (m_heights m ++ [h_height hd0])
       (m_cidx m ++ [Z.of_nat ci]) (cache_add max_cache (m_chains m) hd0 ci (m_cache m)), Ok tt).
  Proof.
    intros Hh Hc. unfold add_chain_tip. rewrite arr_append_Ok by auto. rewrite arr_append_Ok by lia.
    now rewrite slice_to_nonneg by lia.
  Qed.

  Lemma mem_of_snoc es x cache : zlen (e_raw x) = 80 ->
    mem_of (es ++ [x]) (next_cache es x cache) =
    mk_mem (chain_list (es ++ [x])) (concat (map short4 es) ++ ztake 4 (h_hash (hdr (e_raw x) (e_height x))))
      (map e_height es ++ [e_height x]) (map (fun e => Z.of_nat (e_chain e)) es ++ [Z.of_nat (e_chain x)])
      (next_cache es x cache).
  Proof.
    intros HL. unfold mem_of. rewrite !map_app, concat_app. cbn [map concat]. rewrite app_nil_r.
    destruct (hdr_spec H (e_raw x) (e_height x) HL) as (_ & -> & _). reflexivity.
  Qed.

  Lemma read_header_step st es cache raw j p w :
    forest es -> all80 es -> view st es -> cache_ok es cache ->
    storage_get st (idx (length es)) = Ok raw -> zlen raw = 80 -> extends es raw j p w ->
    idx (length es) < 2 ^ 32 ->
    let x := new_entry es raw j p w in
    Z.of_nat (e_chain x) < 2 ^ 16 ->
    read_header H max_cache cp (mk_headers st (mem_of es cache)) (idx (length es)) =
    (mk_headers st (mem_of (es ++ [x]) (next_cache es x cache)), Ok (e_chain x)).
  Proof.
    intros HF H80 HV HC HG HL HE Hidx x Hcx. pose proof HE as (Hj & HP & Hfresh & HW).
    unfold read_header. cbn [hs_st]. rewrite HG. cbn [bind].
    destruct (hdr_spec H raw (-1) HL) as (-> & _ & _ & _ & HPv & _ & _ & HWH). cbn [bind]. rewrite HPv, <- HP.
    rewrite (lookup_found st es cache j p HF H80 HV HC Hj). cbn [bind].
    destruct (hdr_spec H (e_raw p) (e_height p) (H80 p ltac:(eapply nth_error_In; eauto))) as (_ & Hhp & _ & Hhh & _).
    rewrite Hhh, HWH, Hhp. cbn [hs_mem mem_of m_chains].
    pose proof (chain_lt es j p HF Hj) as Hcp. rewrite chain_list_nth by auto.
    destruct (chain_of_spec es (e_chain p) HF Hcp) as (et & HNt & HTip & HWk & _).
    rewrite HTip. destruct (hdr_spec H (e_raw et) (e_height et) (H80 et ltac:(eapply nth_error_In; eauto))) as (_ & -> & _).
    destruct (forest_height_ge _ _ _ _ es j p HF Hj) as [Hge _]. pose proof (nth_error_lt _ _ _ Hj) as Hjl.
    assert (Hxh : e_height x = e_height p + 1) by reflexivity. assert (Hxr : e_raw x = raw) by reflexivity.
    destruct (hdr_spec H raw (e_height p + 1) HL) as (_ & Hnh & _ & Hnhh & _).
    unfold idx in Hidx.
    rewrite mem_of_snoc by exact HL. rewrite Hxr, Hxh.
    destruct (bytes_eqb_spec (H (e_raw et)) (H (e_raw p))) as [HEq|HNeq].
    - assert (Ht : tip es (e_chain p) = j) by (eapply forest_hash_inj; eauto). rewrite Ht in HNt.
      assert (et = p) as -> by congruence.
      assert (Hxc : e_chain x = e_chain p) by (unfold x, new_entry; cbn [e_chain]; now rewrite Ht, Nat.eqb_refl).
      unfold chain_append. rewrite arr_append_Ok by (unfold idx; lia). rewrite (hdr_work H raw (e_height p + 1) w HL HW).
      rewrite HWk. pose proof (chain_list_continue es raw j p w HF HE Ht) as HCL. cbv zeta in HCL. fold x in HCL.
      cbv iota. rewrite <- HCL. cbn [set_mem hs_st hs_mem m_short m_heights m_cidx m_cache].
      rewrite add_chain_tip_Ok; [|rewrite Hnhh; lia|rewrite <- Hxc; exact Hcx].
      cbn [m_chains m_short m_heights m_cidx m_cache bind]. unfold next_cache. rewrite Hnhh, Hxc, Hxr, Hxh. reflexivity.
    - assert (Ht : tip es (e_chain p) <> j) by (intros Ht; apply HNeq; rewrite Ht in HNt; congruence).
      assert (Hxc : e_chain x = nchains es) by (unfold x, new_entry; cbn [e_chain]; destruct (Nat.eqb_spec (tip es (e_chain p)) j); [contradiction|reflexivity]).
      assert (HAj : ancestor es j (tip es (e_chain p))).
      { destruct (tip_spec es (e_chain p) HF Hcp) as (_ & _ & _ & _ & HA). eapply HA; eauto. }
      pose proof (chainwork_to st es cache (e_chain p) j p HF H80 HV Hcp Hj HAj) as HCW.
      rewrite HCW. cbn [bind].
      unfold new_chain. rewrite (hdr_work H raw (e_height p + 1) w HL HW). cbn [bind].
      rewrite arr_append_Ok by (unfold idx; lia). cbn [bind app]. rewrite Hnhh.
      unfold add_chain. cbn [hs_mem mem_of m_chains m_short m_heights m_cidx m_cache ch_tip].
      rewrite chain_list_length.
      pose proof (chain_list_branch es raw j p w HF HE Ht) as HCL. cbv zeta in HCL. fold x in HCL.
      rewrite <- HCL. rewrite add_chain_tip_Ok; [|rewrite Hnhh; lia|rewrite <- Hxc; exact Hcx].
      cbn [m_chains m_short m_heights m_cidx m_cache bind set_mem hs_st]. unfold next_cache. rewrite Hnhh, Hxc, Hxr, Hxh. reflexivity.
  Qed.
End Mem.
