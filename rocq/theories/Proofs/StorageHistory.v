(** Histories of operations on a headers file. *)
From Verif.Model Require Import Py Packing Storage.
From Verif.Spec Require Import StorageSpec.
From Verif.Proofs Require Import PyFacts PackingFacts StorageFacts RequiredBitsFacts.

(** [history cp w st]: [st] results from creating a file for [cp], then any sequence of item
    assignments and appends (indices below 2^32 - 1; whatever is passed that is not 80 bytes is
    refused), and closing and reopening while the checkpoint is in place; [w] is the list of writes
    made, newest first. *)
Inductive history (cp : checkpoint) : writes -> storage -> Prop :=
| history_create path st : open_or_create None cp = (path, Ok st) -> history cp [(cp_height cp, cp_raw cp)] st
| history_set w st i raw : history cp w st -> 0 <= i < 2 ^ 32 - 1 -> zlen raw = 80 ->
    history cp ((i, raw) :: w) (fst (storage_set st i raw))
| history_set_bad w st i raw : history cp w st -> zlen raw <> 80 ->
    history cp w (fst (storage_set st i raw))
| history_append w st raw : history cp w st -> extent w < 2 ^ 32 - 1 -> zlen raw = 80 ->
    history cp ((extent w, raw) :: w) (fst (storage_append st raw))
| history_append_bad w st raw : history cp w st -> zlen raw <> 80 ->
    history cp w (fst (storage_append st raw))
| history_reopen w st path st' : history cp w st -> newest w (cp_height cp) = Some (cp_raw cp) ->
    open_or_create (Some (st_file st)) cp = (path, Ok st') -> history cp w st'.

Lemma extent_nonneg w : 0 <= extent w.
Proof. induction w as [|[j r] w IH]; cbn [extent]; lia. Qed.

Lemma array_read_cons i raw w j :
  array_read ((i, raw) :: w) j =
  if j =? i then (if bytes_eqb raw empty_header then Err MissingHeader else Ok raw) else array_read w j.
Proof.
  unfold array_read. cbn [newest]. rewrite (Z.eqb_sym i j). destruct (j =? i); [|reflexivity].
  fold empty_header. destruct (list_eq_dec Z.eq_dec raw empty_header) as [->|Hn]; [now rewrite bytes_eqb_refl|].
  destruct (bytes_eqb_spec raw empty_header); [contradiction|reflexivity].
Qed.

Lemma storage_append_bad st raw : zlen raw <> 80 -> fst (storage_append st raw) = st.
Proof.
  intros HL. unfold storage_append, set_raw_header. destruct (storage_len st); [|reflexivity].
  destruct (Z.eqb_spec (zlen raw) 80); [contradiction|]. destruct st; reflexivity.
Qed.

(** Every history leaves a well-formed file representing its writes. *)
Lemma history_rep cp w st : cp_ok cp -> history cp w st ->
  exists bs, rep st bs (extent w) /\ forall i, 0 <= i -> block_get bs i = array_read w i.
Proof.
  intros Hc HH. induction HH as [path st HO|w st i raw HH IH Hi Hl|w st i raw HH IH Hl|w st raw HH IH He Hl|w st raw HH IH Hl|w st path st' HH IH Hn HO].
  - pose proof (open_or_create_cases cp None Hc) as HC. cbn [open_file] in HC. rewrite HC in HO.
    injection HO as _ <-. pose proof Hc as (Hc1 & Hc2 & Hc3 & Hc4). exists (created_blocks cp). split.
    + cbn [extent]. replace (Z.max (cp_height cp + 1) 0) with (cp_height cp + 1) by lia. now apply created_rep.
    + intros i Hi. rewrite created_get by auto. rewrite array_read_cons. destruct (i =? cp_height cp); [|reflexivity].
      destruct (bytes_eqb_spec (cp_raw cp) empty_header); [contradiction|reflexivity].
  - destruct IH as (bs & HR & HB).
    destruct (rep_set st bs (extent w) i raw HR Hl ltac:(lia) ltac:(lia)) as (st' & -> & HR').
    exists (zupdate (grown bs i) i raw). split; [cbn [fst extent]; now replace (Z.max (i + 1) (extent w)) with (Z.max (extent w) (i + 1)) by lia|].
    intros j Hj. rewrite block_get_update by lia. rewrite array_read_cons, <- HB by lia. reflexivity.
  - rewrite storage_set_len_err by auto. exact IH.
  - destruct IH as (bs & HR & HB). pose proof (extent_nonneg w).
    destruct (rep_append st bs (extent w) raw HR Hl ltac:(lia)) as (st' & -> & HR' & _).
    exists (zupdate (grown bs (extent w)) (extent w) raw). split; [cbn [fst extent]; now replace (Z.max (extent w + 1) (extent w)) with (extent w + 1) by lia|].
    intros j Hj. rewrite block_get_update by lia. rewrite array_read_cons, <- HB by lia. reflexivity.
  - rewrite storage_append_bad by auto. exact IH.
  - destruct IH as (bs & HR & HB). pose proof Hc as (Hc1 & Hc2 & Hc3 & Hc4).
    assert (HG : block_get bs (cp_height cp) = Ok (cp_raw cp)).
    { rewrite HB by lia. unfold array_read. rewrite Hn. fold empty_header.
      destruct (list_eq_dec Z.eq_dec (cp_raw cp) empty_header); [contradiction|reflexivity]. }
    pose proof (open_or_create_cases cp (Some (st_file st)) Hc) as HC.
    rewrite (rep_open st bs _ cp HR Hc), HG in HC. cbn [bind] in HC. rewrite bytes_eqb_refl in HC.
    rewrite HC in HO. injection HO as _ <-. eauto.
Qed.

Lemma history_array cp w st : cp_ok cp -> history cp w st ->
  storage_len st = Ok (extent w) /\
  (forall i, 0 <= i -> storage_get st i = array_read w i) /\
  (forall i, - extent w <= i < 0 -> storage_get st i = array_read w (i + extent w)).
Proof.
  intros Hc HH. destruct (history_rep cp w st Hc HH) as (bs & HR & HB).
  split; [eapply rep_len; eauto|]. split; intros i Hi.
  - rewrite (rep_get _ _ _ _ HR Hi). auto.
  - rewrite (rep_get_neg _ _ _ _ HR Hi). apply HB. lia.
Qed.

Lemma history_ops cp w st raw : cp_ok cp -> history cp w st -> zlen raw = 80 ->
  (extent w < 2 ^ 32 - 1 -> snd (storage_append st raw) = Ok (extent w)) /\
  (forall i, 0 <= i < 2 ^ 32 - 1 -> snd (storage_set st i raw) = Ok tt).
Proof.
  intros Hc HH Hl. destruct (history_rep cp w st Hc HH) as (bs & HR & HB). split.
  - intros He. destruct (rep_append st bs (extent w) raw HR Hl ltac:(lia)) as (st' & -> & _). reflexivity.
  - intros i Hi. destruct (rep_set st bs (extent w) i raw HR Hl ltac:(lia) ltac:(lia)) as (st' & -> & _). reflexivity.
Qed.

Lemma history_slice cp w st a b : cp_ok cp -> history cp w st ->
  storage_slice st a b =
  mapM (array_read w) (zrange (slice_bound (extent w) a) (slice_bound (extent w) b)).
Proof.
  intros Hc HH. destruct (history_rep cp w st Hc HH) as (bs & HR & HB).
  unfold storage_slice. rewrite (rep_len _ _ _ HR). cbn [bind]. apply mapM_ext. intros x Hx.
  apply zrange_In in Hx. rewrite <- HB; [eapply rep_header; eauto|].
  all: unfold slice_bound in Hx; pose proof (extent_nonneg w); destruct (a <? 0) eqn:?; lia.
Qed.

(** Opening *)
Lemma history_open cp w st : cp_ok cp -> history cp w st ->
  (newest w (cp_height cp) = Some (cp_raw cp) -> open_or_create (Some (st_file st)) cp = (Some (st_file st), Ok st)) /\
  (newest w (cp_height cp) <> Some (cp_raw cp) ->
     open_or_create (Some (st_file st)) cp = (Some (st_file (created cp)), Ok (created cp))).
Proof.
  intros Hc HH. destruct (history_rep cp w st Hc HH) as (bs & HR & HB).
  pose proof Hc as (Hc1 & Hc2 & Hc3 & Hc4).
  pose proof (open_or_create_cases cp (Some (st_file st)) Hc) as HC.
  rewrite (rep_open st bs _ cp HR Hc), HB in HC by lia. unfold array_read in HC. fold empty_header in HC. split; intros Hn.
  - rewrite Hn in HC. destruct (list_eq_dec Z.eq_dec (cp_raw cp) empty_header); [contradiction|].
    cbn [bind] in HC. rewrite bytes_eqb_refl in HC. exact HC.
  - destruct (newest w (cp_height cp)) as [raw|]; [|exact HC].
    destruct (list_eq_dec Z.eq_dec raw empty_header); [exact HC|]. cbn [bind] in HC.
    destruct (bytes_eqb_spec raw (cp_raw cp)); [congruence|exact HC].
Qed.

Lemma created_history cp : cp_ok cp -> history cp [(cp_height cp, cp_raw cp)] (created cp).
Proof.
  intros Hc. eapply history_create. apply (open_or_create_cases cp None Hc).
Qed.

Lemma open_any cp f : cp_ok cp -> f <> [] ->
  exists st, (open_or_create (Some f) cp = (Some f, Ok st) /\ st_file st = f /\ storage_get st (cp_height cp) = Ok (cp_raw cp))
    \/ (open_or_create (Some f) cp = (Some (st_file (created cp)), Ok (created cp)) /\ st = created cp).
Proof.
  intros Hc Hf. pose proof Hc as (Hc1 & Hc2 & Hc3 & Hc4).
  pose proof (open_or_create_cases cp (Some f) Hc) as HC. destruct f as [|b f]; [contradiction|].
  unfold open_file in HC. set (ff := b :: f) in *.
  destruct (Z.leb_spec 8 (zlen ff)); [|exists (created cp); right; now split].
  unfold unpack_le_uint16 in HC.
  rewrite !unpack_uint_le_Ok in HC; [|rewrite pyslice_nonneg by lia; apply Nat2Z.inj; fold (zlen (ztake (4 - 2) (zdrop 2 ff))); rewrite zlen_ztake, zlen_zdrop; lia
   |rewrite pyslice_nonneg by lia; apply Nat2Z.inj; fold (zlen (ztake (2 - 0) (zdrop 0 ff))); rewrite zlen_ztake, zlen_zdrop; lia].
  cbn [bind] in HC. destruct (_ =? 0) in HC; [|exists (created cp); right; now split].
  set (st := mk_storage ff (le_int (pyslice ff 0 2))) in *.
  destruct (storage_get st (cp_height cp)) as [raw|e] eqn:HG.
  - cbn [bind] in HC. destruct (bytes_eqb_spec raw (cp_raw cp)) as [->|]; [|exists (created cp); right; now split].
    exists st. left. auto.
  - cbn [bind] in HC. assert (e = MissingHeader) as ->.
    { unfold storage_get in HG. destruct (Z.ltb_spec (cp_height cp) 0); [lia|]. unfold storage_header in HG.
      destruct (_ || _) in HG; congruence. }
    exists (created cp). right. now split.
Qed.

(** Crashes *)
Lemma create_crash cp f k : cp_ok cp ->
  let f' := apply_effects f (firstn k (create_effects cp)) in
  match k with
  | O => f' = f
  | 1%nat => f' = [] /\ open_or_create (Some f') cp = (Some f', Err ValueError)
  | _ => open_or_create (Some f') cp = (Some (st_file (created cp)), Ok (created cp))
  end.
Proof.
  intros Hc f'. pose proof Hc as (Hc1 & Hc2 & Hc3 & Hc4).
  assert (HT : apply_effect f (Truncate 0) = []).
  { cbn [apply_effect]. rewrite ztake_0 by lia. pose proof (zlen_nonneg f). unfold zrepeat.
    now replace (Z.to_nat (0 - zlen f)) with O by lia. }
  assert (HW : apply_effect [] (Write 0 (file8 (cp_height cp + 1))) = file8 (cp_height cp + 1)).
  { cbn [apply_effect ztake zdrop]. unfold zrepeat. cbn [repeat Z.to_nat zlen length Z.of_nat Z.sub Z.opp Z.add app].
    now rewrite app_nil_r. }
  destruct k as [|[|[|k]]]; [reflexivity| | |].
  - subst f'. cbn [firstn create_effects apply_effects fold_left]. rewrite HT. split; reflexivity.
  - assert (EF : f' = file8 (cp_height cp + 1)).
    { subst f'. cbn [firstn create_effects apply_effects fold_left]. now rewrite HT, HW. }
    rewrite EF. pose proof (open_or_create_cases cp (Some (file8 (cp_height cp + 1))) Hc) as HC.
    unfold open_file in HC. cbn [file8 app] in HC.
    change (8 :: 0 :: 0 :: 0 :: le_digits 4 (cp_height cp + 1)) with (file8 (cp_height cp + 1)) in HC.
    rewrite zlen_file8 in HC. change (8 <=? 8) with true in HC. cbv iota in HC.
    rewrite !pyslice_nonneg in HC by lia.
    change (ztake (2 - 0) (zdrop 0 (file8 (cp_height cp + 1)))) with [8; 0] in HC.
    change (ztake (4 - 2) (zdrop 2 (file8 (cp_height cp + 1)))) with [0; 0] in HC.
    change (unpack_le_uint16 [8; 0]) with (Ok 8) in HC. change (unpack_le_uint16 [0; 0]) with (Ok 0) in HC.
    cbn [bind Z.eqb] in HC.
    assert (HG : storage_get (mk_storage (file8 (cp_height cp + 1)) 8) (cp_height cp) = Err MissingHeader).
    { unfold storage_get. destruct (Z.ltb_spec (cp_height cp) 0); [lia|]. unfold storage_header, offset. cbn [st_file st_reserved].
      rewrite pyslice_nonneg by lia. rewrite zdrop_all by (rewrite zlen_file8; lia). reflexivity. }
    rewrite HG in HC. cbn [bind] in HC. exact HC.
  - assert (EF : f' = st_file (created cp)).
    { subst f'. change (firstn (S (S (S k))) (create_effects cp)) with (firstn (S (S (S k))) (create_effects cp ++ [])).
      rewrite firstn_all2 by (cbn; lia). rewrite app_nil_r. now apply create_apply. }
    rewrite EF. pose proof (open_or_create_cases cp (Some (st_file (created cp))) Hc) as HC.
    rewrite open_created in HC by auto. exact HC.
Qed.

(** A crash during append: the file is unchanged in what it represents, or has the count raised but
    not the header, or is complete. *)
Lemma append_crash st bs n raw k : rep st bs n -> zlen raw = 80 -> n + 1 < 2 ^ 32 ->
  let st' := storage_after st (firstn k (append_effects st raw)) in
  exists bs', 
    (rep st' bs' n /\ (forall i, 0 <= i -> block_get bs' i = block_get bs i)) \/
    (rep st' bs' (n + 1) /\ (forall i, 0 <= i -> block_get bs' i = block_get bs i)) \/
    (rep st' bs' (n + 1) /\ st' = fst (storage_append st raw)).
Proof.
  intros HR Hl Hn st'. destruct (rep_append st bs n raw HR Hl Hn) as (sa & HA & HRA & HE).
  pose proof HR as (Hr & Hf & HB & Hn0 & Hn2).
  destruct (Nat.le_gt_cases (length (append_effects st raw)) k) as [Hk|Hk].
  - exists (zupdate (grown bs n) n raw). right. right.
    assert (ES : st' = sa).
    { subst st'. rewrite firstn_all2 by exact Hk. unfold storage_append in HA. unfold append_effects.
      destruct (storage_len st); [|discriminate HA]. destruct (set_raw_header st a raw) as [es r]. cbn [fst].
      injection HA as HA _. exact HA. }
    rewrite ES, HA. auto.
  - assert (Hk' := Hk). rewrite HE in Hk'. unfold set_effects in Hk'. rewrite Z.leb_refl in Hk'.
    pose proof (zlen_grown bs n ltac:(lia)) as [HG1 HG2]. pose proof (grown_80 bs n HB) as HGB.
    assert (HX : st_file st' = apply_effects (file8 n ++ concat bs) (firstn k (
        (if zlen bs <=? n then [Truncate (8 + (n + 5000) * 80)] else []) ++ [Write 4 (le_digits 4 (n + 1))]))).
    { subst st'. unfold storage_after. cbn [st_file]. rewrite Hf, HE. unfold set_effects. rewrite Z.leb_refl.
      rewrite app_assoc. rewrite firstn_app. rewrite ?app_length in Hk'; cbn [length] in Hk'.
      match goal with |- context [firstn ?j [Write (8 + n * 80) raw]] => replace j with O by (rewrite ?app_length; cbn [length]; lia) end.
      now rewrite firstn_O, app_nil_r. }
    assert (Hres : st_reserved st' = 8) by exact Hr.
    clearbody st'.
    assert (HTr : zlen bs <= n -> apply_effect (file8 n ++ concat bs) (Truncate (8 + (n + 5000) * 80)) = file8 n ++ concat (grown bs n)).
    { intros Hle. rewrite truncate_grow by (auto; lia). unfold grown. destruct (Z.leb_spec (zlen bs) n); [reflexivity|lia]. }
    destruct (Z.leb_spec (zlen bs) n) as [Hle|Hle].
    + destruct k as [|[|k]].
      * exists bs. left. split; [|auto]. repeat split; auto; lia.
      * exists (grown bs n). left. split; [|intros; apply grown_get; lia].
        cbn [app firstn apply_effects fold_left] in HX. rewrite HTr in HX by auto. repeat split; auto; lia.
      * exists (grown bs n). right. left. split; [|intros; apply grown_get; lia].
        cbn [app firstn apply_effects fold_left] in HX. rewrite firstn_nil in HX. cbn [fold_left] in HX. rewrite HTr in HX by auto. rewrite write_count in HX.
        repeat split; auto; lia.
    + destruct k as [|k].
      * exists bs. left. split; [|auto]. repeat split; auto; lia.
      * exists bs. right. left. split; [|auto].
        cbn [app firstn apply_effects fold_left] in HX. rewrite firstn_nil in HX. cbn [fold_left] in HX. rewrite write_count in HX.
        repeat split; auto; lia.
Qed.

(** The index just below the range *)
Lemma get_minus_one st bs n : rep st bs n -> 1 <= zlen bs -> storage_get st (- n - 1) = Err MissingHeader.
Proof.
  intros HR Hb. pose proof HR as (Hr & Hf & HB & Hn & Hn2). unfold storage_get.
  destruct (Z.ltb_spec (- n - 1) 0); [|lia]. rewrite (rep_len _ _ _ HR). cbn [bind].
  unfold storage_header, offset. rewrite Hr. replace (8 + (- n - 1 + n) * 80) with (-72) by lia.
  unfold pyslice, slice_bound. cbn [Z.ltb Z.compare Z.add Z.opp Z.pos_sub Pos.sub Pos.sub_mask Pos.succ_double_mask Pos.double_mask Pos.pred_double Pos.succ_double_mask].
  assert (HL : zlen (st_file st) = 8 + 80 * zlen bs) by (rewrite Hf, zlen_app, zlen_file8, zlen_concat80; auto).
  change (-72 + 80) with 8. cbn [Z.ltb Z.compare].
  rewrite ztake_0 by lia. reflexivity.
Qed.

(** The crash point just before the last effect: the count is written, the header is not. *)
Lemma append_crash_last st bs n raw : rep st bs n -> zlen raw = 80 -> n + 1 < 2 ^ 32 ->
  let es := append_effects st raw in
  exists bs', rep (storage_after st (firstn (pred (length es)) es)) bs' (n + 1) /\
    (forall i, 0 <= i -> block_get bs' i = block_get bs i).
Proof.
  intros HR Hl Hn. cbv zeta. destruct (rep_append st bs n raw HR Hl Hn) as (sa & HA & HRA & HE). rewrite HE.
  pose proof HR as (Hr & Hf & HB & Hn0 & Hn2).
  pose proof (zlen_grown bs n ltac:(lia)) as [HG1 HG2]. pose proof (grown_80 bs n HB) as HGB.
  exists (grown bs n). split; [|intros; apply grown_get; lia].
  unfold set_effects. rewrite Z.leb_refl. unfold rep, storage_after. cbn [st_reserved st_file]. rewrite Hf.
  split; [exact Hr|]. split; [|split; [exact HGB|lia]].
  destruct (Z.leb_spec (zlen bs) n) as [Hle|Hle].
  - cbn [app length pred firstn apply_effects fold_left].
    rewrite truncate_grow by (auto; lia). rewrite write_count. unfold grown. destruct (Z.leb_spec (zlen bs) n); [reflexivity|lia].
  - cbn [app length pred firstn apply_effects fold_left]. rewrite write_count. unfold grown. destruct (Z.leb_spec (zlen bs) n); [lia|reflexivity].
Qed.
