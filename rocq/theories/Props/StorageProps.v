(** C21, C22, C24, C25 and the file-level part of C23: the headers file. *)
From Verif.Model Require Import Py Packing Storage.
From Verif.Spec Require Import StorageSpec.
From Verif.Proofs Require Import PyFacts StorageFacts StorageHistory.

(** A concrete checkpoint and history that meet the hypotheses below. *)
Definition ex_cp : checkpoint := mk_checkpoint (repeat 7 80) 3 0.
Example ex_cp_ok : cp_ok ex_cp.
Proof. unfold cp_ok; cbn. repeat split; try lia. discriminate. Qed.
Example ex_history : exists st, history ex_cp [(1, repeat 9 80); (4, repeat 8 80); (3, repeat 7 80)] st.
Proof.
  eexists. apply history_set; [|cbn; lia|reflexivity]. change 4 with (extent [(3, repeat 7 80)]).
  apply history_append; [|cbn; lia|reflexivity]. exact (created_history ex_cp ex_cp_ok).
Qed.

(** C21. After every history the file is the array of its writes: reading an index gives the header
    last written there, the length is one more than the highest index written. *)
Theorem C21_array : forall cp w st, cp_ok cp -> history cp w st ->
  storage_len st = Ok (extent w) /\
  (forall i, 0 <= i -> storage_get st i = array_read w i) /\
  (forall i, - extent w <= i < 0 -> storage_get st i = array_read w (i + extent w)).
Proof. exact history_array. Qed.
Print Assumptions C21_array.

(** C21. Writes succeed and append returns the old length. *)
Theorem C21_writes : forall cp w st raw, cp_ok cp -> history cp w st -> zlen raw = 80 ->
  (extent w < 2 ^ 32 - 1 -> snd (storage_append st raw) = Ok (extent w)) /\
  (forall i, 0 <= i < 2 ^ 32 - 1 -> snd (storage_set st i raw) = Ok tt).
Proof. exact history_ops. Qed.
Print Assumptions C21_writes.

(** C21. Reading a slice reads each index in it. *)
Theorem C21_slice : forall cp w st a b, cp_ok cp -> history cp w st ->
  storage_slice st a b =
  mapM (array_read w) (zrange (slice_bound (extent w) a) (slice_bound (extent w) b)).
Proof. exact history_slice. Qed.
Print Assumptions C21_slice.
Example C21_slice_example :
  let st := fst (storage_append (created ex_cp) (repeat 8 80)) in
  storage_slice st (-2) 5 = Ok [repeat 7 80; repeat 8 80] /\ storage_slice st 2 4 = Err MissingHeader.
Proof. vm_compute. split; reflexivity. Qed.

(** C22. Reopening the file left by any history, with the checkpoint in place, gives back exactly the
    same storage; if the checkpoint has been overwritten the file is recreated. *)
Theorem C22_reopen : forall cp w st, cp_ok cp -> history cp w st ->
  (newest w (cp_height cp) = Some (cp_raw cp) ->
     open_or_create (Some (st_file st)) cp = (Some (st_file st), Ok st)) /\
  (newest w (cp_height cp) <> Some (cp_raw cp) -> exists st',
     open_or_create (Some (st_file st)) cp = (Some (st_file st'), Ok st') /\
     history cp [(cp_height cp, cp_raw cp)] st').
Proof.
  intros cp w st Hc HH. destruct (history_open cp w st Hc HH) as [H1 H2]. split; [exact H1|].
  intros Hn. exists (created cp). split; [now apply H2|]. now apply created_history.
Qed.
Print Assumptions C22_reopen.

(** C22. Whatever non-empty file is there, or none: it is opened as it is if it holds the checkpoint, and
    otherwise replaced by one holding only the checkpoint. *)
Theorem C22_open_any : forall cp path, cp_ok cp -> path <> Some [] ->
  exists f st, open_or_create path cp = (Some f, Ok st) /\ st_file st = f /\
    ((path = Some f /\ storage_get st (cp_height cp) = Ok (cp_raw cp)) \/
     history cp [(cp_height cp, cp_raw cp)] st).
Proof.
  intros cp [f|] Hc Hp.
  - destruct (open_any cp f Hc ltac:(congruence)) as (st & [(HO & Hf & HG)|(HO & ->)]).
    + exists f, st. auto.
    + exists (st_file (created cp)), (created cp). rewrite HO. split; [reflexivity|]. split; [reflexivity|].
      right. now apply created_history.
  - exists (st_file (created cp)), (created cp). pose proof (open_or_create_cases cp None Hc) as HC.
    cbn [open_file] in HC. split; [exact HC|]. split; [reflexivity|].
    right. now apply created_history.
Qed.
Print Assumptions C22_open_any.
Example C22_other_file : snd (open_or_create (Some [1; 2; 3]) ex_cp) = Ok (created ex_cp).
Proof. vm_compute. reflexivity. Qed.

(** C23 at the level of the file: whatever the crash point during append, every header already stored
    reads as before; the length is the old one, or the old one plus one. *)
Theorem C23_old_headers_kept : forall cp w st raw k, cp_ok cp -> history cp w st -> zlen raw = 80 ->
  extent w < 2 ^ 32 - 1 ->
  let st' := storage_after st (firstn k (append_effects st raw)) in
  (storage_len st' = Ok (extent w) \/ storage_len st' = Ok (extent w + 1)) /\
  forall i, 0 <= i < extent w -> storage_get st' i = array_read w i.
Proof.
  intros cp w st raw k Hc HH Hl He st'. destruct (history_rep cp w st Hc HH) as (bs & HR & HB).
  destruct (append_crash st bs (extent w) raw k HR Hl ltac:(lia)) as (bs' & [(HR' & HB')|[(HR' & HB')|(HR' & HS)]]); fold st' in HR'.
  - split; [left; eapply rep_len; eauto|]. intros i Hi. rewrite (rep_get _ _ _ _ HR') by lia. rewrite HB', HB by lia. reflexivity.
  - split; [right; eapply rep_len; eauto|]. intros i Hi. rewrite (rep_get _ _ _ _ HR') by lia. rewrite HB', HB by lia. reflexivity.
  - split; [right; eapply rep_len; eauto|]. intros i Hi. fold st' in HS. rewrite HS.
    pose proof (history_append cp w st raw HH He Hl) as HH'.
    destruct (history_array _ _ _ Hc HH') as (_ & HG & _). rewrite HG by lia.
    rewrite array_read_cons. destruct (Z.eqb_spec i (extent w)); [lia|reflexivity].
Qed.
Print Assumptions C23_old_headers_kept.

(** C24 is false: a crash just after the file is created empty leaves a file that can never be
    opened again, for any checkpoint and any previous contents. *)
Theorem C24_create_crash_refuted : forall cp f, cp_ok cp ->
  let crashed := apply_effects f (firstn 1 (fst (create_file cp))) in
  open_or_create (Some crashed) cp = (Some crashed, Err ValueError).
Proof.
  intros cp f Hc. rewrite create_file_Ok by exact Hc. exact (proj2 (create_crash cp f 1 Hc)).
Qed.
Print Assumptions C24_create_crash_refuted.

(** C24, the rest: every other crash point is recovered from.  Missing: the one above. *)
Theorem C24_create_crash_partial : forall cp f k, cp_ok cp -> k <> 1%nat -> f <> [] ->
  let crashed := apply_effects f (firstn k (fst (create_file cp))) in
  exists path st, open_or_create (Some crashed) cp = (path, Ok st).
Proof.
  intros cp f k Hc Hk Hf. rewrite create_file_Ok by exact Hc. cbn [fst].
  pose proof (create_crash cp f k Hc) as HC. destruct k as [|[|k]]; [|contradiction|eauto].
  cbv zeta in *. rewrite HC.
  destruct (open_any cp f Hc Hf) as (st & [(HO & _)|(HO & _)]); eauto.
Qed.
Print Assumptions C24_create_crash_partial.

(** C25 is false: two below the range, bytes that are no stored header are returned. *)
Theorem C25_negative_refuted : exists cp w st raw, cp_ok cp /\ history cp w st /\
  storage_get st (- extent w - 2) = Ok raw /\ forall i, newest w i <> Some raw.
Proof.
  exists ex_cp, [(3, repeat 7 80)], (created ex_cp), (repeat 0 72 ++ repeat 7 8).
  split; [exact ex_cp_ok|]. split; [exact (created_history ex_cp ex_cp_ok)|]. split; [vm_compute; reflexivity|].
  intros i. cbn [newest]. destruct (3 =? i); discriminate.
Qed.
Print Assumptions C25_negative_refuted.

(** C25, the part that holds: one below the range.  Missing: indices further below, see above. *)
Theorem C25_one_below_partial : forall cp w st, cp_ok cp -> history cp w st ->
  storage_get st (- extent w - 1) = Err MissingHeader.
Proof.
  intros cp w st Hc HH. destruct (history_rep cp w st Hc HH) as (bs & HR & HB).
  apply (get_minus_one st bs); [exact HR|]. pose proof HR as (_ & _ & _ & Hn & _).
  assert (0 < extent w); [|lia]. clear - HH Hc. pose proof Hc as (_ & _ & Hc3 & _).
  induction HH; cbn [extent] in *; auto; lia.
Qed.
Print Assumptions C25_one_below_partial.
