(** C110: a power failure loses at most the headers connected since the last flush. *)
From Verif.Model Require Import Py Packing Bits Coin Work Storage Chain.
From Verif.Spec Require Import Numbers WorkSpec ChainSpec HeadersHistory PowerSpec.
From Verif.Proofs Require Import PyFacts WorkFacts StorageFacts ForestFacts ChainFacts HeadersFacts ChainTheorems PowerFacts.

(** The claim: whatever the calls of connect since the flush and whatever pages the system wrote back, the
    headers that were flushed are still in the file, the file opens, and it gives no header that connect would
    refuse.  The first part holds; the second and third do not. *)

(** The flushed headers are in the file at their places ([mk_storage f 8]: the file [f], read as opening it
    does). *)
Theorem C110_kept_partial : forall H required max_cache cp U sets page log s vs log' s' f,
  assumptions H cp U -> 0 < page -> reach H required max_cache cp U sets log s ->
  session H required max_cache cp U log s vs log' s' -> power_failure page vs f ->
  forall i, 0 <= i < cp_height cp + zlen log -> storage_get (mk_storage f 8) i = storage_get (hs_st s) i.
Proof. intros; eapply power_keeps; eauto. Qed.
Print Assumptions C110_kept_partial.

(** If the page with the count was not written back, opening the file gives exactly what was flushed: the same
    chains, tips, work, lookups (all of the object's memory) and headers. *)
Theorem C110_recovered_partial : forall H required max_cache cp U sets page log s vs log' s' f,
  assumptions H cp U -> 0 < page -> reach H required max_cache cp U sets log s ->
  session H required max_cache cp U log s vs log' s' -> power_failure page vs f ->
  firstn 8 f = firstn 8 (st_file (hs_st s)) ->
  exists s1, from_file H max_cache cp (Some f) = (Some f, Ok s1) /\ hs_mem s1 = hs_mem s /\
    storage_len (hs_st s1) = storage_len (hs_st s) /\
    forall i, 0 <= i < cp_height cp + zlen log -> storage_get (hs_st s1) i = storage_get (hs_st s) i.
Proof. intros; eapply power_recovers; eauto. Qed.
Print Assumptions C110_recovered_partial.

(** The file may not open again, after any new header was connected, for any size of pages. *)
Theorem C110_opens_refuted : forall H required max_cache cp U sets page log s raw s' r,
  assumptions H cp U -> reach H required max_cache cp U sets log s -> U raw -> room cp log s -> ~ In raw log ->
  connect H required max_cache cp s raw = (s', Ok r) ->
  exists vs f, session H required max_cache cp U log s vs (log ++ [raw]) s' /\ power_failure page vs f /\
    from_file H max_cache cp (Some f) = (Some f, Err MissingHeader).
Proof. intros; eapply power_breaks; eauto. Qed.
Print Assumptions C110_opens_refuted.

(** It may open with a header that connect refuses, and that counts for more work than any header can be worth.
    This happens whenever a page ends in the connected header between its 36th and its 72nd byte: the header's
    bits field then reads zero, opening checks neither the bits nor the proof of work, and the work of a
    header with bits zero is 2^256.  Its chain is then the longest, unless another has
    2^256 more work than its parent. *)
Theorem C110_torn_refuted : forall H required max_cache cp U sets page d log s raw s' r,
  assumptions H cp U -> reach H required max_cache cp U sets log s -> U raw -> room cp log s -> ~ In raw log ->
  connect H required max_cache cp s raw = (s', Ok r) ->
  0 < page -> 36 <= d <= 72 -> (8 + 80 * (cp_height cp + zlen log) + d) mod page = 0 ->
  U (torn d raw) -> ~ In (torn d raw) log -> torn d raw <> repeat 0 80 -> H (torn d raw) <> repeat 0 32 ->
  (forall x, snd (connect H required max_cache cp s (torn d raw)) <> Ok x) /\
  exists vs f s1 hd c ch phd pc pw, session H required max_cache cp U log s vs (log ++ [raw]) s' /\ power_failure page vs f /\
    from_file H max_cache cp (Some f) = (Some f, Ok s1) /\
    lookup H cp s1 (H (torn d raw)) = Ok (hd, c) /\ h_raw hd = torn d raw /\
    nth_error (m_chains (hs_mem s1)) c = Some ch /\ ch_tip ch = hd /\
    lookup H cp s (prev_of raw) = Ok (phd, pc) /\ chainwork_to_height s pc (h_height phd) = Ok pw /\ ch_work ch = pw + 2 ^ 256 /\
    ((forall ch', In ch' (m_chains (hs_mem s)) -> ch_work ch' < pw + 2 ^ 256) -> longest_chain s1 = Some c).
Proof. intros; eapply power_torn; eauto. Qed.
Print Assumptions C110_torn_refuted.

(** With pages of 4096 bytes this concerns three of every 256 places in the file. *)
Theorem C110_places : forall n, 0 <= n ->
  (exists d, 36 <= d <= 72 /\ (8 + 80 * n + d) mod 4096 = 0) <-> n mod 256 = 153 \/ n mod 256 = 204 \/ n mod 256 = 255.
Proof.
  intros n Hn. split.
  - intros (d & Hd & HM). assert (HD : d = 40 \/ d = 56 \/ d = 72) by lia. destruct HD as [-> | [-> | ->] ]; lia.
  - intros [HM|[HM|HM]]; [exists 40|exists 56|exists 72]; lia.
Qed.
Print Assumptions C110_places.

(** A case: the checkpoint at height 24, one header connected, sectors of 512 bytes, the last of which ends 40
    bytes into the header. *)
Module Example.
  Definition H (b : bytes) : bytes := map (fun x => x mod 256) (firstn 32 (firstn 12 (skipn 68 b) ++ skipn 36 b ++ repeat 0 32)).
  Definition raw (prev : bytes) (n : Z) : bytes :=
    [1; 0; 0; 0] ++ prev ++ (n :: repeat 0 31) ++ [n; 0; 0; 0] ++ [255; 255; 127; 32] ++ [0; 0; 0; 0].
  Definition root := raw (repeat 0 32) 1.
  Definition cp : checkpoint := mk_checkpoint root 24 5.
  Definition a := raw (H root) 2.
  Definition U (x : bytes) : Prop := In x [root; a; torn 40 a].
  Lemma ok : assumptions H cp U.
  Proof.
    split.
    - intros x. unfold H, zlen. rewrite map_length, firstn_length, !app_length, repeat_length. lia.
    - intros x. unfold H. generalize (firstn 32 (firstn 12 (skipn 68 x) ++ skipn 36 x ++ repeat 0 32)). intros l. induction l as [|y l IH]; [reflexivity|].
      cbn [map]. rewrite bytes_ok_cons, IH, andb_true_r. apply byte_ok_iff. apply Z.mod_pos_bound. lia.
    - intros x y Hx Hy. unfold U in *. cbn [In] in *.
      repeat match goal with HX : _ \/ _ |- _ => destruct HX as [<-|HX] | HX : False |- _ => destruct HX end;
        vm_compute; congruence.
    - left. reflexivity.
    - intros x Hx. unfold U in *. cbn [In] in *.
      repeat match goal with HX : _ \/ _ |- _ => destruct HX as [<-|HX] | HX : False |- _ => destruct HX end;
        vm_compute; congruence.
    - reflexivity.
    - discriminate.
    - vm_compute. split; congruence.
    - eexists. vm_compute. reflexivity.
  Qed.
  Definition rule (_ : Z -> result bytes) (_ _ : Z) : result Z := Ok 0x207fffff.
  Notation reach := (reach H rule 3 cp U (fun l => False)).
  Example met : exists s s' r, reach [root] s /\ room cp [root] s /\ connect H rule 3 cp s a = (s', Ok r) /\ ~ In a [root] /\ U a /\
    (8 + 80 * (cp_height cp + zlen [root]) + 40) mod 512 = 0 /\
    U (torn 40 a) /\ ~ In (torn 40 a) [root] /\ torn 40 a <> repeat 0 80 /\ H (torn 40 a) <> repeat 0 32.
  Proof.
    destruct (from_file_new H rule 3 cp U (fun _ => False) ok None (or_introl eq_refl)) as (w & s & HW & HF & G).
    assert (HR : reach [root] s) by (eapply reach_new; [left; reflexivity|exact HF]).
    pose proof (good_known H rule 3 cp U (fun _ => False) ok _ _ _ _ G) as K.
    assert (HRm : room cp [root] s).
    { split; [|reflexivity]. rewrite (k_chains _ _ _ _ _ _ K). reflexivity. }
    assert (HLk : lookup H cp s (prev_of a) = Ok (hdr H root 24, 0%nat)).
    { change (prev_of a) with (H (e_raw (HeadersFacts.root cp w))). exact (known_lookup _ _ _ ok _ _ _ _ 0%nat _ K eq_refl). }
    pose proof (connect_new H rule 3 cp U (fun _ => False) ok [root] s a _ _ HR (or_intror (or_introl eq_refl)) HRm eq_refl
      ltac:(intros [HX|[]]; discriminate HX) HLk) as HC. cbn [rule] in HC. destruct HC as (_ & _ & _ & HC).
    assert (HT : compact 0x207fffff (0x7fffff * 2 ^ 232)) by (apply bits_to_target_spec; vm_compute; reflexivity).
    destruct (HC _ eq_refl HT) as (s' & hd & c & w' & pch & HE & _).
    { vm_compute. congruence. }
    exists s, s', (hd, c). split; [exact HR|]. split; [exact HRm|]. split; [exact HE|].
    split; [intros [HX|[]]; discriminate HX|]. split; [right; left; reflexivity|]. split; [reflexivity|].
    split; [right; right; left; reflexivity|]. split; [intros [HX|[]]; discriminate HX|]. split; discriminate.
  Qed.
  (** What is left of the header *)
  Example torn_a : torn 40 a = [1; 0; 0; 0] ++ H root ++ [2; 0; 0; 0] ++ repeat 0 40 /\ header_work (torn 40 a) = Ok (2 ^ 256) /\ header_work a = Ok 2.
  Proof. repeat split. Qed.
End Example.
