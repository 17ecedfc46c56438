(** C111: two Headers objects of one file. *)
From Verif.Model Require Import Py Packing Bits Coin Work Storage Chain.
From Verif.Spec Require Import Numbers WorkSpec ChainSpec HeadersHistory.
From Verif.Proofs Require Import PyFacts WorkFacts StorageFacts ForestFacts ChainFacts HeadersFacts ChainTheorems SharedFacts.

(** The claim: if two objects (of one process or of two) were made from one file and both connect headers to it,
    one after the other, then each finds what the other connected, and the file opens again with every header in
    it once.

    Both have the memory [hs_mem s] when the file is as in [s].  One connects [a] and leads to [s1].  The other
    then is [mk_headers (hs_st s1) (hs_mem s)]: the file as it is now (the maps are shared, and the count of
    headers is read from the map, chain.py:267-269, util.py:31-40) and the memory as it was.  Simplified: the other
    object's map is taken to be as long as the file is now.  If the first append made the file longer, the second
    (whose place is past the end of the shorter map, chain.py:238-240) makes it longer once more, by zeros at its end.
    The rule for the bits must depend on the headers of the chain only, as that of every coin does ([C111_rules]). *)

Definition by_headers (required : (Z -> result bytes) -> Z -> Z -> result Z) : Prop :=
  forall f g h t, (forall i, f i = g i) -> required f h t = required g h t.

Theorem C111_rules : forall gb mt rule, by_headers (fun f h t => required_bits_by_rule f gb mt rule h t).
Proof. intros gb mt rule f g h t HE. now apply rule_ext. Qed.
Print Assumptions C111_rules.

(** No header is overwritten: what one object would accept, it accepts after the other appended a header, and both
    are in the file, in order, behind those that were in it. *)
Theorem C111_appends_partial : forall H required max_cache cp U sets log s a s1 ra b sb rb,
  assumptions H cp U -> by_headers required -> reach H required max_cache cp U sets log s ->
  zlen (m_chains (hs_mem s)) < 2 ^ 16 - 1 -> cp_height cp + zlen log < 2 ^ 32 - 2 ->
  U a -> ~ In a log -> connect H required max_cache cp s a = (s1, Ok ra) ->
  U b -> ~ In b log -> connect H required max_cache cp s b = (sb, Ok rb) ->
  exists s2 r2, connect H required max_cache cp (mk_headers (hs_st s1) (hs_mem s)) b = (s2, Ok r2) /\
    storage_len (hs_st s2) = Ok (cp_height cp + zlen log + 2) /\
    storage_get (hs_st s2) (cp_height cp + zlen log) = Ok a /\ storage_get (hs_st s2) (cp_height cp + zlen log + 1) = Ok b /\
    forall i, 0 <= i < cp_height cp + zlen log -> storage_get (hs_st s2) i = storage_get (hs_st s) i.
Proof.
  intros H required max_cache cp U sets log s a s1 ra b sb rb A HQ HR Hch Hlen HUa HNa HEa HUb HNb HEb.
  destruct (shared_accept H required max_cache cp U sets A HQ log s a s1 ra b sb rb HR ltac:(lia) Hlen HUa HNa HEa HUb HNb HEb) as (es & bs & j & p & w & jb & pb & wb & bs1 & bs2 & s2 & r2 & G & Hi & _ & _ & _ & _ & _ & HC & HR2 & HB).
  cbv zeta in *. pose proof (as_height _ _ _ A). pose proof (zlen_nonneg log).
  exists s2, r2. split; [exact HC|]. split; [exact (rep_len _ _ _ HR2)|]. split; [|split].
  - rewrite (rep_get _ _ _ _ HR2), HB by lia. destruct (Z.eqb_spec (cp_height cp + zlen log) (cp_height cp + zlen log + 1)); [lia|]. now rewrite Z.eqb_refl.
  - rewrite (rep_get _ _ _ _ HR2), HB by lia. now rewrite Z.eqb_refl.
  - intros i Hii. rewrite (rep_get _ _ _ _ HR2), HB, (rep_get _ _ _ _ (g_rep _ _ _ _ _ _ _ _ G)) by lia.
    destruct (Z.eqb_spec i (cp_height cp + zlen log + 1)); [lia|]. destruct (Z.eqb_spec i (cp_height cp + zlen log)); [lia|reflexivity].
Qed.
Print Assumptions C111_appends_partial.

(** If the two headers differ, the file opens again with all headers. *)
Theorem C111_opens_partial : forall H required max_cache cp U sets log s a s1 ra b sb rb,
  assumptions H cp U -> by_headers required -> reach H required max_cache cp U sets log s ->
  zlen (m_chains (hs_mem s)) < 2 ^ 16 - 1 -> cp_height cp + zlen log < 2 ^ 32 - 2 ->
  U a -> ~ In a log -> connect H required max_cache cp s a = (s1, Ok ra) ->
  U b -> ~ In b log -> connect H required max_cache cp s b = (sb, Ok rb) -> a <> b ->
  exists s2 r2 s3, connect H required max_cache cp (mk_headers (hs_st s1) (hs_mem s)) b = (s2, Ok r2) /\
    from_file H max_cache cp (Some (st_file (hs_st s2))) = (Some (st_file (hs_st s2)), Ok s3) /\
    forall x, In x (log ++ [a; b]) -> exists hd c, lookup H cp s3 (H x) = Ok (hd, c) /\ h_raw hd = x.
Proof. intros H required max_cache cp U sets log s a s1 ra b sb rb A HQ. intros. eapply shared_two; eauto. Qed.
Print Assumptions C111_opens_partial.

(** The other object does not find the header that the first connected, though it is in the file. *)
Theorem C111_finds_refuted : forall H required max_cache cp U sets log s a s1 ra,
  assumptions H cp U -> reach H required max_cache cp U sets log s ->
  zlen (m_chains (hs_mem s)) < 2 ^ 16 -> cp_height cp + zlen log < 2 ^ 32 - 1 ->
  U a -> ~ In a log -> connect H required max_cache cp s a = (s1, Ok ra) ->
  lookup H cp (mk_headers (hs_st s1) (hs_mem s)) (H a) = Err MissingHeader /\ exists r, lookup H cp s1 (H a) = Ok r.
Proof. intros. eapply shared_blind; eauto. Qed.
Print Assumptions C111_finds_refuted.

(** If both connect the same header, which is the usual case of two processes that follow one network, the file has
    it twice, whatever the header and the history, and an object made from the file has one chain too many: two chains
    end in the same header. *)
Theorem C111_once_refuted : forall H required max_cache cp U sets log s a s1 ra,
  assumptions H cp U -> by_headers required -> reach H required max_cache cp U sets log s ->
  zlen (m_chains (hs_mem s)) < 2 ^ 16 - 1 -> cp_height cp + zlen log < 2 ^ 32 - 2 ->
  U a -> ~ In a log -> connect H required max_cache cp s a = (s1, Ok ra) ->
  exists s2 r2 s3 c ch ch', connect H required max_cache cp (mk_headers (hs_st s1) (hs_mem s)) a = (s2, Ok r2) /\
    storage_len (hs_st s2) = Ok (cp_height cp + zlen log + 2) /\
    storage_get (hs_st s2) (cp_height cp + zlen log) = Ok a /\ storage_get (hs_st s2) (cp_height cp + zlen log + 1) = Ok a /\
    from_file H max_cache cp (Some (st_file (hs_st s2))) = (Some (st_file (hs_st s2)), Ok s3) /\
    m_chains (hs_mem s3) = m_chains (hs_mem s1) ++ [ch'] /\ nth_error (m_chains (hs_mem s1)) c = Some ch /\
    ch_tip ch' = ch_tip ch /\ h_raw (ch_tip ch) = a.
Proof. intros H required max_cache cp U sets log s a s1 ra A HQ. intros. eapply shared_twice; eauto. Qed.
Print Assumptions C111_once_refuted.

(** A case: the two headers [a] and [b] on top of the checkpoint. *)
Module Example.
  Definition H (b : bytes) : bytes := map (fun x => x mod 256) (firstn 32 (firstn 12 (skipn 68 b) ++ skipn 36 b ++ repeat 0 32)).
  Definition raw (prev : bytes) (n : Z) : bytes :=
    [1; 0; 0; 0] ++ prev ++ (n :: repeat 0 31) ++ [n; 0; 0; 0] ++ [255; 255; 127; 32] ++ [0; 0; 0; 0].
  Definition root := raw (repeat 0 32) 1.
  Definition cp : checkpoint := mk_checkpoint root 24 5.
  Definition a := raw (H root) 2.
  Definition b := raw (H root) 3.
  Definition U (x : bytes) : Prop := In x [root; a; b].
  Lemma ok : assumptions H cp U.
  Proof.
    split.
    - intros x. unfold H, zlen. rewrite map_length, firstn_length, !app_length, repeat_length. lia.
    - intros x. unfold H. generalize (firstn 32 (firstn 12 (skipn 68 x) ++ skipn 36 x ++ repeat 0 32)). intros l. induction l as [|y l IH]; [reflexivity|].
      cbn [map]. rewrite bytes_ok_cons, IH, andb_true_r. apply byte_ok_iff. apply Z.mod_pos_bound. lia.
    - intros x y Hx Hy. unfold U in *. cbn [In] in *.
      repeat match goal with HX : _ \/ _ |- _ => destruct HX as [<-|HX] | HX : False |- _ => destruct HX end;
        vm_compute; congruence.
    - left. reflexivity.
    - intros x Hx. unfold U in *. cbn [In] in *.
      repeat match goal with HX : _ \/ _ |- _ => destruct HX as [<-|HX] | HX : False |- _ => destruct HX end;
        vm_compute; congruence.
    - reflexivity.
    - discriminate.
    - vm_compute. split; congruence.
    - eexists. vm_compute. reflexivity.
  Qed.
  Definition rule (_ : Z -> result bytes) (_ _ : Z) : result Z := Ok 0x207fffff.
  Notation reach := (reach H rule 3 cp U (fun l => False)).
  Example met : exists s s1 r sb rb, reach [root] s /\ by_headers rule /\ zlen (m_chains (hs_mem s)) < 2 ^ 16 - 1 /\ cp_height cp + zlen [root] < 2 ^ 32 - 2 /\
    U a /\ ~ In a [root] /\ connect H rule 3 cp s a = (s1, Ok r) /\ U b /\ ~ In b [root] /\ connect H rule 3 cp s b = (sb, Ok rb) /\ a <> b.
  Proof.
    destruct (from_file_new H rule 3 cp U (fun _ => False) ok None (or_introl eq_refl)) as (w & s & HW & HF & G).
    assert (HR : reach [root] s) by (eapply reach_new; [left; reflexivity|exact HF]).
    pose proof (good_known H rule 3 cp U (fun _ => False) ok _ _ _ _ G) as K.
    assert (HCh : zlen (m_chains (hs_mem s)) = 1) by (rewrite (k_chains _ _ _ _ _ _ K); reflexivity).
    assert (HRm : room cp [root] s) by (split; [rewrite HCh|]; reflexivity).
    assert (HT : compact 0x207fffff (0x7fffff * 2 ^ 232)) by (apply bits_to_target_spec; vm_compute; reflexivity).
    assert (HC : forall x, U x -> ~ In x [root] -> zlen x = 80 -> prev_of x = H root -> bits_of x = 0x207fffff -> le_int (H x) <= 0x7fffff * 2 ^ 232 ->
      exists s' r, connect H rule 3 cp s x = (s', Ok r)).
    { intros x HU HN HL HP HB HV.
      assert (HLk : lookup H cp s (prev_of x) = Ok (hdr H root 24, 0%nat)).
      { rewrite HP. exact (known_lookup _ _ _ ok _ _ _ _ 0%nat _ K eq_refl). }
      pose proof (connect_new H rule 3 cp U (fun _ => False) ok [root] s x _ _ HR HU HRm HL HN HLk) as HC. cbn [rule] in HC. destruct HC as (_ & _ & _ & HC).
      rewrite HB in HC. destruct (HC _ eq_refl HT HV) as (s' & hd & c & w' & pch & HE & _). eauto. }
    assert (Ha : ~ In a [root]) by (intros [HX|[]]; discriminate HX). assert (Hb : ~ In b [root]) by (intros [HX|[]]; discriminate HX).
    destruct (HC a (or_intror (or_introl eq_refl)) Ha eq_refl eq_refl eq_refl ltac:(vm_compute; congruence)) as (s1 & r & H1).
    destruct (HC b (or_intror (or_intror (or_introl eq_refl))) Hb eq_refl eq_refl eq_refl ltac:(vm_compute; congruence)) as (sb & rb & H2).
    exists s, s1, r, sb, rb. split; [exact HR|]. split; [intros f g h t _; reflexivity|]. split; [rewrite HCh; reflexivity|]. split; [reflexivity|].
    split; [right; left; reflexivity|]. split; [exact Ha|]. split; [exact H1|]. split; [right; right; left; reflexivity|]. split; [exact Hb|]. split; [exact H2|discriminate].
  Qed.
End Example.
