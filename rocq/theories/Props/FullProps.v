(** C105: a header that would start chain number 2^16. *)
From Verif.Model Require Import Py Packing Bits Coin Work Storage Chain.
From Verif.Spec Require Import Numbers WorkSpec ChainSpec HeadersHistory.
From Verif.Proofs Require Import PyFacts WorkFacts RequiredBitsFacts StorageFacts HeadersFacts ChainTheorems FullChains.
From Verif.Props Require Import ChainProps.

(** With 2^16 chains, connecting a valid header whose parent is no chain's tip raises OverflowError after the
    header was written to the file and a chain was added.  From then on looking the header up or connecting
    it again raises IndexError, and opening the file raises OverflowError, leaving the file as it is. *)
Theorem C105_overflow H required max_cache cp U sets : assumptions H cp U ->
  forall log s raw phd pc pch t, reach H required max_cache cp U sets log s -> U raw ->
    zlen (m_chains (hs_mem s)) = 2 ^ 16 -> cp_height cp + zlen log < 2 ^ 32 - 1 -> zlen raw = 80 -> ~ In raw log ->
    lookup H cp s (prev_of raw) = Ok (phd, pc) -> nth_error (m_chains (hs_mem s)) pc = Some pch -> ch_tip pch <> phd ->
    required (raw_at s pc) (h_height phd + 1) (time_of raw) = Ok (bits_of raw) ->
    compact (bits_of raw) t -> val_le (H raw) <= t ->
    exists s', connect H required max_cache cp s raw = (s', Err OverflowError) /\
      storage_len (hs_st s') = Ok (cp_height cp + zlen log + 1) /\
      storage_get (hs_st s') (cp_height cp + zlen log) = Ok raw /\
      zlen (m_chains (hs_mem s')) = 2 ^ 16 + 1 /\
      lookup H cp s' (H raw) = Err IndexError /\
      connect H required max_cache cp s' raw = (s', Err IndexError) /\
      from_file H max_cache cp (Some (st_file (hs_st s'))) = (Some (st_file (hs_st s')), Err OverflowError).
Proof. intros A log s raw phd pc pch t. exact (connect_full H required max_cache cp U sets A log s raw phd pc pch t). Qed.

(** Such states are reached: a checkpoint and any number of headers on top of it, with the hash that reads
    the merkle root field, under the rules of the regression test network. *)
Module Wide.
  Definition H (b : bytes) : bytes := map (fun x => x mod 256) (firstn 32 (skipn 36 b ++ repeat 0 32)).
  Definition root : bytes := [1; 0; 0; 0] ++ repeat 0 32 ++ (1 :: repeat 0 31) ++ [0; 0; 0; 0] ++ [255; 255; 0; 29] ++ [0; 0; 0; 0].
  Definition kid (n : nat) : bytes :=
    [1; 0; 0; 0] ++ (1 :: repeat 0 31) ++ (le_digits 4 (Z.of_nat n + 2) ++ repeat 0 28) ++ [0; 8; 0; 0] ++ [255; 255; 0; 29] ++ [0; 0; 0; 0].
  Definition cp : checkpoint := mk_checkpoint root 2 5.
  Definition U (x : bytes) : Prop := x = root \/ exists n, Z.of_nat n <= 2 ^ 16 /\ x = kid n.
  Definition rule := coin_required_bits BitcoinRegtest.
  Definition sets (l : list bytes) : Prop := l = [root].
  Notation reach := (reach H rule 3 cp U sets).

  Lemma H_kid n : H (kid n) = le_digits 4 (Z.of_nat n + 2) ++ repeat 0 28.
  Proof.
    unfold H, kid. change ([1; 0; 0; 0] ++ (1 :: repeat 0 31) ++ ?x) with (([1; 0; 0; 0] ++ 1 :: repeat 0 31) ++ x).
    rewrite skipn_app. cbn [app repeat length skipn Nat.sub].
    set (d := le_digits 4 (Z.of_nat n + 2)). assert (Hd : d = le_digits 4 (Z.of_nat n + 2)) by reflexivity. clearbody d.
    assert (HL : length d = 4%nat) by (rewrite Hd; apply le_digits_length).
    assert (HB : bytes_ok d = true) by (rewrite Hd; apply le_digits_ok).
    destruct d as [|a [|b [|c [|e [|? ?]]]]]; try discriminate HL. clear Hd HL.
    rewrite !bytes_ok_cons in HB. rewrite !andb_true_iff, !byte_ok_iff in HB. destruct HB as (Ha & Hb & Hc & He & _).
    cbn [app firstn map]. rewrite !Z.mod_small by lia. reflexivity.
  Qed.
  Lemma val_H_kid n : Z.of_nat n <= 2 ^ 16 -> val_le (H (kid n)) = Z.of_nat n + 2.
  Proof.
    intros Hn. rewrite H_kid. change val_le with le_int. rewrite le_int_app, le_int_digits by lia.
    change (le_int (repeat 0 28)) with 0. lia.
  Qed.
  Lemma kid_inj n m : Z.of_nat n <= 2 ^ 16 -> Z.of_nat m <= 2 ^ 16 -> H (kid n) = H (kid m) -> n = m.
  Proof. intros Hn Hm HE. apply (f_equal val_le) in HE. rewrite !val_H_kid in HE by assumption. lia. Qed.
  Lemma H_root : H root = 1 :: repeat 0 31.
  Proof. reflexivity. Qed.
  Lemma kid_root n : Z.of_nat n <= 2 ^ 16 -> H (kid n) <> H root.
  Proof. intros Hn HE. apply (f_equal val_le) in HE. rewrite val_H_kid in HE by assumption. change (val_le (H root)) with 1 in HE. lia. Qed.
  Lemma kid_length n : zlen (kid n) = 80.
  Proof. unfold kid. rewrite !zlen_app, zlen_le_digits. reflexivity. Qed.
  Lemma kid_fields n : prev_of (kid n) = H root /\ bits_of (kid n) = 486604799 /\ time_of (kid n) = 2048.
  Proof.
    unfold kid, prev_of, bits_of, time_of. pose proof (le_digits_length 4 (Z.of_nat n + 2)) as HL.
    destruct (le_digits 4 (Z.of_nat n + 2)) as [|a [|b [|c [|e [|? ?]]]]]; try discriminate HL. repeat split.
  Qed.

  Lemma ok : assumptions H cp U.
  Proof.
    split.
    - intros x. unfold H, zlen. rewrite map_length, firstn_length, app_length, repeat_length. lia.
    - intros x. unfold H. generalize (firstn 32 (skipn 36 x ++ repeat 0 32)). intros l. induction l as [|y l IH]; [reflexivity|].
      cbn [map]. rewrite bytes_ok_cons, IH, andb_true_r. apply byte_ok_iff. apply Z.mod_pos_bound. lia.
    - intros x y [->|(n & Hn & ->)] [->|(m & Hm & ->)] HE; [reflexivity| | |].
      + exfalso. symmetry in HE. now apply kid_root in HE.
      + exfalso. now apply kid_root in HE.
      + f_equal. now apply kid_inj.
    - now left.
    - intros x [->|(n & Hn & ->)] HE; [discriminate HE|]. apply (f_equal val_le) in HE. rewrite val_H_kid in HE by assumption.
      change (val_le (firstn 32 (skipn 4 (cp_raw cp)))) with 0 in HE. lia.
    - reflexivity.
    - discriminate.
    - vm_compute. split; congruence.
    - eexists. vm_compute. reflexivity.
  Qed.

  Definition log (n : nat) : list bytes := root :: map kid (seq 0 n).
  Notation start := (match snd (from_file H 3 cp None) with Ok s => s | Err _ => mk_headers (created cp) empty_mem end).
  Lemma first_step : exists s, reach (log 1) s /\ zlen (m_chains (hs_mem s)) = 1.
  Proof.
    assert (R0 : reach [cp_raw cp] start).
    { apply (reach_new _ _ _ _ _ _ None (fst (from_file H 3 cp None))); [auto|].
      destruct (from_file H 3 cp None) as [p r] eqn:E. destruct r as [s|e] eqn:ER; [reflexivity|].
      assert (HX : snd (from_file H 3 cp None) = Err e) by (rewrite E; reflexivity). vm_compute in HX. discriminate. }
    assert (HC : let p := connect H rule 3 cp start (kid 0) in
      (zlen (m_chains (hs_mem start)), match snd p with Ok _ => true | Err _ => false end, zlen (m_chains (hs_mem (fst p)))) = (1, true, 1)) by (vm_compute; reflexivity).
    cbv zeta in HC. apply pair_equal_spec in HC as [HC C2]. apply pair_equal_spec in HC as [C0 C1].
    destruct (connect H rule 3 cp start (kid 0)) as [s [r|e]] eqn:EC; [|discriminate C1]. cbn [fst] in C2.
    exists s. split; [|exact C2]. apply (reach_accept _ _ _ _ _ _ [cp_raw cp] start (kid 0) s r); auto.
    - right. exists 0%nat. split; [lia|reflexivity].
    - rewrite C0. reflexivity.
    - reflexivity.
    - intros [HX|[]]. discriminate HX.
  Qed.

  Lemma log_kid n m : In (kid n) (log m) -> Z.of_nat n <= 2 ^ 16 -> Z.of_nat m <= 2 ^ 16 + 1 -> (n < m)%nat.
  Proof.
    intros [HE|HI] Hn Hm; [exfalso; apply (kid_root n Hn); now rewrite HE|]. apply in_map_iff in HI as (k & HE & HI). apply in_seq in HI.
    assert (k = n) by (apply kid_inj; [lia|lia|now rewrite HE]). lia.
  Qed.
  Lemma log_kid_prev n r : In r (log n) -> r = root \/ prev_of r = H root.
  Proof. intros [<-|HI]; [now left|right]. apply in_map_iff in HI as (k & <- & _). apply kid_fields. Qed.

  (** Whatever has been connected, the checkpoint is found, at its height. *)
  Lemma root_found n s : reach (log n) s -> Z.of_nat n <= 2 ^ 16 -> exists hd c, lookup H cp s (H root) = Ok (hd, c) /\ h_raw hd = root /\ h_height hd = 2 /\
    raw_at s c 2 = Ok root /\ exists ch, nth_error (m_chains (hs_mem s)) c = Some ch /\ ((0 < n)%nat -> ch_tip ch <> hd).
  Proof.
    intros HR Hn. destruct (C26_stored_found H rule 3 cp U sets ok (log n) s root HR (or_introl eq_refl)) as (hd & c & HL & Hr & _ & (ch & HN & _) & HA & Hh).
    assert (H2 : h_height hd = 2).
    { destruct Hh as [[_ Hh]|(phd & pc & _ & HX & _)]; [exact Hh|exfalso].
      rewrite (C26_others_missing H rule 3 cp U sets ok (log n) s (prev_of root) HR) in HX; [discriminate HX|discriminate|].
      intros r HI HE. destruct HI as [<-|HI]; [discriminate HE|]. apply in_map_iff in HI as (k & <- & HI). apply in_seq in HI.
      apply (f_equal val_le) in HE. rewrite val_H_kid in HE by lia. change (val_le (prev_of root)) with 0 in HE. lia. }
    exists hd, c. rewrite H2 in HA. split; [exact HL|]. split; [exact Hr|]. split; [exact H2|]. split; [exact HA|]. exists ch. split; [exact HN|].
    intros Hpos HT. destruct (proj1 (C31_tips_are_leaves H rule 3 cp U sets ok (log n) s root HR)) as [_ HX].
    - exists c, ch. split; [exact HN|]. now rewrite HT.
    - apply (HX (kid 0)); [right; apply in_map_iff; exists 0%nat; split; [reflexivity|apply in_seq; lia]|apply kid_fields].
  Qed.
  Lemma rule_kid f n : f 2 = Ok root -> rule f 3 (time_of (kid n)) = Ok (bits_of (kid n)).
  Proof.
    intros HF. destruct (kid_fields n) as (_ & -> & ->). unfold rule, coin_required_bits.
    change (genesis_bits BitcoinRegtest) with (@Ok Z 486604799). cbn [bind]. destruct (max_target BitcoinRegtest) as [mt|] eqn:EM; [|vm_compute in EM; discriminate].
    cbn [bind BitcoinRegtest c_rule required_bits_by_rule]. unfold required_bits_testnet, required_bits_testnet_gen.
    change (3 - 1) with 2. rewrite HF. cbn [bind]. change (header_timestamp root) with (@Ok Z 0). cbn [bind]. reflexivity.
  Qed.
  Lemma kid_target : exists t, compact 486604799 t /\ 2 ^ 32 <= t.
  Proof.
    destruct (bits_to_target 486604799) as [t|] eqn:ET; [|vm_compute in ET; discriminate]. exists t. split; [now apply bits_to_target_spec|].
    vm_compute in ET. injection ET as <-. vm_compute. discriminate.
  Qed.

  (** Any number of chains up to 2^16 is reached. *)
  Lemma reachable n : (0 < n)%nat -> Z.of_nat n <= 2 ^ 16 -> exists s, reach (log n) s /\ zlen (m_chains (hs_mem s)) = Z.of_nat n.
  Proof.
    induction n as [|n IH]; [lia|]. intros _ Hn. destruct n as [|n]; [exact first_step|]. set (k := S n) in *.
    destruct (IH ltac:(lia) ltac:(lia)) as (s & HR & HC). destruct (root_found k s HR ltac:(lia)) as (hd & c & HL & Hr & Hh & HA & ch & HN & HT).
    destruct (kid_fields k) as (HP & HB & HTm). destruct kid_target as (t & Ht & Hle).
    assert (HU : U (kid k)) by (right; exists k; split; [lia|reflexivity]).
    assert (HRoom : room cp (log k) s).
    { split; [rewrite HC; lia|]. unfold log. rewrite zlen_cons. unfold zlen. rewrite map_length, seq_length. change (cp_height cp) with 2. lia. }
    assert (HNew : ~ In (kid k) (log k)) by (intros HI; apply log_kid in HI; lia).
    pose proof (C27_new H rule 3 cp U sets ok (log k) s (kid k) hd c HR HU HRoom (kid_length k) HNew) as HX.
    rewrite HP in HX. specialize (HX HL). rewrite Hh in HX. change (2 + 1) with 3 in HX. rewrite (rule_kid _ k HA) in HX.
    destruct HX as (_ & _ & _ & HX). rewrite HB in HX.
    destruct (HX t eq_refl Ht) as (s' & hd' & c' & w & pch & HE & _ & _ & _ & _ & HN' & _ & HF & _); [rewrite val_H_kid by lia; lia|].
    assert (pch = ch) as -> by congruence. destruct (HF (HT ltac:(lia))) as (_ & pw & _ & HCh).
    exists s'. split.
    - replace (log (S k)) with (log k ++ [kid k]) by (unfold log; rewrite seq_S, map_app; reflexivity).
      destruct HRoom as [HR1 HR2]. eapply reach_accept; eauto.
    - rewrite HCh. unfold zlen. rewrite app_length. unfold zlen in HC. cbn [length]. lia.
  Qed.

  (** So a call of connect that raises can change the object and make its file impossible to open. *)
  Lemma raises_and_changes : exists n s raw s', reach (log n) s /\ U raw /\
    connect H rule 3 cp s raw = (s', Err OverflowError) /\ s' <> s /\
    storage_len (hs_st s) = Ok (Z.of_nat n + 3) /\ storage_len (hs_st s') = Ok (Z.of_nat n + 4) /\
    from_file H 3 cp (Some (st_file (hs_st s))) = (Some (st_file (hs_st s)), Ok s) /\
    from_file H 3 cp (Some (st_file (hs_st s'))) = (Some (st_file (hs_st s')), Err OverflowError).
  Proof.
    set (n := Z.to_nat (2 ^ 16)). assert (Hn : Z.of_nat n = 2 ^ 16) by (apply Z2Nat.id; lia). clearbody n.
    destruct (reachable n ltac:(lia) ltac:(lia)) as (s & HR & HC). destruct (root_found n s HR ltac:(lia)) as (hd & c & HL & Hr & Hh & HA & ch & HN & HT).
    destruct (kid_fields n) as (HP & HB & HTm). destruct kid_target as (t & Ht & Hle).
    assert (HU : U (kid n)) by (right; exists n; split; [lia|reflexivity]).
    assert (HZ : zlen (log n) = Z.of_nat n + 1) by (unfold log; rewrite zlen_cons; unfold zlen; rewrite map_length, seq_length; lia).
    destruct (C105_overflow H rule 3 cp U sets ok (log n) s (kid n) hd c ch t HR HU) as (s' & HE & HL1 & HG & HC' & HI & HK & HO).
    - lia.
    - rewrite HZ. change (cp_height cp) with 2. lia.
    - apply kid_length.
    - intros HI. apply log_kid in HI; lia.
    - now rewrite HP.
    - exact HN.
    - apply HT. lia.
    - rewrite Hh. apply rule_kid. exact HA.
    - now rewrite HB.
    - rewrite val_H_kid by lia. lia.
    - exists n, s, (kid n), s'. split; [exact HR|]. split; [exact HU|]. split; [exact HE|]. split; [intros ->; lia|].
      pose proof (C33_reload H rule 3 cp U sets ok (log n) s HR) as HRl.
      rewrite HZ in HL1. change (cp_height cp) with 2 in HL1.
      split; [|split; [rewrite HL1; f_equal; lia|split; [exact HRl|exact HO]]].
      destruct (reach_good H rule 3 cp U sets ok _ _ HR) as (es & bs & G). pose proof (g_rep _ _ _ _ _ _ _ _ G) as HRp. pose proof (g_log _ _ _ _ _ _ _ _ G) as HLg.
      rewrite (rep_len _ _ _ HRp). f_equal. unfold ChainFacts.idx. change (cp_height cp) with 2. apply (f_equal (@length bytes)) in HLg.
      rewrite map_length in HLg. unfold zlen in HZ. lia.
  Qed.
End Wide.

(** States with 2^16 chains are reached (and so with any smaller number). *)
Theorem C105_reachable : exists H cp U, assumptions H cp U /\ forall n, 0 < n <= 2 ^ 16 ->
  exists log s, reach H (coin_required_bits BitcoinRegtest) 3 cp U (fun l => l = [cp_raw cp]) log s /\ zlen log = n + 1 /\
    zlen (m_chains (hs_mem s)) = n.
Proof.
  exists Wide.H, Wide.cp, Wide.U. split; [exact Wide.ok|]. intros n Hn.
  destruct (Wide.reachable (Z.to_nat n)) as (s & HR & HC); [lia|lia|]. exists (Wide.log (Z.to_nat n)), s.
  split; [exact HR|]. split; [unfold Wide.log; rewrite zlen_cons; unfold zlen; rewrite map_length, seq_length; lia|lia].
Qed.
(** So a call of connect that raises can change the object and make its file impossible to open. *)
Theorem C105_raising_changes_nothing_refuted : exists H cp U log s raw s' n, assumptions H cp U /\
  reach H (coin_required_bits BitcoinRegtest) 3 cp U (fun l => l = [cp_raw cp]) log s /\ U raw /\
  connect H (coin_required_bits BitcoinRegtest) 3 cp s raw = (s', Err OverflowError) /\ s' <> s /\
  storage_len (hs_st s) = Ok n /\ storage_len (hs_st s') = Ok (n + 1) /\
  from_file H 3 cp (Some (st_file (hs_st s))) = (Some (st_file (hs_st s)), Ok s) /\
  from_file H 3 cp (Some (st_file (hs_st s'))) = (Some (st_file (hs_st s')), Err OverflowError).
Proof.
  destruct Wide.raises_and_changes as (n & s & raw & s' & HR & HU & HE & HN & HL & HL' & HO & HO').
  exists Wide.H, Wide.cp, Wide.U, (Wide.log n), s, raw, s', (Z.of_nat n + 3).
  replace (Z.of_nat n + 3 + 1) with (Z.of_nat n + 4) by lia.
  exact (conj Wide.ok (conj HR (conj HU (conj HE (conj HN (conj HL (conj HL' (conj HO HO')))))))).
Qed.
Print Assumptions C105_overflow.
Print Assumptions C105_reachable.
Print Assumptions C105_raising_changes_nothing_refuted.
