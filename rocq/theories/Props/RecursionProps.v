(** C109: reading headers on an interpreter whose stack is limited. *)
From Verif.Model Require Import Py Packing Bits Coin Work Storage Chain RecursionLimit.
From Verif.Spec Require Import Numbers WorkSpec ChainSpec HeadersHistory RecursionSpec.
From Verif.Proofs Require Import PyFacts WorkFacts StorageFacts HeadersFacts ChainTheorems RecursionFacts RecursionBounds DeepChains.
From Verif.Props Require Import ChainProps.

(** What a lookup by height gives depends on the stack in one way only: a call for every chain gone through must fit. *)
Theorem C109_index frames H required max_cache cp U sets log s c ch h : (0 < frames)%nat -> assumptions H cp U -> reach H required max_cache cp U sets log s ->
  nth_error (m_chains (hs_mem s)) c = Some ch -> exists n, goes_through (m_chains (hs_mem s)) c h n /\
    (n = 1%nat \/ h + Z.of_nat n <= ch_first ch + 1) /\ Z.of_nat n <= Z.of_nat c + 1 /\
    raw_at_limited frames s c h = (if (n <=? frames)%nat then raw_at s c h else Err RecursionError) /\ raw_at s c h <> Err RecursionError.
Proof.
  intros HF A HR HN. destruct (raw_at_limited_is frames HF H required max_cache cp U sets A log s c ch h HR HN) as (n & HG & Hn & HE & HS). exists n. split; [exact HG|].
  destruct (ChainTheorems.reach_known H required max_cache cp U sets A log s HR) as (es & cache & K).
  split; [exact (rising_goes _ _ _ _ (known_rising frames HF H cp sets _ _ _ _ K) HG ch HN)|]. split; [lia|]. split; [destruct (Nat.leb_spec n frames); [now apply HE|apply HS; lia]|].
  intros HX. unfold raw_at in HX. destruct (header_index _ _ _ _) as [i|e] eqn:EI; [|injection HX as ->; now apply header_index_no_recursion in EI].
  cbn [bind] in HX. unfold storage_get, storage_len, storage_header, unpack_le_uint32, unpack_uint_le in HX. cbv zeta in HX. destruct (i <? 0); [destruct (zlen (pyslice (st_file (hs_st s)) 4 8) =? Z.of_nat 4); [cbn [bind] in HX|discriminate HX]|]; destruct (_ || _); discriminate HX.
Qed.
(** For every coin, whatever the stack: the header is connected as if there were no limit, or RecursionError is raised and the object and
    its file are as before. *)
Theorem C109_connect frames H coin max_cache cp U sets log s raw : (0 < frames)%nat -> assumptions H cp U -> reach H (coin_required_bits coin) max_cache cp U sets log s ->
  connect_limited frames H (coin_required_bits coin) max_cache cp s raw = connect H (coin_required_bits coin) max_cache cp s raw \/
  connect_limited frames H (coin_required_bits coin) max_cache cp s raw = (s, Err RecursionError).
Proof. intros HF A HR. eapply connect_limited_is; eauto. intros f g h t. apply coin_weaker. Qed.
(** 2016 calls are enough to connect any header, and 147 past the heights from which the coin follows the DAA. *)
Theorem C109_connect_enough frames H coin max_cache cp U sets log s raw : assumptions H cp U -> reach H (coin_required_bits coin) max_cache cp U sets log s -> zlen raw = 80 ->
  2016 <= Z.of_nat frames \/
  147 <= Z.of_nat frames /\ (forall phd pc, lookup H cp s (prev_of raw) = Ok (phd, pc) -> match c_rule coin with RuleMainnet => 504031 | RuleTestnet => 1188697 | RuleScalingTestnet => 2200 end <= h_height phd) ->
  connect_limited frames H (coin_required_bits coin) max_cache cp s raw = connect H (coin_required_bits coin) max_cache cp s raw.
Proof.
  intros A HR HL HF. assert (0 < frames)%nat as HP by lia. apply (connect_near frames HP H max_cache cp U sets A coin log s raw HR HL). intros phd pc HLk. destruct HF as [HF|[HF HD]]; [pose proof (depth_range coin (h_height phd + 1)); lia|].
  specialize (HD phd pc HLk). unfold depth. destruct (c_rule coin); match goal with |- context [?a <=? ?b] => destruct (Z.leb_spec a b) end; lia.
Qed.
(** Reading less than [frames] below the start of a chain is not affected, nor is anything while there are no more chains than that. *)
Theorem C109_read_enough frames H required max_cache cp U sets log s c ch h : (0 < frames)%nat -> assumptions H cp U -> reach H required max_cache cp U sets log s ->
  nth_error (m_chains (hs_mem s)) c = Some ch -> ch_first ch - h < Z.of_nat frames \/ zlen (m_chains (hs_mem s)) <= Z.of_nat frames -> raw_at_limited frames s c h = raw_at s c h.
Proof.
  intros HF A HR HN HE. destruct (C109_index frames H required max_cache cp U sets log s c ch h HF A HR HN) as (n & _ & H1 & H2 & -> & _). destruct (Nat.leb_spec n frames); [reflexivity|]. exfalso.
  assert (c < length (m_chains (hs_mem s)))%nat by (apply nth_error_Some; congruence). unfold zlen in HE. lia.
Qed.

Definition line_ok (base top : Z) : Prop := forall h, base < h < base + top -> h mod 2016 <> 0 \/ 1188697 < h.
Lemma log_U m : Z.of_nat m < 2 ^ 18 -> Forall U (tl (log m)).
Proof.
  intros Hm. apply Forall_forall. intros x HI. assert (In x (log m)) as HX by (destruct (log m); [exact HI|now right]). unfold log in HX. apply in_map_iff in HX as (i & <- & HX). apply in_seq in HX. exists (Z.of_nat i). split; [lia|reflexivity].
Qed.
(** Fewer are not: whatever the number of calls, some sequence of valid headers is connected, and the next valid one raises RecursionError,
    however often it is presented.  The hash is a function made for the purpose. *)
Theorem C109_connect_refuted : exists H cp U, assumptions H cp U /\ forall frames, 1 <= Z.of_nat frames < 2016 -> exists raws raw start s s' r,
  Forall U (raw :: raws) /\ from_file H 3 cp None = (Some (st_file (created cp)), Ok start) /\
  connect_all_limited frames H (coin_required_bits BitcoinRegtest) 3 cp start raws = (s, Ok tt) /\
  connect H (coin_required_bits BitcoinRegtest) 3 cp s raw = (s', Ok r) /\
  connect_limited frames H (coin_required_bits BitcoinRegtest) 3 cp s raw = (s, Err RecursionError).
Proof.
  exists H, (cp_at period_base), U. split; [apply (ok period_base 2016); [unfold period_base; lia|exact slow_period]|]. intros frames HF.
  destruct (retarget_raises frames HF) as (m & start & s & s' & r & Em & H1 & H2 & H3 & H4). exists (tl (log m)), (node 4032), start, s, s', r.
  split; [|auto]. constructor; [exists 4032; split; [lia|reflexivity]|]. apply log_U. lia.
Qed.
(** Nor can every header be read, whatever the number of calls, as long as there can be more chains than that. *)
Theorem C109_read_refuted : exists H cp U, assumptions H cp U /\ forall frames, (1 <= frames)%nat -> Z.of_nat frames < 2 ^ 16 -> exists raws start s c h raw,
  Forall U raws /\ from_file H 3 cp None = (Some (st_file (created cp)), Ok start) /\
  connect_all_limited frames H (coin_required_bits BitcoinRegtest) 3 cp start raws = (s, Ok tt) /\
  raw_at s c h = Ok raw /\ raw_at_limited frames s c h = Err RecursionError.
Proof.
  assert (line_ok deep_base (2 ^ 16)) as HS by (intros h Hh; right; unfold deep_base in Hh; lia).
  exists H, (cp_at deep_base), U. split; [apply (ok deep_base (2 ^ 16)); [unfold deep_base; lia|exact HS]|]. intros frames HF HF2.
  destruct (deep_raises frames HF HF2) as (start & s & H1 & H2 & H3 & H4). exists (tl (log (2 * frames + 1))), start, s, frames, deep_base, (node 1). split; [apply log_U; lia|]. auto.
Qed.

(** Five nested chains, each starting one above the other, on a stack with room for three calls. *)
Example C109_ex : let ch p first := mk_chain p (ChainFacts.hdr H (node 1) first) 0 first [10 * first; 10 * first + 1] in
  let chains := [ch None 0; ch (Some 0%nat) 1; ch (Some 1%nat) 2; ch (Some 2%nat) 3; ch (Some 3%nat) 4] in
  map (header_index_limited 3 chains 4) [6; 5; 4; 3; 2; 1; 0] = [Err MissingHeader; Ok 41; Ok 40; Ok 30; Ok 20; Err RecursionError; Err RecursionError] /\
  map (header_index 6 chains 4) [6; 5; 4; 3; 2; 1; 0] = [Err MissingHeader; Ok 41; Ok 40; Ok 30; Ok 20; Ok 10; Ok 0] /\
  goes_through chains 4 2 3 /\ goes_through chains 4 1 4.
Proof.
  cbv zeta. split; [reflexivity|]. split; [reflexivity|]. split.
  - do 2 (eapply through_parent; [reflexivity|reflexivity|reflexivity|]). eapply through_last; [reflexivity|]. left. discriminate.
  - do 3 (eapply through_parent; [reflexivity|reflexivity|reflexivity|]). eapply through_last; [reflexivity|]. left. discriminate.
Qed.
(** The theorems apply to the state reached in ChainProps.v, with two chains. *)
Example C109_reached frames raw : (0 < frames)%nat ->
  connect_limited frames Example.H (coin_required_bits BitcoinRegtest) 3 Example.cp Example.s3 raw = connect Example.H (coin_required_bits BitcoinRegtest) 3 Example.cp Example.s3 raw \/
  connect_limited frames Example.H (coin_required_bits BitcoinRegtest) 3 Example.cp Example.s3 raw = (Example.s3, Err RecursionError).
Proof. intros HF. exact (C109_connect frames _ _ 3 _ _ _ _ _ raw HF Example.ok Example.reached). Qed.

Print Assumptions C109_index.
Print Assumptions C109_connect.
Print Assumptions C109_connect_enough.
Print Assumptions C109_read_enough.
Print Assumptions C109_connect_refuted.
Print Assumptions C109_read_refuted.
