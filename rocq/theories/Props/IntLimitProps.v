(** C106: what is read from texts on Pythons that limit the digits of int(). *)
From Verif.Model Require Import Py Text Script Bip32 IntLimit.
From Verif.Spec Require Import ScriptSpec Bip32Spec IntLimitSpec.
From Verif.Proofs Require Import PyFacts ScriptTheorems AsmFacts IntLimitFacts.

(** Without a limit, from_asm raises nothing but ScriptError on a text of less than 2^32 characters. *)
Theorem C106_no_limit (a : pystr) e : zlen a < 2 ^ 32 -> from_asm a = Err e -> e = ScriptError.
Proof. exact (from_asm_err a e). Qed.
(** With one it returns what it returns without, unless some word is a number with too many digits; then it raises,
    and if the words before it can be read, that is a ValueError. *)
Theorem C106_reads limit (a : pystr) (s : bytes) : 0 <= limit ->
  (from_asm_limited limit a = Ok s <-> from_asm a = Ok s /\ forall w, In w (split_ws a) -> ~ long_numeral limit w).
Proof. intros H0. rewrite (from_asm_limited_Ok limit a s H0), Forall_forall. tauto. Qed.
Theorem C106_errors limit (a : pystr) e : 0 <= limit -> zlen a < 2 ^ 32 -> from_asm_limited limit a = Err e ->
  e = ScriptError \/ (e = ValueError /\ exists w, In w (split_ws a) /\ long_numeral limit w).
Proof. exact (from_asm_limited_err limit a e). Qed.
Theorem C106_first limit (a : pystr) before w after bs : 0 <= limit -> split_ws a = before ++ w :: after ->
  mapM (asm_word_limited limit) before = Ok bs -> long_numeral limit w -> from_asm_limited limit a = Err ValueError.
Proof. intros H0 HS HM HL. exact (from_asm_long limit before w after bs a H0 HS HM HL). Qed.
(** The scripts that survive conversion to ASM and back *)
Theorem C106_roundtrip limit der_ok (s : bytes) : 640 <= limit -> bytes_ok s = true -> exists a, to_asm der_ok s false = Ok a /\
  (from_asm_limited limit a = Ok s <->
   exists parts l, s = concat parts /\ Forall2 encodes parts l /\ Forall2 asm_safe parts l /\ Forall (fun o => ~ long_decimal limit o) l).
Proof. intros HL. apply limited_roundtrip. lia. Qed.
(** So the claim that from_asm raises only ScriptError is false, whatever the limit, and of texts that to_asm gives. *)
Lemma nines n : decimal_reading (repeat 153 n) = 100 ^ Z.of_nat n - 1.
Proof.
  unfold decimal_reading. assert (HG : forall a, fold_left (fun a b => 100 * a + 10 * (b / 16) + b mod 16) (repeat 153 n) a = (a + 1) * 100 ^ Z.of_nat n - 1); [|rewrite HG; lia].
  induction n as [|n IH]; intros a; [cbn [repeat fold_left]; change (100 ^ Z.of_nat 0) with 1; lia|]. cbn [repeat fold_left]. rewrite IH. change (153 / 16) with 9. change (153 mod 16) with 9.
  replace (Z.of_nat (S n)) with (Z.succ (Z.of_nat n)) by lia. rewrite Z.pow_succ_r by lia. nia.
Qed.
Theorem C106_refuted limit : 640 <= limit <= 2 ^ 32 -> exists s a, (forall der_ok, to_asm der_ok s false = Ok a) /\ from_asm a = Ok s /\ from_asm_limited limit a = Err ValueError.
Proof.
  intros HL. set (n := Z.to_nat (limit / 2 + 1)). set (d := repeat 153 n).
  assert (Hn : limit < 2 * Z.of_nat n <= limit + 2) by (unfold n; pose proof (Z.div_mod limit 2 ltac:(lia)); pose proof (Z.mod_pos_bound limit 2 ltac:(lia)); lia).
  assert (Hz : zlen d = Z.of_nat n) by (unfold zlen, d; now rewrite repeat_length).
  assert (Hd : forall b, In b d -> b = 153) by (intros b Hb; now apply repeat_spec in Hb).
  assert (HBd : bytes_ok d = true) by (apply bytes_ok_In; intros b Hb; rewrite (Hd b Hb); lia).
  destruct (push_item_total d ltac:(lia)) as (p & HP). destruct (push_item_encodes d p HP) as [HE _]. pose proof (push_item_bytes d p HBd HP) as HB.
  assert (HD : looks_decimal d) by (intros b Hb; rewrite (Hd b Hb); vm_compute; split; congruence).
  assert (HS : asm_safe p (Data d)).
  { apply safe_hex; [lia| |apply shortest_push_iff; auto]. intros [_ HM]. unfold d in HM. rewrite nines in HM. assert (100 ^ 5 <= 100 ^ Z.of_nat n) by (apply Z.pow_le_mono_r; lia). change (100 ^ 5) with 10000000000 in *. lia. }
  exists p. destruct (asm_roundtrip (fun _ => false) p HB) as (a & HA & HR). exists a.
  assert (HX : forall der_ok, to_asm der_ok p false = Ok a).
  { intros der_ok. rewrite <- HA. unfold to_asm. rewrite (push_item_ops d p HP). reflexivity. }
  split; [exact HX|]. split.
  - apply HR. exists [p], [Data d]. cbn [concat]. rewrite app_nil_r. split; [reflexivity|]. split; (constructor; [assumption|constructor]).
  - destruct (push_long limit (fun _ => false) p d ltac:(lia) HB HE) as (a' & HA' & HF); [cbn; split; [lia|split; [exact HD|lia]]|]. rewrite HX in HA'. injection HA' as ->. exact HF.
Qed.
(** Derivation paths: only ValueError in any case. *)
Theorem C106_chain limit (s : pystr) ns : decompose_limited limit s = Ok ns <->
  exists parts, slashed s (txt "m" :: parts) /\ Forall2 part_reads parts ns /\ Forall (fun p => ~ many_digits limit p) parts.
Proof. exact (decompose_limited_spec limit s ns). Qed.
Theorem C106_chain_errors limit (s : pystr) e : decompose_limited limit s = Err e -> e = ValueError.
Proof. exact (decompose_limited_err limit s e). Qed.
Print Assumptions C106_no_limit.
Print Assumptions C106_reads.
Print Assumptions C106_errors.
Print Assumptions C106_first.
Print Assumptions C106_roundtrip.
Print Assumptions C106_refuted.
Print Assumptions C106_chain.
Print Assumptions C106_chain_errors.
(** With a small limit, to see it *)
Example C106_ex : from_asm_limited 12 (txt "OP_DUP -0000000017 9999999999999") = Err ValueError /\ from_asm_limited 12 (txt "OP_DUP -000000000017 12345678901f") = Ok [118; 1; 145; 6; 18; 52; 86; 120; 144; 31] /\
  from_asm_limited 12 (txt "OP_NONE 9999999999999") = Err ScriptError /\ decompose_limited 5 (txt "m/00007'/3") = Ok [7 + 2 ^ 31; 3] /\ decompose_limited 5 (txt "m/000007'/3") = Err ValueError /\
  long_numeral 12 (txt "9999999999999") /\ many_digits 5 (txt "000007'").
Proof.
  repeat (split; [vm_compute; reflexivity|]). split.
  - exists (txt "9999999999999"). split; [repeat constructor; vm_compute; congruence|]. split; [now left|vm_compute; reflexivity].
  - exists (txt "000007"), (txt "'"). split; [repeat constructor; vm_compute; congruence|]. split; vm_compute; reflexivity.
Qed.
