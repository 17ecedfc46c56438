(** Cashaddr: C48, C49 and C50.  The model treats case as ASCII case, so these are statements about ASCII texts. *)
From Verif.Model Require Import Py Text Cashaddr.
From Verif.Spec Require Import CashaddrSpec.
From Verif.Proofs Require Import PyFacts ScriptFacts ScriptTheorems Digits MiscFacts ConvertBits CashaddrFacts CashaddrDecode CashaddrErrors CashaddrFour.

(** C48 *)
Theorem C48_decode (p : pystr) (k : Z) (h : bytes) : good_prefix p -> k = 0 \/ k = 1 -> bytes_ok h = true -> In (zlen h) [20; 24; 28; 32; 40; 48; 56; 64] ->
  exists ss body, pack_addr_data k h = Ok ss /\ spelt (ss ++ create_checksum p ss) body /\
    cash_decode (p ++ txt ":" ++ body) = Ok (p, k, h) /\ cash_decode (upper (p ++ txt ":" ++ body)) = Ok (upper p, k, h).
Proof.
  intros HP HK HB HI. assert (HC : exists c, In (zlen h, c) size_codes).
  { cbn in HI. repeat (destruct HI as [<-|HI]; [cbn; eexists; eauto 12; fail|]). contradiction. }
  destruct HC as (c & HC). destruct (pack_spec k h HK HB c HC) as (ss & HPk & HG). assert (HSy : symbols_ok (ss ++ create_checksum p ss)) by (apply symbols_app; split; [apply HG|apply digits8_ok]).
  destruct (spelt_exists _ HSy) as (body & HD). exists ss, body. split; [exact HPk|]. split; [exact HD|].
  assert (HT : text_of p k h (p ++ txt ":" ++ body)) by (split; [exact HP|]; split; [exact HK|]; split; [exact HB|]; exists (8 * k + c), ss, body; split; [exists c; auto|]; split; [exact HG|]; split; [exact HD|reflexivity]).
  destruct (text_has_letter _ _ _ _ HT) as [HU HL]. split.
  - apply decode_spec. exists p. rewrite HL. split; [exact HT|]. left. auto.
  - apply decode_spec. exists p. rewrite lower_upper by (now apply lower_id). split; [exact HT|]. right. rewrite lower_upper by (now apply lower_id). split; [intros HE; now apply HU|]. split; [apply upper_upper|reflexivity].
Qed.
(** What is written before the checksum: the version byte and the hash in groups of five bits. *)
Theorem C48_groups (k : Z) (h : bytes) (c : Z) : k = 0 \/ k = 1 -> bytes_ok h = true -> In (zlen h, c) size_codes ->
  exists ss, pack_addr_data k h = Ok ss /\ five_bit_groups (8 * k + c :: h) ss.
Proof. intros HK HB HI. exact (pack_spec k h HK HB c HI). Qed.
(** Exactly the texts made in this way decode. *)
Theorem C48_exactly (t : pystr) (q : pystr) (k : Z) (h : bytes) : cash_decode t = Ok (q, k, h) <->
  exists p ss body, good_prefix p /\ (k = 0 \/ k = 1) /\ bytes_ok h = true /\ (exists c, In (zlen h, c) size_codes) /\ pack_addr_data k h = Ok ss /\ spelt (ss ++ create_checksum p ss) body /\
    ((t = p ++ txt ":" ++ body /\ q = p) \/ (t = upper (p ++ txt ":" ++ body) /\ q = upper p)).
Proof.
  rewrite decode_spec. split.
  - intros (p & HT & HC). pose proof HT as (HP & HK & HB & v & ss & body & (c & HI & Hv) & HG & HD & HE). exists p, ss, body. split; [exact HP|]. split; [exact HK|]. split; [exact HB|]. split; [eauto|].
    destruct (pack_spec k h HK HB c HI) as (ss' & HPk & HG'). rewrite <- Hv in HG'. rewrite (groups_fun _ _ _ HG HG') in *. split; [exact HPk|]. split; [exact HD|]. change (58 :: body) with (txt ":" ++ body) in HE.
    destruct HC as [[HL ->]|(HL & HU & ->)]; [left; split; [congruence|reflexivity]|]. right. split; [|reflexivity]. rewrite <- HE. rewrite <- HU at 1. symmetry. apply upper_lower.
  - intros (p & ss & body & HP & HK & HB & (c & HI) & HPk & HD & HC). exists p. destruct (pack_spec k h HK HB c HI) as (ss' & HPk' & HG). rewrite HPk in HPk'. injection HPk' as <-.
    assert (HT : text_of p k h (p ++ txt ":" ++ body)) by (split; [exact HP|]; split; [exact HK|]; split; [exact HB|]; exists (8 * k + c), ss, body; split; [exists c; auto|]; split; [exact HG|]; split; [exact HD|reflexivity]).
    destruct (text_has_letter _ _ _ _ HT) as [HU HL]. destruct HC as [[-> ->]|[-> ->]].
    + rewrite HL. split; [exact HT|left; auto].
    + rewrite lower_upper by (now apply lower_id). split; [exact HT|]. right. rewrite lower_upper by (now apply lower_id). split; [intros HE; now apply HU|]. split; [apply upper_upper|reflexivity].
Qed.
Print Assumptions C48_decode.
Print Assumptions C48_groups.
Print Assumptions C48_exactly.
Definition spell (ss : list Z) : pystr := map (fun s => nth (Z.to_nat s) symbols 0) ss.
Definition sample_hash : bytes := zrange 200 220.
Example C48_ex : (ss <- pack_addr_data 1 sample_hash ;; Ok (spell (ss ++ create_checksum (txt "bitcoincash") ss))) = Ok (txt "pryvnjktenxuan7s68fd84x46mta3kw6mvl5sck89y") /\
  cash_decode (txt "bitcoincash:pryvnjktenxuan7s68fd84x46mta3kw6mvl5sck89y") = Ok (txt "bitcoincash", 1, sample_hash) /\
  cash_decode (txt "BITCOINCASH:PRYVNJKTENXUAN7S68FD84X46MTA3KW6MVL5SCK89Y") = Ok (txt "BITCOINCASH", 1, sample_hash) /\
  cash_decode (txt "BITCOINCASH:pryvnjktenxuan7s68fd84x46mta3kw6mvl5sck89y") = Err ValueError.
Proof. vm_compute. repeat split. Qed.
(** A slip that only matters to callers of the private packing function: a hash of 72 bytes is given the size code of 40. *)
Example C48_oversize : (ss <- pack_addr_data 0 (zrepeat 7 72) ;; Ok (zlen ss)) = Ok 117 /\ pack_addr_data 0 (zrepeat 7 68) = Err ValueError.
Proof. vm_compute. repeat split. Qed.

(** C49.  [p] is the text before the first ':'; comparing lower-case because letter case is not protected. *)
Theorem C49_window (p a w w' b : pystr) : ~ In 58 p -> (exists r, cash_decode (p ++ txt ":" ++ a ++ w ++ b) = Ok r) -> zlen w' = zlen w -> zlen w <= 8 -> lower w' <> lower w ->
  cash_decode (p ++ txt ":" ++ a ++ w' ++ b) = Err ValueError.
Proof.
  intros HN HOk HL H8 HW. apply (rejected p (a ++ w ++ b) (a ++ w' ++ b) HN); [rewrite !zlen_app; lia|exact HOk|]. intros q data q' data' HD HD'. apply HW. symmetry. exact (window p a w w' b q data q' data' HN HL H8 HD HD').
Qed.
Theorem C49_two_characters (p a m b : pystr) (x x' y y' : Z) : ~ In 58 p -> (exists r, cash_decode (p ++ txt ":" ++ a ++ [x] ++ m ++ [y] ++ b) = Ok r) ->
  lower [x'] <> lower [x] \/ lower [y'] <> lower [y] -> cash_decode (p ++ txt ":" ++ a ++ [x'] ++ m ++ [y'] ++ b) = Err ValueError.
Proof.
  intros HN HOk HW. destruct (Z.eq_dec (lower_char x') (lower_char x)) as [HX|HX].
  - assert (HY : lower [y'] <> lower [y]) by (destruct HW as [HW|HW]; [exfalso; apply HW; cbn; now rewrite HX|exact HW]).
    apply (rejected p (a ++ [x] ++ m ++ [y] ++ b) _ HN); [rewrite !zlen_app; change (zlen [_]) with 1; change (zlen [_]) with 1; lia|exact HOk|]. intros q data q' data' HD HD'. apply HY.
    symmetry. assert (HE : forall z s, decode_payload (p ++ 58 :: a ++ [z] ++ s) = decode_payload (p ++ 58 :: (a ++ [z]) ++ s)) by (intros; now rewrite <- app_assoc).
    assert (HE2 : forall z u, p ++ 58 :: a ++ [z] ++ m ++ [u] ++ b = p ++ 58 :: (a ++ [z] ++ m) ++ [u] ++ b) by (intros; now rewrite <- !app_assoc). rewrite HE2 in HD, HD'.
    apply (payload_run p _ _ _ HN) in HD as (ds & HS & HR & _). apply (payload_run p _ _ _ HN) in HD' as (ds' & HS' & HR' & _). rewrite (lower_app (a ++ [x] ++ m)), (lower_app [y]) in HS. rewrite (lower_app (a ++ [x'] ++ m)), (lower_app [y']) in HS'.
    assert (HLX : lower (a ++ [x'] ++ m) = lower (a ++ [x] ++ m)) by (rewrite !lower_app; cbn [lower map]; now rewrite HX). rewrite HLX in HS'.
    apply spelt_app in HS as (da & db & -> & Ha & HS). apply spelt_app in HS as (dw & db' & -> & Hw & Hb). apply spelt_app in HS' as (da' & db2 & -> & Ha' & HS'). apply spelt_app in HS' as (dw' & db3 & -> & Hw' & Hb').
    rewrite <- (spelt_inj _ _ _ Ha Ha'), <- (spelt_inj _ _ _ Hb Hb') in *. assert (HLw : length dw = length dw') by (rewrite (spelt_len _ _ Hw), (spelt_len _ _ Hw'); reflexivity).
    pose proof (eq_trans HR (eq_sym HR')) as HEq. apply runs_equal in HEq; [|rewrite !app_length; lia]. rewrite !xors_app, !xors_same in HEq by (try reflexivity; exact HLw).
    apply burst_detected in HEq; [|apply xors_ok; [apply (spelt_symbols _ _ Hw)|apply (spelt_symbols _ _ Hw')]|unfold zlen in *; rewrite xors_length, (spelt_len _ _ Hw) by exact HLw; cbn; lia]. rewrite xors_length in HEq by exact HLw.
    apply xors_zero in HEq; [|exact HLw]. subst dw'. exact (spelt_fun _ _ _ Hw Hw').
  - apply (rejected p (a ++ [x] ++ m ++ [y] ++ b) _ HN); [rewrite !zlen_app; change (zlen [_]) with 1; change (zlen [_]) with 1; lia|exact HOk|]. intros q data q' data' HD HD'. apply HX. pose proof (two_chars p a x x' m y y' b q data q' data' HN HD HD') as HE. cbn in HE. now injection HE.
Qed.
(** Up to four changed characters, anywhere in the prefix or the body.  Of a character of the prefix only the low
    five bits count; the prefix has at most 900 characters. *)
Theorem C49_four_characters (p p' b b' : pystr) : ~ In 58 p -> ~ In 58 p' -> zlen p' = zlen p -> zlen p <= 900 -> zlen b' = zlen b ->
  (exists r, cash_decode (p ++ txt ":" ++ b) = Ok r) ->
  1 <= differences (low_bits (lower p) ++ lower b) (low_bits (lower p') ++ lower b') <= 4 ->
  cash_decode (p' ++ txt ":" ++ b') = Err ValueError.
Proof. intros HN HN' HP H9 HB HOk HD. exact (four_characters p p' b b' HN HN' HP H9 HB HD HOk). Qed.
(** The low bits are needed: one character of the prefix is replaced and the text still decodes. *)
Theorem C49_prefix_refuted : exists p p' b k h, zlen p' = zlen p /\ differences (lower p) (lower p') = 1 /\
  cash_decode (p ++ txt ":" ++ b) = Ok (p, k, h) /\ cash_decode (p' ++ txt ":" ++ b) = Ok (p', k, h).
Proof.
  exists (txt "q"), (txt "1"), (txt "qqqqzqsrqszsvpcgpy9qkrqdpc83qygjzv8kwtxgth"), 0, (zrange 0 20). vm_compute. repeat split.
Qed.
Print Assumptions C49_window.
Print Assumptions C49_four_characters.
Print Assumptions C49_prefix_refuted.
Print Assumptions C49_two_characters.
Example C49_ex : cash_decode (txt "bitcoincash:pryvnjktenxuan7s68fd84x46mta3kw6mvl5sck898") = Err ValueError /\ cash_decode (txt "bitcoincash:qryvnjktenxuan7s68fd84x46mta3kw6mvl5sck89p") = Err ValueError /\
  cash_decode (txt "bitcoincash:pryqqqqqqqquan7s68fd84x46mta3kw6mvl5sck89y") = Err ValueError.
Proof. vm_compute. repeat split. Qed.

(** Four characters far apart, one of them in the prefix *)
Example C49_four_ex : let p := txt "bitcoincash" in let p' := txt "bitcoincasi" in
  let b := txt "pryvnjktenxuan7s68fd84x46mta3kw6mvl5sck89y" in let b' := txt "qryvnjktenxuan7s68fd84x46mtq3kw6mvl5sck89p" in
  (exists r, cash_decode (p ++ txt ":" ++ b) = Ok r) /\ differences (low_bits (lower p) ++ lower b) (low_bits (lower p') ++ lower b') = 4 /\
  cash_decode (p' ++ txt ":" ++ b') = Err ValueError.
Proof. vm_compute. split; [eexists; reflexivity|split; reflexivity]. Qed.

(** C50 *)
Theorem C50_injective (t1 t2 p : pystr) (k : Z) (h : bytes) : lower_case t1 -> lower_case t2 -> cash_decode t1 = Ok (p, k, h) -> cash_decode t2 = Ok (p, k, h) -> t1 = t2.
Proof.
  intros H1 H2 HD1 HD2. apply lower_id in H1, H2. apply decode_spec in HD1 as (p1 & HT1 & HC1), HD2 as (p2 & HT2 & HC2). destruct HC1 as [[_ ->]|(HL & _)]; [|contradiction]. destruct HC2 as [[_ ->]|(HL & _)]; [|contradiction].
  rewrite H1 in HT1. rewrite H2 in HT2. destruct HT1 as (_ & _ & _ & v & ss & body & (c & HI & ->) & HG & HS & ->). destruct HT2 as (_ & _ & _ & v' & ss' & body' & (c' & HI' & ->) & HG' & HS' & ->).
  rewrite (code_fun _ _ _ HI HI') in HG. rewrite (groups_fun _ _ _ HG HG') in HS. now rewrite (spelt_fun _ _ _ HS HS').
Qed.
(** Without the restriction to lower case there are two texts, equal but for case. *)
Theorem C50_injective_cases (t1 t2 p1 p2 : pystr) (k : Z) (h : bytes) : cash_decode t1 = Ok (p1, k, h) -> cash_decode t2 = Ok (p2, k, h) -> lower p1 = lower p2 -> lower t1 = lower t2.
Proof.
  intros HD1 HD2 HP. apply decode_spec in HD1 as (q1 & HT1 & HC1), HD2 as (q2 & HT2 & HC2).
  assert (HG : forall q t q0, text_of q k h t -> cased t q0 q \/ cased t q0 q -> True) by trivial. clear HG.
  assert (HX : forall t q0 q, text_of q k h (lower t) -> cased t q0 q -> lower q0 = q).
  { intros t q0 q ((_ & HF) & _) HC. assert (HLq : lower_case q) by (apply Forall_forall; intros c Hc; rewrite Forall_forall in HF; apply HF in Hc; lia). destruct HC as [[_ ->]|(_ & _ & ->)]; [now apply lower_id|now apply lower_upper]. }
  pose proof (HX _ _ _ HT1 HC1) as E1. pose proof (HX _ _ _ HT2 HC2) as E2. rewrite E1, E2 in HP. subst q2. destruct HT1 as (_ & _ & _ & v & ss & body & (c & HI & ->) & HG & HS & ->). destruct HT2 as (_ & _ & _ & v' & ss' & body' & (c' & HI' & ->) & HG' & HS' & ->).
  rewrite (code_fun _ _ _ HI HI') in HG. rewrite (groups_fun _ _ _ HG HG') in HS. now rewrite (spelt_fun _ _ _ HS HS').
Qed.
(** The claim about exceptions is false: a payload that is only a checksum raises IndexError. *)
Theorem C50_errors_refuted : exists t, Forall (fun c => 33 <= c <= 126) t /\ cash_decode t = Err IndexError.
Proof.
  exists (txt "bitcoincash:" ++ spell (create_checksum (txt "bitcoincash") [])). split; [|vm_compute; reflexivity]. apply Forall_forall. intros c HI. assert (HF : forallb (fun c => (33 <=? c) && (c <=? 126)) (txt "bitcoincash:" ++ spell (create_checksum (txt "bitcoincash") [])) = true) by (vm_compute; reflexivity).
  rewrite forallb_forall in HF. apply HF, andb_true_iff in HI. rewrite !Z.leb_le in HI. exact HI.
Qed.
(** That is the only case. *)
Theorem C50_errors_partial (t : pystr) (e : exn) : cash_decode t = Err e -> e = ValueError \/
  (e = IndexError /\ exists p body, lower t = p ++ txt ":" ++ body /\ ~ In 58 p /\ zlen body = 8 /\ spelt (create_checksum p []) body).
Proof.
  intros HE. apply decode_errors in HE as [->|(-> & q & HP)]; [now left|]. right. split; [reflexivity|]. apply payload_spec in HP as (p & body & cs & HS & HI & HN & HF & HL & HD & HL8 & HPm & HCs). cbn [app] in HD. exists p, body.
  pose proof (spelt_symbols _ _ HD) as HSy. apply (checksum_unique (prefix_expand p) [] cs (prefix_symbols p)) in HPm; [|constructor|exact HSy|exact HL8]. split; [exact HS|]. split; [exact HI|]. split; [rewrite <- (spelt_length _ _ HD); exact HL8|].
  unfold create_checksum. fold (digits8 (polymod (prefix_expand p ++ [] ++ zrepeat 0 8))). rewrite <- HPm. exact HD.
Qed.
Print Assumptions C50_injective.
Print Assumptions C50_injective_cases.
Print Assumptions C50_errors_refuted.
Print Assumptions C50_errors_partial.
Example C50_ex : cash_decode (txt "bitcoincash:") = Err ValueError /\ cash_decode (txt ":pryvnjktenxuan7s68fd84x46mta3kw6mvl5sck89y") = Err ValueError /\ cash_decode [] = Err ValueError.
Proof. vm_compute. repeat split. Qed.
