(** Output scripts: what classification means and that it undoes to_script. *)
From Verif.Model Require Import Py Text Packing Misc Curve Coin Base58 Script Keys Bip32 Address.
From Verif.Spec Require Import Numbers ScriptSpec CurveSpec AddressSpec.
From Verif.Proofs Require Import PyFacts NumbersFacts ScriptFacts ScriptTheorems Base58Facts Bip32Facts ClassifyFacts.

Lemma fine_codes L : Forall op_fine L -> Forall code_fine L.
Proof. apply Forall_impl. exact op_code_fine. Qed.
Lemma stays_P2PKH h : Forall stays (std_P2PKH h).
Proof. repeat constructor; cbn; lia. Qed.
Lemma stays_P2SH h : Forall stays (std_P2SH h).
Proof. repeat constructor; cbn; lia. Qed.
Lemma stays_P2PK h : Forall stays (std_P2PK h).
Proof. repeat constructor; cbn; lia. Qed.
Lemma stays_datas ds : Forall stays (map Data ds).
Proof. induction ds; constructor; [exact I|assumption]. Qed.
Lemma stays_multisig m ks n : Forall stays (std_multisig m ks n).
Proof. apply Forall_app. split; [repeat constructor|]. apply Forall_app. split; [apply stays_datas|]. repeat constructor; cbn; lia. Qed.

Section Address.
  Variable C : curve.

  (** The same in terms of scripts *)
  Definition script_meaning (s : bytes) (c : coin) (o : output C) : Prop :=
    match o with
    | OAddress (P2PKH h c') => c' = c /\ zlen h = 20 /\ exists l, denotes s l /\ reduces l (std_P2PKH h)
    | OAddress (P2SH h c') => c' = c /\ zlen h = 20 /\ exists l, denotes s l /\ reduces l (std_P2SH h)
    | OP2PK k c' => c' = c /\ exists l b, denotes s l /\ reduces l (std_P2PK b) /\ reads_as b k
    | OMultiSig ks t => exists l m keys n, denotes s l /\ reduces l (std_multisig m keys n) /\
        number m t /\ number n (zlen keys) /\ Forall2 reads_as keys ks /\ 1 <= t <= zlen keys
    | OReturn => exists l ds r, (denotes s l \/ ends_early s l) /\ reduces l (map Data ds ++ Code 106 :: r)
    | OUnknown => True
    end.
  Lemma op_return_reduces l ds r : reduces l (map Data ds ++ Code 106 :: r) -> exists r', rev (fold_left strip_step l []) = map Data ds ++ Code 106 :: r'.
  Proof.
    intros HR. rewrite (reduces_strip _ _ HR), fold_left_app, strip_datas, app_nil_r. cbn [fold_left]. change (strip_step (rev (map Data ds)) (Code 106)) with ([] ++ Code 106 :: rev (map Data ds)).
    destruct (code_stays 106 r ltac:(lia) [] (rev (map Data ds))) as (post & ->). exists (rev post). rewrite rev_app_distr. cbn [rev]. now rewrite rev_involutive, <- app_assoc.
  Qed.
  Lemma ends_0 L L' (x : op) : L ++ [Code 0] = L' ++ [x] -> x <> Code 0 -> False.
  Proof. intros HE HN. apply app_inj_tail in HE as [_ HE]. congruence. Qed.

  Lemma classify_total s c : bytes_ok s = true -> exists o, classify_output_script C s c = Ok o.
  Proof.
    intros HB. rewrite classify_stripped. assert (HF : Forall code_fine (stripped_ops s)).
    { destruct (script_cases s HB) as [(l & _ & HF & ->)|(l & _ & HF & ->)]; [now apply fine_codes|]. apply Forall_app. split; [now apply fine_codes|]. repeat constructor. }
    destruct (classify_meaning C _ c HF) as (o & HO & _). eauto.
  Qed.
  Lemma classify_spec s c o : bytes_ok s = true -> o <> OUnknown -> (classify_output_script C s c = Ok o <-> script_meaning s c o).
  Proof.
    intros HB HU. rewrite classify_stripped. destruct (script_cases s HB) as [(l & HD & HF & ->)|(l & HD & HF & ->)].
    - apply fine_codes in HF. assert (HL : forall l', denotes s l' -> l' = l) by (intros l' H'; exact (denotes_fun _ _ _ H' HD)).
      assert (HM : meaning C (rev (fold_left strip_step l [])) c o <-> script_meaning s c o).
      { destruct o as [[h c'|h c']|k c'|ks t| |]; cbn [meaning script_meaning].
        - split; [intros (HE & H2 & H3); split; [exact H3|]; split; [exact H2|]; exists l; split; [exact HD|]; now apply reduces_to; [apply stays_P2PKH|]|].
          intros (H3 & H2 & l' & HD' & HR). rewrite (HL _ HD') in HR. apply reduces_to in HR; [auto|apply stays_P2PKH].
        - split; [intros (HE & H2 & H3); split; [exact H3|]; split; [exact H2|]; exists l; split; [exact HD|]; now apply reduces_to; [apply stays_P2SH|]|].
          intros (H3 & H2 & l' & HD' & HR). rewrite (HL _ HD') in HR. apply reduces_to in HR; [auto|apply stays_P2SH].
        - split; [intros (H3 & b & HE & H2); split; [exact H3|]; exists l, b; split; [exact HD|]; split; [|exact H2]; now apply reduces_to; [apply stays_P2PK|]|].
          intros (H3 & l' & b & HD' & HR & H2). rewrite (HL _ HD') in HR. apply reduces_to in HR; [eauto|apply stays_P2PK].
        - split; [intros (m & keys & n & HE & H2); exists l, m, keys, n; split; [exact HD|]; split; [|exact H2]; now apply reduces_to; [apply stays_multisig|]|].
          intros (l' & m & keys & n & HD' & HR & H2). rewrite (HL _ HD') in HR. apply reduces_to in HR; [exists m, keys, n; auto|apply stays_multisig].
        - split; [intros (ds & r & HE); exists l, ds, r; split; [now left|]; rewrite <- HE; exact (strip_reduces l [])|].
          intros (l' & ds & r & [HD'|HD'] & HR); [|exfalso; exact (denotes_not_early _ _ _ HB HD HD')]. rewrite (HL _ HD') in HR. apply op_return_reduces in HR as (r' & HR). eauto.
        - tauto. }
      rewrite <- HM. split; [|now apply meaning_classify]. intros HE. destruct (classify_meaning C _ c HF) as (o' & HO & HM'). rewrite HE in HO. injection HO as <-. exact HM'.
    - assert (HF' : Forall code_fine (rev (fold_left strip_step l []) ++ [Code 0])) by (apply Forall_app; split; [now apply fine_codes|]; repeat constructor).
      assert (HN : forall l', denotes s l' -> False) by (intros l' H'; exact (denotes_not_early _ _ _ HB H' HD)).
      assert (HM : meaning C (rev (fold_left strip_step l []) ++ [Code 0]) c o <-> script_meaning s c o).
      { destruct o as [[h c'|h c']|k c'|ks t| |]; cbn [meaning script_meaning].
        - split; [intros (HE & _); exfalso; change (std_P2PKH h) with ([Code 118; Code 169; Data h; Code 136] ++ [Code 172]) in HE; apply ends_0 in HE; [assumption|discriminate]|].
          intros (_ & _ & l' & HD' & _). destruct (HN _ HD').
        - split; [intros (HE & _); exfalso; change (std_P2SH h) with ([Code 169; Data h] ++ [Code 135]) in HE; apply ends_0 in HE; [assumption|discriminate]|].
          intros (_ & _ & l' & HD' & _). destruct (HN _ HD').
        - split; [intros (_ & b & HE & _); exfalso; change (std_P2PK b) with ([Data b] ++ [Code 172]) in HE; apply ends_0 in HE; [assumption|discriminate]|].
          intros (_ & l' & b & HD' & _). destruct (HN _ HD').
        - split; [intros (m & keys & n & HE & _); exfalso; rewrite std_multisig_app in HE; apply ends_0 in HE; [assumption|discriminate]|].
          intros (l' & m & keys & n & HD' & _). destruct (HN _ HD').
        - split.
          + intros (ds & r & HE). destruct r as [|x r _] using rev_ind; [exfalso; apply ends_0 in HE; [assumption|discriminate]|].
            change (map Data ds ++ Code 106 :: r ++ [x]) with (map Data ds ++ (Code 106 :: r) ++ [x]) in HE. rewrite app_assoc in HE. apply app_inj_tail in HE as [HE _]. exists l, ds, r. split; [now right|]. rewrite <- HE. exact (strip_reduces l []).
          + intros (l' & ds & r & [HD'|HD'] & HR); [destruct (HN _ HD')|]. rewrite (early_fun _ _ _ HB HD' HD) in HR. apply op_return_reduces in HR as (r' & ->). exists ds, (r' ++ [Code 0]). now rewrite <- app_assoc.
        - tauto. }
      rewrite <- HM. split; [|now apply meaning_classify]. intros HE. destruct (classify_meaning C _ c HF') as (o' & HO & HM'). rewrite HE in HO. injection HO as <-. exact HM'.
  Qed.

  (** C42 *)
  Hypothesis L : curve_laws C.
  Definition on_bitcoin (k : pubkey C) : pubkey C := mk_pubkey (pk_point k) (pk_compressed k) Bitcoin.
  (** What reading the script gives back: the key objects have the default coin. *)
  Definition read_back (o : output C) (c : coin) : output C :=
    match o with
    | OAddress (P2PKH h _) => OAddress (P2PKH h c)
    | OAddress (P2SH h _) => OAddress (P2SH h c)
    | OP2PK k _ => OP2PK (on_bitcoin k) c
    | OMultiSig ks t => OMultiSig (map on_bitcoin ks) t
    | o => o
    end.
  (** What the constructors accept *)
  Definition valid_output (o : output C) : Prop :=
    match o with
    | OAddress a => bytes_ok (address_hash160 a) = true /\ zlen (address_hash160 a) = 20
    | OMultiSig ks t => 1 <= t <= zlen ks
    | OUnknown => False
    | _ => True
    end.
  Lemma reads_own k : reads_as (pubkey_to_bytes C k None) (on_bitcoin k).
  Proof.
    unfold reads_as, pubkey_to_bytes, on_bitcoin. cbn. rewrite (law_parse C L). split; [reflexivity|]. split; [|reflexivity].
    rewrite (law_length C L). now destruct (pk_compressed k).
  Qed.
  Lemma push_key k : exists p, push_item (pubkey_to_bytes C k None) = Ok p /\ bytes_ok p = true /\ encodes p (Data (pubkey_to_bytes C k None)).
  Proof.
    assert (HLn : zlen (pubkey_to_bytes C k None) < 2 ^ 32) by (unfold pubkey_to_bytes; rewrite (law_length C L); now destruct (pk_compressed k)).
    destruct (push_item_total _ HLn) as (p & HP). exists p. split; [exact HP|]. split; [|now apply push_item_encodes in HP].
    apply push_item_bytes in HP; [exact HP|]. apply (law_bytes C L).
  Qed.
  Lemma push_keys ks : exists ps, mapM (fun k => push_item (pubkey_to_bytes C k None)) ks = Ok ps /\ bytes_ok (concat ps) = true /\ Forall2 encodes ps (map Data (map (fun k => pubkey_to_bytes C k None) ks)).
  Proof.
    induction ks as [|k ks (ps & HM & HB & HF)]; [exists []; repeat split; constructor|]. destruct (push_key k) as (p & HP & HPB & HPE).
    exists (p :: ps). cbn [mapM]. rewrite HP. cbn [bind]. rewrite HM. split; [reflexivity|]. split; [cbn [concat]; now rewrite bytes_ok_app, HPB|]. constructor; assumption.
  Qed.
  Lemma push_int_encodes v p : push_int v = Ok p -> exists item, number item v /\ bytes_ok p = true /\ encodes p (Data item).
  Proof.
    intros HP. destruct (push_int_item v) as (item & HB & HN & HE & _). rewrite HE in HP. exists item. split; [exact HN|].
    split; [exact (push_item_bytes _ _ HB HP)|]. now apply push_item_encodes in HP.
  Qed.
  Lemma denotes_reduces parts l l' : Forall2 encodes parts l -> l = l' -> exists l0, denotes (concat parts) l0 /\ reduces l0 l'.
  Proof. intros HF <-. exists l. split; [exists parts; auto|constructor]. Qed.
  Lemma code_enc c : 97 <= c <= 255 -> encodes [c] (Code c).
  Proof. intros HC. constructor. now right. Qed.

  Lemma own_script o c s : valid_output o -> to_script_bytes C o = Ok s -> bytes_ok s = true /\ classify_output_script C s c = Ok (read_back o c).
  Proof.
    intros HV HS. assert (HX : bytes_ok s = true /\ script_meaning s c (read_back o c)).
    { destruct o as [[h c'|h c']|k c'|ks t| |]; cbn [valid_output to_script_bytes address_script read_back script_meaning address_hash160] in *.
      - apply bind_Ok in HS as (p & HP & HS). injection HS as <-. destruct HV as [HB HL]. pose proof (push_item_bytes _ _ HB HP) as HPB. apply push_item_encodes in HP as [HE _].
        assert (HB' : bytes_ok ([118; 169] ++ p ++ [136; 172]) = true) by (rewrite !bytes_ok_app, HPB; reflexivity).
        split; [exact HB'|]. split; [reflexivity|]. split; [exact HL|]. exists (std_P2PKH h). split; [|constructor]. exists [[118]; [169]; p; [136]; [172]]. split; [reflexivity|].
        repeat constructor; try assumption; lia.
      - apply bind_Ok in HS as (x & HX & HS). cbn in HX. injection HX as <-. apply bind_Ok in HS as (p & HP & HS). apply bind_Ok in HS as (y & HY & HS). cbn in HY. injection HY as <-. injection HS as <-.
        destruct HV as [HB HL]. pose proof (push_item_bytes _ _ HB HP) as HPB. apply push_item_encodes in HP as [HE _].
        assert (HB' : bytes_ok ([169] ++ p ++ [135]) = true) by (rewrite !bytes_ok_app, HPB; reflexivity).
        split; [exact HB'|]. split; [reflexivity|]. split; [exact HL|]. exists (std_P2SH h). split; [|constructor]. exists [[169]; p; [135]]. split; [reflexivity|].
        repeat constructor; try assumption; lia.
      - apply bind_Ok in HS as (p & HP & HS). cbn in HS. injection HS as <-. destruct (push_key k) as (p' & HP' & HPB & HPE). rewrite HP in HP'. injection HP' as <-.
        split; [rewrite bytes_ok_app, HPB; reflexivity|]. split; [reflexivity|]. exists (std_P2PK (pubkey_to_bytes C k None)), (pubkey_to_bytes C k None). split; [|split; [constructor|apply reads_own]].
        exists [p; [172]]. split; [cbn; now rewrite ?app_nil_r|]. repeat constructor; try assumption; lia.
      - apply bind_Ok in HS as (m & HM & HS). apply bind_Ok in HS as (ps & HP & HS). apply bind_Ok in HS as (n & HN & HS). cbn in HS. injection HS as <-.
        apply push_int_encodes in HM as (im & NM & BM & EM), HN as (inn & NN & BN & EN). destruct (push_keys ks) as (ps' & HP' & HPB & HPE). rewrite HP in HP'. injection HP' as <-.
        split; [rewrite !bytes_ok_app, BM, BN, HPB; reflexivity|]. set (bs := map (fun k => pubkey_to_bytes C k None) ks) in *. assert (HLb : zlen bs = zlen ks) by (unfold zlen, bs; now rewrite map_length).
        exists (std_multisig im bs inn), im, bs, inn. split.
        { exists ([m] ++ ps ++ [n; [174]]). split; [rewrite !concat_app; cbn; now rewrite ?app_nil_r|]. apply Forall2_app; [repeat constructor; exact EM|]. apply Forall2_app; [exact HPE|]. repeat constructor; try assumption; lia. }
        split; [constructor|]. split; [exact NM|]. split; [now rewrite HLb|]. split; [|lia]. unfold bs. clear -L. induction ks as [|k ks IH]; cbn [map]; constructor; [apply reads_own|exact IH].
      - cbn in HS. injection HS as <-. split; [reflexivity|]. exists [Code 106], [], []. split; [left; exists [[106]]; split; [reflexivity|repeat constructor; lia]|constructor].
      - destruct HV. }
    destruct HX as [HB HX]. split; [exact HB|]. apply classify_spec; [exact HB| |exact HX]. destruct o as [[]|k c'|ks t| |]; cbn in *; (discriminate || contradiction).
  Qed.
  Lemma small_number v : 0 <= v < 2 ^ 31 -> number (le_digits 4 v) v /\ bytes_ok (le_digits 4 v) = true.
  Proof.
    intros Hv. split; [|apply le_digits_ok]. right. exists (le_digits 3 v), (v / 256 / 256 / 256).
    assert (HX : 0 <= v / 256 / 256 / 256 < 128) by (rewrite !Z.div_div by lia; split; [apply Z.div_pos; lia|apply Z.div_lt_upper_bound; lia]).
    split; [cbn [le_digits app]; now rewrite (Z.mod_small (v / 256 / 256 / 256)) by lia|]. left. split; [lia|]. rewrite val_le_int, zlen_le_digits. change (256 ^ Z.of_nat 3) with 16777216.
    cbn [le_digits le_int]. pose proof (Z.div_mod v 256 ltac:(lia)). pose proof (Z.div_mod (v / 256) 256 ltac:(lia)). pose proof (Z.div_mod (v / 256 / 256) 256 ltac:(lia)). lia.
  Qed.
  Lemma push_int_small v : 0 <= v < 2 ^ 31 -> exists p, push_int v = Ok p.
  Proof.
    intros Hv. destruct (push_int_item v) as (item & _ & _ & -> & HS). apply push_item_total. destruct (small_number v Hv) as [HN HB]. pose proof (HS _ HB HN) as HL. rewrite zlen_le_digits in HL. lia.
  Qed.
  Lemma own_script_exists o : valid_output o -> (forall ks t, o = OMultiSig ks t -> zlen ks < 2 ^ 31) -> exists s, to_script_bytes C o = Ok s.
  Proof.
    intros HV HM. destruct o as [[h c'|h c']|k c'|ks t| |]; cbn [valid_output to_script_bytes address_script address_hash160] in *.
    - destruct (push_item_total h ltac:(lia)) as (p & ->). cbn; eexists; reflexivity.
    - destruct (push_item_total h ltac:(lia)) as (p & ->). cbn; eexists; reflexivity.
    - destruct (push_key k) as (p & -> & _). cbn; eexists; reflexivity.
    - specialize (HM ks t eq_refl). destruct (push_int_small t ltac:(lia)) as (p & ->). cbn [bind]. destruct (push_keys ks) as (ps & -> & _). cbn [bind]. destruct (push_int_small (zlen ks) ltac:(pose proof (zlen_nonneg ks); lia)) as (q & ->). cbn; eexists; reflexivity.
    - cbn; eexists; reflexivity.
    - contradiction.
  Qed.
  Lemma key_eq_refl k c : pubkey_eqb C (mk_pubkey (pk_point k) (pk_compressed k) c) k = true.
  Proof. unfold pubkey_eqb. apply bytes_eqb_eq. reflexivity. Qed.
  Lemma read_back_eq o c : o <> OUnknown -> output_eqb C (read_back o c) o = true.
  Proof.
    intros HU. destruct o as [[h c'|h c']|k c'|ks t| |]; cbn [read_back output_eqb address_eqb]; try (apply bytes_eqb_eq; reflexivity); try reflexivity; [|contradiction].
    rewrite Z.eqb_refl, andb_true_r. induction ks as [|k ks IH]; [reflexivity|]. cbn [map pubkeys_eqb]. unfold on_bitcoin at 1. rewrite key_eq_refl. apply IH. discriminate.
  Qed.
End Address.
