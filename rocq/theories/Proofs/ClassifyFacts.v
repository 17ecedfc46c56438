(** Classification of output scripts. *)
From Verif.Model Require Import Py Text Packing Misc Curve Coin Base58 Script Keys Bip32 Address.
From Verif.Spec Require Import Numbers ScriptSpec CurveSpec AddressSpec.
From Verif.Proofs Require Import PyFacts NumbersFacts ScriptFacts ScriptTheorems Base58Facts Bip32Facts.

(** Removing what has no effect, in any order, ends where [strip_step] ends. *)
Lemma no_effect_strip x acc : no_effect x -> fold_left strip_step x acc = acc.
Proof. intros HN. destruct HN; reflexivity. Qed.
Lemma reduces_strip l l' : reduces l l' -> fold_left strip_step l [] = fold_left strip_step l' [].
Proof.
  induction 1 as [l|a x b l HN _ IH]; [reflexivity|]. rewrite <- IH, !fold_left_app. now rewrite (no_effect_strip x _ HN).
Qed.
Lemma strip_reduces l : forall acc, reduces (rev acc ++ l) (rev (fold_left strip_step l acc)).
Proof.
  induction l as [|o l IH]; intros acc; [rewrite app_nil_r; constructor|]. cbn [fold_left].
  assert (HK : strip_step acc o = o :: acc -> reduces (rev acc ++ o :: l) (rev (fold_left strip_step l (strip_step acc o)))).
  { intros ->. specialize (IH (o :: acc)). cbn [rev] in IH. rewrite <- app_assoc in IH. exact IH. }
  destruct o as [c|d]; [|now apply HK]. unfold strip_step, OP_NOP, OP_DROP, OP_2DROP in *. destruct (Z.eqb_spec c 97) as [->|].
  - change (Code 97 :: l) with ([Code 97] ++ l). apply red_remove; [constructor|]. apply IH.
  - destruct (Z.eqb_spec c 117) as [->|].
    + destruct acc as [|[x|d] r]; [now apply HK|now apply HK|]. cbn [rev]. rewrite <- app_assoc. change ([Data d] ++ Code 117 :: l) with ([Data d; Code 117] ++ l). apply red_remove; [constructor|]. apply IH.
    + destruct (Z.eqb_spec c 109) as [->|]; [|now apply HK]. destruct acc as [|[x|d] [|[y|e] r]]; try (now apply HK).
      cbn [rev]. rewrite <- !app_assoc. change ([Data e] ++ [Data d] ++ Code 109 :: l) with ([Data e; Data d; Code 109] ++ l). apply red_remove; [constructor|]. apply IH.
Qed.

(** Operations that stay *)
Definition stays (o : op) : Prop := match o with Code c => c <> 97 /\ c <> 117 /\ c <> 109 | Data _ => True end.
Lemma strip_stays l : Forall stays l -> forall acc, fold_left strip_step l acc = rev l ++ acc.
Proof.
  induction 1 as [|o l HO _ IH]; intros acc; [reflexivity|]. cbn [fold_left rev]. rewrite IH, <- app_assoc. f_equal.
  destruct o as [c|d]; [|reflexivity]. cbn in HO |- *. unfold OP_NOP, OP_DROP, OP_2DROP. destruct (Z.eqb_spec c 97), (Z.eqb_spec c 117), (Z.eqb_spec c 109); try lia. reflexivity.
Qed.
Lemma reduces_to l l' : Forall stays l' -> (reduces l l' <-> rev (fold_left strip_step l []) = l').
Proof.
  intros HS. split.
  - intros HR. rewrite (reduces_strip _ _ HR), strip_stays by exact HS. rewrite app_nil_r. apply rev_involutive.
  - intros <-. exact (strip_reduces l []).
Qed.
(** An opcode other than the two drops is never removed once it is there. *)
Lemma code_stays c l : c <> 97 -> forall acc pre, exists post, fold_left strip_step l (acc ++ Code c :: pre) = post ++ Code c :: pre.
Proof.
  intros HC. induction l as [|o l IH]; intros acc pre; [now exists acc|]. cbn [fold_left].
  destruct o as [k|d]; [|apply (IH (Data d :: acc) pre)]. cbn [strip_step]. unfold OP_NOP, OP_DROP, OP_2DROP.
  destruct (k =? 97); [apply IH|]. destruct (k =? 117).
  - destruct acc as [|[x|d] acc]; cbn [app]; [apply (IH [Code k] pre)|apply (IH (Code k :: Code x :: acc) pre)|apply IH].
  - destruct (k =? 109); [|apply (IH (Code k :: acc) pre)]. destruct acc as [|[x|d] [|[y|e] acc]]; cbn [app]; try apply IH; [apply (IH [Code k] pre)|apply (IH [Code k; Code x] pre)|apply (IH (Code k :: Code x :: Code y :: acc) pre)|apply (IH (Code k :: Code x :: Data e :: acc) pre)|apply (IH [Code k; Data d] pre)|apply (IH (Code k :: Data d :: Code y :: acc) pre)].
Qed.

(** What ops() yields *)
Definition op_fine (o : op) : Prop := match o with Code c => c = 80 \/ 97 <= c <= 255 | Data d => bytes_ok d = true end.
Lemma encodes_fine p o : encodes p o -> bytes_ok p = true -> op_fine o.
Proof.
  intros HE HB. destruct HE; cbn [op_fine]; try assumption; try reflexivity.
  - apply bytes_ok_In. intros x [<-|[]]. lia.
  - now apply andb_true_iff in HB as [_ HB].
  - apply andb_true_iff in HB as [_ HB]. now apply andb_true_iff in HB as [_ HB].
  - do 3 (apply andb_true_iff in HB as [_ HB]). exact HB.
  - do 5 (apply andb_true_iff in HB as [_ HB]). exact HB.
Qed.
Lemma parts_fine parts l : Forall2 encodes parts l -> bytes_ok (concat parts) = true -> Forall op_fine l.
Proof.
  induction 1 as [|p o parts l HE _ IH]; intros HB; constructor; cbn [concat] in HB; rewrite bytes_ok_app in HB; apply andb_true_iff in HB as [H1 H2].
  - exact (encodes_fine _ _ HE H1).
  - now apply IH.
Qed.
Lemma strip_Forall (P : op -> Prop) l : Forall P l -> forall acc, Forall P acc -> Forall P (fold_left strip_step l acc).
Proof.
  induction 1 as [|o l HO _ IH]; intros acc HA; [exact HA|]. cbn [fold_left]. apply IH. destruct o as [c|d]; [|now constructor]. cbn [strip_step].
  destruct (_ =? _); [exact HA|]. destruct (_ =? _).
  - destruct acc as [|[x|d] r]; try (now constructor). now inversion HA.
  - destruct (_ =? _); [|now constructor]. destruct acc as [|[x|d] [|[y|e] r]]; try (now constructor). inversion HA; subst. now inversion H2.
Qed.

(** The stripped operations of a script, whole or not *)
Lemma script_cases s : bytes_ok s = true ->
  (exists l, denotes s l /\ Forall op_fine (rev (fold_left strip_step l [])) /\ stripped_ops s = rev (fold_left strip_step l [])) \/
  (exists l, ends_early s l /\ Forall op_fine (rev (fold_left strip_step l [])) /\ stripped_ops s = rev (fold_left strip_step l []) ++ [Code 0]).
Proof.
  intros HB. unfold stripped_ops. destruct (parse_total s HB) as (parts & l & tail & -> & HF & HO).
  assert (HFi : Forall op_fine (rev (fold_left strip_step l []))).
  { apply Forall_rev, strip_Forall; [|constructor]. apply (parts_fine parts); [exact HF|]. rewrite bytes_ok_app in HB. now apply andb_true_iff in HB. }
  destruct HO as [[-> HO]|[(Hne & more & d & Hm & HE) HO]]; rewrite HO.
  - left. exists l. split; [exists parts; split; [apply app_nil_r|exact HF]|]. auto.
  - right. exists l. split; [exists parts, tail, more, d; auto|]. split; [exact HFi|reflexivity].
Qed.
Lemma denotes_fun s l l' : denotes s l -> denotes s l' -> l = l'.
Proof.
  intros (p & -> & HF) (p' & HE & HF'). apply parse_whole in HF, HF'. rewrite <- HE, HF in HF'. now injection HF'.
Qed.
Lemma denotes_not_early s l l' : bytes_ok s = true -> denotes s l -> ends_early s l' -> False.
Proof.
  intros HB (p & -> & HF) (p' & tail & more & d & HE & HF' & Hne & Hm & HD). apply parse_whole in HF.
  assert (HT : bytes_ok tail = true) by (rewrite HE, bytes_ok_app in HB; now apply andb_true_iff in HB).
  pose proof (parse_cut p' l' tail HF' HT (conj Hne (ex_intro _ more (ex_intro _ d (conj Hm HD))))) as HC. rewrite <- HE, HF in HC. discriminate.
Qed.
Lemma early_fun s l l' : bytes_ok s = true -> ends_early s l -> ends_early s l' -> l = l'.
Proof.
  intros HB (p & tail & more & d & HE & HF & Hne & Hm & HD) (p' & tail' & more' & d' & HE' & HF' & Hne' & Hm' & HD').
  assert (HT : bytes_ok tail = true) by (rewrite HE, bytes_ok_app in HB; now apply andb_true_iff in HB).
  assert (HT' : bytes_ok tail' = true) by (rewrite HE', bytes_ok_app in HB; now apply andb_true_iff in HB).
  pose proof (parse_cut p l tail HF HT (conj Hne (ex_intro _ more (ex_intro _ d (conj Hm HD))))) as HC.
  pose proof (parse_cut p' l' tail' HF' HT' (conj Hne' (ex_intro _ more' (ex_intro _ d' (conj Hm' HD'))))) as HC'.
  rewrite <- HE in HC. rewrite <- HE', HC in HC'. now injection HC'.
Qed.

(** Templates *)
Definition code_fine (o : op) : Prop := match o with Code c => c = 0 \/ c = 80 \/ 97 <= c <= 255 | Data d => bytes_ok d = true end.
Lemma op_code_fine o : op_fine o -> code_fine o.
Proof. destruct o; cbn; auto. Qed.
Lemma split_datas (L : list op) : exists ds rest, L = map Data ds ++ rest /\ (rest = [] \/ exists c r, rest = Code c :: r).
Proof.
  induction L as [|[c|d] L (ds & rest & -> & HR)]; [exists [], []; auto|exists [], (Code c :: map Data ds ++ rest); eauto|exists (d :: ds), rest; auto].
Qed.
Lemma skip_datas ds t : forall n, (match t with x :: _ => x <> 76 | [] => True end) ->
  skip_pushes (map template_byte (map Data ds) ++ t) n = (n + zlen ds, t).
Proof.
  induction ds as [|d ds IH]; intros n HT; cbn [map app].
  - change (zlen (@nil bytes)) with 0. rewrite Z.add_0_r. destruct t as [|x t]; [reflexivity|]. cbn. unfold OP_PUSHDATA1. now destruct (Z.eqb_spec x 76).
  - cbn [template_byte skip_pushes]. rewrite Z.eqb_refl, IH by exact HT. rewrite zlen_cons. f_equal. lia.
Qed.
Lemma items_app a b : template_items (a ++ b) = template_items a ++ template_items b.
Proof. unfold template_items. now rewrite map_app, concat_app. Qed.
Lemma items_datas ds : template_items (map Data ds) = ds.
Proof. unfold template_items. induction ds as [|d ds IH]; [reflexivity|]. cbn. now rewrite IH. Qed.

Section Classify.
  Variable C : curve.
  Definition classify_L (L : list op) (c : coin) : result (output C) := classify_loop C (output_templates C c) (map template_byte L) (template_items L).
  Lemma classify_stripped s c : classify_output_script C s c = classify_L (stripped_ops s) c.
  Proof. reflexivity. Qed.

  Lemma classify_P2PKH h c : classify_L (std_P2PKH h) c = Ok (if zlen h =? 20 then OAddress (P2PKH h c) else OUnknown).
  Proof. unfold classify_L. cbn. unfold make_P2PKH, validate_hash160. destruct (zlen h =? 20); reflexivity. Qed.
  Lemma classify_P2SH h c : classify_L (std_P2SH h) c = Ok (if zlen h =? 20 then OAddress (P2SH h c) else OUnknown).
  Proof. unfold classify_L. cbn. unfold make_P2SH, validate_hash160. destruct (zlen h =? 20); reflexivity. Qed.
  Lemma classify_P2PK b c : classify_L (std_P2PK b) c = Ok (match pubkey_from_bytes C b with Ok k => OP2PK k c | Err _ => OUnknown end).
  Proof. unfold classify_L. cbn. unfold pubkey_from_bytes. destruct (pubkey_parse C b); reflexivity. Qed.

  Lemma tail_cases ds r : map template_byte (map Data ds ++ r) = map template_byte (map Data ds) ++ map template_byte r.
  Proof. apply map_app. Qed.
  Lemma classify_OpReturn ds r c : classify_L (map Data ds ++ Code 106 :: r) c = Ok OReturn.
  Proof.
    unfold classify_L. remember (template_items (map Data ds ++ Code 106 :: r)) as items. clear Heqitems.
    rewrite map_app. cbn [classify_loop output_templates]. unfold match_op_return. rewrite skip_datas by (cbn; lia). cbn [map template_byte snd].
    destruct ds as [|d [|e ds]]; [reflexivity|reflexivity|]. reflexivity.
  Qed.
  Lemma classify_MultiSig ds c : 3 <= zlen ds -> classify_L (map Data ds ++ [Code 174]) c =
    match multisig_from_template C ds with
    | Ok o => Ok o
    | Err e => if is_ValueError e || match e with TypeError => true | _ => false end then Ok OUnknown else Err e
    end.
  Proof.
    intros HL. unfold classify_L. rewrite items_app, items_datas. cbn [template_items map concat app]. rewrite app_nil_r, map_app. cbn [classify_loop output_templates].
    unfold match_op_return, match_multisig. rewrite skip_datas by (cbn; lia). cbn [map template_byte snd]. replace (3 <=? 0 + zlen ds) with true by lia.
    destruct ds as [|d [|e ds]]; [change (zlen (@nil bytes)) with 0 in HL; lia|change (zlen [d]) with 1 in HL; lia|]. reflexivity.
  Qed.

  (** Every other list of operations is unknown. *)
  Definition standard (L : list op) : Prop :=
    (exists h, L = std_P2PKH h) \/ (exists h, L = std_P2SH h) \/ (exists b, L = std_P2PK b) \/
    (exists ds r, L = map Data ds ++ Code 106 :: r) \/ (exists ds, L = map Data ds ++ [Code 174] /\ 3 <= zlen ds).
  Lemma shape_eq (L : list op) : Forall code_fine L -> forall M, Forall code_fine M -> map template_byte L = map template_byte M ->
    Forall2 (fun a b => match a, b with Code x, Code y => x = y | Data _, Data _ => True | _, _ => False end) L M.
  Proof.
    induction 1 as [|o L HO HL IH]; intros M HM HE; destruct M as [|m M]; try discriminate; [constructor|]. inversion HM; subst. injection HE as HE1 HE2. constructor; [|now apply IH].
    destruct o, m; cbn in *; unfold OP_PUSHDATA1 in *; auto; lia.
  Qed.
  Lemma standard_or_not L c : Forall code_fine L -> standard L \/ classify_L L c = Ok OUnknown.
  Proof.
    intros HF. unfold classify_L.
    destruct (bytes_eqb_spec (map template_byte (std_P2PKH [])) (map template_byte L)) as [HE|N1].
    { left. left. apply shape_eq in HE; [|repeat constructor; cbn; lia|exact HF]. unfold std_P2PKH in HE.
      repeat match goal with H : Forall2 _ (_ :: _) _ |- _ => inversion H; subst; clear H | H : Forall2 _ [] _ |- _ => inversion H; subst; clear H end.
      repeat match goal with o : op |- _ => destruct o; cbn in *; try contradiction end. subst. eexists. reflexivity. }
    destruct (bytes_eqb_spec (map template_byte (std_P2SH [])) (map template_byte L)) as [HE|N2].
    { left. right. left. apply shape_eq in HE; [|repeat constructor; cbn; lia|exact HF]. unfold std_P2SH in HE.
      repeat match goal with H : Forall2 _ (_ :: _) _ |- _ => inversion H; subst; clear H | H : Forall2 _ [] _ |- _ => inversion H; subst; clear H end.
      repeat match goal with o : op |- _ => destruct o; cbn in *; try contradiction end. subst. eexists. reflexivity. }
    destruct (bytes_eqb_spec (map template_byte (std_P2PK [])) (map template_byte L)) as [HE|N3].
    { left. right. right. left. apply shape_eq in HE; [|repeat constructor; cbn; lia|exact HF]. unfold std_P2PK in HE.
      repeat match goal with H : Forall2 _ (_ :: _) _ |- _ => inversion H; subst; clear H | H : Forall2 _ [] _ |- _ => inversion H; subst; clear H end.
      repeat match goal with o : op |- _ => destruct o; cbn in *; try contradiction end. subst. eexists. reflexivity. }
    destruct (split_datas L) as (ds & rest & HS & HR).
    assert (HT : match map template_byte rest with x :: _ => x <> 76 | [] => True end).
    { destruct HR as [->|(k & r & ->)]; [exact I|]. cbn. rewrite HS in HF. apply Forall_app in HF as [_ HF]. inversion HF; subst. cbn in *. lia. }
    cbn [classify_loop output_templates]. unfold std_P2PKH, std_P2SH, std_P2PK in *. cbn [map template_byte] in N1, N2, N3.
    match goal with |- context[bytes_eqb ?x ?y] => destruct (bytes_eqb_spec x y) as [HE|_]; [exfalso; apply N1; exact HE|] end.
    match goal with |- context[bytes_eqb ?x ?y] => destruct (bytes_eqb_spec x y) as [HE|_]; [exfalso; apply N2; exact HE|] end.
    match goal with |- context[bytes_eqb ?x ?y] => destruct (bytes_eqb_spec x y) as [HE|_]; [exfalso; apply N3; exact HE|] end.
    unfold match_op_return, match_multisig. rewrite HS, tail_cases, skip_datas by exact HT. cbn [snd]. cbn zeta.
    destruct HR as [->|(k & r & ->)]; [right; cbn [map]; now rewrite andb_false_r|]. cbn [map template_byte].
    unfold OP_RETURN, OP_CHECKMULTISIG. destruct (Z.eqb_spec k 106) as [->|HN]; [left; right; right; right; left; eauto|].
    destruct (Z.leb_spec 3 (0 + zlen ds)) as [H3|]; [|now right]. destruct (Z.eqb_spec k 174) as [->|]; [|now right]. cbn [andb].
    destruct (at_end (map template_byte r)) eqn:EA; [|now right]. left. right. right. right. right. exists ds. split; [|lia].
    rewrite HS in HF. apply Forall_app in HF as [_ HF]. inversion HF as [|? ? _ HFr]; subst. destruct r as [|o r]; [reflexivity|exfalso].
    inversion HFr; subst. destruct o as [x|x]; cbn in *; [|unfold OP_PUSHDATA1 in EA; destruct (map template_byte r); discriminate].
    unfold at_end in EA. destruct x as [|x|x]; try (destruct (map template_byte r); discriminate); try lia.
    do 4 (destruct x as [x|x|]; try (destruct (map template_byte r); discriminate)); lia.
  Qed.

  (** Multisig *)
  Lemma items_split (ds : list bytes) : 2 <= zlen ds -> exists m keys n, ds = [m] ++ keys ++ [n].
  Proof.
    intros HL. destruct ds as [|m ds]; [change (zlen (@nil bytes)) with 0 in HL; lia|]. destruct ds as [|n keys _] using rev_ind; [change (zlen [m]) with 1 in HL; lia|]. exists m, keys, n. reflexivity.
  Qed.
  Lemma from_bytes_reads b k : pubkey_from_bytes C b = Ok k <-> reads_as b k.
  Proof.
    unfold pubkey_from_bytes, reads_as. destruct (pubkey_parse C b) as [p|]; [|split; [discriminate|intros [HE _]; discriminate]]. split.
    - intros [= <-]. auto.
    - intros (HP & HC & HK). injection HP as ->. destruct k as [kp kc kk]; cbn in *. now subst.
  Qed.
  Lemma from_bytes_err b e : pubkey_from_bytes C b = Err e -> e = ValueError.
  Proof. unfold pubkey_from_bytes. destruct (pubkey_parse C b); congruence. Qed.
  Lemma multisig_spec m keys n o : bytes_ok m = true -> bytes_ok n = true ->
    (multisig_from_template C ([m] ++ keys ++ [n]) = Ok o <->
     exists ks t, o = OMultiSig ks t /\ number m t /\ number n (zlen keys) /\ Forall2 reads_as keys ks /\ 1 <= t <= zlen keys).
  Proof.
    intros HM HN. unfold multisig_from_template. cbn [app]. rewrite rev_app_distr. cbn [rev app]. rewrite rev_involutive.
    destruct (item_to_int_number n HN) as (vn & EN & NN). destruct (item_to_int_number m HM) as (vm & EM & NM). rewrite EN, EM. cbn [bind].
    destruct (Z.eqb_spec vn (zlen keys)) as [->|Hne]; cbn [negb].
    - split.
      + intros HE. apply bind_Ok in HE as (ks & HK & HE). unfold make_multisig in HE. destruct ((1 <=? vm) && (vm <=? zlen ks)) eqn:ER; [|discriminate]. injection HE as <-.
        apply andb_true_iff in ER. rewrite !Z.leb_le in ER. assert (HF : Forall2 reads_as keys ks).
        { clear - HK. revert ks HK. induction keys as [|b keys IH]; intros ks HK; cbn in HK; [injection HK as <-; constructor|]. apply bind_Ok in HK as (k & H1 & HK). apply bind_Ok in HK as (ks' & H2 & HK). injection HK as <-. constructor; [now apply from_bytes_reads|now apply IH]. }
        exists ks, vm. split; [reflexivity|]. split; [exact NM|]. split; [exact NN|]. split; [exact HF|]. unfold zlen in *. rewrite <- (Forall2_len _ _ _ HF) in ER. exact ER.
      + intros (ks & t & -> & NT & _ & HF & HR). rewrite (number_fun _ _ _ NT NM) in *. assert (HK : mapM (pubkey_from_bytes C) keys = Ok ks).
        { clear - HF. induction HF as [|b k keys ks H _ IH]; [reflexivity|]. cbn. apply from_bytes_reads in H. rewrite H. cbn. now rewrite IH. }
        rewrite HK. cbn [bind]. unfold make_multisig. assert (HLn : zlen ks = zlen keys) by (unfold zlen; now rewrite (Forall2_len _ _ _ HF)). rewrite HLn. now replace ((1 <=? vm) && (vm <=? zlen keys)) with true by lia.
    - split; [discriminate|]. intros (ks & t & _ & _ & NZ & _). elim Hne. exact (number_fun _ _ _ NN NZ).
  Qed.
  Lemma multisig_err m keys n e : bytes_ok m = true -> bytes_ok n = true -> multisig_from_template C ([m] ++ keys ++ [n]) = Err e -> e = ValueError.
  Proof.
    intros HM HN. unfold multisig_from_template. cbn [app]. rewrite rev_app_distr. cbn [rev app]. rewrite rev_involutive.
    destruct (item_to_int_number n HN) as (vn & -> & _). destruct (item_to_int_number m HM) as (vm & -> & _). cbn [bind]. destruct (negb _); [congruence|].
    intros HE. apply bind_Err in HE as [HE|(ks & _ & HE)]; [|unfold make_multisig in HE; destruct (_ && _); congruence].
    revert e HE. induction keys as [|b keys IH]; intros e HE; cbn in HE; [discriminate|]. apply bind_Err in HE as [HE|(k & _ & HE)]; [now apply from_bytes_err in HE|]. apply bind_Err in HE as [HE|(k' & _ & HE)]; [now apply IH|discriminate].
  Qed.

  (** What classification means, for the stripped operations *)
  Definition meaning (L : list op) (c : coin) (o : output C) : Prop :=
    match o with
    | OAddress (P2PKH h c') => L = std_P2PKH h /\ zlen h = 20 /\ c' = c
    | OAddress (P2SH h c') => L = std_P2SH h /\ zlen h = 20 /\ c' = c
    | OP2PK k c' => c' = c /\ exists b, L = std_P2PK b /\ reads_as b k
    | OMultiSig ks t => exists m keys n, L = std_multisig m keys n /\ number m t /\ number n (zlen keys) /\ Forall2 reads_as keys ks /\ 1 <= t <= zlen keys
    | OReturn => exists ds r, L = map Data ds ++ Code 106 :: r
    | OUnknown => True
    end.
  Lemma std_multisig_app m keys n : std_multisig m keys n = map Data ([m] ++ keys ++ [n]) ++ [Code 174].
  Proof. unfold std_multisig. rewrite !map_app. cbn. now rewrite <- app_assoc. Qed.
  Lemma classify_meaning L c : Forall code_fine L -> exists o, classify_L L c = Ok o /\ meaning L c o.
  Proof.
    intros HF. destruct (standard_or_not L c HF) as [[(h & ->)|[(h & ->)|[(b & ->)|[(ds & r & ->)|(ds & -> & HL)]]]]|HU].
    - rewrite classify_P2PKH. eexists. split; [reflexivity|]. destruct (Z.eqb_spec (zlen h) 20); cbn; auto.
    - rewrite classify_P2SH. eexists. split; [reflexivity|]. destruct (Z.eqb_spec (zlen h) 20); cbn; auto.
    - rewrite classify_P2PK. eexists. split; [reflexivity|]. destruct (pubkey_from_bytes C b) as [k|] eqn:EK; cbn; auto. split; [reflexivity|]. exists b. split; [reflexivity|]. now apply from_bytes_reads.
    - rewrite classify_OpReturn. eexists. split; [reflexivity|]. cbn. eauto.
    - rewrite classify_MultiSig by exact HL. destruct (items_split ds ltac:(lia)) as (m & keys & n & ->). rewrite !map_app in HF. apply Forall_app in HF as [HF _]. apply Forall_app in HF as [HF1 HF2]. apply Forall_app in HF2 as [_ HF2].
      inversion HF1; subst. inversion HF2; subst. cbn [code_fine] in *. destruct (multisig_from_template C ([m] ++ keys ++ [n])) as [o|e] eqn:EM.
      + exists o. split; [reflexivity|]. apply (multisig_spec m keys n o) in EM as (ks & t & -> & HM); [|assumption|assumption]. cbn [meaning]. exists m, keys, n. split; [symmetry; apply std_multisig_app|exact HM].
      + apply (multisig_err m keys n) in EM; [|assumption|assumption]. subst e. exists OUnknown. split; [reflexivity|exact I].
    - exists OUnknown. split; [exact HU|exact I].
  Qed.
  (** ... and conversely *)
  Lemma meaning_classify L c o : Forall code_fine L -> o <> OUnknown -> meaning L c o -> classify_L L c = Ok o.
  Proof.
    intros HF HU HM. destruct o as [[h c'|h c']|k c'|ks t| |]; cbn [meaning] in HM.
    - destruct HM as (-> & HL & ->). rewrite classify_P2PKH. now rewrite HL.
    - destruct HM as (-> & HL & ->). rewrite classify_P2SH. now rewrite HL.
    - destruct HM as (-> & b & -> & HR). rewrite classify_P2PK. apply from_bytes_reads in HR. now rewrite HR.
    - destruct HM as (m & keys & n & -> & HM). assert (HL : 1 <= zlen keys) by lia. rewrite std_multisig_app in HF |- *. rewrite classify_MultiSig by (rewrite !zlen_app; change (zlen [m]) with 1; change (zlen [n]) with 1; lia).
      rewrite !map_app in HF. apply Forall_app in HF as [HF _]. apply Forall_app in HF as [HF1 HF2]. apply Forall_app in HF2 as [_ HF2]. inversion HF1; subst. inversion HF2; subst. cbn in H1, H3.
      rewrite (proj2 (multisig_spec m keys n (OMultiSig ks t) H1 H3)); [reflexivity|]. exists ks, t. auto.
    - destruct HM as (ds & r & ->). apply classify_OpReturn.
    - contradiction.
  Qed.
End Classify.
