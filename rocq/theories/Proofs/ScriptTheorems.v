(** Scripts: parsing, pushes and numbers (C36 to C39, C41). *)
From Verif.Model Require Import Py Text Packing Misc Signature Script.
From Verif.Spec Require Import Numbers ScriptSpec.
From Verif.Proofs Require Import PyFacts PackingFacts NumbersFacts WorkFacts ScriptFacts.

(** C39 *)
Lemma parse_parts parts l tail : Forall2 encodes parts l ->
  script_ops (concat parts ++ tail) = let '(l', t) := script_ops tail in (l ++ l', t).
Proof.
  induction 1 as [|p o parts l HE _ IH]; cbn [concat app]; [now destruct (script_ops tail)|].
  rewrite <- app_assoc, (ops_cons _ _ _ HE), IH. now destruct (script_ops tail).
Qed.
Definition cut_push (tail : bytes) : Prop := tail <> [] /\ exists more d, more <> [] /\ encodes (tail ++ more) (Data d).

Lemma parse_total s : bytes_ok s = true -> exists parts l tail,
  s = concat parts ++ tail /\ Forall2 encodes parts l /\
  ((tail = [] /\ script_ops s = (l, false)) \/ (cut_push tail /\ script_ops s = (l, true))).
Proof.
  remember (length s) as n eqn:Hn. revert s Hn. induction n as [n IH] using lt_wf_ind. intros s Hn HB.
  destruct s as [|c s]; [exists [], [], []; repeat split; auto|].
  destruct (script_starts (c :: s) HB ltac:(discriminate)) as [(p & o & r & Hs & HP)|(more & d & Hm & HE)].
  - pose proof (encodes_nonempty _ _ HP) as Hp. rewrite Hs in *.
    assert (HBr : bytes_ok r = true) by (rewrite bytes_ok_app in HB; now apply andb_true_iff in HB).
    rewrite app_length in Hn. destruct (IH (length r) ltac:(lia) r eq_refl HBr) as (parts & l & tail & Er & HF & HO).
    exists (p :: parts), (o :: l), tail. split; [|split].
    + cbn [concat]. rewrite <- app_assoc. now rewrite Er.
    + now constructor.
    + rewrite (ops_cons _ _ r HP). destruct HO as [[Ht ->]|[Ht ->]]; auto.
  - exists [], [], (c :: s). split; [reflexivity|]. split; [constructor|]. right. split.
    + split; [discriminate|]. eauto.
    + exact (ops_cut _ _ _ HE Hm HB ltac:(discriminate)).
Qed.
Lemma parse_cut parts l tail : Forall2 encodes parts l -> bytes_ok tail = true -> cut_push tail ->
  script_ops (concat parts ++ tail) = (l, true).
Proof.
  intros HF HB (Hne & more & d & Hm & HE). rewrite (parse_parts _ _ _ HF), (ops_cut _ _ _ HE Hm HB Hne). now rewrite app_nil_r.
Qed.
Lemma parse_whole parts l : Forall2 encodes parts l -> script_ops (concat parts) = (l, false).
Proof. intros HF. rewrite <- (app_nil_r (concat parts)), (parse_parts _ _ _ HF), ops_nil. now rewrite app_nil_r. Qed.
Lemma parse_whole_inv s l : bytes_ok s = true -> script_ops s = (l, false) -> exists parts, s = concat parts /\ Forall2 encodes parts l.
Proof.
  intros HB HO. destruct (parse_total s HB) as (parts & l' & tail & -> & HF & [[-> HO']|[_ HO']]); rewrite HO' in HO; [|discriminate].
  injection HO as <-. rewrite app_nil_r. eauto.
Qed.

(** C38 *)
Lemma ops_app a b l : bytes_ok a = true -> script_ops a = (l, false) ->
  script_ops (a ++ b) = let '(l', t) := script_ops b in (l ++ l', t).
Proof. intros HB HO. destruct (parse_whole_inv a l HB HO) as (parts & -> & HF). now apply parse_parts. Qed.

Fixpoint append_all (script : bytes) (items : list appendable) : result bytes :=
  match items with [] => Ok script | i :: r => s <- lshift script i ;; append_all s r end.
Lemma push_many_lshift items : forall script, push_many script items = append_all script items.
Proof.
  unfold push_many. induction items as [|i r IH]; intros script; cbn [mapM append_all].
  - cbn. now rewrite app_nil_r.
  - unfold lshift. destruct (item_bytes i) as [b|e]; [|reflexivity]. cbn [bind]. rewrite <- IH.
    destruct (mapM item_bytes r); [|reflexivity]. cbn [bind concat]. now rewrite app_assoc.
Qed.

(** C36 *)
Lemma pack_byte_ok n : 0 <= n < 256 -> pack_byte n = Ok [n].
Proof. intros Hn. unfold pack_byte. rewrite pack_uint_le_Ok by exact Hn. cbn [le_digits]. now rewrite Z.mod_small. Qed.

Definition one_byte (d : bytes) : Prop := (exists n, d = [n] /\ 1 <= n <= 16) \/ d = [129].
Definition plain_push (d : bytes) : bytes :=
  if zlen d <=? 75 then zlen d :: d
  else if zlen d <=? 255 then 76 :: zlen d :: d
  else if zlen d <=? 65535 then 77 :: le_digits 2 (zlen d) ++ d
  else 78 :: le_digits 4 (zlen d) ++ d.
Lemma push_item_plain d : ~ one_byte d -> zlen d < 2 ^ 32 -> push_item d = Ok (plain_push d).
Proof.
  intros HO HL. pose proof (zlen_nonneg d) as H0.
  assert (HP : (if zlen d <? OP_PUSHDATA1 then b <- pack_byte (zlen d) ;; Ok (b ++ d)
    else if zlen d <=? 255 then a <- pack_byte OP_PUSHDATA1 ;; b <- pack_byte (zlen d) ;; Ok (a ++ b ++ d)
    else if zlen d <=? 65535 then a <- pack_byte OP_PUSHDATA2 ;; b <- pack_le_uint16 (zlen d) ;; Ok (a ++ b ++ d)
    else a <- pack_byte OP_PUSHDATA4 ;; b <- pack_le_uint32 (zlen d) ;; Ok (a ++ b ++ d)) = Ok (plain_push d)).
  { unfold plain_push, OP_PUSHDATA1, OP_PUSHDATA2, OP_PUSHDATA4.
    destruct (Z.ltb_spec (zlen d) 76), (Z.leb_spec (zlen d) 75); try lia.
    - rewrite pack_byte_ok by lia. reflexivity.
    - destruct (Z.leb_spec (zlen d) 255); [now rewrite !pack_byte_ok by lia|].
      destruct (Z.leb_spec (zlen d) 65535).
      + rewrite pack_byte_ok by lia. unfold pack_le_uint16. rewrite pack_uint_le_Ok by (cbn; lia). reflexivity.
      + rewrite pack_byte_ok by lia. unfold pack_le_uint32. rewrite pack_uint_le_Ok by (cbn; lia). reflexivity. }
  unfold push_item. cbv zeta. destruct d as [|v [|w r]]; [reflexivity| |exact HP].
  destruct (Z.ltb_spec 0 v), (Z.leb_spec v 16); cbn [andb]; try (exfalso; apply HO; left; exists v; split; [reflexivity|lia]);
    (destruct (Z.eqb_spec v 129) as [->|]; [exfalso; apply HO; now right|exact HP]).
Qed.
Lemma push_item_small n : 1 <= n <= 16 -> push_item [n] = Ok [80 + n].
Proof.
  intros Hn. unfold push_item. cbv zeta. replace ((0 <? n) && (n <=? 16)) with true by lia. unfold OP_1. rewrite pack_byte_ok by lia. f_equal. f_equal. lia.
Qed.
Lemma one_byte_dec d : {one_byte d} + {~ one_byte d}.
Proof.
  destruct d as [|n [|m r]].
  - right. intros [(n & E & _)|E]; discriminate.
  - destruct (Z.eq_dec n 129) as [->|Hn]; [left; now right|].
    destruct (Z_le_gt_dec 1 n), (Z_le_gt_dec n 16); [left; left; eauto|right|right|right]; intros [(k & E & Hk)|E]; injection E as E; lia.
  - right. intros [(k & E & _)|E]; discriminate.
Qed.
Lemma push_item_encodes d p : push_item d = Ok p -> encodes p (Data d) /\ zlen d < 2 ^ 32.
Proof.
  intros HP. destruct (one_byte_dec d) as [[(n & -> & Hn)| ->]|HO].
  - rewrite (push_item_small n Hn) in HP. injection HP as <-. split; [now constructor|reflexivity].
  - cbn in HP. injection HP as <-. split; [constructor|reflexivity].
  - assert (HL : zlen d < 2 ^ 32).
    { destruct (Z.lt_ge_cases (zlen d) (2 ^ 32)) as [|HL]; [assumption|exfalso]. unfold push_item in HP. cbv zeta in HP.
      destruct d as [|v [|w r]]; [rewrite zlen_nil in HL; lia|change (zlen [v]) with 1 in HL; lia|].
      remember (v :: w :: r) as d. unfold OP_PUSHDATA1 in HP.
      replace (zlen d <? 76) with false in HP by lia. replace (zlen d <=? 255) with false in HP by lia. replace (zlen d <=? 65535) with false in HP by lia.
      apply bind_Ok in HP as (a & _ & HP). apply bind_Ok in HP as (b & HB & _). apply pack_uint_le_inv in HB as [HB _]. cbn in HB. lia. }
    split; [|exact HL]. rewrite (push_item_plain d HO HL) in HP. injection HP as <-. unfold plain_push. pose proof (zlen_nonneg d).
    destruct (Z.leb_spec (zlen d) 75); [now constructor|]. destruct (Z.leb_spec (zlen d) 255); [now constructor|].
    destruct (Z.leb_spec (zlen d) 65535); cbn [le_digits app].
    + constructor; try (apply Z.mod_pos_bound; lia). pose proof (Z.div_mod (zlen d) 256 ltac:(lia)).
      rewrite (Z.mod_small (zlen d / 256) 256) by (split; [apply Z.div_pos; lia|apply Z.div_lt_upper_bound; lia]). lia.
    + constructor; try (apply Z.mod_pos_bound; lia). pose proof (Z.div_mod (zlen d) 256 ltac:(lia)).
      pose proof (Z.div_mod (zlen d / 256) 256 ltac:(lia)). pose proof (Z.div_mod (zlen d / 256 / 256) 256 ltac:(lia)).
      assert (0 <= zlen d / 256 / 256 / 256 < 256). { rewrite !Z.div_div by lia. split; [apply Z.div_pos; lia|apply Z.div_lt_upper_bound; lia]. }
      rewrite (Z.mod_small (zlen d / 256 / 256 / 256) 256) by assumption. lia.
Qed.
Lemma push_item_total d : zlen d < 2 ^ 32 -> exists p, push_item d = Ok p.
Proof.
  intros HL. destruct (one_byte_dec d) as [[(n & -> & Hn)| ->]|HO]; [rewrite (push_item_small n Hn)|cbn|rewrite (push_item_plain d HO HL)]; eauto.
Qed.
Lemma push_item_large d : 2 ^ 32 <= zlen d -> push_item d = Err StructError.
Proof.
  intros HL. unfold push_item. cbv zeta. destruct d as [|v [|w r]]; [rewrite zlen_nil in HL; lia|change (zlen [v]) with 1 in HL; lia|].
  remember (v :: w :: r) as d. unfold OP_PUSHDATA1, OP_PUSHDATA4.
  replace (zlen d <? 76) with false by lia. replace (zlen d <=? 255) with false by lia. replace (zlen d <=? 65535) with false by lia.
  rewrite pack_byte_ok by lia. cbn [bind]. unfold pack_le_uint32, pack_uint_le. change (2 ^ (8 * Z.of_nat 4)) with (2 ^ 32).
  replace (2 ^ 32 <=? zlen d) with true by lia. now rewrite orb_true_r.
Qed.
Lemma push_item_ops d p : push_item d = Ok p -> script_ops p = ([Data d], false).
Proof.
  intros HP. apply push_item_encodes in HP as [HE _]. rewrite <- (app_nil_r p), (ops_cons _ _ _ HE). reflexivity.
Qed.
Lemma plain_length d : zlen (plain_push d) = zlen d + (if zlen d <=? 75 then 1 else if zlen d <=? 255 then 2 else if zlen d <=? 65535 then 3 else 5).
Proof.
  unfold plain_push. destruct (zlen d <=? 75); [rewrite zlen_cons; lia|]. destruct (zlen d <=? 255); [rewrite !zlen_cons; lia|].
  destruct (zlen d <=? 65535); rewrite zlen_cons, zlen_app, zlen_le_digits; lia.
Qed.
Lemma push_item_shortest_enc d p q : push_item d = Ok p -> encodes q (Data d) -> zlen p <= zlen q /\ (zlen p = zlen q -> p = q).
Proof.
  intros HP HE. destruct (push_item_encodes d p HP) as [_ HL]. destruct (one_byte_dec d) as [[(n & -> & Hn)| ->]|HO].
  - rewrite (push_item_small n Hn) in HP. injection HP as <-. change (zlen [80 + n]) with 1.
    remember (Data [n]) as o eqn:Ho. destruct HE; try discriminate; try (injection Ho as Ho); subst; rewrite ?zlen_cons, ?zlen_nil in *; split; try lia; intros; try lia; reflexivity.
  - cbn in HP. injection HP as <-. change (zlen [79]) with 1.
    remember (Data [129]) as o eqn:Ho. destruct HE; try discriminate; try (injection Ho as Ho); subst; rewrite ?zlen_cons, ?zlen_nil in *; split; try lia; intros; try lia; reflexivity.
  - rewrite (push_item_plain d HO HL) in HP. injection HP as <-. rewrite plain_length. pose proof (zlen_nonneg d).
    remember (Data d) as o eqn:Ho. destruct HE; try discriminate; injection Ho as Ho; subst.
    + exfalso. apply HO. left. eauto.
    + exfalso. apply HO. now right.
    + rewrite zlen_cons. unfold plain_push. destruct (Z.leb_spec (zlen d) 75); [|lia]. split; [lia|reflexivity].
    + rewrite !zlen_cons. unfold plain_push. destruct (Z.leb_spec (zlen d) 75); [lia|]. destruct (Z.leb_spec (zlen d) 255); [|lia]. split; [lia|reflexivity].
    + rewrite !zlen_cons. unfold plain_push. destruct (Z.leb_spec (zlen d) 75); [lia|]. destruct (Z.leb_spec (zlen d) 255); [lia|].
      destruct (Z.leb_spec (zlen d) 65535); [|lia]. split; [lia|]. intros _. f_equal.
      replace (zlen d) with (le_int [a; b]) by (cbn [le_int]; lia). rewrite le_digits_int; [reflexivity| |reflexivity].
      cbn [bytes_ok forallb]. rewrite !(proj2 (byte_ok_iff _)) by lia. reflexivity.
    + rewrite !zlen_cons. unfold plain_push. destruct (Z.leb_spec (zlen d) 75); [lia|]. destruct (Z.leb_spec (zlen d) 255); [lia|].
      destruct (Z.leb_spec (zlen d) 65535); [lia|]. split; [lia|]. intros _. f_equal.
      replace (zlen d) with (le_int [a; b; c; e]) by (cbn [le_int]; lia). rewrite le_digits_int; [reflexivity| |reflexivity].
      cbn [bytes_ok forallb]. rewrite !(proj2 (byte_ok_iff _)) by lia. reflexivity.
Qed.
Lemma push_item_shortest d p s : bytes_ok s = true -> push_item d = Ok p -> script_ops s = ([Data d], false) ->
  zlen p <= zlen s /\ (zlen p = zlen s -> p = s).
Proof.
  intros HB HP HO. destruct (parse_whole_inv s _ HB HO) as (parts & -> & HF). inversion HF as [|q o parts' l' HE HF']; subst. inversion HF'; subst.
  cbn [concat] in *. rewrite app_nil_r in *. now apply push_item_shortest_enc with d.
Qed.
Lemma push_item_bytes d p : bytes_ok d = true -> push_item d = Ok p -> bytes_ok p = true.
Proof.
  intros HB HP. destruct (push_item_encodes d p HP) as [_ HL]. pose proof (zlen_nonneg d). destruct (one_byte_dec d) as [[(n & -> & Hn)| ->]|HO].
  - rewrite (push_item_small n Hn) in HP. injection HP as <-. apply bytes_ok_In. intros x [<-|[]]. lia.
  - cbn in HP. now injection HP as <-.
  - rewrite (push_item_plain d HO HL) in HP. injection HP as <-. unfold plain_push.
    destruct (Z.leb_spec (zlen d) 75); [|destruct (Z.leb_spec (zlen d) 255); [|destruct (Z.leb_spec (zlen d) 65535)]];
      rewrite ?bytes_ok_cons, ?bytes_ok_app, ?le_digits_ok, ?HB, ?(proj2 (byte_ok_iff _)) by lia; reflexivity.
Qed.

(** C37: numbers *)
Lemma last_index (body : bytes) x : pyindex (body ++ [x]) (-1) = Ok x.
Proof.
  unfold pyindex. change (-1 <? 0) with true. cbv iota. rewrite zlen_app. change (zlen [x]) with 1. pose proof (zlen_nonneg body).
  rewrite znth_app_r by lia. replace (-1 + (zlen body + 1) - zlen body) with 0 by lia. reflexivity.
Qed.
Lemma last_slice (body : bytes) x : slice_to (body ++ [x]) (-1) = body.
Proof.
  unfold slice_to, slice_bound. change (-1 <? 0) with true. cbv iota. rewrite zlen_app. change (zlen [x]) with 1. pose proof (zlen_nonneg body).
  apply ztake_app_exact. lia.
Qed.
Lemma pow256_len (b : bytes) : 2 ^ (8 * zlen b) = 256 ^ zlen b.
Proof. pose proof (zlen_nonneg b). rewrite Z.pow_mul_r by lia. reflexivity. Qed.
Lemma val_le_snoc body x : val_le (body ++ [x]) = val_le body + 256 ^ zlen body * x.
Proof. rewrite !val_le_int, le_int_app, pow256_len. cbn [le_int]. f_equal. lia. Qed.
Lemma val_le_bound b : bytes_ok b = true -> 0 <= val_le b < 256 ^ zlen b.
Proof. intros HB. rewrite val_le_int, <- pow256_len. now apply le_int_bound. Qed.
Lemma land128 x : 0 <= x < 256 -> (Z.land x 128 =? 0) = (x <? 128).
Proof.
  intros Hx. assert (HA : forallb (fun x => Bool.eqb (Z.land x 128 =? 0) (x <? 128)) (zrange 0 256) = true) by (vm_compute; reflexivity).
  rewrite forallb_forall in HA. apply eqb_prop, HA. apply in_zrange. lia.
Qed.
Lemma land127 x : 128 <= x < 256 -> Z.land x 127 = x - 128.
Proof. intros Hx. change 127 with (Z.ones 7). rewrite Z.land_ones by lia. change (2 ^ 7) with 128. symmetry. apply (Z.mod_unique x 128 1); lia. Qed.
Lemma lor128 x : 0 <= x < 128 -> Z.lor x 128 = x + 128.
Proof.
  intros Hx. assert (HA : forallb (fun x => Z.lor x 128 =? x + 128) (zrange 0 128) = true) by (vm_compute; reflexivity).
  rewrite forallb_forall in HA. apply Z.eqb_eq, HA. apply in_zrange. lia.
Qed.

Lemma item_to_int_number item : bytes_ok item = true -> exists v, item_to_int item = Ok v /\ number item v.
Proof.
  intros HB. destruct item as [|x body IH] using rev_ind; [exists 0; split; [reflexivity|left; auto]|clear IH].
  rewrite bytes_ok_app in HB. apply andb_true_iff in HB as [HB Hx]. cbn in Hx. rewrite andb_true_r in Hx. apply byte_ok_iff in Hx.
  unfold item_to_int. destruct (body ++ [x]) as [|z t] eqn:E; [now destruct body|]. rewrite <- E.
  rewrite last_index, last_slice. cbn [bind]. rewrite land128 by assumption. destruct (Z.ltb_spec x 128) as [Hs|Hs]; cbn [negb].
  - exists (le_bytes_to_int (body ++ [x])). split; [reflexivity|]. right. exists body, x. split; [reflexivity|left]. split; [assumption|].
    unfold le_bytes_to_int. now rewrite <- val_le_int, val_le_snoc.
  - rewrite land127, pack_byte_ok by lia. cbn [bind]. eexists. split; [reflexivity|]. right. exists body, x. split; [reflexivity|right]. split; [assumption|].
    unfold le_bytes_to_int. now rewrite <- val_le_int, val_le_snoc.
Qed.
Lemma number_fun item v w : number item v -> number item w -> v = w.
Proof.
  intros [[-> ->]|(b & x & -> & HV)] [[E ->]|(b' & x' & E & HW)]; auto.
  - now destruct b'.
  - now destruct b.
  - apply app_inj_tail in E as [<- <-]. destruct HV as [[? ->]|[? ->]], HW as [[? ->]|[? ->]]; auto; lia.
Qed.
Lemma number_bound item v : bytes_ok item = true -> number item v -> item <> [] -> Z.abs v < 128 * 256 ^ (zlen item - 1).
Proof.
  intros HB [[-> _]|(b & x & -> & HV)] Hne; [contradiction|]. rewrite bytes_ok_app in HB. apply andb_true_iff in HB as [HB Hx].
  cbn in Hx. rewrite andb_true_r in Hx. apply byte_ok_iff in Hx. rewrite zlen_app. change (zlen [x]) with 1.
  replace (zlen b + 1 - 1) with (zlen b) by lia. pose proof (val_le_bound b HB). nia.
Qed.

Definition number_item (v : Z) (item : bytes) : Prop :=
  bytes_ok item = true /\ number item v /\ push_int v = push_item item /\
  forall item', bytes_ok item' = true -> number item' v -> zlen item <= zlen item'.

(** The digits of a positive number end in a non-zero byte. *)
Lemma le_bytes_pos v : 0 < v -> exists body x, int_to_le_bytes v None = Ok (body ++ [x]) /\ bytes_ok body = true /\ 1 <= x < 256 /\
  v = val_le body + 256 ^ zlen body * x.
Proof.
  intros Hv. destruct (byte_size v Hv) as [Hs Hb]. cbv zeta in *. set (s := (bit_length v + 7) / 8) in *.
  assert (HD : int_to_le_bytes v None = Ok (le_digits (Z.to_nat s) v)).
  { unfold int_to_le_bytes, to_bytes_le. fold s. replace (s <? 0) with false by lia.
    rewrite Z.pow_mul_r by lia. change (2 ^ 8) with 256. replace (v <? 0) with false by lia. now replace (256 ^ s <=? v) with false by lia. }
  assert (HL : zlen (le_digits (Z.to_nat s) v) = s) by (rewrite zlen_le_digits; lia).
  assert (HV : val_le (le_digits (Z.to_nat s) v) = v).
  { rewrite val_le_int. apply le_int_digits. rewrite Z2Nat.id by lia. rewrite Z.pow_mul_r by lia. change (2 ^ 8) with 256. lia. }
  pose proof (le_digits_ok (Z.to_nat s) v) as HO. rewrite HD. destruct (le_digits (Z.to_nat s) v) as [|x body IH] using rev_ind; [rewrite zlen_nil in HL; lia|].
  clear IH. exists body, x. split; [reflexivity|].
  rewrite bytes_ok_app in HO. apply andb_true_iff in HO as [HO Hx]. cbn in Hx. rewrite andb_true_r in Hx. apply byte_ok_iff in Hx.
  rewrite zlen_app in HL. change (zlen [x]) with 1 in HL. rewrite val_le_snoc in HV. split; [assumption|]. split; [|lia].
  destruct (Z.eq_dec x 0) as [->|]; [exfalso|lia]. pose proof (val_le_bound body HO). replace (s - 1) with (zlen body) in Hb by lia. lia.
Qed.
Lemma snoc_ok body x : bytes_ok body = true -> 0 <= x < 256 -> bytes_ok (body ++ [x]) = true.
Proof. intros HB Hx. rewrite bytes_ok_app, HB. cbn. rewrite (proj2 (byte_ok_iff x) Hx). reflexivity. Qed.

Lemma push_int_item v : exists item, number_item v item.
Proof.
  destruct (Z.eq_dec v 0) as [->|Hv].
  { exists []. split; [reflexivity|]. split; [left; auto|]. split; [reflexivity|]. intros item' _ _. apply zlen_nonneg. }
  destruct (le_bytes_pos (Z.abs v) ltac:(lia)) as (body & x & HD & HB & Hx & HV).
  pose proof (val_le_bound body HB) as Hbb. pose proof (zlen_nonneg body) as Hlb.
  assert (HS : forall item, bytes_ok item = true -> number item v -> 128 * 256 ^ (zlen item - 2) <= Z.abs v \/ zlen item <= 1 ->
    forall item', bytes_ok item' = true -> number item' v -> zlen item <= zlen item').
  { intros item HI HN HL item' HI' HN'. assert (Hne : item' <> []).
    { intros ->. destruct HN' as [[_ E]|(b & y & E & _)]; [lia|now destruct b]. }
    assert (1 <= zlen item') by (destruct item'; [contradiction|rewrite zlen_cons; pose proof (zlen_nonneg item'); lia]).
    destruct HL as [HL|HL]; [|lia]. pose proof (number_bound item' v HI' HN' Hne) as HB2.
    assert (256 ^ (zlen item - 2) < 256 ^ (zlen item' - 1)) by lia.
    destruct (Z.lt_ge_cases (zlen item - 2) 0) as [Hlt|Hge]; [lia|]. apply (proj2 (Z.pow_lt_mono_r_iff 256 (zlen item - 2) (zlen item' - 1) ltac:(lia) ltac:(lia))) in H0. lia. }
  assert (HP : push_int v = push_item (if x <? 128 then body ++ [if v <? 0 then x + 128 else x] else (body ++ [x]) ++ [if v <? 0 then 128 else 0])).
  { unfold push_int. replace (v =? 0) with false by lia. rewrite HD. cbn [bind]. rewrite last_index, last_slice. cbn [bind].
    rewrite land128 by lia. destruct (Z.ltb_spec x 128) as [Hs|Hs]; cbn [negb].
    - destruct (v <? 0); [rewrite lor128, pack_byte_ok by lia|]; reflexivity.
    - rewrite pack_byte_ok by (destruct (v <? 0); lia). reflexivity. }
  assert (HN : let item := (if x <? 128 then body ++ [if v <? 0 then x + 128 else x] else (body ++ [x]) ++ [if v <? 0 then 128 else 0]) in
    bytes_ok item = true /\ number item v /\ (128 * 256 ^ (zlen item - 2) <= Z.abs v \/ zlen item <= 1)).
  { cbv zeta. destruct (Z.ltb_spec x 128) as [Hs|Hs].
    - split; [apply snoc_ok; [assumption|destruct (v <? 0); lia]|]. split.
      + right. exists body, (if v <? 0 then x + 128 else x). split; [reflexivity|].
        destruct (Z.ltb_spec v 0); [right|left]; (split; [lia|]); rewrite ?Z.add_simpl_r; lia.
      + rewrite zlen_app. change (zlen [_]) with 1. destruct (Z.eq_dec (zlen body) 0) as [E|E]; [right; lia|left].
        replace (zlen body + 1 - 2) with (zlen body - 1) by lia. 
        assert (HQ : 256 ^ zlen body = 256 * 256 ^ (zlen body - 1)) by (rewrite <- Z.pow_succ_r by lia; f_equal; lia).
        pose proof (Z.pow_pos_nonneg 256 (zlen body - 1) ltac:(lia) ltac:(lia)) as HQ0.
        pose proof (Z.mul_le_mono_nonneg_l 1 x (256 ^ zlen body) ltac:(lia) ltac:(lia)). lia.
    - split; [apply snoc_ok; [apply snoc_ok; [assumption|lia]|destruct (v <? 0); lia]|]. split.
      + right. exists (body ++ [x]), (if v <? 0 then 128 else 0). split; [reflexivity|]. rewrite val_le_snoc.
        destruct (Z.ltb_spec v 0); [right|left]; (split; [lia|]); lia.
      + left. rewrite !zlen_app. change (zlen [_]) with 1 at 1. change (zlen [if v <? 0 then 128 else 0]) with 1.
        replace (zlen body + 1 + 1 - 2) with (zlen body) by lia. rewrite HV. pose proof (Z.pow_pos_nonneg 256 (zlen body) ltac:(lia) ltac:(lia)). nia. }
  cbv zeta in HN. destruct HN as (H1 & H2 & H3). eexists. split; [exact H1|]. split; [exact H2|]. split; [exact HP|]. exact (HS _ H1 H2 H3).
Qed.
Lemma item_to_int_Ok item v : bytes_ok item = true -> (item_to_int item = Ok v <-> number item v).
Proof.
  intros HB. destruct (item_to_int_number item HB) as (w & HW & HN). rewrite HW. split.
  - now intros [= <-].
  - intros HV. f_equal. exact (number_fun _ _ _ HN HV).
Qed.
(** Two shortest items of a number are equal. *)
Lemma number_item_unique v a b : number_item v a -> bytes_ok b = true -> number b v -> zlen b <= zlen a -> a = b.
Proof.
  intros (HA & HN & _ & HS) HB HNb HL. pose proof (HS b HB HNb) as HL2. assert (HE : zlen a = zlen b) by lia. clear HL HL2.
  assert (HZ : v = 0 -> a = []).
  { intros ->. apply zlen_0_nil. specialize (HS [] eq_refl (or_introl (conj eq_refl eq_refl))). rewrite zlen_nil in HS. pose proof (zlen_nonneg a). lia. }
  destruct (Z.eq_dec v 0) as [Hv|Hv].
  { rewrite (HZ Hv) in *. symmetry. apply zlen_0_nil. now rewrite <- HE. }
  destruct HN as [[-> ->]|(x & xl & -> & Hx)]; [lia|]. destruct HNb as [[-> Hv']|(y & yl & -> & Hy)]; [lia|].
  rewrite !zlen_app in HE. change (zlen [xl]) with 1 in HE. change (zlen [yl]) with 1 in HE. assert (HE' : zlen x = zlen y) by lia.
  pose proof HA as HA'. pose proof HB as HB'.
  rewrite bytes_ok_app in HA, HB. apply andb_true_iff in HA as [HA HA2], HB as [HB HB2]. cbn in HA2, HB2. rewrite andb_true_r in HA2, HB2.
  apply byte_ok_iff in HA2, HB2. pose proof (val_le_bound x HA) as Bx. pose proof (val_le_bound y HB) as By. rewrite <- HE' in By, Hy.
  pose proof (Z.pow_pos_nonneg 256 (zlen x) ltac:(lia) (zlen_nonneg x)) as HP. set (P := 256 ^ zlen x) in *.
  apply le_int_inj; [assumption|assumption|rewrite !zlen_app, HE'; reflexivity|]. rewrite <- !val_le_int, !val_le_snoc, <- HE'. fold P.
  destruct Hx as [[? Hx]|[? Hx]], Hy as [[? Hy]|[? Hy]]; nia.
Qed.
Lemma push_int_inj v w p : push_int v = Ok p -> push_int w = Ok p -> v = w.
Proof.
  intros HV HW. destruct (push_int_item v) as (a & _ & HNa & Ea & _). destruct (push_int_item w) as (b & _ & HNb & Eb & _).
  rewrite Ea in HV. rewrite Eb in HW. apply push_item_ops in HV, HW. rewrite HV in HW. injection HW as ->. exact (number_fun _ _ _ HNa HNb).
Qed.

(** The operations of what one << appends. *)
Lemma item_ops i b : item_bytes i = Ok b ->
  match i with
  | IOp c => script_ops b = if (c =? 76) || (c =? 77) || (c =? 78) then ([], true)
             else if (c =? 0) then ([Data []], false) else if c <? 76 then ([], true)
             else if c =? 79 then ([Data [129]], false)
             else if (81 <=? c) && (c <=? 96) then ([Data [c - 80]], false) else ([Code c], false)
  | IBytes d => script_ops b = ([Data d], false)
  | IInt v => exists item, number item v /\ script_ops b = ([Data item], false)
  | IScript s => b = s
  | IOther => False
  end.
Proof.
  destruct i as [c|d|v|s|]; cbn [item_bytes]; intros HB.
  - apply pack_uint_le_inv in HB as HB'. destruct HB' as [Hc _]. cbn in Hc. rewrite pack_byte_ok in HB by lia. injection HB as <-.
    assert (HA : forallb (fun c => match script_ops [c] with
       | ([], true) => (c =? 76) || (c =? 77) || (c =? 78) || (negb (c =? 0) && (c <? 76))
       | ([Data []], false) => c =? 0
       | ([Data [x]], false) => ((c =? 79) && (x =? 129)) || ((81 <=? c) && (c <=? 96) && (x =? c - 80))
       | ([Code x], false) => (x =? c) && ((c =? 80) || (97 <=? c))
       | _ => false end) (zrange 0 256) = true) by (vm_compute; reflexivity).
    pose proof (zrange_all _ _ _ HA c Hc) as Hx. cbv beta in Hx.
    destruct (script_ops [c]) as [[|[x|[|x [|]]] [|]] [|]]; try discriminate;
      repeat match goal with |- context [?a =? ?b] => destruct (Z.eqb_spec a b); try lia | |- context [?a <? ?b] => destruct (Z.ltb_spec a b); try lia
        | |- context [?a <=? ?b] => destruct (Z.leb_spec a b); try lia end; cbn [orb andb]; try reflexivity; try lia;
      repeat f_equal; lia.
  - now apply push_item_ops.
  - destruct (push_int_item v) as (item & _ & HN & HE & _). rewrite HE in HB. exists item. split; [exact HN|]. now apply push_item_ops.
  - now injection HB.
  - discriminate.
Qed.

Definition part_ops (b : bytes) : list op := fst (script_ops b).
Lemma append_ops : forall parts script l, bytes_ok script = true -> script_ops script = (l, false) ->
  Forall (fun b => bytes_ok b = true /\ snd (script_ops b) = false) parts ->
  script_ops (script ++ concat parts) = (l ++ concat (map part_ops parts), false).
Proof.
  intros parts script l HB HO HF. rewrite (ops_app _ _ _ HB HO).
  assert (HC : script_ops (concat parts) = (concat (map part_ops parts), false)).
  { induction HF as [|b parts [Hb Hs] _ IH]; [reflexivity|]. cbn [concat map]. unfold part_ops at 1.
    destruct (script_ops b) as [lb t] eqn:E. cbn [snd] in Hs. subst t. cbn [fst]. rewrite (ops_app b _ lb Hb E), IH. reflexivity. }
  now rewrite HC.
Qed.

(** C41 *)
Section Strip.
  Context {St : Type}.
  Variable exec : op -> St -> St.
  Hypothesis laws : drop_laws exec.

  Lemma run_app l m (s : St) : run exec (l ++ m) s = run exec m (run exec l s).
  Proof. unfold run. apply fold_left_app. Qed.
  Lemma strip_step_run acc o (s : St) : run exec (rev (strip_step acc o)) s = exec o (run exec (rev acc) s).
  Proof.
    assert (HC : forall o r, run exec (rev (o :: r)) s = exec o (run exec (rev r) s)) by (intros; cbn [rev]; now rewrite run_app).
    destruct laws as [L1 L2 L3]. destruct o as [c|d]; cbn [strip_step]; [|apply HC].
    destruct (Z.eqb_spec c OP_NOP) as [->|]; [now rewrite L1|].
    destruct (Z.eqb_spec c OP_DROP) as [->|].
    { destruct acc as [|[x|d] r]; try apply HC. rewrite HC. now rewrite L2. }
    destruct (Z.eqb_spec c OP_2DROP) as [->|]; [|apply HC].
    destruct acc as [|[x|d] r]; try apply HC. destruct r as [|[y|e] r]; try apply HC. rewrite !HC. now rewrite L3.
  Qed.
  Lemma strip_fold_run l : forall acc (s : St), run exec (rev (fold_left strip_step l acc)) s = run exec l (run exec (rev acc) s).
  Proof.
    induction l as [|o l IH]; intros acc s; [reflexivity|]. cbn [fold_left]. rewrite IH, strip_step_run. reflexivity.
  Qed.
  Lemma stripped_run s (st : St) : run exec (stripped_ops s) st =
    run exec (fst (script_ops s) ++ if snd (script_ops s) then [Code 0] else []) st.
  Proof.
    unfold stripped_ops. destruct (script_ops s) as [l t]. cbn [fst snd]. rewrite run_app. destruct t; cbn [rev].
    - rewrite run_app, strip_fold_run. reflexivity.
    - rewrite strip_fold_run. reflexivity.
  Qed.
End Strip.

(** Nothing more can be stripped. *)
Fixpoint norm (acc : list op) : Prop :=
  match acc with
  | [] => True
  | o :: r => norm r /\ strip_step r o = o :: r
  end.
Lemma strip_norm l : forall acc, norm acc -> norm (fold_left strip_step l acc).
Proof.
  induction l as [|o l IH]; intros acc HN; [exact HN|]. cbn [fold_left]. apply IH.
  assert (HC : strip_step acc o = o :: acc \/ norm (strip_step acc o)).
  { destruct o as [c|d]; cbn [strip_step]; [|now left]. destruct (c =? OP_NOP); [now right|].
    destruct (c =? OP_DROP). { destruct acc as [|[x|d] r]; auto. right. apply HN. }
    destruct (c =? OP_2DROP); [|now left]. destruct acc as [|[x|d] r]; auto. destruct r as [|[y|e] r]; auto. right. apply HN. }
  destruct HC as [HC|HC]; [|exact HC]. rewrite HC. split; assumption.
Qed.
Lemma norm_fold acc : norm acc -> fold_left strip_step (rev acc) [] = acc.
Proof.
  induction acc as [|o r IH]; [reflexivity|]. intros [HN HS]. cbn [rev]. rewrite fold_left_app, (IH HN). cbn. exact HS.
Qed.
Lemma strip_idempotent l : fold_left strip_step (rev (fold_left strip_step l [])) [] = fold_left strip_step l [].
Proof. apply norm_fold, strip_norm. exact I. Qed.

Lemma strip_datas items : forall acc, fold_left strip_step (map Data items) acc = rev (map Data items) ++ acc.
Proof.
  induction items as [|d items IH]; intros acc; [reflexivity|]. cbn [map fold_left strip_step rev]. rewrite IH, <- app_assoc. reflexivity.
Qed.
Lemma strip_2drops k : forall (ds : list bytes) acc, length ds = (2 * k)%nat ->
  fold_left strip_step (repeat (Code OP_2DROP) k) (map Data ds ++ acc) = acc.
Proof.
  induction k as [|k IH]; intros ds acc HL; [now destruct ds|]. destruct ds as [|d [|e ds]]; try (cbn in HL; lia).
  cbn [repeat fold_left map app strip_step]. change (OP_2DROP =? OP_NOP) with false. change (OP_2DROP =? OP_DROP) with false. change (OP_2DROP =? OP_2DROP) with true.
  cbv iota. apply IH. cbn in HL. lia.
Qed.
Lemma repeat_op_encodes c n : 97 <= c <= 255 -> Forall2 encodes (repeat [c] n) (repeat (Code c) n).
Proof. intros Hc. induction n; cbn [repeat]; constructor; auto. constructor. lia. Qed.
Lemma concat_repeat (x : Z) n : concat (repeat [x] n) = repeat x n.
Proof. induction n; cbn; congruence. Qed.
Lemma push_items_encode items parts : mapM push_item items = Ok parts -> Forall2 encodes parts (map Data items).
Proof.
  revert parts. induction items as [|d items IH]; intros parts HM; cbn in HM.
  - injection HM as <-. constructor.
  - apply bind_Ok in HM as (p & HP & HM). apply bind_Ok in HM as (ps & HPS & HM). injection HM as <-. constructor; [|now apply IH].
    now apply push_item_encodes in HP as [HP _].
Qed.
Lemma push_and_drop_parse items p : push_and_drop_items items = Ok p -> exists parts,
  p = concat parts /\ Forall2 encodes parts (map Data items ++ repeat (Code OP_2DROP) (length items / 2) ++ repeat (Code OP_DROP) (length items mod 2)).
Proof.
  unfold push_and_drop_items. intros HP. apply bind_Ok in HP as (parts & HM & HP). injection HP as HP.
  pose proof (push_items_encode _ _ HM) as HE. pose proof (mapM_length _ _ _ HM) as HL.
  exists (parts ++ repeat [OP_2DROP] (length items / 2) ++ repeat [OP_DROP] (length items mod 2)).
  assert (Hlen : zlen items = Z.of_nat (length items)) by reflexivity.
  assert (Hplen : zlen parts = Z.of_nat (length items)) by (rewrite <- HL; reflexivity).
  assert (Hmod : Z.land (zlen items) 1 = Z.of_nat (length items mod 2)).
  { change 1 with (Z.ones 1). rewrite Z.land_ones by lia. rewrite Hlen. change (2 ^ 1) with (Z.of_nat 2). now rewrite <- Nat2Z.inj_mod. }
  assert (Hdiv : zrepeat OP_2DROP (zlen parts / 2) = repeat OP_2DROP (length items / 2)).
  { unfold zrepeat. f_equal. rewrite Hplen. change 2 with (Z.of_nat 2). rewrite <- Nat2Z.inj_div. now rewrite Nat2Z.id. }
  pose proof (Nat.mod_upper_bound (length items) 2 ltac:(lia)) as Hm2.
  split.
  - rewrite <- HP. rewrite Hdiv, Hmod. clear HP. rewrite !concat_app, !concat_repeat.
    destruct (Z.leb_spec 2 (zlen items)) as [H2|H2].
    + destruct (length items mod 2)%nat as [|[|m]] eqn:Em; [| |lia].
      * change (Z.of_nat 0 =? 0) with true. cbv iota. rewrite concat_app. cbn [concat repeat]. now rewrite !app_nil_r.
      * change (Z.of_nat 1 =? 0) with false. cbv iota. rewrite !concat_app. cbn [concat repeat]. now rewrite !app_nil_r, <- app_assoc.
    + assert (length items / 2 = 0)%nat as -> by (apply Nat.div_small; lia). cbn [repeat app].
      destruct (length items mod 2)%nat as [|[|m]] eqn:Em; [| |lia].
      * cbn. now rewrite app_nil_r.
      * change (Z.of_nat 1 =? 0) with false. cbv iota. rewrite !concat_app. reflexivity.
  - apply Forall2_app; [assumption|]. apply Forall2_app; apply repeat_op_encodes; unfold OP_2DROP, OP_DROP; lia.
Qed.
Lemma push_and_drop_strip items acc :
  fold_left strip_step (map Data items ++ repeat (Code OP_2DROP) (length items / 2) ++ repeat (Code OP_DROP) (length items mod 2)) acc = acc.
Proof.
  rewrite !fold_left_app, strip_datas, <- map_rev.
  pose proof (Nat.div_mod (length items) 2 ltac:(lia)) as HD. pose proof (Nat.mod_upper_bound (length items) 2 ltac:(lia)) as Hm2.
  set (k := (length items / 2)%nat) in *. set (m := (length items mod 2)%nat) in *.
  assert (HR : exists a b, rev items = a ++ b /\ length a = (2 * k)%nat /\ length b = m).
  { exists (firstn (2 * k) (rev items)), (skipn (2 * k) (rev items)). rewrite firstn_skipn, firstn_length, skipn_length, rev_length. repeat split; lia. }
  destruct HR as (a & b & -> & Ha & Hb). rewrite map_app, <- app_assoc, (strip_2drops k a _ Ha).
  destruct m as [|[|m]]; [now destruct b| |lia]. destruct b as [|d [|]]; try (cbn in Hb; lia). reflexivity.
Qed.
Lemma push_and_drop_nothing s items p l : bytes_ok s = true -> script_ops s = (l, false) -> push_and_drop_items items = Ok p ->
  stripped_ops (s ++ p) = stripped_ops s.
Proof.
  intros HB HO HP. destruct (push_and_drop_parse _ _ HP) as (parts & -> & HF). unfold stripped_ops.
  rewrite (ops_app s _ l HB HO), (parse_whole _ _ HF), HO. rewrite fold_left_app. now rewrite push_and_drop_strip.
Qed.
Lemma push_and_drop_one s item p l : bytes_ok s = true -> script_ops s = (l, false) -> push_and_drop_item item = Ok p ->
  stripped_ops (s ++ p) = stripped_ops s.
Proof.
  intros HB HO HP. apply push_and_drop_nothing with (items := [item]) (l := l); auto. unfold push_and_drop_item in HP. unfold push_and_drop_items. cbn [mapM].
  apply bind_Ok in HP as (b & HP & E). injection E as <-. rewrite HP. cbn. now rewrite ?app_nil_r.
Qed.
