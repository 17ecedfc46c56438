(** Proofs about transactions. *)
From Verif.Model Require Import Py Packing Tx.
From Verif.Spec Require Import Numbers TxSpec.
From Verif.Proofs Require Import PyFacts PackingFacts.

(** ** Codecs *)
Lemma uint_range_4 v : uint_range 4 v <-> 0 <= v < 2 ^ 32.
Proof. reflexivity. Qed.
Lemma sint_range_4 v : sint_range 4 v <-> - 2 ^ 31 <= v < 2 ^ 31.
Proof. reflexivity. Qed.
Lemma sint_range_8 v : sint_range 8 v <-> - 2 ^ 63 <= v < 2 ^ 63.
Proof. reflexivity. Qed.

(** The outpoint: 32 bytes whose number is not checked, then an index. *)
Definition read_outpoint : reader (bytes * Z) := fun s =>
  '(h, s) <- read 32 s ;; '(i, s) <- read_le_uint32 s ;; Ok ((h, i), s).
Definition pack_outpoint (p : bytes * Z) : result bytes :=
  b <- pack_le_uint32 (snd p) ;; Ok (fst p ++ b).
Lemma read_uint32_short s : zlen s < 4 -> read_le_uint32 s = Err StructError.
Proof.
  intros H. unfold read_le_uint32, read_fixed, read. cbn [Z.leb]. 
  replace (2 ^ 63 <=? Z.of_nat 4) with false by lia. cbn [bind].
  unfold unpack_le_uint32, unpack_uint_le. rewrite zlen_ztake.
  pose proof (zlen_nonneg s). replace (_ =? Z.of_nat 4) with false by lia. reflexivity.
Qed.
Lemma outpoint_codec :
  codec (fun p => (bytes_ok (fst p) = true /\ zlen (fst p) = 32) /\ uint_range 4 (snd p))
    pack_outpoint read_outpoint.
Proof.
  constructor.
  - intros [h i] [[Hh Hl] Hi]; cbn [fst snd] in *. unfold pack_outpoint; cbn [fst snd].
    destruct (c_enc uint32_codec i Hi) as (b & -> & Hb). cbn [bind].
    eexists; split; [reflexivity|]. now rewrite bytes_ok_app, Hh, Hb.
  - intros [h i] b s [[Hh Hl] Hi] H; cbn [fst snd] in *. unfold pack_outpoint in H; cbn [fst snd] in H.
    bind_inv H. injection H as <-. unfold read_outpoint. rewrite <- app_assoc.
    rewrite read_app by lia. cbn [bind]. rewrite (c_rt uint32_codec i) by auto. reflexivity.
  - intros s [h i] s' Hs H. unfold read_outpoint in H. bind_inv H. injection H as <- <- <-.
    apply read_inv in E as (_ & -> & ->).
    destruct (Z.ltb_spec (zlen (zdrop 32 s)) 4) as [Hlt|Hge].
    { rewrite read_uint32_short in E0 by auto. discriminate. }
    assert (Hl : zlen (ztake 32 s) = 32) by (rewrite zlen_ztake; rewrite zlen_zdrop in Hge; lia).
    destruct (c_dec uint32_codec _ _ _ (bytes_ok_zdrop _ _ Hs) E0) as (W & c & b & Hc & L & Eb & Zb & Ub).
    split; [cbn [fst snd]; split; [split; [apply bytes_ok_ztake; auto|auto]|auto]|].
    exists (ztake 32 s ++ c), (ztake 32 s ++ b).
    split; [rewrite <- app_assoc, <- Hc; now rewrite ztake_zdrop|]. split.
    { intros t. unfold read_outpoint. rewrite <- app_assoc, read_app by lia. cbn [bind].
      rewrite L. reflexivity. }
    unfold pack_outpoint; cbn [fst snd]. rewrite Eb. cbn [bind]. split; [reflexivity|].
    rewrite !zlen_app. split; [lia|]. intros HH. f_equal. apply Ub. lia.
Qed.

Lemma varbytes_script_wf d : varbytes_wf d <-> script_wf d.
Proof. reflexivity. Qed.

Lemma input_codec : codec input_wf input_to_bytes read_input.
Proof.
  pose proof (codec_pair _ _ _ _ _ _ outpoint_codec
               (codec_pair _ _ _ _ _ _ varbytes_codec uint32_codec)) as C.
  apply (codec_iso (fun '((h, i), (c, q)) => mk_input h i c q)
           (fun x => ((prev_hash x, prev_idx x), (script_sig x, sequence x))) _ _ _ _ _ _ C).
  - intros [[h i] [c q]]. cbn [fst snd]. intros [[[? ?] ?] [? ?]]. unfold input_wf; cbn.
    repeat split; try apply H0; try (apply uint_range_4; auto); try apply H2; auto.
    all: try (apply uint_range_4 in H1; lia). all: try (apply uint_range_4 in H3; lia).
  - intros x (H1 & H2 & H3 & H4 & H5). cbn [fst snd]. repeat split; auto; try apply H4;
      try (apply H3); try apply H5.
  - intros []; reflexivity.
  - intros [[h i] [c q]]; reflexivity.
  - intros x. unfold input_to_bytes, prevout_bytes, pack_outpoint. cbn [fst snd].
    destruct (pack_le_uint32 (prev_idx x)); cbn [bind]; auto.
    destruct (pack_varbytes (script_sig x)); cbn [bind]; auto.
    destruct (pack_le_uint32 (sequence x)); cbn [bind]; auto.
  - intros s. unfold read_input, read_outpoint.
    destruct (read 32 s) as [[h s1]|]; cbn [bind]; auto.
    destruct (read_le_uint32 s1) as [[i s2]|]; cbn [bind]; auto.
    destruct (read_varbytes s2) as [[c s3]|]; cbn [bind]; auto.
    destruct (read_le_uint32 s3) as [[q s4]|]; cbn [bind]; auto.
Qed.

Lemma output_codec : codec output_wf output_to_bytes read_output.
Proof.
  pose proof (codec_pair _ _ _ _ _ _ int64_codec varbytes_codec) as C.
  apply (codec_iso (fun '(v, c) => mk_output v c)
           (fun x => (value x, script_pubkey x)) _ _ _ _ _ _ C).
  - intros [v c]. cbn [fst snd]. intros [? ?]. split; auto.
  - intros x [? ?]. split; auto.
  - intros []; reflexivity.
  - intros [v c]; reflexivity.
  - intros x. reflexivity.
  - intros s. unfold read_output.
    destruct (read_le_int64 s) as [[v s1]|]; cbn [bind]; auto.
    destruct (read_varbytes s1) as [[c s3]|]; cbn [bind]; auto.
Qed.

Lemma tx_codec : codec tx_wf tx_to_bytes read_tx.
Proof.
  pose proof (codec_pair _ _ _ _ _ _ int32_codec
    (codec_pair _ _ _ _ _ _ (list_codec _ _ _ input_codec)
       (codec_pair _ _ _ _ _ _ (list_codec _ _ _ output_codec) uint32_codec))) as C.
  apply (codec_iso (fun '(v, (i, (o, l))) => mk_tx v i o l)
           (fun x => (version x, (inputs x, (outputs x, locktime x)))) _ _ _ _ _ _ C).
  - intros (v & i & o & l). cbn [fst snd]. intros (? & ? & ? & ?). repeat split; auto; apply H || apply H0 || apply H1 || apply H2.
  - intros x (? & ? & ? & ?). cbn [fst snd]. repeat split; auto; apply H || apply H0 || apply H1 || apply H2.
  - intros []; reflexivity.
  - intros (v & i & o & l); reflexivity.
  - intros x. unfold tx_to_bytes. cbn [fst snd].
    destruct (pack_le_int32 (version x)); cbn [bind]; auto.
    destruct (pack_list (inputs x) input_to_bytes); cbn [bind]; auto.
    destruct (pack_list (outputs x) output_to_bytes); cbn [bind]; auto.
    destruct (pack_le_uint32 (locktime x)); cbn [bind]; auto.
  - intros s. unfold read_tx.
    destruct (read_le_int32 s) as [[v s1]|]; cbn [bind]; auto.
    destruct (read_list read_input s1) as [[c s3]|]; cbn [bind]; auto.
    destruct (read_list read_output s3) as [[d s4]|]; cbn [bind]; auto.
    destruct (read_le_uint32 s4) as [[l s5]|]; cbn [bind]; auto.
Qed.

Lemma tx_roundtrip t : tx_wf t -> exists b, tx_to_bytes t = Ok b /\ bytes_ok b = true /\
  (forall s, read_tx (b ++ s) = Ok (t, s)) /\ tx_from_bytes b = Ok t.
Proof.
  intros H. destruct (c_enc tx_codec t H) as (b & Hb & Ob). exists b. split; [auto|]. split; [auto|].
  assert (R : forall s, read_tx (b ++ s) = Ok (t, s)) by (intros; apply (c_rt tx_codec); auto).
  split; [auto|]. unfold tx_from_bytes, from_reader. specialize (R []). rewrite app_nil_r in R.
  now rewrite R.
Qed.
Lemma tx_roundtrip_hex t : tx_wf t -> exists s, tx_to_hex t = Ok s /\ tx_from_hex s = Ok t.
Proof.
  intros H. destruct (tx_roundtrip t H) as (b & Hb & Ob & _ & Hr). exists (to_hex b).
  unfold tx_to_hex, tx_from_hex. rewrite Hb, from_hex_to_hex by auto. cbn [bind]. auto.
Qed.
Lemma tx_truncated t b p q : tx_wf t -> tx_to_bytes t = Ok b -> b = p ++ q -> q <> [] ->
  exists e, tx_from_bytes p = Err e.
Proof.
  intros. destruct (codec_trunc _ _ _ tx_codec t b p q) as [e He]; auto.
  exists e. unfold tx_from_bytes, from_reader. now rewrite He.
Qed.
Lemma tx_canonical s t rest : bytes_ok s = true -> read_tx s = Ok (t, rest) ->
  tx_wf t /\ exists c b, s = c ++ rest /\ tx_to_bytes t = Ok b /\ tx_from_bytes b = Ok t /\
    zlen b <= zlen c /\ (zlen b = zlen c <-> b = c).
Proof.
  intros Hs H. destruct (c_dec tx_codec _ _ _ Hs H) as (W & c & b & -> & L & E & Z1 & U).
  split; [auto|]. exists c, b. destruct (tx_roundtrip t W) as (b' & Hb' & _ & _ & R).
  rewrite E in Hb'. injection Hb' as <-. repeat split; auto. intros ->; auto.
Qed.

(** Reading only raises struct.error or OverflowError. *)
Definition read_exn (e : exn) : Prop := e = StructError \/ e = OverflowError.
Definition reader_exns {A} (d : reader A) : Prop := forall s e, d s = Err e -> read_exn e.
Lemma read_exns n : reader_exns (read n).
Proof. intros s e. unfold read. destruct (_ <=? _); [intros [= <-]; right; auto|discriminate]. Qed.
Lemma exns_bind {A B} (d : reader A) (k : A -> reader B) :
  reader_exns d -> (forall a, reader_exns (k a)) -> reader_exns (fun s => '(a, s) <- d s ;; k a s).
Proof.
  intros Hd Hk s e H. destruct (d s) as [[a s']|e'] eqn:E; cbn [bind] in H.
  - eapply Hk; eauto.
  - injection H as <-. eapply Hd; eauto.
Qed.
Lemma exns_ok {A} (a : A) : reader_exns (fun s => Ok (a, s)).
Proof. intros s e H; discriminate. Qed.
Lemma exns_fixed n u : (forall b e, u b = Err e -> e = StructError) -> reader_exns (read_fixed n u).
Proof.
  intros Hu s e H. unfold read_fixed in H. destruct (read (Z.of_nat n) s) as [[b s']|e'] eqn:E; cbn [bind] in H.
  - destruct (u b) eqn:Eu; cbn [bind] in H; [discriminate|]. injection H as <-. left. eauto.
  - injection H as <-. eapply read_exns; eauto.
Qed.
Lemma exns_unpack n b e : unpack_uint_le n b = Err e -> e = StructError.
Proof. unfold unpack_uint_le. destruct (_ =? _); congruence. Qed.
Lemma exns_unpack_int n b e : unpack_int_le n b = Err e -> e = StructError.
Proof. unfold unpack_int_le. destruct (_ =? _); congruence. Qed.
Lemma exns_varint : reader_exns read_varint.
Proof.
  apply (exns_bind (read_fixed 1 unpack_byte)
   (fun n s => if n <? 253 then Ok (n, s) else if n =? 253 then read_le_uint16 s
               else if n =? 254 then read_le_uint32 s else read_le_uint64 s)).
  - apply exns_fixed. apply exns_unpack.
  - intros n. destruct (n <? 253); [apply exns_ok|].
    destruct (n =? 253); [apply exns_fixed, exns_unpack|].
    destruct (n =? 254); apply exns_fixed, exns_unpack.
Qed.
Lemma exns_varbytes : reader_exns read_varbytes.
Proof.
  apply (exns_bind read_varint (fun n s => '(b, s) <- read n s ;;
     if zlen b =? n then Ok (b, s) else Err StructError)); [apply exns_varint|].
  intros n. apply (exns_bind (read n) (fun b s => if zlen b =? n then Ok (b, s) else Err StructError)); [apply read_exns|].
  intros b s e. destruct (_ =? _); [discriminate|]. intros [= <-]. left; auto.
Qed.
Lemma exns_list {A} (d : reader A) : reader_exns d -> reader_exns (read_list d).
Proof.
  intros Hd. apply (exns_bind read_varint (fun n s => read_count d n s)); [apply exns_varint|].
  intros n s e. rewrite read_count_nat. revert s. induction (Z.to_nat n) as [|m IH]; intros s; cbn [read_nat]; [discriminate|].
  intros H. destruct (d s) as [[a s']|e'] eqn:E; cbn [bind] in H.
  - destruct (read_nat d m s') as [[l s'']|e'] eqn:E'; cbn [bind] in H; [discriminate|].
    injection H as <-. eapply IH; eauto.
  - injection H as <-. eapply Hd; eauto.
Qed.
Lemma exns_input : reader_exns read_input.
Proof.
  apply (exns_bind (read 32) (fun h s => '(i, s) <- read_le_uint32 s ;;
    '(c, s) <- read_varbytes s ;; '(q, s) <- read_le_uint32 s ;; Ok (mk_input h i c q, s))); [apply read_exns|]. intros h.
  apply (exns_bind read_le_uint32 (fun i s =>
    '(c, s) <- read_varbytes s ;; '(q, s) <- read_le_uint32 s ;; Ok (mk_input h i c q, s))); [apply exns_fixed, exns_unpack|]. intros i.
  apply (exns_bind read_varbytes (fun c s => '(q, s) <- read_le_uint32 s ;; Ok (mk_input h i c q, s))); [apply exns_varbytes|]. intros c.
  apply (exns_bind read_le_uint32 (fun q s => Ok (mk_input h i c q, s))); [apply exns_fixed, exns_unpack|]. intros q. apply exns_ok.
Qed.
Lemma exns_output : reader_exns read_output.
Proof.
  apply (exns_bind read_le_int64 (fun v s => '(c, s) <- read_varbytes s ;; Ok (mk_output v c, s))); [apply exns_fixed, exns_unpack_int|]. intros v.
  apply (exns_bind read_varbytes (fun c s => Ok (mk_output v c, s))); [apply exns_varbytes|]. intros c. apply exns_ok.
Qed.
Lemma exns_tx : reader_exns read_tx.
Proof.
  apply (exns_bind read_le_int32 (fun v s => '(i, s) <- read_list read_input s ;;
    '(o, s) <- read_list read_output s ;; '(l, s) <- read_le_uint32 s ;; Ok (mk_tx v i o l, s))); [apply exns_fixed, exns_unpack_int|]. intros v.
  apply (exns_bind (read_list read_input) (fun i s => 
    '(o, s) <- read_list read_output s ;; '(l, s) <- read_le_uint32 s ;; Ok (mk_tx v i o l, s))); [apply exns_list, exns_input|]. intros i.
  apply (exns_bind (read_list read_output) (fun o s => 
    '(l, s) <- read_le_uint32 s ;; Ok (mk_tx v i o l, s))); [apply exns_list, exns_output|]. intros o.
  apply (exns_bind read_le_uint32 (fun l s => Ok (mk_tx v i o l, s))); [apply exns_fixed, exns_unpack|]. intros l. apply exns_ok.
Qed.
Lemma tx_from_bytes_exn raw e : tx_from_bytes raw = Err e -> read_exn e.
Proof.
  unfold tx_from_bytes, from_reader. destruct (read_tx raw) as [[t s]|e'] eqn:E; cbn [bind]; [discriminate|].
  intros [= <-]. eapply exns_tx; eauto.
Qed.

(** ** size *)
Lemma uint32_len v b : pack_le_uint32 v = Ok b -> zlen b = 4.
Proof. intros H. apply pack_uint_le_inv in H as [_ ->]. apply zlen_le_digits. Qed.
Lemma int32_len v b : pack_le_int32 v = Ok b -> zlen b = 4.
Proof. intros H. apply pack_int_le_inv in H as [_ ->]; [apply zlen_le_digits|lia]. Qed.
Lemma int64_len v b : pack_le_int64 v = Ok b -> zlen b = 8.
Proof. intros H. apply pack_int_le_inv in H as [_ ->]; [apply zlen_le_digits|lia]. Qed.
Lemma prevout_len i b : prevout_bytes i = Ok b -> zlen b = zlen (prev_hash i) + 4.
Proof.
  unfold prevout_bytes. intros H. bind_inv H. injection H as <-. apply uint32_len in E.
  rewrite zlen_app. lia.
Qed.
Lemma input_size_ok i b : zlen (prev_hash i) = 32 -> input_to_bytes i = Ok b ->
  input_size i = Ok (zlen b).
Proof.
  intros Hh H. unfold input_to_bytes, pack_varbytes in H. bind_inv H. injection H as <-.
  bind_inv E0. injection E0 as <-. apply varint_len_spec in E2. unfold input_size. rewrite E2. cbn [bind].
  apply prevout_len in E. apply uint32_len in E1. rewrite !zlen_app. f_equal. lia.
Qed.
Lemma output_size_ok o b : output_to_bytes o = Ok b -> output_size o = Ok (zlen b).
Proof.
  intros H. unfold output_to_bytes, pack_varbytes in H. bind_inv H. injection H as <-.
  bind_inv E0. injection E0 as <-. apply varint_len_spec in E1. unfold output_size. rewrite E1. cbn [bind].
  apply int64_len in E. rewrite !zlen_app. f_equal. lia.
Qed.
Lemma zlen_concat (l : list bytes) : zlen (concat l) = zsum (map zlen l).
Proof. induction l; cbn [concat map zsum fold_right]; [reflexivity|]. rewrite zlen_app, IHl. reflexivity. Qed.
Lemma mapM_sizes {A} (enc : A -> result bytes) (sz : A -> result Z) l bs :
  (forall x b, In x l -> enc x = Ok b -> sz x = Ok (zlen b)) ->
  mapM enc l = Ok bs -> mapM sz l = Ok (map zlen bs).
Proof.
  revert bs; induction l as [|x l IH]; intros bs H HE; cbn [mapM] in *.
  - injection HE as <-. reflexivity.
  - bind_inv HE. injection HE as <-. rewrite (H x x0) by (auto; left; auto).
    rewrite (IH x1) by (auto; intros; apply H; auto; right; auto). reflexivity.
Qed.
Lemma tx_size_ok t b : Forall (fun i => zlen (prev_hash i) = 32) (inputs t) ->
  tx_to_bytes t = Ok b -> tx_size t = Ok (zlen b).
Proof.
  intros Hi H. unfold tx_to_bytes, pack_list in H. bind_inv H. injection H as <-.
  bind_inv E0. injection E0 as <-. bind_inv E1. injection E1 as <-.
  apply varint_len_spec in E3, E0. unfold tx_size, size_io. rewrite E3, E0. cbn [bind].
  rewrite Forall_forall in Hi.
  rewrite (mapM_sizes _ _ _ _ (fun i b Hin HE => input_size_ok i b (Hi i Hin) HE) E4). cbn [bind].
  rewrite (mapM_sizes _ _ _ _ (fun o b _ HE => output_size_ok o b HE) E5). cbn [bind concat].
  apply int32_len in E. apply uint32_len in E2. rewrite !zlen_app, !zlen_concat. f_equal. lia.
Qed.

(** ** Finality and coinbase *)
Lemma final_iff t h ts : is_final_for_block t h ts = true <->
  locktime t = 0 \/
  (locktime t < 500000000 /\ locktime t < h) \/
  (500000000 <= locktime t /\ locktime t < ts) \/
  Forall (fun i => sequence i = 2 ^ 32 - 1) (inputs t).
Proof.
  unfold is_final_for_block, LOCKTIME_THRESHOLD, are_inputs_final.
  rewrite !orb_true_iff, forallb_forall, Forall_forall.
  assert (HF : (forall x, In x (inputs t) -> input_is_final x = true) <->
               (forall x, In x (inputs t) -> sequence x = 2 ^ 32 - 1)).
  { split; intros H x Hx; specialize (H x Hx); unfold input_is_final in *; lia. }
  rewrite HF. destruct (Z.ltb_spec (locktime t) 500000000); rewrite Z.eqb_eq, Z.ltb_lt; intuition lia.
Qed.
Lemma coinbase_iff t : tx_is_coinbase t = Ok true <->
  exists i rest, inputs t = i :: rest /\ prev_hash i = repeat 0 32 /\ prev_idx i = 2 ^ 32 - 1.
Proof.
  unfold tx_is_coinbase, pyindex. cbn [Z.ltb Z.compare].
  destruct (inputs t) as [|i r]; cbn [znth bind]; split.
  - discriminate.
  - intros (? & ? & H & _). discriminate.
  - cbn [Z.eqb]. intros [= H]. unfold input_is_coinbase in H. apply andb_true_iff in H as [H1 H2].
    apply bytes_eqb_eq in H2. exists i, r. repeat split; auto. unfold UINT32_MAX in H1. lia.
  - intros (i' & r' & [= <- <-] & H1 & H2). cbn [Z.eqb bind]. f_equal. unfold input_is_coinbase.
    rewrite H1, H2. reflexivity.
Qed.
