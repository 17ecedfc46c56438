(** pyaes and Cryptodome: the same blocks, and other exceptions. *)
From Verif.Model Require Import Py Hashes Cipher Aes Pyaes.
From Verif.Proofs Require Import PyFacts HashesFacts CipherFacts CipherCbc.

Definition good_sizes (key iv : bytes) : Prop := (zlen key = 16 \/ zlen key = 24 \/ zlen key = 32) /\ zlen iv = 16.
Lemma new_mode_ok key iv : good_sizes key iv -> new_mode key iv = Ok {| mode_key := key; mode_last := iv |}.
Proof. intros [HK HI]. unfold new_mode. rewrite HI. destruct HK as [->|[->| ->]]; reflexivity. Qed.
Lemma new_mode_bad key iv : ~ good_sizes key iv -> new_mode key iv = Err ValueError.
Proof.
  intros H. unfold new_mode. destruct (Z.eqb_spec (zlen iv) 16) as [HI|HI]; [|reflexivity].
  destruct (Z.eqb_spec (zlen key) 16); [exfalso; apply H; split; auto|]. destruct (Z.eqb_spec (zlen key) 24); [exfalso; apply H; split; auto|].
  destruct (Z.eqb_spec (zlen key) 32); [exfalso; apply H; split; auto|]. reflexivity.
Qed.

Lemma split_tail (d : bytes) : exists bs tail, d = concat bs ++ tail /\ Forall (fun b => length b = 16%nat) bs /\ ((16 <= length tail < 32)%nat \/ bs = [] /\ (length tail < 16)%nat).
Proof.
  remember (length d) as n eqn:HN. revert d HN. induction n as [n IH] using lt_wf_ind. intros d HN. destruct (Nat.lt_ge_cases n 32) as [H|H].
  - exists [], d. split; [reflexivity|]. split; [constructor|]. destruct (Nat.lt_ge_cases n 16); [right; split; [reflexivity|lia]|left; lia].
  - destruct (IH (n - 16)%nat ltac:(lia) (skipn 16 d) ltac:(rewrite skipn_length; lia)) as (bs & tail & HE & HF & HT). exists (firstn 16 d :: bs), tail.
    split; [cbn [concat]; rewrite <- app_assoc, <- HE; symmetry; apply firstn_skipn|]. split; [constructor; [rewrite firstn_length; lia|exact HF]|].
    destruct HT as [HT|[-> HT]]; [now left|]. exfalso. apply (f_equal (@length Z)) in HE. rewrite skipn_length in HE. cbn [concat app] in HE. unfold bytes in *. lia.
Qed.
Section Run.
  Variable out : cbc_mode -> bytes -> bytes.
  Variable next : cbc_mode -> bytes -> cbc_mode.
  Definition one_block (m : cbc_mode) (b : bytes) : result (bytes * cbc_mode) := if negb (zlen b =? 16) then Err ValueError else Ok (out m b, next m b).
  Fixpoint blocks_out (m : cbc_mode) (bs : list bytes) : bytes :=
    match bs with [] => [] | b :: r => out m b ++ blocks_out (next m b) r end.
  Lemma blocks_out_app bs : forall m cs, blocks_out m (bs ++ cs) = blocks_out m bs ++ blocks_out (fold_left next bs m) cs.
  Proof. induction bs as [|b bs IH]; intros m cs; [reflexivity|]. cbn [app blocks_out fold_left]. now rewrite IH, app_assoc. Qed.

  Lemma loop_blocks bs : forall fuel m tail acc, Forall (fun b => length b = 16%nat) bs -> (length bs < fuel)%nat ->
    (16 <= length tail < 32)%nat \/ bs = [] /\ (length tail < 16)%nat ->
    feed_loop one_block fuel m (concat bs ++ tail) acc = Ok (acc ++ blocks_out m bs, fold_left next bs m, tail).
  Proof.
    induction bs as [|b bs IH]; intros fuel m tail acc HF HL HT; (destruct fuel as [|fuel]; [cbn in HL; lia|]); cbn [feed_loop].
    - cbn [concat app blocks_out fold_left]. rewrite app_nil_r. unfold can_consume, zlen. destruct (Z.ltb_spec 16 (Z.of_nat (length tail))); [|reflexivity].
      destruct (Z.leb_spec 16 (Z.of_nat (length tail) - 16)); [lia|]. reflexivity.
    - apply Forall_cons_iff in HF as [HB HF]. destruct HT as [HT|[HT _]]; [|discriminate]. cbn [concat blocks_out fold_left]. rewrite <- app_assoc.
      set (rest := concat bs ++ tail). assert (16 <= length rest)%nat as HR by (unfold rest; rewrite app_length; lia).
      assert (zlen (b ++ rest) = 16 + Z.of_nat (length rest)) as HZ by (unfold zlen; rewrite app_length, HB; lia).
      rewrite HZ. destruct (Z.ltb_spec 16 (16 + Z.of_nat (length rest))); [|lia]. unfold can_consume. destruct (Z.leb_spec 16 (16 + Z.of_nat (length rest) - 16)); [|lia]. change (16 =? 0) with false. cbv iota.
      assert (zlen b = 16) as HZb by (unfold zlen; lia). assert (slice_to (b ++ rest) 16 = b) as -> by (rewrite slice_to_nonneg by lia; apply ztake_app_exact; lia).
      assert (slice_from (b ++ rest) 16 = rest) as -> by (rewrite slice_from_nonneg by lia; apply zdrop_app_exact; lia). unfold one_block at 1. rewrite HZb. cbn [negb Z.eqb Pos.eqb bind].
      unfold rest. rewrite IH; [now rewrite app_assoc|exact HF|cbn in HL; lia|left; exact HT].
  Qed.
  (** Data that is whole blocks, and other data. *)
  Lemma run_whole key iv bs : good_sizes key iv -> Forall (fun b => length b = 16%nat) bs -> bs <> [] ->
    pyaes_run one_block key iv (concat bs) = Ok (blocks_out {| mode_key := key; mode_last := iv |} bs).
  Proof.
    intros HG HF HN. destruct (exists_last HN) as (bs' & b & ->). apply Forall_app in HF as [HF HB]. apply Forall_cons_iff in HB as [HB _].
    unfold pyaes_run. rewrite new_mode_ok by exact HG. cbn [bind]. unfold feed. cbn [fe_buffer fe_mode app]. rewrite concat_app. cbn [concat]. rewrite app_nil_r.
    assert (length (concat bs') = length bs' * 16)%nat as HC by now apply blocks_length.
    rewrite loop_blocks; [|exact HF|rewrite app_length, HC; unfold bytes in *; lia|left; lia]. cbn [bind app]. unfold feed_end. cbn [fe_buffer fe_mode].
    assert (zlen b = 16) as HZ by (unfold zlen; lia). unfold one_block. rewrite HZ. cbn [negb Z.eqb Pos.eqb bind]. rewrite blocks_out_app. cbn [blocks_out]. now rewrite app_nil_r.
  Qed.
  Lemma run_other key iv d : good_sizes key iv -> d = [] \/ zlen d mod 16 <> 0 -> pyaes_run one_block key iv d = Err PlainException.
  Proof.
    intros HG HD. destruct (split_tail d) as (bs & tail & HE & HF & HT). unfold pyaes_run. rewrite new_mode_ok by exact HG. cbn [bind]. unfold feed. cbn [fe_buffer fe_mode app].
    assert (length (concat bs) = length bs * 16)%nat as HC by now apply blocks_length.
    assert (length tail <> 16%nat) as HL.
    { intros HL. destruct HD as [->|HD]; [destruct bs; [cbn in HE; subst tail; discriminate|apply (f_equal (@length Z)) in HE; rewrite app_length in HE; cbn [length] in HE; unfold bytes in *; lia]|].
      apply HD. unfold zlen. rewrite HE, app_length, HC, HL. replace (Z.of_nat (length bs * 16 + 16)) with ((Z.of_nat (length bs) + 1) * 16) by lia. apply Z.mod_mul. lia. }
    rewrite HE, loop_blocks; [|exact HF|rewrite app_length, HC; unfold bytes in *; lia|exact HT]. cbn [bind]. unfold feed_end. cbn [fe_buffer fe_mode].
    destruct (Z.eqb_spec (zlen tail) 16) as [HZ|_]; [unfold zlen in HZ; lia|]. reflexivity.
  Qed.
  Lemma run_bad key iv d : ~ good_sizes key iv -> pyaes_run one_block key iv d = Err ValueError.
  Proof. intros HG. unfold pyaes_run. now rewrite new_mode_bad. Qed.
End Run.

Definition enc_out (m : cbc_mode) (b : bytes) : bytes := encrypt_block (key_schedule (mode_key m)) (zlen (mode_key m) / 4 + 6) (xor_bytes b (mode_last m)).
Definition dec_out (m : cbc_mode) (b : bytes) : bytes := xor_bytes (decrypt_block (key_schedule (mode_key m)) (zlen (mode_key m) / 4 + 6) b) (mode_last m).
Lemma enc_blocks_out bs : forall key iv,
  blocks_out enc_out (fun m b => {| mode_key := mode_key m; mode_last := enc_out m b |}) {| mode_key := key; mode_last := iv |} bs =
  cbc_encrypt_blocks (encrypt_block (key_schedule key) (zlen key / 4 + 6)) iv bs.
Proof. induction bs as [|b bs IH]; intros key iv; [reflexivity|]. cbn [blocks_out cbc_encrypt_blocks mode_key]. cbv zeta. rewrite IH. reflexivity. Qed.
Lemma dec_blocks_out bs : forall key iv,
  blocks_out dec_out (fun m b => {| mode_key := mode_key m; mode_last := b |}) {| mode_key := key; mode_last := iv |} bs =
  cbc_decrypt_blocks (decrypt_block (key_schedule key) (zlen key / 4 + 6)) iv bs.
Proof. induction bs as [|b bs IH]; intros key iv; [reflexivity|]. cbn [blocks_out cbc_decrypt_blocks mode_key]. rewrite IH. reflexivity. Qed.

Lemma good_args key iv d : good_sizes key iv -> zlen d mod 16 = 0 -> cbc_args key iv d = true.
Proof. intros [HK HI] HD. unfold cbc_args. rewrite HI, HD. destruct HK as [->|[->| ->]]; reflexivity. Qed.
Lemma args_sizes key iv d : cbc_args key iv d = true -> good_sizes key iv /\ zlen d mod 16 = 0.
Proof.
  unfold cbc_args. intros H. apply andb_true_iff in H as [H HD]. apply andb_true_iff in H as [HK HI]. apply Z.eqb_eq in HD, HI. split; [split; [|exact HI]|exact HD].
  apply orb_true_iff in HK as [HK|HK]; [apply orb_true_iff in HK as [HK|HK]|]; apply Z.eqb_eq in HK; auto.
Qed.
Lemma sizes_dec key iv : good_sizes key iv \/ ~ good_sizes key iv.
Proof. unfold good_sizes. lia. Qed.
Lemma cut_whole (d : bytes) : zlen d mod 16 = 0 -> d <> [] -> d = concat (cut (length d) 16 d) /\ Forall (fun b => length b = 16%nat) (cut (length d) 16 d) /\ cut (length d) 16 d <> [].
Proof.
  intros HD HN. apply Z.mod_divide in HD as [q Hq]; [|lia]. unfold zlen in Hq. destruct (split_tail d) as (bs & tail & HE & HF & HT).
  assert (length (concat bs) = length bs * 16)%nat as HC by now apply blocks_length. assert (length d = length bs * 16 + length tail)%nat as HL by (rewrite HE, app_length, HC; reflexivity).
  assert (length d <> 0)%nat as HZ by (destruct d; [contradiction|cbn; lia]).
  assert (d = concat (bs ++ [tail]) /\ Forall (fun b => length b = 16%nat) (bs ++ [tail])) as [HE' HF'].
  { split; [rewrite concat_app; cbn [concat]; now rewrite app_nil_r|]. apply Forall_app. split; [exact HF|]. constructor; [|constructor]. clear - HL Hq HT HZ. destruct HT as [HT|[-> HT]]; [|cbn in HL]; lia. }
  assert (cut (length d) 16 d = bs ++ [tail]) as HK.
  { rewrite HE' at 2. apply cut_of_blocks; [lia|exact HF'|]. rewrite app_length. cbn [length]. unfold bytes in *. lia. }
  rewrite HK. split; [exact HE'|]. split; [exact HF'|]. now destruct bs.
Qed.
(** Everything pyaes does, in terms of what Cryptodome does. *)
Theorem pyaes_encrypt_is key iv d : pyaes_encrypt key iv d =
  match aes_cbc_encrypt key iv [] with
  | Err e => Err e
  | Ok _ => if (zlen d =? 0) || negb (zlen d mod 16 =? 0) then Err PlainException else aes_cbc_encrypt key iv d
  end.
Proof.
  change (pyaes_encrypt key iv d) with (pyaes_run (one_block enc_out (fun m b => {| mode_key := mode_key m; mode_last := enc_out m b |})) key iv d).
  destruct (sizes_dec key iv) as [HG|HG].
  - unfold aes_cbc_encrypt at 1. rewrite good_args by (exact HG || reflexivity). destruct (Z.eqb_spec (zlen d) 0) as [H0|H0]; cbn [orb].
    + apply zlen_0_nil in H0. apply run_other; auto.
    + destruct (Z.eqb_spec (zlen d mod 16) 0) as [HD|HD]; cbn [negb]; [|apply run_other; auto].
      destruct (cut_whole d HD) as (HE & HF & HN); [intros ->; now apply H0|]. unfold aes_cbc_encrypt. rewrite good_args by assumption. rewrite HE at 1. rewrite run_whole by assumption. now rewrite enc_blocks_out.
  - rewrite run_bad by exact HG. unfold aes_cbc_encrypt. destruct (cbc_args key iv []) eqn:EA; [apply args_sizes in EA as [HS _]; contradiction|reflexivity].
Qed.
Theorem pyaes_decrypt_is key iv d : pyaes_decrypt key iv d =
  match aes_cbc_decrypt key iv [] with
  | Err e => Err e
  | Ok _ => if (zlen d =? 0) || negb (zlen d mod 16 =? 0) then Err PlainException else aes_cbc_decrypt key iv d
  end.
Proof.
  change (pyaes_decrypt key iv d) with (pyaes_run (one_block dec_out (fun m b => {| mode_key := mode_key m; mode_last := b |})) key iv d).
  destruct (sizes_dec key iv) as [HG|HG].
  - unfold aes_cbc_decrypt at 1. rewrite good_args by (exact HG || reflexivity). destruct (Z.eqb_spec (zlen d) 0) as [H0|H0]; cbn [orb].
    + apply zlen_0_nil in H0. apply run_other; auto.
    + destruct (Z.eqb_spec (zlen d mod 16) 0) as [HD|HD]; cbn [negb]; [|apply run_other; auto].
      destruct (cut_whole d HD) as (HE & HF & HN); [intros ->; now apply H0|]. unfold aes_cbc_decrypt. rewrite good_args by assumption. rewrite HE at 1. rewrite run_whole by assumption. now rewrite dec_blocks_out.
  - rewrite run_bad by exact HG. unfold aes_cbc_decrypt. destruct (cbc_args key iv []) eqn:EA; [apply args_sizes in EA as [HS _]; contradiction|reflexivity].
Qed.
