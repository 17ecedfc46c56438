(** HMAC and PBKDF2 are the functions specified. *)
From Verif.Model Require Import Py Hashes.
From Verif.Spec Require Import HashSpec.
From Verif.Proofs Require Import PyFacts CashaddrFacts HashesFacts HashesWords HashesExact.

Lemma xor_mask_ok mask l : 0 <= mask < 256 -> bytes_ok l = true -> bytes_ok (map (Z.lxor mask) l) = true.
Proof.
  intros HM HO. apply bytes_ok_In. intros x Hx. apply in_map_iff in Hx as (y & <- & Hy). rewrite bytes_ok_In in HO. specialize (HO y Hy). apply (lxor_range 8); lia.
Qed.
Lemma masked_map mask l : 0 <= mask < 256 -> bytes_ok l = true -> masked mask l (map (Z.lxor mask) l).
Proof.
  intros HM HO. split; [now rewrite zlen_map|]. split; [now apply xor_mask_ok|]. intros i x y Hx Hy. rewrite znth_map, Hx in Hy. cbn in Hy. injection Hy as <-.
  now rewrite (Z.lxor_comm mask), <- Z.lxor_assoc, Z.lxor_nilpotent, Z.lxor_0_l.
Qed.
Lemma masked_unique mask l m : masked mask l m -> m = map (Z.lxor mask) l.
Proof.
  intros (HL & _ & HM). apply znth_ext. intros i Hi. rewrite znth_map. destruct (znth l i) as [x|] eqn:E.
  - pose proof (znth_Some _ _ _ E). destruct (znth_is_Some m i ltac:(lia)) as [y Hy]. rewrite Hy. cbn. f_equal. rewrite <- (HM i x y E Hy).
    now rewrite (Z.lxor_comm (Z.lxor x y)), <- Z.lxor_assoc, Z.lxor_nilpotent, Z.lxor_0_l.
  - cbn. apply znth_None in E. apply znth_None. lia.
Qed.
Lemma all_zero (l : list Z) : Forall (eq 0) l -> l = zrepeat 0 (zlen l).
Proof. induction 1 as [|x l <- _ IH]; [reflexivity|]. rewrite IH at 1. unfold zrepeat, zlen. cbn [length]. rewrite !Nat2Z.id. reflexivity. Qed.

Section Hmac.
  Variables (H : bytes -> bytes) (says : bytes -> bytes -> Prop) (size : Z).
  Hypothesis H_ok : forall m, bytes_ok (H m) = true.
  Hypothesis H_len : forall m, zlen (H m) <= size.
  Hypothesis H_says : forall m d, bytes_ok m = true -> (H m = d <-> says m d).
  Theorem hmac_exact key msg d : bytes_ok key = true -> bytes_ok msg = true -> (hmac H size key msg = d <-> hmac_says says size key msg d).
  Proof using H_ok H_len H_says.
    intros HK HM. unfold hmac. set (key' := if size <? zlen key then H key else key).
    assert (bytes_ok key' = true) as HK' by (unfold key'; destruct (size <? zlen key); auto).
    assert (zlen key' <= size) as HL' by (unfold key'; destruct (Z.ltb_spec size (zlen key)); [apply H_len|lia]).
    assert (zlen key <= size /\ key' = key \/ size < zlen key /\ says key key') as HC.
    { unfold key'. destruct (Z.ltb_spec size (zlen key)); [right|left; auto]. split; [lia|]. now apply H_says. }
    set (k0 := key' ++ zrepeat 0 (size - zlen key')).
    assert (bytes_ok k0 = true) as HK0 by (unfold k0; rewrite bytes_ok_app, HK'; unfold zrepeat; apply bytes_ok_repeat).
    assert (forall mask rest, 0 <= mask < 256 -> bytes_ok rest = true -> bytes_ok (map (Z.lxor mask) k0 ++ rest) = true) as HX by (intros mask rest Hm Hr; rewrite bytes_ok_app, Hr, xor_mask_ok by assumption; reflexivity).
    split.
    - intros <-. exists key', (zrepeat 0 (size - zlen key')), (map (Z.lxor 0x36) k0), (map (Z.lxor 0x5c) k0), (H (map (Z.lxor 0x36) k0 ++ msg)).
      split; [exact HC|]. fold k0. split; [unfold k0; rewrite zlen_app, zlen_repeat by lia; lia|].
      split; [unfold zrepeat; apply Forall_forall; intros x Hx; apply repeat_spec in Hx; now subst|].
      split; [apply masked_map; [lia|exact HK0]|]. split; [apply masked_map; [lia|exact HK0]|].
      split; apply H_says; try reflexivity; apply HX; auto; lia.
    - intros (key2 & zeros & inner & outer & h & HC2 & HZ & HF & HI & HO & H1 & H2).
      assert (key2 = key') as ->.
      { destruct HC as [[HC ->]|[HC HS]], HC2 as [[HC2 ->]|[HC2 HS2]]; try lia; [reflexivity|]. apply H_says in HS, HS2; congruence. }
      assert (zeros = zrepeat 0 (size - zlen key')) as -> by (rewrite (all_zero zeros HF); f_equal; rewrite zlen_app in HZ; lia). fold k0 in HI, HO.
      apply masked_unique in HI, HO. subst inner outer. apply H_says in H1; [|apply HX; [lia|exact HM]]. subst h. apply H_says in H2; [exact H2|]. apply HX; [lia|apply H_ok].
  Qed.
End Hmac.
Theorem hmac_sha512_exact key msg d : bytes_ok key = true -> bytes_ok msg = true -> (hmac_sha512 key msg = d <-> hmac_says sha512_says 128 key msg d).
Proof. apply hmac_exact; [exact sha512_ok|intros m; rewrite sha512_len; lia|intros; now apply sha512_exact]. Qed.
Theorem hmac_sha256_exact key msg d : bytes_ok key = true -> bytes_ok msg = true -> (hmac_sha256 key msg = d <-> hmac_says sha256_says 64 key msg d).
Proof. apply hmac_exact; [exact sha256_ok|intros m; rewrite sha256_len; lia|intros; now apply sha256_exact]. Qed.

(** ** PBKDF2 *)
Lemma xor_bytes_zlen a b : zlen a = zlen b -> zlen (xor_bytes a b) = zlen a.
Proof. intros H. unfold xor_bytes. rewrite zlen_map. unfold zlen in *. rewrite combine_length. lia. Qed.
Lemma xor_bytes_znth a : forall b i x y, znth a i = Some x -> znth b i = Some y -> znth (xor_bytes a b) i = Some (Z.lxor x y).
Proof.
  induction a as [|u a IH]; intros [|v b] i x y Hx Hy; try discriminate. cbn in *. destruct (i =? 0); [now injection Hx as <-; injection Hy as <-|]. destruct (i <? 0); [discriminate|]. now apply IH.
Qed.
Lemma xor_bytes_ok a b : bytes_ok a = true -> bytes_ok b = true -> bytes_ok (xor_bytes a b) = true.
Proof.
  revert b. induction a as [|u a IH]; intros [|v b] HA HB; try reflexivity. cbn [xor_bytes combine map] in *. rewrite bytes_ok_cons in *. apply andb_true_iff in HA as [A1 A2], HB as [B1 B2].
  apply andb_true_iff. split; [|apply IH; assumption]. apply byte_ok_iff in A1, B1. apply byte_ok_iff. apply (lxor_range 8); lia.
Qed.
Section Pbkdf2.
  Variables (password salt : bytes).
  Hypothesis password_ok : bytes_ok password = true.
  Hypothesis salt_ok : bytes_ok salt = true.
  Fixpoint u_at (n : nat) : bytes := match n with O => hmac_sha512 password (salt ++ [0; 0; 0; 1]) | S n' => hmac_sha512 password (u_at n') end.
  Fixpoint t_at (n : nat) : bytes := match n with O => u_at 0 | S n' => xor_bytes (t_at n') (u_at (S n')) end.
  Lemma u_len n : zlen (u_at n) = 64. Proof using. destruct n; apply hmac_sha512_len. Qed.
  Lemma u_ok n : bytes_ok (u_at n) = true. Proof using. destruct n; apply hmac_sha512_ok. Qed.
  Lemma t_len n : zlen (t_at n) = 64.
  Proof using. induction n as [|n IH]; [apply u_len|]. cbn [t_at]. rewrite xor_bytes_zlen by now rewrite IH, u_len. exact IH. Qed.
  Lemma t_ok n : bytes_ok (t_at n) = true.
  Proof using. induction n as [|n IH]; [apply u_ok|]. cbn [t_at]. apply xor_bytes_ok; [exact IH|apply u_ok]. Qed.
  Lemma loop_at k : forall n, pbkdf2_loop k password (u_at n) (t_at n) = t_at (n + k).
  Proof using.
    induction k as [|k IH]; intros n; [now rewrite Nat.add_0_r|]. cbn [pbkdf2_loop]. replace (n + S k)%nat with (S n + k)%nat by lia. rewrite <- IH. reflexivity.
  Qed.
  Lemma pbkdf2_at c : pbkdf2_sha512 password salt c = t_at (Z.to_nat (c - 1)).
  Proof using. exact (loop_at _ 0). Qed.
  Lemma salt_1 : bytes_ok (salt ++ [0; 0; 0; 1]) = true.
  Proof using salt_ok. clear - salt_ok. rewrite bytes_ok_app, salt_ok. reflexivity. Qed.
  Theorem pbkdf2_exact c d : 1 <= c -> (pbkdf2_sha512 password salt c = d <-> pbkdf2_says (hmac_says sha512_says 128) password salt c d).
  Proof using password_ok salt_ok.
    intros Hc. rewrite pbkdf2_at. split.
    - intros <-. exists (fun j => u_at (Z.to_nat (j - 1))), (fun j => t_at (Z.to_nat (j - 1))).
      split; [apply hmac_sha512_exact; [exact password_ok|exact salt_1|reflexivity]|]. split; [reflexivity|]. split; [|reflexivity].
      intros j Hj. replace (Z.to_nat (j + 1 - 1)) with (S (Z.to_nat (j - 1))) by lia. split; [apply hmac_sha512_exact; [exact password_ok|apply u_ok|reflexivity]|].
      split; [now rewrite !t_len|]. intros i x y Hx Hy. cbn [t_at]. now apply xor_bytes_znth.
    - intros (U & T & HU & HT & HS & ->). set (n := Z.to_nat (c - 1)). replace c with (Z.of_nat n + 1) by (unfold n; lia). assert (Z.of_nat n + 1 = c) as Hn by (unfold n; lia). clearbody n.
      assert (forall k, (k <= n)%nat -> U (Z.of_nat k + 1) = u_at k /\ T (Z.of_nat k + 1) = t_at k) as HI.
      { induction k as [|k IH]; intros Hk.
        - cbn [Z.of_nat]. apply hmac_sha512_exact in HU; [|exact password_ok|exact salt_1]. change (U 1 = u_at 0 /\ T 1 = u_at 0). rewrite HT. split; symmetry; exact HU.
        - destruct (IH ltac:(lia)) as [IU IT]. destruct (HS (Z.of_nat k + 1) ltac:(lia)) as (HF & HL & HX). rewrite IU in HF. apply hmac_sha512_exact in HF; [|exact password_ok|apply u_ok].
          replace (Z.of_nat (S k) + 1) with (Z.of_nat k + 1 + 1) by lia. assert (U (Z.of_nat k + 1 + 1) = u_at (S k)) as EU by (symmetry; exact HF). split; [exact EU|].
          rewrite IT in HL, HX. rewrite EU in HX. cbn [t_at]. apply znth_ext. intros i Hi. pose proof (t_len k). pose proof (u_len (S k)).
          assert (zlen (xor_bytes (t_at k) (u_at (S k))) = 64) as HXL by (rewrite xor_bytes_zlen; lia).
          destruct (Z.lt_ge_cases i 64) as [L|L].
          + destruct (znth_is_Some (t_at k) i ltac:(lia)) as [x Hx]. destruct (znth_is_Some (u_at (S k)) i ltac:(lia)) as [y Hy]. rewrite (HX i x y Hx Hy). symmetry. now apply xor_bytes_znth.
          + rewrite (proj2 (znth_None (T _) i)) by lia. symmetry. apply znth_None. lia. }
      symmetry. apply HI. lia.
  Qed.
End Pbkdf2.
Lemma pbkdf2_len p s c : zlen (pbkdf2_sha512 p s c) = 64.
Proof. rewrite pbkdf2_at. apply t_len. Qed.
Lemma pbkdf2_ok p s c : bytes_ok (pbkdf2_sha512 p s c) = true.
Proof. rewrite pbkdf2_at. apply t_ok. Qed.
