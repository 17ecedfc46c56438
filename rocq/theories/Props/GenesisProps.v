(** C96: histories of headers may start at the genesis header of every coin. *)
From Verif.Model Require Import Py Packing Bits Coin Work Hashes Storage Chain.
From Verif.Spec Require Import Numbers WorkSpec HashSpec ChainSpec HeadersHistory.
From Verif.Proofs Require Import PyFacts HashesExact StorageFacts ForestFacts ChainFacts HeadersFacts ChainTheorems.
From Verif.Props Require Import HashesProps.

(** The checkpoint at a coin's genesis header *)
Definition genesis_checkpoint (c : coin) (work : Z) : checkpoint := mk_checkpoint (c_genesis_header c) 0 work.

(** With double SHA-256 itself it meets all that the theorems about headers assume (C26-C35, C105, C109-C111), as long as
    no two headers that occur have one hash and none has the hash zero. *)
Theorem C96_start : forall c work (U : bytes -> Prop), In c all_coins -> U (c_genesis_header c) ->
  (forall a b, U a -> U b -> double_sha256 a = double_sha256 b -> a = b) -> (forall a, U a -> double_sha256 a <> repeat 0 32) ->
  assumptions double_sha256 (genesis_checkpoint c work) U.
Proof.
  intros c work U HC HU HI HZ.
  assert (HP : firstn 32 (skipn 4 (c_genesis_header c)) = repeat 0 32 /\ zlen (c_genesis_header c) = 80 /\ c_genesis_header c <> repeat 0 80 /\ exists w, header_work (c_genesis_header c) = Ok w).
  { cbn in HC. destruct HC as [<-|[<-|[<-|[<-|[] ] ] ] ]; (split; [reflexivity|split; [reflexivity|split; [discriminate|eexists; vm_compute; reflexivity] ] ]). }
  destruct HP as (H1 & H2 & H3 & H4).
  split; cbn [genesis_checkpoint cp_raw cp_height]; auto.
  - intros x. apply double_sha256_len.
  - intros x. apply double_sha256_ok.
  - intros a Ha. rewrite H1. now apply HZ.
  - lia.
Qed.
Print Assumptions C96_start.

(** So a new headers file of every coin can be made, and holds its genesis header. *)
Lemma differ a b : bytes_eqb a b = false -> a <> b.
Proof. intros HE ->. rewrite bytes_eqb_refl in HE. discriminate. Qed.
Lemma mainnet_hash : double_sha256 genesis_mainnet <> repeat 0 32.
Proof. apply differ. vm_compute. reflexivity. Qed.
Lemma testnet_hash : double_sha256 genesis_testnet <> repeat 0 32.
Proof. apply differ. vm_compute. reflexivity. Qed.
Theorem C96_new_file : forall c work max_cache, In c all_coins ->
  exists s f, from_file double_sha256 max_cache (genesis_checkpoint c work) None = (Some f, Ok s) /\
    storage_len (hs_st s) = Ok 1 /\ storage_get (hs_st s) 0 = Ok (c_genesis_header c).
Proof.
  intros c work mc HC.
  assert (HZ : double_sha256 (c_genesis_header c) <> repeat 0 32).
  { destruct HC as [<-|[<-|[<-|[<-|[] ] ] ] ]; [exact mainnet_hash|exact testnet_hash|exact testnet_hash|exact testnet_hash]. }
  assert (A : assumptions double_sha256 (genesis_checkpoint c work) (fun x => x = c_genesis_header c)) by (apply C96_start; [exact HC|reflexivity|intros a b -> -> _; reflexivity|intros a ->; exact HZ]).
  destruct (from_file_new double_sha256 (fun _ _ _ => Err ValueError) mc _ _ (fun _ => False) A None (or_introl eq_refl)) as (w & s & HW & HF & G).
  eexists s, _. split; [exact HF|]. split; [exact (rep_len _ _ _ (g_rep _ _ _ _ _ _ _ _ G))|].
  exact (good_view _ (fun _ _ _ => Err ValueError) _ _ _ (fun _ => False) A _ _ _ _ G 0%nat _ eq_refl).
Qed.
Print Assumptions C96_new_file.
(** A case of C96_start: the first two headers of the main network *)
Example C96_start_ex : assumptions double_sha256 (genesis_checkpoint Bitcoin 0) (fun x => In x [genesis_mainnet; header_1]).
Proof.
  assert (HN : double_sha256 genesis_mainnet <> double_sha256 header_1) by (apply differ; vm_compute; reflexivity).
  assert (H1 : double_sha256 header_1 <> repeat 0 32) by (apply differ; vm_compute; reflexivity).
  apply C96_start; [left; reflexivity|left; reflexivity| |].
  - intros a b [<-|[<-|[] ] ] [<-|[<-|[] ] ] HE; [reflexivity|exfalso; exact (HN HE)|exfalso; exact (HN (eq_sym HE))|reflexivity].
  - intros a [<-|[<-|[] ] ]; [exact mainnet_hash|exact H1].
Qed.
