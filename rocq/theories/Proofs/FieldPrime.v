(** The prime of secp256k1's field is prime. *)
From Coq Require Import Znumtheory.
From Verif.Model Require Import Py Curve.
From Verif.Proofs Require Import PyFacts Primality.

Lemma prime_h1 : prime 107590001. Proof. small_prime. Qed.
Lemma prime_h2 : prime 7240687. Proof. small_prime. Qed.
Lemma prime_h3 : prime 96557. Proof. small_prime. Qed.
Lemma prime_h : prime 255515944373312847190720520512484175977.
Proof. apply (pocklington _ 2 [107590001; 7240687; 96557]); [lia|nodup| |vm_compute; reflexivity]. intros q [<-|[<-|[<-|[]]]]; [apply prime_h1|apply prime_h2|apply prime_h3]. Qed.
Lemma prime_i : prime 205115282021455665897114700593932402728804164701536103180137503955397371.
Proof. apply (pocklington _ 2 [255515944373312847190720520512484175977]); [lia|nodup| |vm_compute; reflexivity]. intros q [<-|[]]. apply prime_h. Qed.
Theorem field_prime : prime FIELD.
Proof.
  apply (pocklington _ 2 [205115282021455665897114700593932402728804164701536103180137503955397371]); [reflexivity|nodup| |vm_compute; reflexivity].
  intros q [<-|[]]. apply prime_i.
Qed.
