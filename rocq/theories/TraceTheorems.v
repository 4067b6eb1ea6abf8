(* The statements of PropTrace.v. *)
From Coq Require Import Arith NArith ZArith List Bool Lia.
From Verif Require Import Words Spec Tables Transform Machine Vocab Context Hash Trace TraceVocab TraceErase TraceFacts TraceLow TraceBlocks.
Import ListNotations.
Open Scope N_scope.

Lemma erased_calculate : forall E a buffer size hash hash_size e s,
  outcome_of (t_calculate E a buffer size hash hash_size e s) = calculate E a buffer size hash hash_size e s.
Proof. intros. exact (er_calculate E a buffer size hash hash_size e s). Qed.
Lemma erased_hmac : forall E a key key_size buffer size hmac hmac_size e s,
  outcome_of (t_calculate_hmac E a key key_size buffer size hmac hmac_size e s) = calculate_hmac E a key key_size buffer size hmac hmac_size e s.
Proof. intros. exact (er_calculate_hmac E a key key_size buffer size hmac hmac_size e s). Qed.
Lemma erased_context_calls : forall E a context buffer size hash hash_size v e s,
  outcome_of (t_initialize E a v e s) = context_initialize E a v e s /\
  outcome_of (t_update E a context buffer size e s) = context_update E a context buffer size e s /\
  outcome_of (t_finalize E a context hash hash_size e s) = context_finalize E a context hash hash_size e s /\
  outcome_of (t_free a v e s) = context_free a v e s.
Proof.
  intros. split; [exact (er_initialize E a v e s)|]. split; [exact (er_update E a context buffer size e s)|].
  split; [exact (er_finalize E a context hash hash_size e s) | exact (er_free a v e s)].
Qed.

Lemma rel_same : forall {A} (m m' : T A) s s', rel eq m m' -> same_layout s s' -> same_run (m s) (m' s').
Proof. intros A m m' s s' H L. exact (H s s' L). Qed.
Lemma equal_calculate : forall E E' a buffer size hash hash_size e s s', same_choices E E' -> same_layout s s' ->
  same_run (t_calculate E a buffer size hash hash_size e s) (t_calculate E' a buffer size hash hash_size e s').
Proof. intros. apply rel_same; [apply re_calculate|]; assumption. Qed.
Lemma equal_hmac : forall E E' a key key_size buffer size hmac hmac_size e s s', same_choices E E' -> same_layout s s' ->
  same_run (t_calculate_hmac E a key key_size buffer size hmac hmac_size e s) (t_calculate_hmac E' a key key_size buffer size hmac hmac_size e s').
Proof. intros. apply rel_same; [apply re_calculate_hmac|]; assumption. Qed.
Lemma equal_context_calls : forall E E' a context buffer size hash hash_size v e s s', same_choices E E' -> same_layout s s' ->
  same_run (t_initialize E a v e s) (t_initialize E' a v e s') /\
  same_run (t_update E a context buffer size e s) (t_update E' a context buffer size e s') /\
  same_run (t_finalize E a context hash hash_size e s) (t_finalize E' a context hash hash_size e s') /\
  same_run (t_free a v e s) (t_free a v e s').
Proof.
  intros. repeat split; apply rel_same; try assumption; [apply re_initialize | apply re_update | apply re_finalize | apply re_free]; assumption.
Qed.

Lemma nblocks_padded : forall a n, nblocks a n = padded_blocks a n.
Proof. intros [] n; reflexivity. Qed.
Lemma counted_calculate : forall E a buffer size hash hash_size e s t s',
  t_calculate E a buffer size hash hash_size e s = TDone t 1%Z s' -> N.of_nat (blocks t) = padded_blocks a size.
Proof. intros. rewrite <- nblocks_padded. eapply calculate_blocks. eassumption. Qed.
Lemma counted_hmac : forall E a key key_size buffer size hmac hmac_size e s t s',
  t_calculate_hmac E a key key_size buffer size hmac hmac_size e s = TDone t 1%Z s' ->
  N.of_nat (blocks t) = (if key_size <=? block_size a then 0 else padded_blocks a key_size) +
    padded_blocks a (block_size a + size) + padded_blocks a (block_size a + digest_size a).
Proof.
  intros E a key key_size buffer size hmac hmac_size e s t s' H. apply hmac_blocks in H. rewrite H, !nblocks_padded.
  assert (a_bs (alg_of a) = block_size a) as -> by (destruct a; reflexivity).
  assert (a_hs (alg_of a) = digest_size a) as -> by (destruct a; reflexivity). reflexivity.
Qed.
