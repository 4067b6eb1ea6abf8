(* Lemmas about the fuzz targets *)
From Coq Require Import Arith NArith ZArith List Bool Lia.
From Verif Require Import Words Spec Machine Vocab Context Hash MachineFacts HashFacts LibProofs HistoryFacts HmacFacts LibTheorems EvpFacts Py PyVocab PyFacts Fuzz.
Import ListNotations.
Open Scope N_scope.

Lemma fuzz_result : forall E a data size s, good_state s -> arg s data size ->
  exists s', fuzz_target E a data size s = Done 0%Z s' /\ unchanged s s' /\ no_leak s s' /\ errs s' = errs s.
Proof.
  intros E a data size s G HA. unfold fuzz_target, local_hash.
  set (j := junk_bytes E (length (mem s)) (a_hs (alg_of a))). set (h := length (mem s)).
  assert (Lj : length j = N.to_nat (a_hs (alg_of a))) by apply junk_length.
  assert (Bj : Forall is_byte j) by apply junk_byte.
  set (s1 := new_cell Stack (OBytes j) s).
  assert (K1 : keeps [] s s1) by (now apply keeps_new). pose proof (k_good _ _ _ K1) as G1.
  assert (H1 : nth_error (mem s1) h = Some (mk_cell true Stack (OBytes j))) by exact (nth_new Stack (OBytes j) s).
  assert (HB : arg s1 data size) by (now apply arg_new).
  assert (HH : arg s1 (Some (h, 0)) (a_hs (alg_of a))) by (now apply local_arg).
  destruct (calculate_full E a data size (Some (h, 0)) (a_hs (alg_of a)) false s1 G1 HB HH) as (r & s2 & R & NL & C).
  assert (Er : errs s2 = errs s1) by (destruct C as [(_ & X & _)|(_ & X & _)]; exact X).
  assert (C2 : exists l, nth_error (mem s2) h = Some (mk_cell true Stack (OBytes l))).
  { destruct C as [(_ & _ & _ & _ & bp & hp & _ & X & _ & U)|(_ & _ & U & _)].
    - injection X as <-. destruct (proj2 (U h _ H1) eq_refl) as (l & l' & _ & N2 & _). now exists l'.
    - exists j. now apply U. }
  destruct C2 as (l & H2).
  assert (U2 : forall p c, p <> h -> nth_error (mem s1) p = Some c -> nth_error (mem s2) p = Some c).
  { intros p c D Q. destruct C as [(_ & _ & _ & _ & bp & hp & _ & X & _ & U)|(_ & _ & U & _)].
    - injection X as <-. now apply (proj1 (U p c Q)).
    - now apply U. }
  exists (kill h s2). split.
  { erewrite bind_done by reflexivity. fold h. change (mk_state (mem s ++ [mk_cell true Stack (OBytes j)]) (tries s) (errs s) (resid s)) with s1.
    erewrite bind_done by exact R. erewrite bind_done by (eapply pop_ok; exact H2). reflexivity. }
  assert (M : length (mem s1) = S h) by (unfold s1, new_cell; cbn [mem]; rewrite app_length; unfold h; cbn; lia).
  split; [|split].
  - intros p c Q. assert (D : p <> h) by (intros ->; apply nth_lt in Q; unfold h in Q; lia).
    rewrite kill_nth_other by congruence. apply U2; [exact D|]. unfold s1, new_cell. cbn [mem]. rewrite nth_error_app1; [exact Q|]. now apply nth_lt in Q.
  - intros p c Q X. destruct (Nat.eq_dec p h) as [->|D].
    + rewrite (kill_nth_same s2 h _ H2) in X. now injection X as <-.
    + rewrite kill_nth_other in X by congruence. apply (NL p c); [|exact X]. rewrite M. fold h in Q. lia.
  - rewrite kill_errs, Er. reflexivity.
Qed.

Lemma good_after : forall s s', good_state s -> unchanged s s' -> no_leak s s' -> good_state s'.
Proof.
  intros s s' G U NL p o H. destruct (nth_error (mem s) p) as [c|] eqn:X.
  - apply (G p). unfold get_obj in *. rewrite (U p c X) in H. now rewrite X.
  - exfalso. apply nth_error_None in X. unfold get_obj in H. destruct (nth_error (mem s') p) as [c|] eqn:Y; [|discriminate].
    rewrite (NL p c X Y) in H. discriminate.
Qed.
Lemma arg_after : forall s s' p n, unchanged s s' -> arg s p n -> arg s' p n.
Proof.
  intros s s' [p|] n U H; [|exact I]. destruct H as (l & H & L). exists l. split; [|exact L].
  unfold get_obj in *. destruct (nth_error (mem s) (fst p)) as [c|] eqn:X; [|discriminate]. now rewrite (U _ c X).
Qed.

Lemma fuzz_run_result : forall E a inputs s, good_state s -> Forall (fun i => arg s (fst i) (snd i)) inputs ->
  exists s', fuzz_run E a inputs s = Done 0%Z s' /\ unchanged s s' /\ no_leak s s' /\ errs s' = errs s.
Proof.
  intros E a. induction inputs as [|(data & size) rest IH]; intros s G H.
  - exists s. split; [reflexivity|]. split; [intros p c Q; exact Q|]. split; [|reflexivity]. intros p c L Q. apply nth_lt in Q. lia.
  - inversion H as [|i is H1 H2]; subst. cbn [fst snd] in H1.
    destruct (fuzz_result E a data size s G H1) as (s1 & R & U & NL & X).
    destruct (IH s1) as (s2 & R2 & U2 & NL2 & X2); [now apply (good_after s)|eapply Forall_impl; [|exact H2]; intros i Q; now apply (arg_after s)|].
    exists s2. split; [cbn [fuzz_run]; erewrite bind_done by exact R; exact R2|]. split; [intros p c Q; apply U2, U, Q|]. split; [|congruence].
    intros p c L Q. destruct (nth_error (mem s1) p) as [d|] eqn:Y.
    + rewrite (U2 p d Y) in Q. injection Q as <-. now apply (NL p d).
    + apply nth_error_None in Y. now apply (NL2 p c).
Qed.

Lemma fuzz_covered : forall E a p size s, good_state s -> accessible s p size -> size <= ssize_max E -> alloc_ok E (tries s) = true ->
  exists s', fuzz_target E a (Some p) size s = Done 0%Z s' /\
  nth_error (mem s') (length (mem s)) = Some (mk_cell false Stack (OBytes (lib_hash a (bytes_at s p size)))).
Proof.
  intros E a p size s G HA Hn Al. unfold fuzz_target, local_hash.
  set (j := junk_bytes E (length (mem s)) (a_hs (alg_of a))). set (h := length (mem s)).
  assert (Lj : length j = N.to_nat (a_hs (alg_of a))) by apply junk_length.
  assert (Bj : Forall is_byte j) by apply junk_byte.
  set (s1 := new_cell Stack (OBytes j) s).
  assert (K1 : keeps [] s s1) by (now apply keeps_new). pose proof (k_good _ _ _ K1) as G1.
  assert (H1 : nth_error (mem s1) h = Some (mk_cell true Stack (OBytes j))) by exact (nth_new Stack (OBytes j) s).
  assert (HB : arg s1 (Some p) size) by (now apply arg_new).
  assert (HH : arg s1 (Some (h, 0)) (a_hs (alg_of a))) by (now apply local_arg).
  assert (T1 : hash_args E a (Some p) size (Some (h, 0)) (a_hs (alg_of a))).
  { split; [discriminate|]. split; [discriminate|]. split; [exact Hn|]. rewrite digest_size_eq. split; [lia|].
    unfold ssize_max. destruct a, (plat64 E); vm_compute; discriminate. }
  destruct (calculate_full E a (Some p) size (Some (h, 0)) (a_hs (alg_of a)) false s1 G1 HB HH) as (r & s2 & R & NL & C).
  destruct (calculate_grows E a _ _ _ _ _ _ _ _ G1 HB HH R) as (Tg & Lg).
  destruct C as [(-> & Er & Oks & _ & bp & hp & X & Y & B & U)|(-> & _ & U & [F|F])].
  - injection X as <-. injection Y as <-. rewrite digest_size_eq in B, U.
    assert (P : N.of_nat (length j) = a_hs (alg_of a)) by lia. rewrite <- P in B, U.
    rewrite (bytes_new s Stack (OBytes j) p size HA : bytes_at s1 p size = _) in B.
    assert (Bd : Forall is_byte (bytes_at s2 (h, 0) (N.of_nat (length j)))).
    { rewrite B. rewrite cdig_lib; apply lib_hash_bytes. }
    destruct (unchanged_but_keeps s1 s2 h j G1 H1 U Bd NL Tg Lg) as (_ & _ & H2). rewrite B, cdig_lib in H2.
    exists (kill h s2). split.
    + erewrite bind_done by reflexivity. fold h. change (mk_state (mem s ++ [mk_cell true Stack (OBytes j)]) (tries s) (errs s) (resid s)) with s1.
      erewrite bind_done by exact R. erewrite bind_done by (eapply pop_ok; exact H2). reflexivity.
    + exact (kill_nth_same s2 h _ H2).
  - exfalso. destruct F as (i & Li & Fi).
    assert (T2 : tries s2 = S (tries s1)).
    { destruct (calculate_cases E a (Some p) size (Some (h, 0)) (a_hs (alg_of a)) false s1) as
        [(Q & HR)|[(Q & ks & c & fs & _ & _ & HR)|(Q & _ & bp & hp & l & fs & _ & _ & _ & _ & HR)]]; try assumption; [now apply good_wf| | |];
      rewrite HR in R; injection R as ?; subst s2; reflexivity || discriminate. }
    assert (i = tries s) by (change (tries s) with (tries s1); lia). congruence.
  - contradiction.
Qed.
