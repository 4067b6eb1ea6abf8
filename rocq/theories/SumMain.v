(* The rest of the sum handle, and hmacsum. *)
From Coq Require Import String Ascii Arith NArith ZArith List Bool Lia.
From Verif Require Import Words Spec Machine MachineFacts Context ContextFacts ReprFacts DigestFacts Hash HashFacts HmacFacts
  Vocab HistoryFacts LibProofs LibTheorems ToolStrings ToolVocab ToolStringsFacts ToolConvertFacts ToolProofs SumHandle SumVocab SumFacts SumProcess.
Import ListNotations.
Open Scope N_scope.

Definition slot_cell (h : handle) (a : algid) (q : nat) : Prop := context (slots h a) = Some q \/ hash_string (slots h a) = Some q.

Lemma slot_cells : forall s h a b q, handle_ok s h -> a <> b -> slot_cell h a q -> ~ slot_cell h b q.
Proof.
  intros s h a b q H N A B. pose proof H as (_ & _ & Ha).
  destruct A as [A|A], B as [B|B].
  - destruct (proj1 (Ha a) q A) as (c & Hc). destruct (proj1 (Ha b) q B) as (d & Hd). rewrite Hc in Hd. injection Hd as Q _. exact (N Q).
  - destruct (proj1 (Ha a) q A) as (c & Hc). destruct (proj1 (proj2 (Ha b)) q B) as (l & Hl & _). unfold heap_bytes in *. congruence.
  - destruct (proj1 (Ha b) q B) as (c & Hc). destruct (proj1 (proj2 (Ha a)) q A) as (l & Hl & _). unfold heap_bytes in *. congruence.
  - exact (string_cells s h a b q (handle_ok_string _ _ a H) (handle_ok_string _ _ b H) N A B).
Qed.
Lemma slot_live : forall s h a q, handle_ok s h -> slot_cell h a q -> exists o, cell_at s q = Some (mk_cell true Heap o) /\ o <> OBytes [0] /\ o <> OBytes [].
Proof.
  intros s h a q (_ & _ & Ha) [A|A].
  - destruct (proj1 (Ha a) q A) as (c & Hc). eexists. split; [exact Hc|]. split; discriminate.
  - destruct (proj1 (proj2 (Ha a)) q A) as (l & Hl & Ll). eexists. split; [exact Hl|].
    split; intros Q; injection Q as ->; destruct a; discriminate.
Qed.

Lemma free_slot_ok : forall e s0 h a s r, wf_state s -> handle_ok s0 h -> (forall q, slot_cell h a q -> cell_at s q = cell_at s0 q) ->
  exists s', free_slot e h r a s = Done r s' /\ wf_state s' /\ length (mem s') = length (mem s) /\ tries s' = tries s /\ errs s' = errs s /\
  (forall q, ~ slot_cell h a q -> cell_at s' q = cell_at s q) /\ (forall q, slot_cell h a q -> ~ live_at s' q).
Proof.
  intros e s0 h a s r W H C. unfold free_slot.
  assert (X : exists s1, (match context (slots h a) with
               | None => ret r
               | Some p =>
                   r0 <- context_free a (Some (Some p)) e ;;
                   if (fst r0 =? 1)%Z then ret r else error_set e E_RUNTIME_FINALIZE_FAILED ;;; ret (-1)%Z
               end) s = Done r s1 /\ wf_state s1 /\ length (mem s1) = length (mem s) /\ tries s1 = tries s /\ errs s1 = errs s /\
     (forall q, context (slots h a) <> Some q -> cell_at s1 q = cell_at s q) /\ (forall q, context (slots h a) = Some q -> ~ live_at s1 q)).
  { destruct (context (slots h a)) as [p|] eqn:P.
    - destruct (slot_live s0 h a p H (or_introl P)) as (o & Ho & _). rewrite <- (C p (or_introl P)) in Ho.
      cbn [context_free]. rewrite bind_assoc. erewrite bind_done by (eapply mfree_ok; exact Ho). rewrite bind_ret. cbn [fst]. change (1 =? 1)%Z with true. cbn iota.
      unfold ret. eexists. split; [reflexivity|]. split; [now apply wf_kill|]. split; [apply kill_length|]. split; [apply kill_tries|]. split; [apply kill_errs|].
      split; [intros q Hq; apply cell_kill_other; congruence|]. intros q Q. injection Q as <-. exact (dead_kill _ _ _ _ Ho).
    - exists s. split; [reflexivity|]. repeat split; auto. discriminate. }
  destruct X as (s1 & H1 & W1 & L1 & T1 & E1 & F1 & D1). erewrite bind_done by exact H1.
  destruct (hash_string (slots h a)) as [q|] eqn:Q.
  - destruct (slot_live s0 h a q H (or_intror Q)) as (o & Ho & _). rewrite <- (C q (or_intror Q)) in Ho.
    assert (N : context (slots h a) <> Some q).
    { intros P. destruct H as (_ & _ & Ha). destruct (proj1 (Ha a) q P) as (c & Hc). destruct (proj1 (proj2 (Ha a)) q Q) as (l & Hl & _). unfold heap_bytes in *. congruence. }
    rewrite <- (F1 q N) in Ho. erewrite bind_done by (eapply mfree_ok; exact Ho). unfold ret. eexists. split; [reflexivity|].
    split; [now apply wf_kill|]. split; [rewrite kill_length; exact L1|]. split; [rewrite kill_tries; exact T1|]. split; [rewrite kill_errs; exact E1|].
    unfold slot_cell. rewrite Q. split.
    + intros p Hp. rewrite cell_kill_other by (intros ->; apply Hp; now right). apply F1. intros X. apply Hp. now left.
    + intros p Hp. destruct (Nat.eq_dec q p) as [<-|Nq]; [exact (dead_kill _ _ _ _ Ho)|]. destruct Hp as [Hp|Hp]; [|congruence].
      intros L. apply (D1 p Hp). apply (live_at_same s1 (kill q s1)); [|exact L]. now apply cell_kill_other.
  - unfold ret. exists s1. split; [reflexivity|]. split; [exact W1|]. split; [exact L1|]. split; [exact T1|]. split; [exact E1|]. unfold slot_cell. rewrite Q. split.
    + intros q Hq. apply F1. intros X. apply Hq. now left.
    + intros q [Hq|Hq]; [now apply D1|discriminate].
Qed.

Lemma slot_cell_dec : forall h a q, slot_cell h a q \/ ~ slot_cell h a q.
Proof.
  intros h a q. unfold slot_cell. destruct (context (slots h a)) as [p|], (hash_string (slots h a)) as [p'|];
    try (destruct (Nat.eq_dec p q)); try (destruct (Nat.eq_dec p' q)); subst; try (left; (left; reflexivity) || (right; reflexivity));
    right; intros [X|X]; congruence.
Qed.

Lemma free_slots_ok : forall e s0 h r l s, NoDup l -> wf_state s -> handle_ok s0 h -> (forall a q, In a l -> slot_cell h a q -> cell_at s q = cell_at s0 q) ->
  exists s', mfold (free_slot e h) l r s = Done r s' /\ wf_state s' /\ length (mem s') = length (mem s) /\ tries s' = tries s /\ errs s' = errs s /\
  (forall q, (forall a, In a l -> ~ slot_cell h a q) -> cell_at s' q = cell_at s q) /\ (forall a q, In a l -> slot_cell h a q -> ~ live_at s' q).
Proof.
  intros e s0 h r. induction l as [|a t IH]; intros s ND W H C.
  { exists s. split; [reflexivity|]. repeat split; auto. }
  inversion ND as [|x y Na ND' Q]; subst. cbn [mfold].
  destruct (free_slot_ok e s0 h a s r W H (fun q => C a q (or_introl eq_refl))) as (s1 & H1 & W1 & L1 & T1 & E1 & F1 & D1).
  erewrite bind_done by exact H1.
  assert (Nb : forall b, In b t -> a <> b) by (intros b Hb ->; contradiction).
  destruct (IH s1 ND' W1 H) as (s2 & H2 & W2 & L2 & T2 & E2 & F2 & D2).
  { intros b q Hb Hq. rewrite F1; [apply (C b q); [now right|exact Hq]|]. intros X. exact (slot_cells s0 h a b q H (Nb b Hb) X Hq). }
  exists s2. split; [exact H2|]. split; [exact W2|]. split; [congruence|]. split; [congruence|]. split; [congruence|]. split.
  - intros q Hq. rewrite F2, F1; [reflexivity|apply Hq; now left|intros b Hb; apply Hq; now right].
  - intros b q [<-|Hb] Hq; [|now apply (D2 b)]. intros L. apply (D1 q Hq). apply (live_at_same s1 s2); [|exact L].
    apply F2. intros b Hb X. exact (slot_cells s0 h a b q H (Nb b Hb) Hq X).
Qed.

Lemma owned_slots : forall h q, owned h q <-> q = h_self h \/ q = h_input h \/ exists a, In a all_algs /\ slot_cell h a q.
Proof.
  intros h q. split.
  - intros [O|[O|(a & O)]]; auto. right. right. exists a. split; [apply all_in|exact O].
  - intros [O|[O|(a & _ & O)]]; [now left|right; now left|]. right. right. exists a. exact O.
Qed.

Lemma free_ok : forall W h e s, wf_state s -> handle_ok s h ->
  exists s', sum_handle_free W (Some (Some h)) e s = Done ((if in_free W then 1 else -1)%Z, None) s' /\ wf_state s' /\
  length (mem s') = length (mem s) /\ tries s' = tries s /\ (if in_free W then errs s' = errs s else errors_added e s s') /\
  (forall q, ~ owned h q -> cell_at s' q = cell_at s q) /\ (forall q, owned h q -> ~ live_at s' q).
Proof.
  intros W h e s Wf H. cbn [sum_handle_free].
  destruct (free_slots_ok e s h 1%Z all_algs s all_nodup Wf H ltac:(reflexivity)) as (s1 & H1 & W1 & L1 & T1 & E1 & F1 & D1).
  erewrite bind_done by exact H1. pose proof H as (Hs & Hi & Ha). unfold heap_bytes in Hs, Hi.
  assert (Ns : forall a, In a all_algs -> ~ slot_cell h a (h_self h)).
  { intros a _ X. destruct (slot_live s h a _ H X) as (o & Ho & No & _). congruence. }
  assert (Ni : forall a, In a all_algs -> ~ slot_cell h a (h_input h)).
  { intros a _ X. destruct (slot_live s h a _ H X) as (o & Ho & _ & No). congruence. }
  assert (Nsi : h_input h <> h_self h) by (intros Q; rewrite Q in Hi; congruence).
  rewrite <- (F1 _ Ni) in Hi. rewrite <- (F1 _ Ns) in Hs.
  erewrite bind_done by (eapply mfree_ok; exact Hi). set (s2 := kill (h_input h) s1).
  assert (Hs2 : cell_at s2 (h_self h) = Some (mk_cell true Heap (OBytes [0]))) by (unfold s2; now rewrite cell_kill_other).
  assert (X : exists s3, (if in_free W then ret 1%Z else error_set e E_RUNTIME_FINALIZE_FAILED ;;; ret (-1)%Z) s2 =
     Done (if in_free W then 1 else -1)%Z s3 /\ mem s3 = mem s2 /\ tries s3 = tries s2 /\ (if in_free W then errs s3 = errs s2 else errors_added e s2 s3)).
  { destruct (in_free W).
    - exists s2. repeat split.
    - unfold bind, error_set, ret. eexists. split; [reflexivity|]. split; [reflexivity|]. split; [reflexivity|].
      apply (errors_added_one e E_RUNTIME_FINALIZE_FAILED). reflexivity. }
  destruct X as (s3 & H3 & M3 & T3 & E3). erewrite bind_done by exact H3. rewrite <- M3 in Hs2.
  erewrite bind_done by (eapply mfree_ok; exact Hs2). unfold ret. eexists. split; [reflexivity|].
  assert (W2 : wf_state s2) by now apply wf_kill.
  split; [apply wf_kill; now apply (wf_same_mem s2)|]. split; [rewrite kill_length, M3; unfold s2; rewrite kill_length; exact L1|].
  split; [rewrite kill_tries, T3; unfold s2; rewrite kill_tries; exact T1|]. split.
  { assert (E2 : errs s2 = errs s) by (unfold s2; rewrite kill_errs; exact E1). destruct (in_free W).
    - rewrite kill_errs. congruence.
    - apply (errors_added_same' e s s3); [apply kill_errs|]. now apply (errors_added_same e s s2). }
  split.
  - intros q Nq. rewrite owned_slots in Nq. rewrite cell_kill_other by (intros Q; apply Nq; left; congruence). rewrite M3. unfold s2.
    rewrite cell_kill_other by (intros Q; apply Nq; right; left; congruence). apply F1. intros a Ia X. apply Nq. right. right. exists a. now split.
  - intros q Oq L. apply owned_slots in Oq. destruct (Nat.eq_dec q (h_self h)) as [->|N1]; [exact (dead_kill _ _ _ _ Hs2 L)|].
    apply (live_at_same s3) in L; [|now apply cell_kill_other, not_eq_sym]. unfold live_at in L. rewrite M3 in L.
    destruct (Nat.eq_dec q (h_input h)) as [->|N2]; [exact (dead_kill _ _ _ _ Hi L)|].
    apply (live_at_same s1 s2) in L; [|now apply cell_kill_other, not_eq_sym]. destruct Oq as [O|[O|(a & Ia & O)]]; try contradiction.
    exact (D1 a q Ia O L).
Qed.

(* ------------------------------------------------------------ initialize *)

Definition fresh (h : handle) : Prop :=
  (forall a, calculate (slots h a) = algid_eqb MD5 a) /\ no_contexts h /\ process_buffer_size h = 32768 /\ h_abort h = false.

Lemma new_length : forall k o s, length (mem (tick (new_cell k o s))) = S (length (mem s)).
Proof. intros. cbn. rewrite app_length. cbn. lia. Qed.
Lemma old_after : forall k o s q, (q < length (mem s))%nat -> cell_at (tick (new_cell k o s)) q = cell_at s q.
Proof. intros. now apply cell_new_old. Qed.
Lemma wf_tick_new : forall k l s, wf_state s -> Forall is_byte l -> wf_state (tick (new_cell k (OBytes l) s)).
Proof. intros k l s W B. apply (wf_same_mem (new_cell k (OBytes l) s)); [reflexivity|]. now apply wf_new. Qed.

Lemma initialize_ok : forall E e s, wf_state s ->
  let t := tries s in
  if alloc_ok E t && alloc_ok E (S t) && alloc_ok E (S (S t)) then
    exists h s', sum_handle_initialize E (Some None) e s = Done (1%Z, Some h) s' /\ wf_state s' /\ handle_ok s' h /\ fresh h /\
    accounted s s' h /\ unchanged s s' /\ errs s' = errs s /\ (length (mem s) <= length (mem s'))%nat /\ (forall q, owned h q -> (length (mem s) <= q)%nat) /\ tries s' = S (S (S t))
  else
    exists s', sum_handle_initialize E (Some None) e s = Done ((-1)%Z, None) s' /\ wf_state s' /\ unchanged s s' /\ errors_added e s s' /\
    some_alloc_failed E s s' /\ (length (mem s) <= length (mem s'))%nat /\
    (if alloc_ok E t && alloc_ok E (S t) then forall q, (length (mem s) <= q)%nat -> live_at s' q <-> q = S (length (mem s)) else no_leak s s').
Proof.
  intros E e s W t. cbn [sum_handle_initialize]. destruct (alloc_ok E t) eqn:A1; cbn [andb].
  2:{ erewrite bind_done by (now apply allocate_no). unfold bind. rewrite fail_eq. unfold ret. eexists. split; [reflexivity|].
      split; [exact W|]. split; [intros ? ? Hu; exact Hu|]. split; [apply (errors_added_one e E_MEMORY_INSUFFICIENT); reflexivity|].
      split; [exists t; split; [cbn; unfold t; lia|exact A1]|]. split; [reflexivity|]. intros p c Hp Hc. cbn in Hc. apply nth_error_None in Hp. congruence. }
  erewrite bind_done by (now apply allocate_ok). set (s1 := tick (new_cell Heap (OBytes [0]) s)).
  assert (W1 : wf_state s1) by (apply wf_tick_new; [exact W|repeat constructor]).
  assert (C1 : cell_at s1 (length (mem s)) = Some (mk_cell true Heap (OBytes [0]))) by apply cell_new.
  assert (L1 : length (mem s1) = S (length (mem s))) by apply new_length.
  assert (U1 : unchanged s s1) by apply unchanged_new.
  destruct (alloc_ok E (S t)) eqn:A2; cbn [andb].
  2:{ erewrite bind_done by (now apply allocate_no). cbv iota beta. erewrite bind_done by apply fail_eq.
      assert (C1' : cell_at (add_err e E_RUNTIME_INITIALIZE_FAILED (tick s1)) (length (mem s)) = Some (mk_cell true Heap (OBytes [0]))) by exact C1.
      erewrite bind_done by (eapply mfree_ok; exact C1'). unfold ret. eexists. split; [reflexivity|]. split; [apply wf_kill; now apply (wf_same_mem s1)|].
      split.
      { intros p c Hp. rewrite cell_kill_other; [exact (U1 p c Hp)|]. apply cell_lt in Hp. lia. }
      split; [apply (errors_added_one e E_RUNTIME_INITIALIZE_FAILED); rewrite kill_errs; reflexivity|].
      split; [exists (S t); split; [rewrite kill_tries; cbn; unfold t; lia|exact A2]|]. split; [rewrite kill_length; cbn [mem add_err tick]; lia|].
      intros p c Hp Hc. assert (Q : p = length (mem s)).
      { apply cell_lt in Hc. rewrite kill_length in Hc. change (p < length (mem s1))%nat in Hc. lia. }
      subst p. rewrite (cell_kill_same _ _ _ _ C1') in Hc. injection Hc as <-. reflexivity. }
  erewrite bind_done by (now apply allocate_ok). rewrite L1. set (s2 := tick (new_cell Heap (OBytes []) s1)).
  assert (W2 : wf_state s2) by (apply wf_tick_new; [exact W1|constructor]).
  assert (C2 : cell_at s2 (S (length (mem s))) = Some (mk_cell true Heap (OBytes []))) by (rewrite <- L1; apply cell_new).
  assert (C12 : cell_at s2 (length (mem s)) = Some (mk_cell true Heap (OBytes [0]))) by (rewrite (old_after Heap (OBytes []) s1) by lia; exact C1).
  assert (L2 : length (mem s2) = S (S (length (mem s)))) by (unfold s2; rewrite new_length; lia).
  assert (U2 : unchanged s s2) by (eapply unchanged_trans; [exact U1|apply unchanged_new]).
  unfold allocate_bytes. destruct (alloc_ok E (S (S t))) eqn:A3.
  2:{ erewrite bind_done by (now apply allocate_no). cbv iota beta. erewrite bind_done by apply fail_eq.
      assert (C1' : cell_at (add_err e E_MEMORY_INSUFFICIENT (tick s2)) (length (mem s)) = Some (mk_cell true Heap (OBytes [0]))) by exact C12.
      erewrite bind_done by (eapply mfree_ok; exact C1'). unfold ret. eexists. split; [reflexivity|]. split; [apply wf_kill; now apply (wf_same_mem s2)|].
      split.
      { intros p c Hp. rewrite cell_kill_other; [exact (U2 p c Hp)|]. apply cell_lt in Hp. lia. }
      split; [apply (errors_added_one e E_MEMORY_INSUFFICIENT); rewrite kill_errs; reflexivity|].
      split; [exists (S (S t)); split; [rewrite kill_tries; cbn; unfold t; lia|exact A3]|]. split; [rewrite kill_length; cbn [mem add_err tick]; lia|].
      intros p Hp. split.
      - intros L. pose proof (live_at_lt _ _ L) as Lp. rewrite kill_length in Lp. change (p < length (mem s2))%nat in Lp.
        destruct (Nat.eq_dec p (length (mem s))) as [->|]; [exfalso; exact (dead_kill _ _ _ _ C1' L)|lia].
      - intros ->. eexists. split; [rewrite cell_kill_other by lia; exact C2|reflexivity]. }
  erewrite bind_done by (now apply allocate_ok). rewrite L2. set (l := junk_bytes _ _ _). set (s3 := tick (new_cell Heap (OBytes l) s2)).
  unfold ret. eexists _, s3. split; [reflexivity|].
  assert (C3 : cell_at s3 (S (S (length (mem s)))) = Some (mk_cell true Heap (OBytes l))) by (rewrite <- L2; apply cell_new).
  assert (L3 : length (mem s3) = S (S (S (length (mem s))))) by (unfold s3; rewrite new_length; lia).
  assert (O3 : forall q, (q < S (S (length (mem s))))%nat -> cell_at s3 q = cell_at s2 q) by (intros q Hq; apply old_after; lia).
  split; [apply wf_tick_new; [exact W2|apply junk_ok]|]. split; [|split; [|split; [|split; [|split; [|split; [|split]]]]]].
  - split; [unfold heap_bytes; cbn [h_self]; rewrite O3 by lia; exact C12|]. split; [unfold heap_bytes; cbn [h_input]; rewrite O3 by lia; exact C2|].
    intros a. cbn [slots]. destruct a; cbn [algid_eqb context hash_string calculate]; (split; [discriminate|]).
    + split; [|split; [discriminate|reflexivity]]. intros q Q. injection Q as <-. exists l. split; [exact C3|]. unfold l. rewrite junk_length. reflexivity.
    + split; [discriminate|]. split; [discriminate|]. intros X. now elim X.
    + split; [discriminate|]. split; [discriminate|]. intros X. now elim X.
    + split; [discriminate|]. split; [discriminate|]. intros X. now elim X.
    + split; [discriminate|]. split; [discriminate|]. intros X. now elim X.
  - split; [intros []; reflexivity|]. split; [intros []; reflexivity|]. split; reflexivity.
  - intros p Hp L. pose proof (live_at_lt _ _ L). unfold owned. cbn [h_self h_input slots].
    destruct (Nat.eq_dec p (length (mem s))) as [->|]; [now left|]. destruct (Nat.eq_dec p (S (length (mem s)))) as [->|]; [right; now left|].
    right. right. exists MD5. right. cbn. f_equal. lia.
  - eapply unchanged_trans; [exact U2|apply unchanged_new].
  - reflexivity.
  - lia.
  - intros q [O|[O|(a & [O|O])]]; cbn [h_self h_input slots] in O; try lia; destruct a; cbn in O; try discriminate; injection O as <-; lia.
  - reflexivity.
Qed.
