(* Which errors the functions of SumEntry.v report. *)
From Coq Require Import Arith NArith ZArith List Bool Lia.
From Verif Require Import Words Spec Machine MachineFacts Vocab Context ContextFacts ReprFacts DigestFacts Hash HashFacts HmacFacts History HistoryFacts
  LibProofs LibTheorems EvpFacts ThreadTheorems ToolStrings ToolVocab ToolStringsFacts ToolProofs SumHandle SumVocab SumFacts ErrorVocab ErrorFacts SumErrorVocab SumErrors SumEntry.
Import ListNotations.
Open Scope N_scope.

(* a step that leaves each context a context of its algorithm and each array as long as it was *)
Definition same_shape (s s' : state) : Prop :=
  good_state s' /\ (forall a p, ctx_arg s a p -> ctx_arg s' a p) /\ (forall b n, arg s b n -> arg s' b n) /\
  (forall p, stack_cell s p -> stack_cell s' p).

Lemma shape_refl : forall s, good_state s -> same_shape s s.
Proof. intros s G. repeat split; auto. Qed.
Lemma shape_trans : forall s1 s2 s3, same_shape s1 s2 -> same_shape s2 s3 -> same_shape s1 s3.
Proof. intros s1 s2 s3 (_ & A & B & C) (G & A' & B' & C'). repeat split; auto. Qed.
Lemma shape_mem : forall s s', good_state s -> mem s' = mem s -> same_shape s s'.
Proof.
  intros s s' G M. split; [now apply (good_mem s)|]. split; [|split; [intros; now apply (arg_mem s)|intros p H; unfold stack_cell; now rewrite M]].
  intros a p H. unfold ctx_arg, get_obj in *. now rewrite M.
Qed.
Lemma stack_set : forall s p o q, get_obj s p <> None -> stack_cell s q -> stack_cell (set_obj p o s) q.
Proof.
  intros s p o q N (x & H). destruct (Nat.eq_dec p q) as [->|D]; [|exists x; now rewrite cell_set_other].
  exists o. exact (cell_set_same _ _ _ _ _ H).
Qed.
Lemma shape_set_ctx : forall s p a c c', good_state s -> get_obj s p = Some (OCtx a c) -> ctx_wf a c' -> same_shape s (set_obj p (OCtx a c') s).
Proof.
  intros s p a c c' G H W. split; [apply good_set; [exact G|now apply good_ctx_wf]|]. split; [|split; [intros; now apply (arg_set_ctx _ _ _ _ _ _ _ H)|intros; apply stack_set; [congruence|assumption]]].
  intros b [q|] Q; [|exact I]. destruct (Nat.eq_dec p q) as [<-|D].
  - destruct Q as (c2 & Q). rewrite H in Q. injection Q as <- <-. eexists. exact (get_set_same _ _ _ _ H).
  - destruct Q as (c2 & Q). exists c2. now rewrite get_set_other.
Qed.
Lemma shape_set_bytes : forall s p l l', good_state s -> get_obj s p = Some (OBytes l) -> length l' = length l -> Forall is_byte l' ->
  same_shape s (set_obj p (OBytes l') s).
Proof.
  intros s p l l' G H L F. split; [now apply good_set|]. split; [|split; [intros; now apply (arg_set_bytes _ _ _ _ _ _ H)|intros; apply stack_set; [congruence|assumption]]].
  intros b [q|] Q; [|exact I]. destruct Q as (c2 & Q). exists c2. rewrite get_set_other; [exact Q|]. intros ->. congruence.
Qed.
Lemma shape_frames : forall fs s s', same_shape s s' -> same_shape s (add_frames fs s').
Proof. intros fs s s' H. exact H. Qed.

Lemma update_shape : forall E a p b n e s, good_state s -> ctx_arg s a p -> arg s b n ->
  exists r s' o, context_update E a p b n e s = Done r s' /\ first_reason (alone (context_reason p :: input_reasons E b n)) o /\
  reported e o r s s' /\ same_shape s s' /\ (r = 1%Z \/ r = (-1)%Z).
Proof.
  intros E a p b n e s G HP HB. destruct (update_reports E false a p b n e s G HP HB) as (r & s' & o & R & F & Rp). exists r, s', o.
  cbn [do_update named] in *. split; [exact R|]. split; [exact F|]. split; [exact Rp|].
  destruct (update_full E false a p b n e s G HP HB) as (r2 & s2 & R2 & K). cbn [do_update] in R2. rewrite R in R2. injection R2 as <- <-.
  destruct K as [(-> & _ & q & bp & c & fs & -> & -> & Gc & _ & ->)|(-> & _ & _ & M & _)]; (split; [|auto]).
  - apply shape_frames, (shape_set_ctx _ _ _ c); [exact G|exact Gc|]. apply update_fn_wf; [apply good_ctx_wf; exact (G _ _ Gc)|now apply bytes_bytes].
  - now apply shape_mem.
Qed.

Lemma finalize_shape : forall E a p h n e s, good_state s -> ctx_arg s a p -> arg s h n ->
  exists r s' o, context_finalize E a p h n e s = Done r s' /\ first_reason (alone (context_reason p :: output_reasons E a h n)) o /\
  reported e o r s s' /\ same_shape s s' /\ (r = 1%Z \/ r = (-1)%Z) /\
  (forall q o', h = Some q -> nth_error (mem s) (fst q) = Some (mk_cell true Stack o') -> exists o2, nth_error (mem s') (fst q) = Some (mk_cell true Stack o2)).
Proof.
  intros E a p h n e s G HP HB. destruct (finalize_reports E false a p h n e s G HP HB) as (r & s' & o & R & F & Rp). exists r, s', o.
  cbn [do_finalize named] in *. split; [exact R|]. split; [exact F|]. split; [exact Rp|].
  destruct (finalize_full E false a p h n e s G HP HB) as (r2 & s2 & R2 & K). cbn [do_finalize] in R2. rewrite R in R2. injection R2 as <- <-.
  destruct K as [(-> & [Hn _] & q & hp & c & hl & f & -> & -> & Gc & Gl & _ & D & ->)|(-> & _ & _ & M & _)].
  - pose proof (G _ _ Gc) as Wc. apply good_ctx_wf in Wc. pose proof (G _ _ Gl) as Bl. cbn in Bl.
    assert (Len : length (put hl (snd hp) (digest_fn a c)) = length hl).
    { apply put_length. rewrite digest_fn_length by exact Wc. rewrite digest_size_eq in Hn. destruct HB as (l' & L1 & L2). rewrite Gl in L1. injection L1 as <-. lia. }
    assert (Gc' : get_obj (set_obj (fst hp) (OBytes (put hl (snd hp) (digest_fn a c))) s) q = Some (OCtx a c)) by (rewrite get_set_other by congruence; exact Gc).
    assert (S1 : same_shape s (set_obj (fst hp) (OBytes (put hl (snd hp) (digest_fn a c))) s)).
    { apply (shape_set_bytes _ _ hl); [exact G|exact Gl|exact Len|]. apply ThreadTheorems.put_bytes; [exact Bl|apply digest_bytes_bytes]. }
    split; [|split; [now left|]].
    + apply shape_frames. eapply shape_trans; [exact S1|]. apply (shape_set_ctx _ _ _ c); [apply S1|exact Gc'|apply zero_wf].
    + intros x o' [= <-] X. unfold add_frames. cbn [mem]. rewrite cell_set_other by congruence.
      eexists. rewrite (cell_set_same _ _ _ _ _ X). reflexivity.
  - split; [now apply shape_mem|]. split; [now right|]. intros x o' _ X. rewrite M. eauto.
Qed.

(* no reason among those of the first digest *)
Lemma first_app : forall l l' o, first_reason l None -> first_reason l' o -> first_reason (l ++ l') o.
Proof.
  induction l as [|(P, ks) l IH]; intros l' o H H'; [exact H'|]. inversion H; subst. cbn [app]. apply later_reason; [assumption|]. now apply IH.
Qed.
Lemma first_here : forall l l' ks, first_reason l (Some ks) -> first_reason (l ++ l') (Some ks).
Proof.
  induction l as [|(P, k) l IH]; intros l' ks H; inversion H; subst; [now apply this_reason|]. cbn [app]. apply later_reason; [assumption|]. now apply IH.
Qed.

Lemma first_det : forall l o o', first_reason l o -> first_reason l o' -> o = o'.
Proof. intros l o o' H. revert o'. induction H; intros o' H'; inversion H'; subst; auto; contradiction. Qed.

(* several digests one after the other, each of them with its own reasons *)
Lemma steps_report : forall (f : algid -> handle -> M (Z * handle)) (e : bool) (h : handle) (reasons : algid -> list (Prop * list err)) (P : state -> Prop),
  (forall s s', P s -> same_shape s s' -> P s') ->
  (forall a s, good_state s -> P s -> exists r s' o, f a h s = Done (r, h) s' /\ first_reason (if calculate (slots h a) then reasons a else []) o /\
     reported_as 1 e o r s s' /\ same_shape s s') ->
  forall l s, good_state s -> P s ->
  exists r s' o, steps f l h s = Done (r, h) s' /\ first_reason (flat_map reasons (filter (fun a => calculate (slots h a)) l)) o /\
     reported_as 1 e o r s s' /\ same_shape s s'.
Proof.
  intros f e h reasons P PS H. induction l as [|a l IH]; intros s G HP.
  { exists 1%Z, s, None. split; [reflexivity|]. split; [constructor|]. split; [now split|now apply shape_refl]. }
  destruct (H a s G HP) as (r & s1 & o & R & F & Rp & S1). cbn [steps]. erewrite bind_done by exact R. cbn [fst snd].
  assert (FE : flat_map reasons (filter (fun a => calculate (slots h a)) (a :: l)) =
    (if calculate (slots h a) then reasons a else []) ++ flat_map reasons (filter (fun a => calculate (slots h a)) l)).
  { cbn [filter]. destruct (calculate (slots h a)); reflexivity. }
  rewrite FE. destruct o as [ks|]; destruct Rp as (-> & Er).
  - change (-1 =? 1)%Z with false. cbn iota. exists (-1)%Z, s1, (Some ks). split; [reflexivity|]. split; [now apply first_here|]. split; [now split|exact S1].
  - change (1 =? 1)%Z with true. cbn iota. destruct (IH s1 (proj1 S1) (PS _ _ HP S1)) as (r & s2 & o & R2 & F2 & Rp2 & S2).
    exists r, s2, o. split; [exact R2|]. split; [now apply first_app|]. split; [|now apply (shape_trans s s1)].
    destruct o as [ks|]; destruct Rp2 as (-> & E2); (split; [reflexivity|]); now rewrite E2, Er.
Qed.

Lemma update_slot_reports : forall E bp n e a h s, good_state s -> 0 < n <= ssize_max E ->
  ctx_arg s a (context (slots h a)) -> arg s (Some bp) n ->
  exists r s' o, update_slot E bp n e a h s = Done (r, h) s' /\
  first_reason (if calculate (slots h a) then [(context (slots h a) = None, [E_ARGUMENT_INVALID_VALUE; E_RUNTIME_SET_FAILED])] else []) o /\
  reported_as 1 e o r s s' /\ same_shape s s'.
Proof.
  intros E bp n e a h s G Hn HC HB. unfold update_slot. destruct (calculate (slots h a)).
  2:{ exists 1%Z, s, None. split; [reflexivity|]. split; [constructor|]. split; [now split|now apply shape_refl]. }
  destruct (update_shape E a (context (slots h a)) (Some bp) n e s G HC HB) as (r & s' & o & R & F & Rp & S' & _).
  erewrite bind_done by exact R. destruct (context (slots h a)) as [p|] eqn:C; cbn [alone map context_reason input_reasons fst snd] in F.
  - assert (o = None) as ->. { eapply first_det; [exact F|]. do 2 (apply later_reason; [discriminate|]). apply later_reason; [lia|]. constructor. }
    destruct Rp as (-> & Er). change (1 =? 1)%Z with true. cbn iota. exists 1%Z, s', None. split; [reflexivity|].
    split; [apply later_reason; [discriminate|constructor]|]. split; [now split|exact S'].
  - assert (o = Some [E_ARGUMENT_INVALID_VALUE]) as ->. { eapply first_det; [exact F|]. now apply this_reason. }
    destruct Rp as (-> & Er). change (-1 =? 1)%Z with false. cbn iota.
    eexists _, _, _. split; [reflexivity|]. split; [now apply this_reason|]. split; [split; [reflexivity|]|].
    + cbn [errs add_err]. destruct e; cbn [errs] in *; rewrite Er; [now rewrite <- app_assoc|now rewrite !app_nil_r].
    + eapply shape_trans; [exact S'|]. apply shape_mem; [apply S'|reflexivity].
Qed.

Lemma update_entry_reports : forall E h b n e s, good_state s -> slots_there s h -> arg s b n ->
  exists r s' o, update_integrity_hash E h b n e s = Done r s' /\ first_reason (feed_reasons E h b n) o /\ reported_as 1 e o r s s'.
Proof.
  intros E [h|] b n e s G HS HB; cbn [update_integrity_hash]; unfold feed_reasons, no_handle.
  2:{ rewrite fail_eq. do 3 eexists. split; [reflexivity|]. split; [now apply this_reason|apply one_as]. }
  unfold sum_handle_update_integrity_hash. destruct b as [bp|].
  2:{ rewrite fail_eq. do 3 eexists. split; [reflexivity|]. split; [apply later_reason; [discriminate|]; now apply this_reason|apply one_as]. }
  destruct (N.eqb_spec n 0) as [N0|N0]; cbn [orb].
  { rewrite fail_eq. do 3 eexists. split; [reflexivity|]. split; [do 2 (apply later_reason; [discriminate|]); apply this_reason; now left|apply one_as]. }
  destruct (N.ltb_spec (ssize_max E) n) as [N1|N1].
  { rewrite fail_eq. do 3 eexists. split; [reflexivity|]. split; [do 2 (apply later_reason; [discriminate|]); apply this_reason; now right|apply one_as]. }
  destruct (steps_report (update_slot E bp n e) e h (fun a => [(context (slots h a) = None, [E_ARGUMENT_INVALID_VALUE; E_RUNTIME_SET_FAILED])])
    (fun s => (forall a, ctx_arg s a (context (slots h a))) /\ arg s (Some bp) n)) with (l := all_algs) (s := s) as (r & s' & o & R & F & Rp & _).
  - intros s1 s2 (A & B) (_ & C & D & _). split; auto.
  - intros a s1 G1 (A & B). apply update_slot_reports; auto. lia.
  - exact G.
  - split; [|exact HB]. intros a. exact (proj1 (HS h a eq_refl)).
  - erewrite bind_done by exact R. exists r, s', o. split; [reflexivity|]. split; [|exact Rp].
    do 2 (apply later_reason; [discriminate|]). apply later_reason; [lia|]. rewrite flat_map_concat_map in F. unfold selected. fold all_algs.
    replace (map (fun a => (context (slots h a) = None, [E_ARGUMENT_INVALID_VALUE; E_RUNTIME_SET_FAILED])) (filter (fun a => calculate (slots h a)) all_algs))
      with (concat (map (fun a => [(context (slots h a) = None, [E_ARGUMENT_INVALID_VALUE; E_RUNTIME_SET_FAILED])]) (filter (fun a => calculate (slots h a)) all_algs))); [exact F|].
    generalize (filter (fun a => calculate (slots h a)) all_algs). induction l as [|a l IH]; [reflexivity|]. cbn [map concat app]. now rewrite IH.
Qed.

Lemma finalize_slot_reports : forall E e hash a h s, good_state s ->
  ctx_arg s a (context (slots h a)) -> arg s (option_map (fun q => (q, 0)) (hash_string (slots h a))) (2 * digest_size a + 1) ->
  arg s (Some (hash a, 0)) (digest_size a) -> hash_string (slots h a) <> Some (hash a) ->
  exists r s' o, finalize_slot E e hash a h s = Done (r, h) s' /\
  first_reason (if calculate (slots h a) then
    [ (hash_string (slots h a) = None, [E_RUNTIME_VALUE_MISSING]);
      (context (slots h a) = None, [E_ARGUMENT_INVALID_VALUE; E_RUNTIME_FINALIZE_FAILED]) ] else []) o /\
  reported_as 1 e o r s s' /\ same_shape s s'.
Proof.
  intros E e hash a h s1 G1 C1 HS A1 Nq. unfold finalize_slot. destruct (calculate (slots h a)).
  2:{ exists 1%Z, s1, None. split; [reflexivity|]. split; [constructor|]. split; [now split|now apply shape_refl]. }
  destruct (hash_string (slots h a)) as [q|] eqn:Q.
  2:{ erewrite bind_done by apply fail_eq. do 3 eexists. split; [reflexivity|]. split; [now apply this_reason|]. split; [apply one_as|]. now apply shape_mem. }
  destruct (small_sizes E a) as (Hhs & Hss & Hds & Hmax). cbn [option_map] in HS. rename HS into Q1. rewrite <- Hhs in A1.
  set (d := hash a) in *. assert (Nd : q <> d) by congruence.
  destruct (finalize_shape E a (context (slots h a)) (Some (d, 0)) (a_hs (alg_of a)) e s1 G1 C1 A1) as (r & s2 & o & R & F & Rp & S2 & _).
  erewrite bind_done by exact R.
  destruct (context (slots h a)) as [p|] eqn:C; cbn [alone map context_reason output_reasons fst snd] in F.
  - assert (o = None) as ->. { eapply first_det; [exact F|]. do 2 (apply later_reason; [discriminate|]). do 2 (apply later_reason; [lia|]). constructor. }
    destruct Rp as (-> & Er). change (1 =? 1)%Z with true. cbn iota.
    destruct (copy_succeeds E (d, 0) (a_hs (alg_of a)) (q, 0) (string_size a) e s2) as (l & Hl & HCp).
    { lia. } { lia. } { apply S2. } { exact (proj1 (proj2 (proj2 S2)) _ _ A1). } { rewrite Hss. exact (proj1 (proj2 (proj2 S2)) _ _ Q1). } { cbn [fst]. congruence. }
    rewrite bind_assoc. erewrite bind_done by exact HCp. change (1 =? 1)%Z with true. cbn iota. rewrite bind_ret. cbn [fst snd] in *.
    assert (Bh : Forall is_byte (hex (bytes_at s2 (d, 0) (a_hs (alg_of a))))).
    { eapply Forall_impl; [|apply hex_is_string, bytes_bytes, S2]. unfold is_byte. intros; cbv beta in *; lia. }
    assert (Lb : (length (bytes_at s2 (d, 0%N) (a_hs (alg_of a))) <= N.to_nat (a_hs (alg_of a)))%nat).
    { unfold bytes_at. destruct (get_obj s2 (fst (d, 0))) as [[x|? ?|?]|]; [|cbn; lia..]. rewrite firstn_length. lia. }
    assert (S3 : same_shape s2 (set_obj q (OBytes (put l 0 (hex (bytes_at s2 (d, 0) (a_hs (alg_of a))) ++ [0]))) s2)).
    { destruct (proj1 (proj2 (proj2 S2)) _ _ Q1) as (l2 & L2 & B2). cbn [fst snd] in L2, B2. rewrite Hl in L2. injection L2 as <-.
      apply (shape_set_bytes _ _ l); [apply S2|exact Hl| |].
      - apply put_length. rewrite app_length, hex_length. cbn [length]. lia.
      - apply ThreadTheorems.put_bytes; [|apply Forall_app; split; [exact Bh|now repeat constructor]]. exact (proj1 S2 _ _ Hl). }
    eexists _, _, None. split; [reflexivity|]. split; [do 2 (apply later_reason; [discriminate|]); constructor|]. split; [split; [reflexivity|]|].
    + rewrite set_obj_errs. exact Er.
    + now apply (shape_trans _ s2).
  - assert (o = Some [E_ARGUMENT_INVALID_VALUE]) as ->. { eapply first_det; [exact F|]. now apply this_reason. }
    destruct Rp as (-> & Er). change (-1 =? 1)%Z with false. cbn iota. erewrite bind_done by apply fail_eq.
    eexists _, _, _. split; [reflexivity|]. split; [apply later_reason; [discriminate|]; now apply this_reason|]. split; [split; [reflexivity|]|].
    + cbn [errs add_err]. destruct e; cbn [errs] in *; rewrite Er; [now rewrite <- app_assoc|now rewrite !app_nil_r].
    + eapply shape_trans; [exact S2|]. apply shape_mem; [apply S2|reflexivity].
Qed.

Lemma finalize_entry_reports : forall E h e s, good_state s -> slots_there s h ->
  exists r s' o, finalize_integrity_hash E h e s = Done r s' /\ first_reason (end_reasons h) o /\ reported_as 1 e o r s s'.
Proof.
  intros E h e s G HS. set (d := length (mem s)). set (s0 := push_hashes E s).
  assert (G0 : good_state s0) by (apply good_wf, push_hashes_wf, good_wf, G).
  assert (Old : forall q o, get_obj s q = Some o -> get_obj s0 q = Some o).
  { intros q o H. pose proof (get_obj_lt _ _ _ H). unfold get_obj, s0 in *. rewrite push_hashes_old by assumption. exact H. }
  assert (HS0 : slots_there s0 h).
  { intros x a Hx. destruct (HS x a Hx) as (A & B). split.
    - destruct (context (slots x a)) as [p|]; [|exact I]. destruct A as (c & Hc). exists c. now apply Old.
    - destruct (hash_string (slots x a)) as [q|]; [|exact I]. destruct B as (l & Hl & Ll). exists l. split; [now apply Old|exact Ll]. }
  destruct h as [h|]; cbn [finalize_integrity_hash]; unfold end_reasons, no_handle.
  2:{ exists (-1)%Z. eexists. exists (Some [E_ARGUMENT_INVALID_VALUE]). split; [apply with_hashes_run; [apply fail_eq|]|split; [now apply this_reason|]].
      - intros a. destruct (push_hashes_arrays E s a) as (J & X & _). exists (OBytes J). exact X.
      - destruct (one_as 1 e s0 E_ARGUMENT_INVALID_VALUE) as (_ & X). split; [reflexivity|]. rewrite pop_hashes_errs. exact X. }
  unfold sum_handle_finalize_integrity_hash.
  destruct (steps_report (finalize_slot E e (hashes_from d)) e h (fun a => [ (hash_string (slots h a) = None, [E_RUNTIME_VALUE_MISSING]);
      (context (slots h a) = None, [E_ARGUMENT_INVALID_VALUE; E_RUNTIME_FINALIZE_FAILED]) ])
    (fun s => slots_there s (Some h) /\ forall a, arg s (Some (hashes_from d a, 0)) (digest_size a) /\ stack_cell s (hashes_from d a)))
    with (l := all_algs) (s := s0) as (r & s' & o & R & F & Rp & S').
  - intros s1 s2 (A & B) (_ & C & D & K). split; [intros x a Hx; destruct (A x a Hx); split; auto|]. intros a. destruct (B a). split; auto.
  - intros a s1 G1 (A & B). destruct (A h a eq_refl). apply finalize_slot_reports; try assumption; [apply B|].
    intros Q. destruct (HS h a eq_refl) as (_ & X). rewrite Q in X. destruct X as (l & Hl & _). apply get_obj_lt in Hl. pose proof (hashes_from_ge d a).
    cbn [fst] in Hl. unfold d in *. lia.
  - exact G0.
  - split; [exact HS0|]. intros a. destruct (push_hashes_arrays E s a) as (J & X & LJ). split; [|now exists (OBytes J)].
    exists J. split; [exact (get_cell _ _ _ _ X)|]. cbn [snd]. lia.
  - exists r. eexists. exists o. split; [apply with_hashes_run; [fold d s0; erewrite bind_done by exact R; reflexivity|]|].
    + intros a. apply (proj2 (proj2 (proj2 S'))). destruct (push_hashes_arrays E s a) as (J & X & _). now exists (OBytes J).
    + split; [apply later_reason; [discriminate|]; exact F|]. destruct o; destruct Rp as (-> & X); (split; [reflexivity|]); rewrite pop_hashes_errs; exact X.
Qed.

Lemma shorter_reason : forall l o, first_reason l o -> first_reason (map (fun z => (fst z, removelast (snd z))) l) (option_map (@removelast err) o).
Proof.
  intros l o H. induction H; cbn [map fst snd option_map]; [constructor|now apply this_reason|]. now apply later_reason.
Qed.
Lemma initialize_entry_reports : forall E h e s r h' s', initialize_integrity_hash E h e s = Done (r, h') s' ->
  exists o, first_reason (prepare_reasons E h (tries s)) o /\ reported_as 1 e o r s s' /\
  (r = 1%Z -> forall x, h = Some x -> tries s' = (tries s + length (selected x))%nat).
Proof.
  intros E [h|] e s r h' s' H; cbn [initialize_integrity_hash] in H; unfold prepare_reasons, no_handle.
  - apply bind_inv in H as ([z x] & s1 & H1 & H). injection H as <- <- <-. destruct (integrity_reports _ _ _ _ _ _ _ H1) as (o & F & R & _ & T).
    exists (option_map (@removelast err) o). split; [apply later_reason; [discriminate|]; now apply shorter_reason|]. split; [exact R|].
    intros Q x' [= <-]. exact (T Q).
  - failed H. injection H as <- <- <-. eexists. split; [now apply this_reason|]. split; [apply one_as|]. discriminate.
Qed.
