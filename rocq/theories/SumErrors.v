(* Which errors the functions of the sum handle report. *)
From Coq Require Import Arith NArith ZArith List Bool Lia.
From Verif Require Import Words Spec Machine MachineFacts Context ContextFacts ReprFacts DigestFacts Hash HashFacts HmacFacts
  Vocab HistoryFacts LibProofs LibTheorems ToolStrings ToolVocab ToolStringsFacts ToolProofs SumHandle SumVocab SumFacts SumProcess SumSelect
  ErrorVocab ErrorFacts ToolErrorFacts SumErrorVocab.
Import ListNotations.
Open Scope N_scope.

Notation cell_at s p := (nth_error (mem s) p).

Lemma one_as : forall ok e s k, reported_as ok e (Some [k]) (-1)%Z s (add_err e k s).
Proof. intros ok [] s k; (split; [reflexivity|]); cbn; now rewrite ?app_nil_r. Qed.

Lemma first_done : forall l, (forall P ks, In (P, ks) l -> ~ P) -> first_reason l None.
Proof.
  induction l as [|(P, ks) l IH]; intros H; [constructor|]. apply later_reason; [apply (H P ks); now left|]. apply IH. intros. apply (H P0 ks0). now right.
Qed.

Lemma bind_inv : forall A B (m : M A) (f : A -> M B) s x s', bind m f s = Done x s' -> exists y s1, m s = Done y s1 /\ f y s1 = Done x s'.
Proof. intros A B m f s x s' H. unfold bind in H. destruct (m s) as [y s1|]; [eauto|discriminate]. Qed.
Lemma free_quiet : forall p s x s', mfree p s = Done x s' -> errs s' = errs s /\ tries s' = tries s.
Proof. intros p s x s' H. unfold mfree in H. destruct (nth_error (mem s) p) as [[[] [] o]|]; try discriminate. injection H as <- <-. now split. Qed.
Lemma allocate_cases : forall E o s x s', allocate o E s = Done x s' -> errs s' = errs s /\ tries s' = S (tries s) /\
  ((alloc_ok E (tries s) = true /\ x <> None) \/ (alloc_ok E (tries s) = false /\ x = None)).
Proof.
  intros E o s x s' H. destruct (alloc_ok E (tries s)) eqn:A.
  - rewrite allocate_ok in H by exact A. injection H as <- <-. repeat split. left. now split.
  - rewrite allocate_no in H by exact A. injection H as <- <-. repeat split. right. now split.
Qed.

Ltac step H := apply bind_inv in H as (?y & ?s & ?H & H).
Ltac failed H := erewrite bind_done in H by apply fail_eq.

(* ------------------------------------------------------------- the handle *)

Lemma handle_reports : forall E v e s r v' s', sum_handle_initialize E v e s = Done (r, v') s' ->
  exists o, first_reason (handle_reasons E v (tries s)) o /\ reported_as 1 e o r s s'.
Proof.
  intros E v e s r v' s' H. destruct v as [[h|]|]; cbn [sum_handle_initialize] in H.
  - failed H. injection H as <- <- <-. exists (Some [E_RUNTIME_VALUE_ALREADY_SET]).
    split; [|apply one_as]. apply later_reason; [discriminate|]. apply this_reason. discriminate.
  - apply bind_inv in H as (self & s1 & H1 & H). apply allocate_cases in H1 as (E1 & T1 & [(A1 & N1)|(A1 & ->)]).
    2:{ failed H. injection H as <- <- <-. exists (Some [E_MEMORY_INSUFFICIENT]). split; [do 2 (apply later_reason; [congruence|]); now apply this_reason|].
        unfold reported_as. rewrite <- E1. apply (one_as 1). }
    destruct self as [self|]; [clear N1|contradiction].
    apply bind_inv in H as (input & s2 & H2 & H). apply allocate_cases in H2 as (E2 & T2 & [(A2 & N2)|(A2 & ->)]); rewrite T1 in A2; replace (S (tries s)) with (tries s + 1)%nat in A2 by lia.
    2:{ failed H. apply bind_inv in H as (y & s3 & H3 & H). apply free_quiet in H3 as (E3 & _). injection H as <- <- <-.
        exists (Some [E_RUNTIME_INITIALIZE_FAILED]). split; [do 3 (apply later_reason; [congruence|]); now apply this_reason|].
        unfold reported_as. rewrite E3, <- E1, <- E2. apply (one_as 1). }
    destruct input as [input|]; [clear N2|contradiction].
    apply bind_inv in H as (str & s3 & H3 & H). apply allocate_cases in H3 as (E3 & T3 & [(A3 & N3)|(A3 & ->)]); rewrite T2, T1 in A3; replace (S (S (tries s))) with (tries s + 2)%nat in A3 by lia.
    2:{ failed H. apply bind_inv in H as (y & s4 & H4 & H). apply free_quiet in H4 as (E4 & _). injection H as <- <- <-.
        exists (Some [E_MEMORY_INSUFFICIENT]). split; [do 4 (apply later_reason; [congruence|]); now apply this_reason|].
        unfold reported_as. rewrite E4, <- E1, <- E2, <- E3. apply (one_as 1). }
    destruct str as [q|]; [|contradiction]. injection H as <- <- <-. exists None. split; [do 5 (apply later_reason; [congruence|]); apply no_reason|].
    split; [reflexivity|congruence].
  - failed H. injection H as <- <- <-. exists (Some [E_ARGUMENT_INVALID_VALUE]). split; [now apply this_reason|apply one_as].
Qed.

(* the contexts of a handle are freed without an error *)
Lemma free_slot_quiet : forall e h z a s r s', free_slot e h z a s = Done r s' -> errs s' = errs s /\ r = z.
Proof.
  intros e h z a s r s' H. unfold free_slot in H. apply bind_inv in H as (z1 & s1 & H1 & H).
  assert (Q : errs s1 = errs s /\ z1 = z).
  { destruct (context (slots h a)) as [p|]; [|injection H1 as <- <-; now split]. cbn [context_free] in H1.
    apply bind_inv in H1 as (x & s2 & H2 & H1). apply bind_inv in H2 as (y & s3 & H3 & H2). apply free_quiet in H3 as (E3 & _).
    injection H2 as <- <-. cbn [fst] in H1. change (1 =? 1)%Z with true in H1. cbn iota in H1. injection H1 as <- <-. now split. }
  destruct Q as (Q1 & ->). destruct (hash_string (slots h a)) as [q|].
  - apply bind_inv in H as (y & s2 & H2 & H). apply free_quiet in H2 as (E2 & _). injection H as <- <-. split; [congruence|reflexivity].
  - injection H as <- <-. now split.
Qed.
Lemma free_slots_quiet : forall e h l z s r s', mfold (free_slot e h) l z s = Done r s' -> errs s' = errs s /\ r = z.
Proof.
  induction l as [|a l IH]; intros z s r s' H; cbn [mfold] in H; [injection H as <- <-; now split|].
  apply bind_inv in H as (z1 & s1 & H1 & H). apply free_slot_quiet in H1 as (E1 & ->). destruct (IH _ _ _ _ H) as (E2 & ->). split; [congruence|reflexivity].
Qed.
Lemma handle_free_reports : forall W v e s r v' s', sum_handle_free W v e s = Done (r, v') s' ->
  exists o, first_reason [ (v = None, [E_ARGUMENT_INVALID_VALUE]); (v <> Some None /\ in_free W = false, [E_RUNTIME_FINALIZE_FAILED]) ] o /\
  reported_as 1 e o r s s'.
Proof.
  intros W v e s r v' s' H. destruct v as [[h|]|]; cbn [sum_handle_free] in H.
  - apply bind_inv in H as (z & s1 & H1 & H). apply free_slots_quiet in H1 as (E1 & ->).
    apply bind_inv in H as (y & s2 & H2 & H). apply free_quiet in H2 as (E2 & _).
    apply bind_inv in H as (z & s3 & H3 & H). apply bind_inv in H as (y' & s4 & H4 & H). apply free_quiet in H4 as (E4 & _). injection H as <- <- <-.
    destruct (in_free W) eqn:F.
    + injection H3 as <- <-. exists None. split; [do 2 (apply later_reason; [intuition discriminate|]); apply no_reason|]. split; [reflexivity|congruence].
    + exists (Some [E_RUNTIME_FINALIZE_FAILED]). split; [apply later_reason; [discriminate|]; apply this_reason; split; [discriminate|reflexivity]|].
      injection H3 as <- <-. split; [reflexivity|]. rewrite E4. cbn [errs]. rewrite E2, E1. destruct e; [reflexivity|now rewrite app_nil_r].
  - injection H as <- <- <-. exists None. split; [do 2 (apply later_reason; [intuition congruence|]); apply no_reason|]. now split.
  - failed H. injection H as <- <- <-. eexists. split; [now apply this_reason|apply one_as].
Qed.

Lemma abort_reports : forall h e s r h' s', sum_handle_signal_abort h e s = Done (r, h') s' ->
  (h = None -> h' = None) /\ (forall x, h = Some x -> exists y, h' = Some y /\ h_abort y = true /\ same_selection x y /\ process_buffer_size y = process_buffer_size x) /\
  exists o, first_reason [no_handle h] o /\ reported_as 1 e o r s s'.
Proof.
  intros [h|] e s r h' s' H; cbn [sum_handle_signal_abort] in H.
  - injection H as <- <- <-. split; [discriminate|]. split.
    + intros x [= <-]. eexists. split; [reflexivity|]. split; [reflexivity|]. split; [|reflexivity]. split; [reflexivity|]. split; [reflexivity|]. intros a. now split.
    + exists None. split; [apply later_reason; [discriminate|apply no_reason]|]. now split.
  - failed H. injection H as <- <- <-. split; [reflexivity|]. split; [discriminate|]. eexists. split; [now apply this_reason|apply one_as].
Qed.
Lemma open_reports : forall W h e s r s', sum_handle_open_input W h e s = Done r s' ->
  exists o, first_reason [no_handle h; (in_open W = false, [E_IO_OPEN_FAILED])] o /\ reported_as 1 e o r s s'.
Proof.
  intros W [h|] e s r s' H; cbn [sum_handle_open_input] in H; [destruct (in_open W)|].
  - injection H as <- <-. exists None. split; [do 2 (apply later_reason; [discriminate|]); apply no_reason|]. now split.
  - rewrite fail_eq in H. injection H as <- <-. eexists. split; [apply later_reason; [discriminate|]; now apply this_reason|apply one_as].
  - rewrite fail_eq in H. injection H as <- <-. eexists. split; [now apply this_reason|apply one_as].
Qed.
Lemma close_reports : forall W h e s r s', sum_handle_close W h e s = Done r s' ->
  exists o, first_reason [no_handle h; (in_close W = false, [E_IO_CLOSE_FAILED])] o /\ reported_as 0 e o r s s'.
Proof.
  intros W [h|] e s r s' H; cbn [sum_handle_close] in H; [destruct (in_close W)|].
  - injection H as <- <-. exists None. split; [do 2 (apply later_reason; [discriminate|]); apply no_reason|]. now split.
  - rewrite fail_eq in H. injection H as <- <-. eexists. split; [apply later_reason; [discriminate|]; now apply this_reason|apply one_as].
  - rewrite fail_eq in H. injection H as <- <-. eexists. split; [now apply this_reason|apply one_as].
Qed.
(* the return value is the number of bytes *)
Lemma read_reports : forall E W k pos h b n e s r s', sum_handle_read_buffer E W k pos h b n e s = Done r s' ->
  exists o, first_reason (read_reasons E W k h b n) o /\
  reported_as (Z.of_N (N.min (match in_read W k with Some most => N.min most n | None => 0 end) (N.of_nat (length (in_data W)) - pos))) e o r s s'.
Proof.
  intros E W k pos [h|] b n e s r s' H; cbn [sum_handle_read_buffer] in H.
  2:{ rewrite fail_eq in H. injection H as <- <-. eexists. split; [now apply this_reason|apply one_as]. }
  destruct b as [b|].
  2:{ rewrite fail_eq in H. injection H as <- <-. eexists. split; [apply later_reason; [discriminate|]; now apply this_reason|apply one_as]. }
  destruct (N.ltb_spec (ssize_max E) n).
  { rewrite fail_eq in H. injection H as <- <-. eexists. split; [do 2 (apply later_reason; [discriminate|]); now apply this_reason|apply one_as]. }
  destruct (in_read W k) as [most|] eqn:R.
  2:{ rewrite fail_eq in H. injection H as <- <-. eexists. split; [do 2 (apply later_reason; [discriminate|]); apply later_reason; [lia|]; now apply this_reason|apply one_as]. }
  apply bind_inv in H as (y & s1 & H1 & H). apply quiet_write in H1. injection H as <- <-. exists None.
  split; [do 2 (apply later_reason; [discriminate|]); apply later_reason; [lia|]; apply later_reason; [congruence|apply no_reason]|].
  split; [|exact H1]. rewrite firstn_length, skipn_length. lia.
Qed.
Lemma print_slot_quiet : forall h out a, quiet (print_slot h out a).
Proof.
  intros h out a. unfold print_slot. destruct (calculate (slots h a)); [|apply quiet_ret].
  apply quiet_bind; [apply quiet_lift|intros]. apply quiet_bind; [apply quiet_view|intros]. apply quiet_bind; [apply quiet_lift|intros]. apply quiet_ret.
Qed.
Lemma print_reports : forall h stream e s r out s', sum_handle_hash_values_fprint h stream e s = Done (r, out) s' ->
  exists o, first_reason [no_handle h; (stream = false, [E_ARGUMENT_INVALID_VALUE])] o /\ reported_as 1 e o r s s'.
Proof.
  intros [h|] stream e s r out s' H; cbn [sum_handle_hash_values_fprint] in H; [destruct stream|].
  - apply bind_inv in H as (y & s1 & H1 & H). apply (quiet_fold _ _ (print_slot h) all_algs [] (print_slot_quiet h)) in H1. injection H as <- _ <-. exists None.
    split; [do 2 (apply later_reason; [discriminate|]); apply no_reason|]. now split.
  - failed H. injection H as <- <- <-. eexists. split; [apply later_reason; [discriminate|]; now apply this_reason|apply one_as].
  - failed H. injection H as <- <- <-. eexists. split; [now apply this_reason|apply one_as].
Qed.

(* ------------------------------------------------------------- the process buffer *)

(* n is what the text says; what is too large is not taken, without an error *)
Lemma size_reports : forall E verbose d h str len e s r h' s', sum_handle_set_process_buffer_size E verbose d h str len e s = Done (r, h') s' ->
  exists v s1 o, (h <> None -> byte_size_string_convert verbose d (Some str) len true e s = Done v s1) /\
  first_reason (no_handle h :: followed_by E_RUNTIME_GET_FAILED [ (d = None, E_RUNTIME_GET_FAILED); (snd v = None, E_RUNTIME_VALUE_OUT_OF_BOUNDS) ]) o /\
  reported_as (match snd v with Some n => if ssize_max E <? n then 0%Z else 1%Z | None => 1%Z end) e o r s s'.
Proof.
  intros E verbose d [h|] str len e s r h' s' H; cbn [sum_handle_set_process_buffer_size] in H.
  2:{ failed H. injection H as <- <- <-. exists (0%Z, None), s, (Some [E_ARGUMENT_INVALID_VALUE]). split; [contradiction|]. split; [now apply this_reason|apply one_as]. }
  apply bind_inv in H as ([z v] & s1 & H1 & H). destruct (convert_reports _ _ _ _ _ _ _ _ _ _ H1) as (o & F & R). exists (z, v), s1. cbn [fst snd] in *.
  inversion F as [|P ks l X Q|P ks l o' N1 F1]; subst; [discriminate|]. clear F N1.
  inversion F1 as [|P ks l X Q|P ks l o' N1 F2]; subst; [discriminate|]. clear F1 N1.
  assert (B : forall k, o = Some [k] -> z = (-1)%Z /\ r = (-1)%Z /\ errs s' = errs s ++ (if e then [k; E_RUNTIME_GET_FAILED] else [])).
  { intros k ->. destruct R as (-> & Er). change (-1 =? -1)%Z with true in H. cbn iota in H. failed H. injection H as <- <- <-.
    split; [reflexivity|]. split; [reflexivity|]. cbn [errs add_err]. rewrite Er. destruct e; [now rewrite <- app_assoc|reflexivity]. }
  inversion F2 as [|P ks l X Q|P ks l o' N1 F3]; subst.
  { destruct (B _ eq_refl) as (_ & -> & Er). eexists. split; [intros _; exact H1|]. split; [apply later_reason; [discriminate|]; now apply this_reason|]. now split. }
  inversion F3 as [|P ks l X Q|P ks l o' N2 F4]; subst.
  { destruct (B _ eq_refl) as (_ & -> & Er). eexists. split; [intros _; exact H1|]. split; [apply later_reason; [discriminate|]; apply later_reason; [exact N1|]; now apply this_reason|]. now split. }
  inversion F4; subst. destruct R as (-> & Er). destruct v as [n|]; [|contradiction]. exists None. split; [intros _; exact H1|].
  split; [do 3 (apply later_reason; [first [discriminate | assumption]|]); apply no_reason|].
  change (1 =? -1)%Z with false in H. change (1 =? 0)%Z with false in H. cbn [negb] in H. cbn iota in H.
  destruct (ssize_max E <? n); injection H as <- <- <-; now split.
Qed.

Lemma size_setting_reports : forall E verbose d h str len e s r h' s' z v s1,
  sum_handle_set_process_buffer_size E verbose d h str len e s = Done (r, h') s' -> byte_size_string_convert verbose d (Some str) len true e s = Done (z, v) s1 ->
  exists o, first_reason (no_handle h :: followed_by E_RUNTIME_GET_FAILED [ (d = None, E_RUNTIME_GET_FAILED); (v = None, E_RUNTIME_VALUE_OUT_OF_BOUNDS) ]) o /\
  reported_as (match v with Some n => if ssize_max E <? n then 0%Z else 1%Z | None => 1%Z end) e o r s s'.
Proof.
  intros E verbose d h str len e s r h' s' z v s1 H C. destruct h as [h|].
  - destruct (size_reports _ _ _ _ _ _ _ _ _ _ _ H) as (v' & s2 & o & C' & F & R). rewrite C' in C by discriminate. injection C as -> ->. cbn [snd] in *. exists o. now split.
  - cbn [sum_handle_set_process_buffer_size] in H. failed H. injection H as <- <- <-. exists (Some [E_ARGUMENT_INVALID_VALUE]). split; [now apply this_reason|apply one_as].
Qed.

(* ------------------------------------------------------------- the digests *)

Lemma first_split : forall l l' o, first_reason (l ++ l') o -> (first_reason l None /\ first_reason l' o) \/ (o <> None /\ first_reason l o).
Proof.
  induction l as [|(P, ks) l IH]; intros l' o H; [left; split; [apply no_reason|exact H]|]. inversion H; subst.
  - right. split; [discriminate|]. now apply this_reason.
  - destruct (IH _ _ H5) as [(A & B)|(A & B)]; [left|right]; split; try assumption; now apply later_reason.
Qed.

Definition fresh (f : algid -> bool) (h : handle) (a : algid) : bool := f a && negb (calculate (slots h a)).

Lemma enable_reports : forall E f e l h s r h' s', NoDup l -> steps (enable_slot E f e) l h s = Done (r, h') s' ->
  exists o, first_reason (string_reasons E (filter (fresh f h) l) (tries s)) o /\ reported_as 1 e o r s s'.
Proof.
  induction l as [|a l IH]; intros h s r h' s' ND H; cbn [steps] in H.
  { injection H as <- <- <-. exists None. split; [apply no_reason|now split]. }
  inversion ND as [|x y Na ND' Q]; subst. apply bind_inv in H as ([z h1] & s1 & H1 & H). cbn [fst snd] in H.
  cbn [filter]. unfold enable_slot in H1. fold (fresh f h a) in H1. destruct (fresh f h a).
  - apply bind_inv in H1 as (q & s2 & H2 & H1). apply allocate_cases in H2 as (E2 & T2 & [(A2 & N2)|(A2 & ->)]).
    + destruct q as [q|]; [|contradiction]. cbn [option_map] in H1. injection H1 as <- <- <-. change (1 =? 1)%Z with true in H. cbn iota in H.
      destruct (IH _ _ _ _ _ ND' H) as (o & F & R). exists o. rewrite T2 in F. split.
      * cbn [string_reasons no_array]. apply later_reason; [congruence|].
        match type of F with first_reason (string_reasons E (filter ?g _) _) _ => replace (filter (fresh f h) l) with (filter g l); [exact F|] end.
        apply filter_ext_in. intros b Hb. unfold fresh. rewrite !slot_other by (intros <-; contradiction). reflexivity.
      * unfold reported_as in *. now rewrite <- E2.
    + failed H1. injection H1 as <- <- <-. change (-1 =? 1)%Z with false in H. cbn iota in H. injection H as <- <- <-.
      exists (Some [E_MEMORY_INSUFFICIENT]). split; [now apply this_reason|]. unfold reported_as. rewrite <- E2. apply (one_as 1).
  - injection H1 as <- <- <-. change (1 =? 1)%Z with true in H. cbn iota in H. exact (IH _ _ _ _ _ ND' H).
Qed.

Lemma types_reports : forall E split h str e s r h' s', sum_handle_set_digest_types E split h str e s = Done (r, h') s' ->
  exists o, match h with
            | None => o = Some [E_ARGUMENT_INVALID_VALUE]
            | Some h => exists l, newly_named h (split str) l /\ first_reason (types_reasons E (split str) l (tries s)) o
            end /\ reported_as 0 e o r s s'.
Proof.
  intros E split [h|] str e s r h' s' H; cbn [sum_handle_set_digest_types] in H.
  2:{ failed H. injection H as <- <- <-. eexists. split; [reflexivity|apply one_as]. }
  assert (Any : forall segs, exists l, newly_named h segs l).
  { intros segs. destruct segs as [segs|].
    2:{ exists []. split; [now exists (fun _ => false)|]. intros a. split; [intros []|]. intros (_ & segs & x & X & _). discriminate. }
    assert (Fl : exists f, forall a, f a = true <-> exists x, In (Some x) segs /\ is_name a x).
    { induction segs as [|[x|] segs (f & IH)].
      - exists (fun _ => false). intros a. split; [discriminate|]. intros (x & [] & _).
      - destruct (lookup_names x) as (o & _ & X). exists (fun a => match o with Some b => algid_eqb b a || f a | None => f a end). intros a. destruct o as [b|].
        + rewrite orb_true_iff, IH. split.
          * intros [Q|(y & I & Y)]; [exists x; split; [now left|]; apply X; f_equal; destruct a, b; try reflexivity; discriminate|exists y; split; [now right|exact Y]].
          * intros (y & [Q|I] & Y); [injection Q as <-; left; apply X in Y; injection Y as ->; now destruct a|right; now exists y].
        + rewrite IH. split.
          * intros (y & I & Y). exists y. split; [now right|exact Y].
          * intros (y & [Q|I] & Y); [injection Q as <-; apply X in Y; discriminate|now exists y].
      - exists f. intros a. rewrite IH. split; intros (y & I & Y); exists y; (split; [|exact Y]); [now right|destruct I as [I|I]; [discriminate|exact I]]. }
    destruct Fl as (f & Fl). exists (filter (fresh f h) all_algs). split; [now exists (fresh f h)|]. intros a. rewrite filter_In. unfold fresh.
    rewrite andb_true_iff, negb_true_iff, Fl. split.
    - intros (_ & (x & I & X) & C). split; [exact C|]. exists segs, x. auto.
    - intros (C & segs' & x & Q & I & X). injection Q as <-. split; [apply all_in|]. split; [now exists x|exact C]. }
  destruct (split str) as [segs|] eqn:SP.
  2:{ failed H. injection H as <- <- <-. destruct (Any None) as (l & Hl). eexists. split; [exists l; split; [exact Hl|]; now apply this_reason|apply one_as]. }
  apply bind_inv in H as (p & s1 & H1 & H). apply allocate_cases in H1 as (E1 & T1 & [(A1 & N1)|(A1 & ->)]).
  2:{ failed H. injection H as <- <- <-. destruct (Any (Some segs)) as (l & Hl). exists (Some [E_RUNTIME_INITIALIZE_FAILED]).
      split; [exists l; split; [exact Hl|]; apply later_reason; [discriminate|]; now apply this_reason|]. unfold reported_as. rewrite <- E1. apply (one_as 0). }
  destruct p as [p|]; [clear N1|contradiction]. destruct (scan_any segs (fun _ => false)) as [(xs & ->)|((xs & t & ->) & f & Hf)].
  - destruct (scan_ok xs (fun _ => false)) as (f & Hf & X). rewrite Hf in H. rewrite (bind_done _ _ _ _ _ _ _ (lift_some _ _ _)) in H. cbn [fst snd] in H. cbn iota in H.
    apply bind_inv in H as ([z h1] & s2 & H2 & H). apply bind_inv in H as (y & s3 & H3 & H). apply free_quiet in H3 as (E3 & _). cbn [fst snd] in H.
    destruct (enable_reports _ _ _ _ _ _ _ _ _ all_nodup H2) as (o & F & R). injection H as <- <- <-. exists o. split.
    + exists (filter (fresh f h) all_algs). split.
      * split; [now exists (fresh f h)|]. intros a. rewrite filter_In. unfold fresh. rewrite andb_true_iff, negb_true_iff, X. split.
        -- intros (_ & [Q|(x & I & Y)] & C); [discriminate|]. split; [exact C|]. exists (map Some xs), x. split; [reflexivity|]. split; [now apply in_map|exact Y].
        -- intros (C & segs' & x & Q & I & Y). injection Q as <-. apply in_map_iff in I as (x' & Q & I). injection Q as ->. split; [apply all_in|].
           split; [right; now exists x|exact C].
      * unfold types_reasons. cbn [app]. do 2 (apply later_reason; [congruence|]). apply later_reason.
        { intros (segs' & Q & I). injection Q as <-. apply in_map_iff in I as (x & Q & _). discriminate. }
        now rewrite <- T1.
    + unfold reported_as in *. destruct o as [ks|]; destruct R as (-> & R); (split; [reflexivity|]); rewrite E3, R, E1; reflexivity.
  - rewrite Hf in H. rewrite (bind_done _ _ _ _ _ _ _ (lift_some _ _ _)) in H. cbn [fst snd] in H. cbn iota in H. failed H. injection H as <- <- <-.
    destruct (Any (Some (map Some xs ++ None :: t))) as (l & Hl). exists (Some [E_RUNTIME_VALUE_MISSING]). split.
    + exists l. split; [exact Hl|]. do 2 (apply later_reason; [congruence|]). apply this_reason. eexists. split; [reflexivity|]. apply in_or_app. right. now left.
    + unfold reported_as. rewrite <- E1. apply (one_as 0).
Qed.

(* ------------------------------------------------------------- processing *)

Lemma context_reasons_ext : forall E h h' l t, (forall a, In a l -> context (slots h' a) = context (slots h a)) ->
  context_reasons E h' l t = context_reasons E h l t.
Proof.
  induction l as [|a l IH]; intros t H; [reflexivity|]. cbn [context_reasons]. rewrite (H a (or_introl eq_refl)). do 2 f_equal. apply IH. intros b Hb. apply H. now right.
Qed.

(* the error of sum_handle_process_input itself is still missing *)
Definition unfinished (ks : list err) : list err := removelast ks.

Lemma initialize_reports_steps : forall E e l h s r h' s', NoDup l -> steps (initialize_slot E e) l h s = Done (r, h') s' ->
  exists o, first_reason (context_reasons E h (filter (fun a => calculate (slots h a)) l) (tries s)) o /\ reported_as 1 e (option_map unfinished o) r s s' /\
  (tries s' <= tries s + length (filter (fun a => calculate (slots h a)) l))%nat /\
  (r = 1%Z -> tries s' = (tries s + length (filter (fun a => calculate (slots h a)) l))%nat).
Proof.
  induction l as [|a l IH]; intros h s r h' s' ND H; cbn [steps] in H.
  { injection H as <- <- <-. exists None. split; [apply no_reason|]. split; [now split|]. cbn. lia. }
  inversion ND as [|x y Na ND' Q]; subst. apply bind_inv in H as ([z h1] & s1 & H1 & H). cbn [fst snd] in H.
  cbn [filter]. unfold initialize_slot in H1. destruct (calculate (slots h a)) eqn:C.
  2:{ injection H1 as <- <- <-. change (1 =? 1)%Z with true in H. cbn iota in H. exact (IH _ _ _ _ _ ND' H). }
  apply bind_inv in H1 as ([w q] & s2 & H2 & H1). cbn [fst snd] in H1. cbn [context_reasons].
  destruct (context (slots h a)) as [p|] eqn:P.
  - cbn [context_initialize] in H2. failed H2. injection H2 as <- <- <-. change (-1 =? 1)%Z with false in H1. cbn iota in H1.
    injection H1 as <- <- <-. change (-1 =? 1)%Z with false in H. cbn iota in H. injection H as <- <- <-.
    eexists. split; [apply this_reason; discriminate|]. split; [|split; [cbn [tries add_err length]; lia|discriminate]]. split; [reflexivity|]. cbn [errs add_err].
    destruct e; [now rewrite <- app_assoc|now rewrite app_nil_r].
  - rewrite initialize_eq in H2. destruct (alloc_ok E (tries s)) eqn:A; injection H2 as <- <- <-.
    + change (1 =? 1)%Z with true in H1. cbn iota in H1. injection H1 as <- <- <-. change (1 =? 1)%Z with true in H. cbn iota in H.
      destruct (IH _ _ _ _ _ ND' H) as (o & F & R & B & T).
      set (h1 := set_slot _ _ _) in *. assert (S1 : forall b, In b l -> slots h1 b = slots h b) by (intros b Hb; apply slot_other; intros <-; contradiction).
      assert (FE : filter (fun a => calculate (slots h1 a)) l = filter (fun a => calculate (slots h a)) l).
      { apply filter_ext_in. intros b Hb. now rewrite S1. }
      rewrite FE in F, T, B. rewrite (context_reasons_ext E h h1) in F.
      2:{ intros b Hb. apply filter_In in Hb as (Hb & _). now rewrite S1. }
      exists o. split; [do 2 (apply later_reason; [congruence|]); exact F|]. split; [exact R|]. cbn [tries tick new_cell length] in *. split; [lia|]. intros Q. rewrite (T Q). lia.
    + change (-1 =? 1)%Z with false in H1. cbn iota in H1. injection H1 as <- <- <-. change (-1 =? 1)%Z with false in H. cbn iota in H. injection H as <- <- <-.
      eexists. split; [apply later_reason; [congruence|]; now apply this_reason|]. split; [|split; [cbn [tries add_err tick length]; lia|discriminate]]. split; [reflexivity|]. cbn [errs add_err tick].
      destruct e; [now rewrite <- app_assoc|now rewrite app_nil_r].
Qed.

Lemma drop_quiet : forall a h s h' s', drop_context a h s = Done h' s' -> errs s' = errs s /\ tries s' = tries s.
Proof.
  intros a h s h' s' H. unfold drop_context in H. destruct (context (slots h a)) as [p|]; [|injection H as <- <-; now split].
  apply bind_inv in H as (r & s1 & H1 & H). injection H as <- <-. cbn [context_free] in H1. apply bind_inv in H1 as (y & s2 & H2 & H1). injection H1 as <- <-.
  exact (free_quiet _ _ _ _ H2).
Qed.

Lemma integrity_reports : forall E h e s r h' s', sum_handle_initialize_integrity_hash E h e s = Done (r, h') s' ->
  exists o, first_reason (context_reasons E h (selected h) (tries s)) o /\ reported_as 1 e (option_map unfinished o) r s s' /\
  (tries s' <= tries s + length (selected h))%nat /\ (r = 1%Z -> tries s' = (tries s + length (selected h))%nat).
Proof.
  intros E h e s r h' s' H. unfold sum_handle_initialize_integrity_hash in H. apply bind_inv in H as ([z h1] & s1 & H1 & H). cbn [fst snd] in H.
  destruct (initialize_reports_steps _ _ _ _ _ _ _ _ all_nodup H1) as (o & F & R & B & T). exists o. split; [exact F|]. destruct o as [ks|]; cbn [option_map reported_as] in *.
  - destruct R as (-> & R). change (-1 =? 1)%Z with false in H. cbn iota in H. apply bind_inv in H as (h2 & s2 & H2 & H). apply drop_quiet in H2 as (E2 & T2).
    apply bind_inv in H as (h3 & s3 & H3 & H). apply drop_quiet in H3 as (E3 & T3). injection H as <- <- <-.
    split; [split; [reflexivity|congruence]|]. split; [|discriminate]. unfold selected. fold all_algs. rewrite T3, T2. exact B.
  - destruct R as (-> & R). change (1 =? 1)%Z with true in H. cbn iota in H. injection H as <- <- <-. split; [now split|]. split; [exact B|exact T].
Qed.

Lemma context_reasons_last : forall E h l t o, first_reason (context_reasons E h l t) (Some o) -> exists ks, o = ks ++ [E_RUNTIME_INITIALIZE_FAILED].
Proof.
  induction l as [|a l IH]; intros t o H; cbn [context_reasons] in H; [inversion H|]. inversion H; subst; [eexists [_; _]; reflexivity|]. inversion H5; subst; [eexists [_; _]; reflexivity|].
  exact (IH _ _ H7).
Qed.

Lemma process_reports : forall E W signal t0 h e s r h' k s', input_ok W -> good_state s -> handle_ok s h ->
  sum_handle_process_input E W signal t0 (Some h) e s = Done (r, h', k) s' ->
  exists o, first_reason (process_reasons E W h k (tries s)) o /\ reported_as 1 e o r s s' /\
  (tries s' <= tries s + 1 + length (selected h))%nat /\ (r = 1%Z -> tries s' = (tries s + 1 + length (selected h))%nat).
Proof.
  intros E W signal t0 h e s r h' k s' IW G H R. assert (Wf : wf_state s) by (now apply good_wf).
  destruct IW as (DB & DS). cbn [sum_handle_process_input] in R. unfold process_reasons. cbn [app].
  destruct (N.eqb_spec (process_buffer_size h) 0) as [B0|B0]; cbn [orb] in R.
  { failed R. injection R as <- <- <- <-. eexists. split; [apply this_reason; now left|]. split; [apply one_as|]. cbn [tries add_err]. split; [lia|discriminate]. }
  destruct (N.ltb_spec (ssize_max E) (process_buffer_size h)) as [B1|B1].
  { failed R. injection R as <- <- <- <-. eexists. split; [apply this_reason; now right|]. split; [apply one_as|]. cbn [tries add_err]. split; [lia|discriminate]. }
  destruct (in_size W) as [size|] eqn:IS.
  2:{ failed R. injection R as <- <- <- <-. eexists. split; [apply later_reason; [lia|]; now apply this_reason|]. split; [apply one_as|]. cbn [tries add_err]. split; [lia|discriminate]. }
  unfold allocate_bytes in R. destruct (alloc_ok E (tries s)) eqn:AO.
  2:{ erewrite bind_done in R by (now apply allocate_no). cbv beta iota in R. failed R. injection R as <- <- <- <-. exists (Some [E_MEMORY_INSUFFICIENT]).
      split; [apply later_reason; [lia|]; apply later_reason; [discriminate|]; now apply this_reason|]. split; [apply (one_as 1 e (tick s))|]. cbn [tries add_err tick]. split; [lia|discriminate]. }
  assert (Pre : forall l o, first_reason l o -> first_reason
     ((process_buffer_size h = 0 \/ ssize_max E < process_buffer_size h, [E_ARGUMENT_VALUE_OUT_OF_BOUNDS]) ::
      (Some size = None, [E_RUNTIME_GET_FAILED]) :: no_array E (tries s) :: l) o).
  { intros l o F. apply later_reason; [lia|]. apply later_reason; [discriminate|]. apply later_reason; [congruence|exact F]. }
  erewrite bind_done in R by (now apply allocate_ok). set (b := length (mem s)) in *. set (bl := junk_bytes _ _ _) in *. set (sb := tick (new_cell Heap (OBytes bl) s)) in *.
  assert (Ub : unchanged s sb) by apply unchanged_new.
  assert (Wb : wf_state sb) by (apply (wf_same_mem (new_cell Heap (OBytes bl) s)); [reflexivity|]; apply wf_new; [exact Wf|apply junk_ok]).
  assert (Cb : cell_at sb b = Some (mk_cell true Heap (OBytes bl))) by apply cell_new.
  assert (Lb : length (mem sb) = S b) by (unfold sb, b; cbn; rewrite app_length; cbn; lia).
  assert (Tb : tries sb = S (tries s)) by reflexivity.
  assert (Eb : errs sb = errs s) by reflexivity.
  assert (Hb : handle_ok sb h) by (now apply (handle_ok_unchanged s)).
  assert (Ob : ~ owned h b) by (intros O; pose proof (owned_lt _ _ _ H O); unfold b in *; lia).
  destruct (initialize_integrity_ok E e h sb Wb Hb) as (r1 & h1 & s1 & H1 & W1 & O1 & R1 & K1 & T1 & L1 & F1 & J1 & X1).
  destruct (integrity_reports _ _ _ _ _ _ _ H1) as (o1 & FI & RI & BI & TI).
  cbv beta iota in R. erewrite bind_done in R by exact H1. cbn [fst snd] in R.
  destruct o1 as [ks|]; cbn [option_map reported_as] in RI; destruct RI as (-> & RI).
  { change (-1 =? 1)%Z with false in R. cbn iota in R. erewrite bind_done in R by reflexivity. apply bind_inv in R as (y & s2 & H2 & R).
    apply free_quiet in H2 as (E2 & T2). injection R as <- <- <- <-. exists (Some ks). rewrite Tb in *. cbn [tries] in T2.
    split; [apply Pre; now apply first_app_some|]. split; [|rewrite T2; split; [lia|discriminate]]. split; [reflexivity|].
    rewrite E2. cbn [errs]. rewrite RI, Eb. destruct (context_reasons_last _ _ _ _ _ FI) as (ks' & ->). unfold unfinished. rewrite removelast_last.
    destruct e; [now rewrite <- app_assoc|reflexivity]. }
  destruct X1 as [(_ & U1 & _ & A1 & N1)|(Q & _)]; [|discriminate].
  change (1 =? 1)%Z with true in R. cbn iota in R. specialize (TI eq_refl).
  assert (PB : process_buffer_size h1 = process_buffer_size h) by apply R1.
  assert (Nb1 : forall a, context (slots h1 a) <> Some b).
  { intros a Ha. destruct (J1 a b Ha) as [X|X]; [apply Ob; right; right; exists a; now left|lia]. }
  assert (Cb1 : cell_at s1 b = Some (mk_cell true Heap (OBytes bl))).
  { rewrite F1; [exact Cb|lia|]. intros a Ha. apply Ob. right. right. exists a. now left. }
  destruct (process_loop_ok E W signal t0 h1 b size e DB ltac:(lia) ltac:(lia) (DS _ eq_refl) Nb1 (S (N.to_nat size)) 0 0 s1 bl W1 A1 Cb1
              ltac:(rewrite PB; apply junk_length) ltac:(lia) ltac:(lia) ltac:(lia))
    as (r2 & k2 & s2 & H2 & W2 & L2 & T2 & F2 & (bl2 & Cb2) & pos & P1 & P2 & P3 & A2 & X2 & Y2).
  destruct (Y2 eq_refl) as (Y3 & Y4). rewrite PB in Y3, Y4.
  erewrite bind_done in R by exact H2. cbn [fst snd] in R. apply bind_inv in R as (y & s3 & H3 & R). pose proof (free_quiet _ _ _ _ H3) as (E3 & T3).
  destruct X2 as [(-> & E2 & _)|(-> & _)].
  - change (1 =? 1)%Z with true in R. cbn iota in R. specialize (Y3 eq_refl) as (_ & Y3). clear Y4.
    assert (FR : first_reason (process_reasons E W h k2 (tries s)) None).
    { unfold process_reasons. rewrite IS. cbn [app]. apply Pre. apply first_app; [exact FI|]. apply later_reason.
      - intros (j & Hj & Q). specialize (Y3 j ltac:(lia)). cbn [position] in Y3. rewrite Q in Y3. lia.
      - apply later_reason; [|apply no_reason]. intros (j & n & Hj & Q & Y). injection Q as <-. specialize (Y3 j ltac:(lia)). lia. }
    rewrite (mfree_ok _ _ _ Cb2) in H3. injection H3 as <- <-. set (s3 := kill b s2) in *.
    assert (FK : forall q, q <> b -> cell_at s3 q = cell_at s2 q) by (intros q Hq; apply cell_kill_other; congruence).
    assert (NC1 : forall q l, heap_bytes s1 q l -> no_ctx h1 all_algs q) by (intros q l Hq; exact (no_ctx_bytes s1 h1 [] all_algs q Heap l (fun a _ => A1 a) Hq)).
    assert (F3 : forall q, q <> b -> no_ctx h1 all_algs q -> cell_at s3 q = cell_at s1 q) by (intros q Hq Nq; rewrite FK, F2 by assumption; reflexivity).
    assert (W3 : wf_state s3) by (now apply wf_kill).
    assert (A3 : forall a, absorbed s3 h1 (firstn (N.to_nat pos) (in_data W)) a).
    { intros a. apply (absorbed_cell s2); [apply A2|]. intros p _ Hp. apply FK. intros ->. exact (Nb1 a Hp). }
    assert (S3 : forall a, string_ok s3 h1 a).
    { intros a q Hq. destruct (handle_ok_string _ _ a O1 q Hq) as (l & Hl & Ll). exists l. split; [|exact Ll]. unfold heap_bytes. rewrite F3; [exact Hl| |exact (NC1 _ _ Hl)].
      intros ->. apply Ob. right. right. exists a. right. destruct R1 as [(_ & _ & Q3) _ _]. destruct (Q3 a) as (_ & <-). exact Hq. }
    destruct (finalize_ok E e h1 _ s3 W3 (fun a _ => A3 a) (fun a _ => S3 a)
                (fun a _ => proj1 (proj2 (proj2 (proj2 (proj2 O1) a)))))
      as (s4 & H4 & W4 & G4 & C4 & F4 & L4 & N4 & T4 & E4).
    erewrite bind_done in R by exact H4. change (1 =? 1)%Z with true in R. cbn iota in R.
    injection R as <- <- <- <-. unfold process_reasons in FR. rewrite IS in FR. exists None. split; [exact FR|]. split; [split; [reflexivity|congruence]|].
    rewrite T4, T3, T2, TI, Tb. split; lia.
  - change (-1 =? 1)%Z with false in R. cbn iota in R. injection R as <- <- <- <-. destruct (Y4 eq_refl) as (j & -> & _ & Yq & Yr & Ye). clear Y3 Y4.
    rewrite Ye, RI in E3. eexists (Some _). split; [apply Pre, first_app; [exact FI|]|split; [split; [reflexivity|exact E3]|rewrite T3, T2, TI, Tb; split; [lia|discriminate]]].
    destruct (in_read W j) as [m|] eqn:Rj.
    + apply later_reason.
      * intros (i & Hi & Q). destruct (Nat.eq_dec i j) as [->|]; [congruence|]. specialize (Yr i ltac:(lia)). cbn [position] in Yr. rewrite Q in Yr. lia.
      * apply this_reason. exists j, size. split; [lia|]. split; [reflexivity|exact Yq].
    + apply this_reason. exists j. split; [lia|exact Rj].
Qed.
