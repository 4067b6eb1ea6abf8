(* Proofs for C56 and C57. *)
From Coq Require Import Arith NArith ZArith List Bool Lia.
From Verif Require Import Words Spec Tables Transform Machine Context Hash History WordFacts BlockFacts ShaFacts
  MachineFacts TransformFacts ContextFacts DigestFacts ReprFacts HashFacts HmacFacts HistoryFacts LibProofs LibTheorems Vocab ErrorVocab.
Import ListNotations.
Open Scope N_scope.

Ltac reasons := cbn [alone followed_by map app fst snd input_reasons output_reasons initialize_reasons free_reasons context_reason no_array no_context];
  repeat first
  [ apply no_reason
  | apply this_reason; solve [assumption | reflexivity | discriminate | lia | auto]
  | apply later_reason; [solve [assumption | discriminate | congruence | lia | tauto]|] ].

Lemma reported_one : forall e s k, reported e (Some [k]) (-1)%Z s (add_err e k s).
Proof. intros e s k. split; [reflexivity|]. destruct e; cbn; rewrite ?app_nil_r; reflexivity. Qed.

Lemma named_first : forall k l o, first_reason (alone l) o -> first_reason (followed_by k l) (option_map (fun ks => ks ++ [k]) o).
Proof.
  intros k l. induction l as [|[P j] l IH]; cbn [alone followed_by map fst snd]; intros o H; inversion H; subst.
  - apply no_reason.
  - cbn. now apply this_reason.
  - apply later_reason; [assumption|]. now apply IH.
Qed.
Lemma reported_more : forall e o r k s s', reported e o r s s' ->
  reported e (option_map (fun ks => ks ++ [k]) o) r s (more_errors e r k s').
Proof.
  intros e [ks|] r k s s' [-> H]; (split; [reflexivity|]); unfold more_errors; cbn [errs Z.eqb Pos.eqb negb andb].
  - rewrite H. destruct e; cbn [andb]; [now rewrite <- app_assoc|reflexivity].
  - rewrite H. now rewrite andb_false_r.
Qed.

Lemma first_unique : forall l o o', first_reason l o -> first_reason l o' -> o = o'.
Proof. intros l o o' H. revert o'. induction H; intros o' H'; inversion H'; subst; try reflexivity; try contradiction. now apply IHfirst_reason. Qed.

Lemma digest_is : forall a, digest_size a = a_hs (alg_of a).
Proof. now intros []. Qed.
Lemma digest_max : forall E a, digest_size a <= ssize_max E.
Proof. intros E a. rewrite digest_is. pose proof (hs_lt_block a). pose proof (block_le_max E a). lia. Qed.

Lemma checks_error : forall E a n k, final_checks E (alg_of a) (a_checks (alg_of a)) n = Some k ->
  (n < digest_size a /\ k = E_ARGUMENT_VALUE_TOO_SMALL) \/ (digest_size a <= n /\ ssize_max E < n /\ k = E_ARGUMENT_VALUE_EXCEEDS_MAXIMUM).
Proof.
  intros E a n k. pose proof (digest_max E a) as D. rewrite digest_is in *.
  assert (G : forall l, final_checks E (alg_of a) l n = Some k ->
    (n < a_hs (alg_of a) /\ k = E_ARGUMENT_VALUE_TOO_SMALL) \/ (a_hs (alg_of a) <= n /\ ssize_max E < n /\ k = E_ARGUMENT_VALUE_EXCEEDS_MAXIMUM)).
  { induction l as [|[|] l IH]; cbn [final_checks]; intros H; [discriminate| |].
    - destruct (N.ltb_spec (ssize_max E) n); [injection H as <-; right; repeat split; lia|auto].
    - destruct (N.ltb_spec n (a_hs (alg_of a))); [injection H as <-; left; split; [lia|reflexivity]|auto]. }
  apply G.
Qed.

Lemma update_first : forall E p b n, exists o, first_reason (alone (context_reason p :: input_reasons E b n)) o /\
  o = option_map (fun k => [k]) (update_error E p b n).
Proof.
  intros E p b n. eexists. split; [|reflexivity]. unfold update_error. destruct p as [p|]; [|reasons].
  destruct b as [b|]; [|reasons]. destruct (N.ltb_spec (ssize_max E) n); cbn [option_map]; reasons.
Qed.
Lemma finalize_first : forall E a p h n, first_reason (alone (context_reason p :: output_reasons E a h n))
  (option_map (fun k => [k]) (finalize_error E a p h n)).
Proof.
  intros E a p h n. unfold finalize_error. destruct p as [p|]; [|reasons].
  destruct h as [h|]; [|reasons]. destruct (final_checks _ _ _ _) as [k|] eqn:F; cbn [option_map].
  - apply checks_error in F. destruct F as [[F ->]|(F & F' & ->)]; reasons.
  - apply checks_none in F. rewrite <- digest_is in F. reasons.
Qed.

Lemma update_reports : forall E old a p b n e s, good_state s -> ctx_arg s a p -> arg s b n ->
  exists r s' o, do_update E old a p b n e s = Done r s' /\
  first_reason (named old E_RUNTIME_SET_FAILED (context_reason p :: input_reasons E b n)) o /\ reported e o r s s'.
Proof.
  intros E old a p b n e s G HP HB. destruct (update_first E p b n) as (o & HF & Ho).
  assert (B : exists r s', context_update E a p b n e s = Done r s' /\ reported e o r s s').
  { destruct (update_decides E false a p b n e s G HP HB) as (r & s' & HR & Hr & Hw & _ & Hs & _). cbn [do_update] in HR.
    destruct (update_error E p b n) as [k|] eqn:U; cbn [option_map] in Ho; subst o.
    - rewrite (update_rejects _ _ _ _ _ _ _ _ U). do 2 eexists. split; [reflexivity|]. apply reported_one.
    - exists r, s'. split; [exact HR|]. destruct Hr as [-> | ->]; [split; [reflexivity|now apply Hs]|].
      exfalso. apply update_error_none in U. destruct U as (p' & bp & -> & -> & U). destruct Hw as [Hw _].
      destruct (Hw eq_refl) as [W|[W|W]]; [discriminate|discriminate|lia]. }
  destruct B as (r & s' & HR & Hrep). destruct old; cbn [do_update named].
  - destruct (update_names E a p b n e s G HP HB) as (r' & s2 & HR' & HN). rewrite HR in HR'. injection HR' as <- <-.
    do 3 eexists. split; [exact HN|]. split; [apply named_first, HF|]. now apply reported_more.
  - exists r, s', o. auto.
Qed.

Lemma finalize_reports : forall E old a p h n e s, good_state s -> ctx_arg s a p -> arg s h n ->
  exists r s' o, do_finalize E old a p h n e s = Done r s' /\
  first_reason (named old E_RUNTIME_FINALIZE_FAILED (context_reason p :: output_reasons E a h n)) o /\ reported e o r s s'.
Proof.
  intros E old a p h n e s G HP HB. pose proof (finalize_first E a p h n) as HF.
  assert (B : exists r s', context_finalize E a p h n e s = Done r s' /\ reported e (option_map (fun k => [k]) (finalize_error E a p h n)) r s s').
  { destruct (finalize_decides E false a p h n e s G HP HB) as (r & s' & HR & Hr & Hw & _ & Hs & _). cbn [do_finalize] in HR.
    destruct (finalize_error E a p h n) as [k|] eqn:U; cbn [option_map].
    - rewrite (finalize_rejects _ _ _ _ _ _ _ _ U). do 2 eexists. split; [reflexivity|]. apply reported_one.
    - exists r, s'. split; [exact HR|]. destruct Hr as [-> | ->]; [split; [reflexivity|now apply Hs]|].
      exfalso. apply finalize_error_none in U. rewrite <- digest_is in U. destruct U as (p' & bp & -> & -> & U & U'). destruct Hw as [Hw _].
      destruct (Hw eq_refl) as [W|[W|[W|W]]]; [discriminate|discriminate|lia|lia]. }
  destruct B as (r & s' & HR & Hrep). destruct old; cbn [do_finalize named].
  - destruct (finalize_names E a p h n e s G HP HB) as (r' & s2 & HR' & HN). rewrite HR in HR'. injection HR' as <- <-.
    do 3 eexists. split; [exact HN|]. split; [apply named_first, HF|]. now apply reported_more.
  - do 3 eexists. split; [exact HR|]. split; [exact HF|]. assumption.
Qed.

Lemma initialize_reports : forall E old a v e s,
  exists r v' s' o, do_initialize E old a v e s = Done (r, v') s' /\
  first_reason (named old E_RUNTIME_INITIALIZE_FAILED (initialize_reasons E v (tries s))) o /\ reported e o r s s'.
Proof.
  intros E old a v e s.
  assert (B : exists r v' s' o, context_initialize E a v e s = Done (r, v') s' /\
     first_reason (alone (initialize_reasons E v (tries s))) o /\ reported e o r s s').
  { destruct v as [[q|]|].
    - do 4 eexists. split; [unfold context_initialize; erewrite bind_done by (rewrite fail_eq; reflexivity); reflexivity|].
      split; [|apply reported_one]. reasons.
    - destruct (initialize_decides E false a (Some None) e s) as (r & v' & s' & HR & Hr & Hw & _ & Hs & _). cbn [do_initialize] in HR.
      destruct (alloc_ok E (tries s)) eqn:A.
      + do 4 eexists. split; [exact HR|]. split; [reasons|]. destruct Hr as [-> | ->]; [split; [reflexivity|now apply Hs]|].
        exfalso. destruct (proj1 Hw eq_refl) as [|[[q W]|W]]; congruence.
      + clear Hw Hs Hr HR. rewrite (initialize_eq E a e s). rewrite A. do 4 eexists. split; [reflexivity|]. split; [reasons|].
        split; [reflexivity|]. destruct e; cbn; rewrite ?app_nil_r; reflexivity.
    - do 4 eexists. split; [unfold context_initialize; erewrite bind_done by (rewrite fail_eq; reflexivity); reflexivity|].
      split; [|apply reported_one]. reasons. }
  destruct B as (r & v' & s' & o & HR & HF & Hrep). destruct old; cbn [do_initialize named].
  - destruct (initialize_names E a v e s) as (r' & v2 & s2 & HR' & HN). rewrite HR in HR'. injection HR' as <- <- <-.
    do 4 eexists. split; [exact HN|]. split; [apply named_first, HF|]. now apply reported_more.
  - do 4 eexists. split; [exact HR|]. split; [exact HF|]. assumption.
Qed.

Lemma free_reports : forall old a v e s, (forall q, v = Some (Some q) -> heap_ctx s a q) ->
  exists r v' s' o, do_free old a v e s = Done (r, v') s' /\
  first_reason (named old E_RUNTIME_FINALIZE_FAILED (free_reasons v)) o /\ reported e o r s s'.
Proof.
  intros old a v e s HV.
  assert (B : exists r v' s' o, context_free a v e s = Done (r, v') s' /\
     first_reason (alone (free_reasons v)) o /\ reported e o r s s').
  { destruct v as [v|].
    - destruct (free_decides false a (Some v) e s HV) as (r & v' & s' & HR & Hr & Hw & _ & Hs & _). cbn [do_free] in HR.
      do 4 eexists. split; [exact HR|]. split; [reasons|]. destruct Hr as [-> | ->]; [split; [reflexivity|now apply Hs]|].
      exfalso. discriminate (proj1 Hw eq_refl).
    - do 4 eexists. split; [unfold context_free; erewrite bind_done by (rewrite fail_eq; reflexivity); reflexivity|].
      split; [|apply reported_one]. reasons. }
  destruct B as (r & v' & s' & o & HR & HF & Hrep). destruct old; cbn [do_free named].
  - destruct (free_names a v e s HV) as (r' & v2 & s2 & HR' & HN). rewrite HR in HR'. injection HR' as <- <- <-.
    do 4 eexists. split; [exact HN|]. split; [apply named_first, HF|]. now apply reported_more.
  - do 4 eexists. split; [exact HR|]. split; [exact HF|]. assumption.
Qed.

(* ------------------------------------------------------------ one-shot functions *)

Lemma first_app : forall l l' o, first_reason l None -> first_reason l' o -> first_reason (l ++ l') o.
Proof.
  induction l as [|[P ks] l IH]; intros l' o H H'; [assumption|]. inversion H; subst. cbn [app]. apply later_reason; [assumption|]. now apply IH.
Qed.
Lemma first_app_some : forall l l' ks, first_reason l (Some ks) -> first_reason (l ++ l') (Some ks).
Proof.
  induction l as [|[P js] l IH]; intros l' ks H; inversion H; subst; cbn [app]; [now apply this_reason|].
  apply later_reason; [assumption|]. now apply IH.
Qed.

Lemma ctx_first : forall E a b n h hn, first_reason (followed_by E_RUNTIME_SET_FAILED (input_reasons E b n) ++
  followed_by E_RUNTIME_FINALIZE_FAILED (output_reasons E a h hn)) (calculate_ctx_error E a b n h hn).
Proof.
  intros E a b n h hn. unfold calculate_ctx_error. destruct (update_first E (Some 0%nat) b n) as (o & HF & Ho).
  assert (HI : first_reason (alone (input_reasons E b n)) o).
  { cbn [alone map context_reason fst snd] in HF. inversion HF; [discriminate|]. assumption. }
  apply (named_first E_RUNTIME_SET_FAILED) in HI. subst o. destruct (update_error E (Some 0%nat) b n) as [k|]; cbn [option_map app] in HI.
  - now apply first_app_some.
  - apply first_app; [exact HI|]. pose proof (finalize_first E a (Some 0%nat) h hn) as HG.
    assert (HJ : first_reason (alone (output_reasons E a h hn)) (option_map (fun k => [k]) (finalize_error E a (Some 0%nat) h hn))).
    { cbn [alone map context_reason fst snd] in HG. inversion HG; [discriminate|]. assumption. }
    apply (named_first E_RUNTIME_FINALIZE_FAILED) in HJ. destruct (finalize_error E a (Some 0%nat) h hn); exact HJ.
Qed.

Lemma errs_add_reported : forall e er ks, errs_add e er ks = er ++ (if e then ks else []).
Proof. intros [] er ks; cbn; rewrite ?app_nil_r; reflexivity. Qed.

Lemma calculate_reports : forall E a b n h hn e s, good_state s -> arg s b n -> arg s h hn ->
  exists r s' o, calculate E a b n h hn e s = Done r s' /\
  first_reason (calculate_reasons E a b n h hn (tries s)) o /\ reported e o r s s' /\ tries s' = S (tries s).
Proof.
  intros E a b n h hn e s G HB HH. pose proof (ctx_first E a b n h hn) as HF.
  destruct (calculate_cases E a b n h hn e s) as [(A & HR)|[(A & ks & c & fs & HE & _ & HR)|(A & HE & bp & hp & l & fs & _ & _ & _ & _ & HR)]];
    try assumption; [now apply good_wf in G| | |]; unfold calculate_reasons, no_context.
  - do 3 eexists. split; [exact HR|]. split; [now apply this_reason|]. split; [|reflexivity]. split; [reflexivity|]. apply errs_add_reported.
  - do 3 eexists. split; [exact HR|]. split; [apply later_reason; [congruence|exact HF]|]. split; [|reflexivity]. rewrite HE.
    split; [reflexivity|]. apply errs_add_reported.
  - do 3 eexists. split; [exact HR|]. split; [apply later_reason; [congruence|exact HF]|]. split; [|reflexivity]. rewrite HE.
    split; reflexivity.
Qed.

Lemma ctx_error_nonempty : forall E a b n h hn ks, calculate_ctx_error E a b n h hn = Some ks -> ks <> [].
Proof.
  intros E a b n h hn ks H ->. revert H. unfold calculate_ctx_error. destruct update_error; [discriminate|]. destruct finalize_error; discriminate.
Qed.

Definition some_errors (ks : list err) : option (list err) := match ks with [] => None | _ => Some ks end.

Lemma rest_first : forall E a b n h hn t,
  first_reason ([ no_array E t; no_array E (t + 1); no_context E (t + 2) ] ++
    (followed_by E_RUNTIME_SET_FAILED (input_reasons E b n) ++ followed_by E_RUNTIME_FINALIZE_FAILED (output_reasons E a h hn)) ++
    [ no_context E (t + 3) ]) (some_errors (snd (rest_code E a b n h hn t))) /\
  (fst (rest_code E a b n h hn t) <= t + 4)%nat /\
  (snd (rest_code E a b n h hn t) = [] -> fst (rest_code E a b n h hn t) = t + 4)%nat.
Proof.
  intros E a b n h hn t. pose proof (ctx_first E a b n h hn) as HF.
  replace (t + 3)%nat with (S (S (S t))) by lia. replace (t + 2)%nat with (S (S t)) by lia. replace (t + 1)%nat with (S t) by lia.
  unfold rest_code, no_array, no_context. cbn [app].
  destruct (alloc_ok E t) eqn:A1; cbn [fst snd some_errors]; [|split; [now apply this_reason|split; [lia|discriminate]]].
  destruct (alloc_ok E (S t)) eqn:A2; cbn [fst snd some_errors];
    [|split; [apply later_reason; [congruence|]; now apply this_reason|split; [lia|discriminate]]].
  destruct (alloc_ok E (S (S t))) eqn:A3; cbn [fst snd some_errors];
    [|split; [do 2 (apply later_reason; [congruence|]); now apply this_reason|split; [lia|discriminate]]].
  destruct (calculate_ctx_error E a b n h hn) as [ks|] eqn:HE; cbn [fst snd].
  - pose proof (ctx_error_nonempty _ _ _ _ _ _ _ HE) as Hne. split; [|split; [lia|intros ->; congruence]].
    do 3 (apply later_reason; [congruence|]). destruct ks; [congruence|]. now apply first_app_some.
  - split; [|split; [lia|intros _; lia]]. do 3 (apply later_reason; [congruence|]). apply first_app; [exact HF|].
    destruct (alloc_ok E (S (S (S t)))) eqn:A4; cbn [some_errors]; [|now apply this_reason].
    apply later_reason; [congruence|]. apply no_reason.
Qed.

Lemma block_is : forall a, block_size a = hmac_block_size a.
Proof. now intros []. Qed.

Lemma hmac_first : forall E a k kn b n h hn t,
  let c := hmac_code E a k kn b n h hn t in
  first_reason (hmac_reasons E a k kn b n h hn t) (some_errors (snd c)) /\
  (fst c <= t + hmac_allocations a kn)%nat /\ (snd c = [] -> fst c = t + hmac_allocations a kn)%nat.
Proof.
  intros E a k kn b n h hn t. cbn zeta. unfold hmac_reasons, hmac_code, hmac_entry_error, hmac_allocations.
  rewrite <- (digest_is a), <- (block_is a). cbn [alone input_reasons map app fst snd].
  destruct k as [k|]; cbn [fst snd some_errors]; [|split; [now apply this_reason|split; [lia|discriminate]]].
  destruct (N.ltb_spec (ssize_max E) kn); cbn [fst snd some_errors];
    [split; [apply later_reason; [discriminate|now apply this_reason]|split; [lia|discriminate]]|].
  destruct (N.ltb_spec hn (digest_size a)); cbn [fst snd some_errors];
    [split; [apply later_reason; [discriminate|]; apply later_reason; [lia|]; now apply this_reason|split; [lia|discriminate]]|].
  destruct (alloc_ok E t) eqn:A1; cbn [fst snd some_errors].
  2: { split; [|split; [destruct (block_size a <? kn); lia|discriminate]]. apply later_reason; [discriminate|]. do 2 (apply later_reason; [lia|]). now apply this_reason. }
  destruct (N.leb_spec kn (block_size a)) as [K|K].
  - destruct (N.ltb_spec (block_size a) kn) as [K'|_]; [lia|].
    destruct (rest_first E a b n h hn (S t)) as (R1 & R2 & R3).
    split; [|split; [lia|intros R; rewrite (R3 R); lia]]. apply later_reason; [discriminate|]. do 2 (apply later_reason; [lia|]). apply later_reason; [cbn; congruence|].
    apply later_reason; [lia|]. replace (t + 1)%nat with (S t) by lia.
    replace (_ ++ _ ++ [_]) with ((followed_by E_RUNTIME_SET_FAILED (input_reasons E b n) ++ followed_by E_RUNTIME_FINALIZE_FAILED (output_reasons E a h hn)) ++ [no_context E (S t + 3)]) by (rewrite <- app_assoc; reflexivity).
    exact R1.
  - destruct (N.ltb_spec (block_size a) kn) as [_|K']; [|lia]. replace (t + 1)%nat with (S t) by lia.
    destruct (alloc_ok E (S t)) eqn:A2; cbn [fst snd some_errors].
    + destruct (rest_first E a b n h hn (S (S t))) as (R1 & R2 & R3).
      split; [|split; [lia|intros R; rewrite (R3 R); lia]]. apply later_reason; [discriminate|]. do 2 (apply later_reason; [lia|]). apply later_reason; [cbn; congruence|].
      apply later_reason; [intros [_ W]; congruence|]. replace (t + 2)%nat with (S (S t)) by lia.
      replace (_ ++ _ ++ [_]) with ((followed_by E_RUNTIME_SET_FAILED (input_reasons E b n) ++ followed_by E_RUNTIME_FINALIZE_FAILED (output_reasons E a h hn)) ++ [no_context E (S (S t) + 3)]) by (rewrite <- app_assoc; reflexivity).
      exact R1.
    + split; [|split; [lia|discriminate]]. apply later_reason; [discriminate|]. do 2 (apply later_reason; [lia|]). apply later_reason; [cbn; congruence|].
      apply this_reason. split; [assumption|reflexivity].
Qed.

Lemma hmac_reports : forall E a k kn b n h hn e s, good_state s -> arg s k kn -> arg s b n -> arg s h hn ->
  exists r s' o, calculate_hmac E a k kn b n h hn e s = Done r s' /\
  first_reason (hmac_reasons E a k kn b n h hn (tries s)) o /\ reported e o r s s' /\
  (tries s' <= tries s + hmac_allocations a kn)%nat /\ (r = 1%Z -> tries s' = tries s + hmac_allocations a kn)%nat.
Proof.
  intros E a k kn b n h hn e s G HK HB HH. apply good_wf in G. pose proof (proj1 (wf_cells s) G) as Hold.
  assert (Es : st (mem s) [] (tries s) (errs s) (resid s) = s) by (symmetry; apply st_of).
  assert (AL : forall p m, arg s p m -> argl (mem s) p m).
  { intros [p|] m H; [|exact I]. destruct H as (l & Hl & Hm). exists l. split; [|exact Hm]. rewrite <- Hl. rewrite <- Es at 2. rewrite !get_old. reflexivity. }
  destruct (hmac_st_code E a k kn b n h hn e (mem s) (tries s) (errs s) (resid s)) as
    (r & old' & news' & khl & t' & ks & fs & HR & _ & _ & _ & HC & HE); auto.
  rewrite Es in HR. destruct (hmac_first E a k kn b n h hn (tries s)) as (F1 & F2 & F3). rewrite HC in F1, F2, F3. cbn [fst snd] in *.
  exists r. eexists. exists (some_errors ks). split; [exact HR|]. split; [exact F1|]. cbn [errs tries st].
  assert (Q : (r = 1%Z /\ ks = []) \/ (r = (-1)%Z /\ ks <> [])).
  { destruct HE as [(-> & -> & _)|[(-> & Hk & _)|(-> & Hk & _)]]; auto. }
  destruct Q as [[-> ->]|[-> Hk]].
  - split; [split; [reflexivity|unfold errs_add; cbn [st errs]; destruct e; rewrite ?app_nil_r; reflexivity]|]. split; [exact F2|intros _; now apply F3].
  - split; [|split; [exact F2|discriminate]]. destruct ks; [congruence|]. split; [reflexivity|]. cbn [st errs]. apply errs_add_reported.
Qed.

(* --------------------------------------------------------------------- C57 *)

Lemma update_allocates : forall E old a p b n e s r s', good_state s -> ctx_arg s a p -> arg s b n ->
  do_update E old a p b n e s = Done r s' -> tries s' = tries s /\ length (mem s') = length (mem s).
Proof.
  intros E old a p b n e s r s' G HP HB H.
  destruct (update_full E old a p b n e s G HP HB) as (r1 & s1 & HR & C). rewrite H in HR. injection HR as <- <-.
  destruct C as [(_ & _ & q & bp & c & fs & _ & _ & _ & _ & ->)|(_ & _ & _ & -> & -> & _)]; [|auto].
  unfold add_frames. cbn [tries mem]. rewrite set_obj_tries. split; [reflexivity|]. apply set_obj_length.
Qed.
Lemma finalize_allocates : forall E old a p h n e s r s', good_state s -> ctx_arg s a p -> arg s h n ->
  do_finalize E old a p h n e s = Done r s' -> tries s' = tries s /\ length (mem s') = length (mem s).
Proof.
  intros E old a p h n e s r s' G HP HB H.
  destruct (finalize_full E old a p h n e s G HP HB) as (r1 & s1 & HR & C). rewrite H in HR. injection HR as <- <-.
  destruct C as [(_ & _ & q & bp & c & l & fs & _ & _ & _ & _ & _ & _ & ->)|(_ & _ & _ & -> & -> & _)]; [|auto].
  unfold add_frames. cbn [tries mem]. rewrite !set_obj_tries. split; [reflexivity|]. now rewrite !set_obj_length.
Qed.
Lemma initialize_allocates : forall E old a v e s r v' s', do_initialize E old a v e s = Done (r, v') s' ->
  (tries s' = match v with Some None => S (tries s) | _ => tries s end)%nat /\ Forall (small_cell a) (new_heap s s') /\
  length (new_heap s s') = (if (r =? 1)%Z then 1 else 0)%nat.
Proof.
  intros E old a v e s r v' s' H.
  destruct (initialize_full E old a v e s) as (r1 & v1 & s1 & HR & C). rewrite H in HR. injection HR as <- <- <-.
  destruct C as [(-> & -> & _ & _ & ->)|(-> & _ & _ & _ & HM & _ & ->)].
  - unfold tick, new_cell, set_mem, new_heap. cbn [mem tries]. split; [reflexivity|].
    rewrite skipn_app, skipn_all, Nat.sub_diag. cbn [skipn app filter knd]. split; [|reflexivity]. repeat constructor.
  - unfold new_heap. rewrite HM, skipn_all. split; [reflexivity|]. split; [constructor|reflexivity].
Qed.
Lemma free_allocates : forall old a v e s r v' s', (forall q, v = Some (Some q) -> heap_ctx s a q) ->
  do_free old a v e s = Done (r, v') s' -> tries s' = tries s.
Proof.
  intros old a v e s r v' s' HV H. destruct (free_full old a v e s HV) as (r1 & v1 & s1 & HR & _ & HT & _).
  rewrite H in HR. injection HR as _ _ <-. exact HT.
Qed.

Lemma calculate_allocates : forall E a b n h hn e s r s', good_state s -> arg s b n -> arg s h hn ->
  calculate E a b n h hn e s = Done r s' ->
  tries s' = S (tries s) /\ Forall (small_cell a) (new_heap s s') /\ (length (new_heap s s') <= 1)%nat.
Proof.
  intros E a b n h hn e s r s' G HB HH H.
  destruct (calculate_cases E a b n h hn e s) as [(A & HR)|[(A & ks & c & fs & HE & _ & HR)|(A & HE & bp & hp & l & fs & _ & _ & _ & _ & HR)]];
    try assumption; [now apply good_wf in G| | |]; rewrite H in HR; injection HR as -> ->; cbn [tries]; (split; [reflexivity|]); unfold new_heap; cbn [mem].
  - rewrite skipn_all. split; [constructor|cbn; lia].
  - rewrite skipn_app, skipn_all, Nat.sub_diag. cbn. split; [repeat constructor|lia].
  - rewrite skipn_app, setl_length, Nat.sub_diag, skipn_all2 by (rewrite setl_length; lia). cbn. split; [repeat constructor|lia].
Qed.

Lemma hmac_allocates : forall E a k kn b n h hn e s r s', good_state s -> arg s k kn -> arg s b n -> arg s h hn ->
  calculate_hmac E a k kn b n h hn e s = Done r s' ->
  (tries s' <= tries s + hmac_allocations a kn)%nat /\ (r = 1%Z -> tries s' = tries s + hmac_allocations a kn)%nat /\
  Forall (small_cell a) (new_heap s s').
Proof.
  intros E a k kn b n h hn e s r s' G HK HB HH H.
  destruct (hmac_reports E a k kn b n h hn e s G HK HB HH) as (r1 & s1 & o & HR & _ & _ & T1 & T2).
  rewrite H in HR. injection HR as <- <-. split; [exact T1|]. split; [exact T2|]. clear T1 T2.
  apply good_wf in G. pose proof (proj1 (wf_cells s) G) as Hold.
  assert (Es : st (mem s) [] (tries s) (errs s) (resid s) = s) by (symmetry; apply st_of).
  assert (AL : forall p m, arg s p m -> argl (mem s) p m).
  { intros [p|] m X; [|exact I]. destruct X as (l & Hl & Hm). exists l. split; [|exact Hm]. rewrite <- Hl. rewrite <- Es at 2. rewrite !get_old. reflexivity. }
  destruct (hmac_st E a k kn b n h hn e (mem s) (tries s) (errs s) (resid s)) as
    (r2 & old' & news' & khl & t' & ks & fs & HR & HL & _ & _ & HE); auto.
  rewrite Es, H in HR. injection HR as <- ->. unfold new_heap, st. cbn [mem].
  rewrite <- HL, skipn_app, skipn_all, Nat.sub_diag. cbn [skipn app filter knd].
  assert (C : Forall (clean_cell a) news').
  { destruct HE as [(_ & _ & HN & _)|[(_ & _ & HN & _)|(_ & _ & HN & _)]]; [|exact HN|]; (eapply Forall_impl; [apply erased_clean|exact HN]). }
  clear - C. induction C as [|c l [->|[x ->]] _ IH]; cbn [filter knd wiped dead]; [constructor| |]; constructor; try exact IH.
  - unfold small_cell, wiped, dead. cbn [content]. rewrite repeat_length, N2Nat.id. symmetry. apply block_is.
  - reflexivity.
Qed.
