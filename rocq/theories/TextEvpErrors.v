(* What the text of libhmac_X.c and libhmac_X_context.c in the builds with libcrypto reports and leaves in memory. *)
From Coq Require Import Arith NArith ZArith List Bool String.
From Verif Require Import Words Spec Machine Vocab Context Hash Evp EvpVocab EvpErrorVocab EvpErrors EvpMemory CText TextAll TextEvp EvpCalls EvpHash TextEvpAll.
Import ListNotations.
Open Scope string_scope.
Open Scope list_scope.
Open Scope N_scope.

Lemma told_further : forall k l y es, told l y es -> told (and_then k l) y (es ++ if y then [] else [k]).
Proof.
  intros k l y es H. induction H; unfold and_then in *; cbn [map].
  - constructor.
  - now constructor.
  - now apply told_go.
  - rewrite <- app_assoc. now apply told_note.
  - now apply told_skip.
Qed.
(* the entry of the function above *)
Lemma said_further : forall e k y es r s s', said e y es r s s' ->
  exists s2 z, (if (r =? 1)%Z then ret 1%Z else fail e k) s' = Done z s2 /\ said e y (es ++ if y then [] else [k]) z s s2 /\ tries s2 = tries s'.
Proof.
  intros e k y es r s s' (-> & He). destruct y; cbn [Z.eqb Pos.eqb].
  - exists s', 1%Z. split; [reflexivity|]. split; [|reflexivity]. split; [reflexivity|]. now rewrite app_nil_r.
  - eexists _, _. split; [reflexivity|]. split; [|reflexivity]. split; [reflexivity|]. cbn [errs]. rewrite He. destruct e; [now rewrite app_assoc|reflexivity].
Qed.

Section Errors.
  Variables (E : env) (P : provider) (v : variant) (ex2 : bool) (fuel : nat) (a : algid).

  Lemma text_init_told : forall c e s r o s', run_evp_hash E P v ex2 fuel a "initialize" [v_place a c; v_error e] s = Done (VS R32 r, o) s' ->
    exists s1 y es, (forall q, (q < List.length (mem s))%nat -> nth_error (mem s1) q = nth_error (mem s) q) /\
    told (and_then E_RUNTIME_INITIALIZE_FAILED
           ([Stop (c = None) [E_ARGUMENT_INVALID_VALUE]; Stop (c <> Some None) [E_RUNTIME_VALUE_ALREADY_SET]] ++
            open_events E v (fst (p_init P a s1) <> 1%Z) (tries s))) y es /\
    said e y es r s s' /\
    (y = false -> o = [option_map (v_ctx a) c; None]) /\
    (y = true -> (exists p, o = [Some (VCtx a p); None]) /\ tries s' = (tries s + per_context v)%nat).
  Proof.
    intros c e s r o s' H. rewrite evp_hash_initialize in H. unfold hash_initialize_with in H. cbn [evp f_initialize] in H. unfold bind in H.
    destruct (evp_initialize E P v a c e s) as [[z c'] s2|] eqn:X; [|discriminate].
    destruct (init_told _ _ _ _ _ _ _ _ _ _ X) as (s1 & y & es & H1 & H2 & H3 & H4 & H5).
    exists s1, y, (es ++ if y then [] else [E_RUNTIME_INITIALIZE_FAILED]). split; [exact H1|]. split; [now apply told_further|].
    pose proof H3 as (Z0 & He). cbn [fst snd] in H. destruct y.
    - rewrite Z0 in H. cbn [Z.eqb Pos.eqb] in H. unfold ret in H. injection H as <- <- <-. destruct (H5 eq_refl) as (H6 & H7).
      split; [split; [reflexivity|]; now rewrite app_nil_r|]. split; [discriminate|]. intros _. split; [|exact H7].
      inversion H2 as [|? ? ? N0|? ? ? ? ? N0 T| |]; subst. destruct c as [[q|]|]; [|destruct c' as [p|]; [exists p; reflexivity|now elim H6]|now elim N0].
      destruct c' as [p|]; [exists p; reflexivity|now elim H6].
    - rewrite Z0 in H. cbn [Z.eqb Pos.eqb] in H. unfold fail, error_set, bind, ret in H. injection H as <- <- <-.
      split; [split; [reflexivity|]; cbn [errs]; rewrite He; destruct e; [now rewrite app_assoc|reflexivity]|]. split; [|discriminate].
      intros _. rewrite (H4 eq_refl). destruct c as [q|]; reflexivity.
  Qed.

  Lemma text_free_told : forall c e s r o s', run_evp_hash E P v ex2 fuel a "free" [v_place a c; v_error e] s = Done (VS R32 r, o) s' ->
    o = [option_map (fun _ => VNull) c; None] /\ tries s' = tries s /\ exists y es,
    told (and_then E_RUNTIME_FINALIZE_FAILED
           [ Stop (c = None) [E_ARGUMENT_INVALID_VALUE];
             Note (c <> Some None /\ v = Inside /\ p_cleanup P a s <> 1%Z) [E_RUNTIME_FINALIZE_FAILED] ]) y es /\
    said e y es r s s'.
  Proof.
    intros c e s r o s' H. rewrite evp_hash_free in H. unfold hash_free_with in H. cbn [evp f_free] in H. unfold bind in H.
    destruct (evp_free P v a c e s) as [[z c'] s2|] eqn:X; [|discriminate].
    destruct (free_told _ _ _ _ _ _ _ _ _ X) as (-> & Ht & y & es & H2 & H3).
    pose proof H3 as (Z0 & He). cbn [fst snd] in H. destruct y; rewrite Z0 in H; cbn [Z.eqb Pos.eqb] in H.
    - unfold ret in H. injection H as <- <- <-. split; [reflexivity|]. split; [exact Ht|]. exists true, (es ++ []). split; [exact (told_further _ _ _ _ H2)|].
      split; [reflexivity|]. now rewrite app_nil_r.
    - unfold fail, error_set, bind, ret in H. injection H as <- <- <-. split; [reflexivity|]. split; [exact Ht|].
      exists false, (es ++ [E_RUNTIME_FINALIZE_FAILED]). split; [exact (told_further _ _ _ _ H2)|].
      split; [reflexivity|]. cbn [errs]. rewrite He. destruct e; [now rewrite app_assoc|reflexivity].
  Qed.

  Hypothesis L : v = Legacy true -> plat64 E = true.

  Lemma text_update_told : forall p b n e s r o s',
    run_evp_hash E P v ex2 fuel a "update" [v_ctx a p; v_bytes b; VU RSz n; v_error e] s = Done (VS R32 r, o) s' ->
    tries s' = tries s /\ exists y es,
    told (and_then E_RUNTIME_SET_FAILED
           (Stop (p = None) [E_ARGUMENT_INVALID_VALUE] :: update_events E v (update_refused P v a s p b n) (is_given b) n)) y es /\
    said e y es r s s'.
  Proof.
    intros p b n e s r o s' H. rewrite evp_hash_update in H by exact L. unfold hash_update_with in H. cbn [evp f_update] in H. unfold bind in H.
    destruct (evp_update E P v a p b n e s) as [z s2|] eqn:X; [|discriminate].
    destruct (update_told _ _ _ _ _ _ _ _ _ _ _ X) as (Ht & y & es & H2 & H3).
    destruct (said_further e E_RUNTIME_SET_FAILED _ _ _ _ _ H3) as (s3 & z3 & H4 & H5 & H6). rewrite H4 in H. unfold ret in H. injection H as <- <- <-.
    split; [now rewrite H6|]. do 2 eexists. split; [exact (told_further _ _ _ _ H2)|exact H5].
  Qed.
  Lemma text_final_told : forall p h n e s r o s',
    run_evp_hash E P v ex2 fuel a "finalize" [v_ctx a p; v_bytes h; VU RSz n; v_error e] s = Done (VS R32 r, o) s' ->
    tries s' = tries s /\ exists y es,
    told (and_then E_RUNTIME_FINALIZE_FAILED
           (Stop (p = None) [E_ARGUMENT_INVALID_VALUE] :: final_events E v a (final_refused P v a s p) (is_given h) n)) y es /\
    said e y es r s s'.
  Proof.
    intros p b n e s r o s' H. rewrite evp_hash_finalize in H. unfold hash_finalize_with in H. cbn [evp f_finalize] in H. unfold bind in H.
    destruct (evp_finalize E P v a p b n e s) as [z s2|] eqn:X; [|discriminate].
    destruct (final_told _ _ _ _ _ _ _ _ _ _ _ X) as (Ht & y & es & H2 & H3).
    destruct (said_further e E_RUNTIME_FINALIZE_FAILED _ _ _ _ _ H3) as (s3 & z3 & H4 & H5 & H6). rewrite H4 in H. unfold ret in H. injection H as <- <- <-.
    split; [now rewrite H6|]. do 2 eexists. split; [exact (told_further _ _ _ _ H2)|exact H5].
  Qed.

  Lemma text_calculate_run : forall b n h hn e s r o s',
    run_evp_hash E P v ex2 fuel a "calculate" [v_bytes b; VU RSz n; v_bytes h; VU RSz hn; v_error e] s = Done (VS R32 r, o) s' ->
    calculate_with (evp E P v a) a b n h hn e s = Done r s'.
  Proof.
    intros b n h hn e s r o s' H. rewrite evp_hash_calculate in H by exact L. unfold bind in H.
    destruct (calculate_with (evp E P v a) a b n h hn e s) as [z s2|]; [|discriminate]. unfold ret in H. now injection H as <- _ <-.
  Qed.
  Lemma text_calculate_told : forall b n h hn e s r o s',
    run_evp_hash E P v ex2 fuel a "calculate" [v_bytes b; VU RSz n; v_bytes h; VU RSz hn; v_error e] s = Done (VS R32 r, o) s' ->
    (exists x y es, answers_of P a x /\ told (calculate_events E v a x b n h hn (tries s)) y es /\ said e y es r s s' /\
     (tries s' <= tries s + per_context v)%nat /\ (y = true -> tries s' = tries s + per_context v)%nat) /\
    ((forall p, h = Some p -> (fst p < List.length (mem s))%nat) ->
     forall q c, (List.length (mem s) <= q)%nat -> nth_error (mem s') q = Some c -> knd c = Heap -> EvpErrorVocab.cleared P a c).
  Proof.
    intros b n h hn e s r o s' H. apply text_calculate_run in H. split; [exact (calculate_told _ _ _ _ _ _ _ _ _ _ _ _ H)|].
    exact (calculate_cleared _ _ _ _ _ _ _ _ _ _ _ _ H).
  Qed.

  Lemma text_hmac_told : gives_bytes P a -> (128 <= fuel)%nat -> forall k kn b n h hn e s r o s', good_state s ->
    run_evp_hash E P v ex2 fuel a "calculate_hmac" [v_bytes k; VU RSz kn; v_bytes b; VU RSz n; v_bytes h; VU RSz hn; v_error e] s = Done (VS R32 r, o) s' ->
    (exists x1 x2 x3 y es, answers_of P a x1 /\ answers_of P a x2 /\ answers_of P a x3 /\
     told (hmac_events E v a x1 x2 x3 k kn b n h hn (tries s)) y es /\ said e y es r s s' /\
     let m := if block_size a <? kn then (3 + 3 * per_context v)%nat else (3 + 2 * per_context v)%nat in
     (tries s' <= tries s + m)%nat /\ (y = true -> tries s' = tries s + m)%nat) /\
    ((forall p, h = Some p -> (fst p < List.length (mem s))%nat) ->
     forall q c, (List.length (mem s) <= q)%nat -> nth_error (mem s') q = Some c -> knd c = Heap -> EvpErrorVocab.cleared P a c).
  Proof.
    intros G Fu k kn b n h hn e s r o s' W H. rewrite evp_hash_hmac in H by assumption. unfold bind in H.
    destruct (calculate_hmac_with E (evp E P v a) a k kn b n h hn e s) as [z s2|] eqn:X; [|discriminate]. unfold ret in H. injection H as <- _ <-.
    split; [exact (hmac_told _ _ _ _ _ _ _ _ _ _ _ _ _ _ X)|exact (hmac_cleared _ _ _ _ _ _ _ _ _ _ _ _ _ _ X)].
  Qed.
End Errors.
