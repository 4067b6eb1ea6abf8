(* C59 by the text: what executing libhmac_X.c, with calls that execute libhmac_X_context.c in a build with libcrypto, adds to the error
   object and leaves in memory.  The lists of what a call may meet are in EvpErrorVocab.v. *)
From Coq Require Import Arith NArith ZArith List Bool String.
From Verif Require Import Words Spec Machine Vocab Context Hash Demo Evp EvpVocab EvpTheorems CText TextAll TextEvp EvpCalls EvpHash TextEvpAll
  TextEvpErrors EvpErrorVocab.
Import ListNotations.
Open Scope string_scope.
Open Scope list_scope.
Open Scope N_scope.

(* the functions that pass on their arguments: the entries of the context function, then one of their own *)
Theorem C59_text_initialize : forall E P v ex2 fuel a c e s r o s',
  run_evp_hash E P v ex2 fuel a "initialize" [v_place a c; v_error e] s = Done (VS R32 r, o) s' ->
  exists s1 y es, (forall q, (q < List.length (mem s))%nat -> nth_error (mem s1) q = nth_error (mem s) q) /\
  told (and_then E_RUNTIME_INITIALIZE_FAILED
         ([Stop (c = None) [E_ARGUMENT_INVALID_VALUE]; Stop (c <> Some None) [E_RUNTIME_VALUE_ALREADY_SET]] ++
          open_events E v (fst (p_init P a s1) <> 1%Z) (tries s))) y es /\
  said e y es r s s' /\
  (y = false -> o = [option_map (v_ctx a) c; None]) /\
  (y = true -> (exists p, o = [Some (VCtx a p); None]) /\ tries s' = (tries s + per_context v)%nat).
Proof. exact text_init_told. Qed.
Print Assumptions C59_text_initialize.

Theorem C59_text_free : forall E P v ex2 fuel a c e s r o s',
  run_evp_hash E P v ex2 fuel a "free" [v_place a c; v_error e] s = Done (VS R32 r, o) s' ->
  o = [option_map (fun _ => VNull) c; None] /\ tries s' = tries s /\ exists y es,
  told (and_then E_RUNTIME_FINALIZE_FAILED
         [ Stop (c = None) [E_ARGUMENT_INVALID_VALUE];
           Note (c <> Some None /\ v = Inside /\ p_cleanup P a s <> 1%Z) [E_RUNTIME_FINALIZE_FAILED] ]) y es /\
  said e y es r s s'.
Proof. exact text_free_told. Qed.
Print Assumptions C59_text_free.

Theorem C59_text_update : forall E P v ex2 fuel a, (v = Legacy true -> plat64 E = true) -> forall p b n e s r o s',
  run_evp_hash E P v ex2 fuel a "update" [v_ctx a p; v_bytes b; VU RSz n; v_error e] s = Done (VS R32 r, o) s' ->
  tries s' = tries s /\ exists y es,
  told (and_then E_RUNTIME_SET_FAILED
         (Stop (p = None) [E_ARGUMENT_INVALID_VALUE] :: update_events E v (update_refused P v a s p b n) (is_given b) n)) y es /\
  said e y es r s s'.
Proof. exact text_update_told. Qed.
Print Assumptions C59_text_update.

Theorem C59_text_finalize : forall E P v ex2 fuel a p h n e s r o s',
  run_evp_hash E P v ex2 fuel a "finalize" [v_ctx a p; v_bytes h; VU RSz n; v_error e] s = Done (VS R32 r, o) s' ->
  tries s' = tries s /\ exists y es,
  told (and_then E_RUNTIME_FINALIZE_FAILED
         (Stop (p = None) [E_ARGUMENT_INVALID_VALUE] :: final_events E v a (final_refused P v a s p) (is_given h) n)) y es /\
  said e y es r s s'.
Proof. exact text_final_told. Qed.
Print Assumptions C59_text_finalize.

(* the second part: what is left in the memory that the call allocated and freed, on every path *)
Theorem C59_text_calculate : forall E P v ex2 fuel a, (v = Legacy true -> plat64 E = true) -> forall b n h hn e s r o s',
  run_evp_hash E P v ex2 fuel a "calculate" [v_bytes b; VU RSz n; v_bytes h; VU RSz hn; v_error e] s = Done (VS R32 r, o) s' ->
  (exists x y es, answers_of P a x /\ told (calculate_events E v a x b n h hn (tries s)) y es /\ said e y es r s s' /\
   (tries s' <= tries s + per_context v)%nat /\ (y = true -> tries s' = tries s + per_context v)%nat) /\
  ((forall p, h = Some p -> (fst p < List.length (mem s))%nat) ->
   forall q c, (List.length (mem s) <= q)%nat -> nth_error (mem s') q = Some c -> knd c = Heap -> cleared P a c).
Proof. exact text_calculate_told. Qed.
Print Assumptions C59_text_calculate.

Theorem C59_text_hmac : forall E P v ex2 fuel a, (v = Legacy true -> plat64 E = true) -> gives_bytes P a -> (128 <= fuel)%nat ->
  forall k kn b n h hn e s r o s', good_state s ->
  run_evp_hash E P v ex2 fuel a "calculate_hmac" [v_bytes k; VU RSz kn; v_bytes b; VU RSz n; v_bytes h; VU RSz hn; v_error e] s = Done (VS R32 r, o) s' ->
  (exists x1 x2 x3 y es, answers_of P a x1 /\ answers_of P a x2 /\ answers_of P a x3 /\
   told (hmac_events E v a x1 x2 x3 k kn b n h hn (tries s)) y es /\ said e y es r s s' /\
   let m := if block_size a <? kn then (3 + 3 * per_context v)%nat else (3 + 2 * per_context v)%nat in
   (tries s' <= tries s + m)%nat /\ (y = true -> tries s' = tries s + m)%nat) /\
  ((forall p, h = Some p -> (fst p < List.length (mem s))%nat) ->
   forall q c, (List.length (mem s) <= q)%nat -> nth_error (mem s') q = Some c -> knd c = Heap -> cleared P a c).
Proof. exact text_hmac_told. Qed.
Print Assumptions C59_text_hmac.

(* runs that end, by the text: update and finalize without a context, free of a context whose clean up fails *)
Example C59_text_example :
  (forall s, s = demo_state ->
   errs (final (run_evp_hash (demo_env true true) plain_provider (Legacy true) false 1 MD5 "update" [VNull; VBytes (0%nat, 0); VU RSz 3; VErr] s))
     = [E_ARGUMENT_INVALID_VALUE; E_RUNTIME_SET_FAILED] /\
   errs (final (run_evp_hash (demo_env true true) plain_provider Outside true 1 MD5 "finalize" [VNull; VBytes (0%nat, 0); VU RSz 16; VErr] s))
     = [E_ARGUMENT_INVALID_VALUE; E_RUNTIME_FINALIZE_FAILED]) /\
  match (run_evp_hash (demo_env true true) messy_provider Inside false 1 MD5 "initialize" [v_place MD5 (Some None); VErr] ;;;
         run_evp_hash (demo_env true true) messy_provider Inside false 1 MD5 "free" [v_place MD5 (Some (Some 7%nat)); VErr]) demo_state with
  | Done r s => Some (r, errs s, tries s)
  | Undef => None
  end = Some (VS R32 1%Z, [Some VNull; None], [E_RUNTIME_FINALIZE_FAILED], 1%nat).
Proof. split; [intros s ->; vm_compute; split; reflexivity|vm_compute; reflexivity]. Qed.
(* EVP_MD_CTX_new fails for the inner message: the three arrays and the structure are cleared and freed *)
Example C59_text_example_hmac : gives_bytes plain_provider MD5 /\ good_state demo_state /\
  match run_evp_hash (demo_fail true true 4) plain_provider Outside true 128 MD5 "calculate_hmac"
    [VBytes (2%nat, 0); VU RSz 16; VBytes (3%nat, 0); VU RSz 8; VBytes (1%nat, 0); VU RSz 70; VErr] demo_state with
  | Done r s => Some (fst r, errs s, tries s, map live (skipn 8 (mem s)))
  | Undef => None
  end = Some (VS R32 (-1)%Z, [E_RUNTIME_INITIALIZE_FAILED; E_RUNTIME_INITIALIZE_FAILED], 5%nat, [false; false; false; false]).
Proof. split; [exact (honours_bytes _ _ _ (plain_honours MD5))|]. split; [exact demo_good|]. vm_compute. reflexivity. Qed.
