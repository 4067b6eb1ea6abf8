(* Property C59: the entries that the builds on a message digest provider add to the error object, and the memory they free.
   The lists of what a call may meet, in order, are in EvpErrorVocab.v.  The theorems are about every provider, whether it
   keeps the contract of C45 or not, about each of the three forms of the code, and about every run that is defined. *)
From Coq Require Import NArith ZArith List Bool.
From Verif Require Import Words Spec Machine Vocab Context Hash Demo Evp EvpVocab EvpErrorVocab EvpErrors EvpMemory.
Import ListNotations.
Open Scope N_scope.

(* the context functions; s1 is the state in which the provider is asked, with the cells that were there before *)
Theorem C59_initialize : forall E P v a c e s r c' s', evp_initialize E P v a c e s = Done (r, c') s' ->
  exists s1 y es, (forall q, (q < length (mem s))%nat -> nth_error (mem s1) q = nth_error (mem s) q) /\
  told ([Stop (c = None) [E_ARGUMENT_INVALID_VALUE]; Stop (c <> Some None) [E_RUNTIME_VALUE_ALREADY_SET]] ++
        open_events E v (fst (p_init P a s1) <> 1%Z) (tries s)) y es /\
  said e y es r s s' /\
  (y = false -> c' = match c with Some q => q | None => None end) /\
  (y = true -> c' <> None /\ tries s' = tries s + per_context v)%nat.
Proof. exact init_told. Qed.
Print Assumptions C59_initialize.

Theorem C59_update : forall E P v a p b n e s r s', evp_update E P v a p b n e s = Done r s' ->
  tries s' = tries s /\ exists y es,
  told (Stop (p = None) [E_ARGUMENT_INVALID_VALUE] :: update_events E v (update_refused P v a s p b n) (is_given b) n) y es /\
  said e y es r s s'.
Proof. exact update_told. Qed.
Print Assumptions C59_update.

Theorem C59_finalize : forall E P v a p h n e s r s', evp_finalize E P v a p h n e s = Done r s' ->
  tries s' = tries s /\ exists y es,
  told (Stop (p = None) [E_ARGUMENT_INVALID_VALUE] :: final_events E v a (final_refused P v a s p) (is_given h) n) y es /\
  said e y es r s s'.
Proof. exact final_told. Qed.
Print Assumptions C59_finalize.

(* free: a clean up that fails is noted, and the result is 1 *)
Theorem C59_free : forall P v a c e s r c' s', evp_free P v a c e s = Done (r, c') s' ->
  c' = None /\ tries s' = tries s /\ exists y es,
  told [ Stop (c = None) [E_ARGUMENT_INVALID_VALUE];
         Note (c <> Some None /\ v = Inside /\ p_cleanup P a s <> 1%Z) [E_RUNTIME_FINALIZE_FAILED] ] y es /\
  said e y es r s s'.
Proof. exact free_told. Qed.
Print Assumptions C59_free.

(* the functions above: the entries, and how much memory is asked for *)
Theorem C59_calculate : forall E P v a b n h hn e s r s', calculate_with (evp E P v a) a b n h hn e s = Done r s' ->
  exists x y es, answers_of P a x /\ told (calculate_events E v a x b n h hn (tries s)) y es /\ said e y es r s s' /\
  (tries s' <= tries s + per_context v)%nat /\ (y = true -> tries s' = tries s + per_context v)%nat.
Proof. exact calculate_told. Qed.
Print Assumptions C59_calculate.

Theorem C59_hmac : forall E P v a k kn b n h hn e s r s', calculate_hmac_with E (evp E P v a) a k kn b n h hn e s = Done r s' ->
  exists x1 x2 x3 y es, answers_of P a x1 /\ answers_of P a x2 /\ answers_of P a x3 /\
  told (hmac_events E v a x1 x2 x3 k kn b n h hn (tries s)) y es /\ said e y es r s s' /\
  let m := if block_size a <? kn then (3 + 3 * per_context v)%nat else (3 + 2 * per_context v)%nat in
  (tries s' <= tries s + m)%nat /\ (y = true -> tries s' = tries s + m)%nat.
Proof. exact hmac_told. Qed.
Print Assumptions C59_hmac.

(* what is left in the memory that a call allocated and freed, on every path: zeros, a null pointer, or what the provider
   itself left in its context; the key and the two paddings are not *)
Theorem C59_calculate_cleared : forall E P v a b n h hn e s r s',
  calculate_with (evp E P v a) a b n h hn e s = Done r s' -> (forall p, h = Some p -> (fst p < length (mem s))%nat) ->
  forall q c, (length (mem s) <= q)%nat -> nth_error (mem s') q = Some c -> knd c = Heap -> cleared P a c.
Proof. exact calculate_cleared. Qed.
Print Assumptions C59_calculate_cleared.

Theorem C59_hmac_cleared : forall E P v a k kn b n h hn e s r s',
  calculate_hmac_with E (evp E P v a) a k kn b n h hn e s = Done r s' -> (forall p, h = Some p -> (fst p < length (mem s))%nat) ->
  forall q c, (length (mem s) <= q)%nat -> nth_error (mem s') q = Some c -> knd c = Heap -> cleared P a c.
Proof. exact hmac_cleared. Qed.
Print Assumptions C59_hmac_cleared.

(* ---- calls that meet something: return value, entries, allocations ---- *)

(* a provider that refuses the digest of more than two bytes: the context function and the function above add one entry each *)
Example C59_example_final :
  match calculate_with (evp (demo_env true true) (small_provider 2) Outside MD5) MD5 (Some (0%nat, 0)) 3 (Some (1%nat, 0)) 16 true demo_state with
  | Done r s => Some (r, errs s, tries s)
  | Undef => None
  end = Some ((-1)%Z, [E_RUNTIME_FINALIZE_FAILED; E_RUNTIME_FINALIZE_FAILED], 2%nat).
Proof. vm_compute. reflexivity. Qed.
(* a clean up that fails: an entry for each of the two contexts, the result is 1 *)
Example C59_example_cleanup :
  match calculate_hmac_with (demo_env true true) (evp (demo_env true true) messy_provider Inside MD5) MD5 (Some (2%nat, 0)) 16 (Some (3%nat, 0)) 8 (Some (1%nat, 0)) 70 true demo_state with
  | Done r s => Some (r, errs s, tries s)
  | Undef => None
  end = Some (1%Z, [E_RUNTIME_FINALIZE_FAILED; E_RUNTIME_FINALIZE_FAILED], 5%nat).
Proof. vm_compute. reflexivity. Qed.
(* EVP_MD_CTX_new fails for the inner message: the three arrays and the structure are cleared and freed *)
Example C59_example_memory :
  match calculate_hmac_with (demo_fail true true 4) (evp (demo_fail true true 4) plain_provider Outside MD5) MD5 (Some (2%nat, 0)) 16 (Some (3%nat, 0)) 8 (Some (1%nat, 0)) 70 true demo_state with
  | Done r s => Some (r, errs s, tries s, map (fun c => (live c, content c)) (skipn (S (length demo_mem)) (mem s)))
  | Undef => None
  end = Some ((-1)%Z, [E_RUNTIME_INITIALIZE_FAILED; E_RUNTIME_INITIALIZE_FAILED], 5%nat,
              [(false, OBytes (repeat 0 64)); (false, OBytes (repeat 0 64)); (false, OBytes (repeat 0 64)); (false, OPtr None)]).
Proof. vm_compute. reflexivity. Qed.
(* refused arguments of the context functions *)
Example C59_example_arguments :
  match evp_initialize (demo_env true true) plain_provider Inside MD5 (Some (Some 0%nat)) true demo_state,
        evp_finalize (demo_env true true) plain_provider Inside SHA1 (Some 0%nat) (Some (1%nat, 0)) (2 ^ 32) true demo_state,
        evp_free messy_provider Inside MD5 (Some (Some 0%nat)) true demo_state with
  | Done r1 s1, Done r2 s2, Done r3 s3 => Some ((r1, errs s1), (r2, errs s2), (r3, errs s3))
  | _, _, _ => None
  end = Some (((-1)%Z, Some 0%nat, [E_RUNTIME_VALUE_ALREADY_SET]), ((-1)%Z, [E_ARGUMENT_VALUE_OUT_OF_BOUNDS]),
              (1%Z, None, [E_RUNTIME_FINALIZE_FAILED])).
Proof. vm_compute. reflexivity. Qed.
