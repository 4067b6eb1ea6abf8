(* Properties C56 and C57: which error is reported, and how much memory is asked for.
   The words used are defined in ErrorVocab.v: [first_reason l o] says that o is what l has for the first of its reasons that
   holds; [reported e o r s s'] that the call returned 1 and left the error object alone when there is none, and otherwise
   returned -1 and added just those entries if there is an error object. *)
From Coq Require Import String Arith NArith ZArith List Bool.
From Verif Require Import Words Spec Machine Vocab ToolVocab ErrorVocab Context Hash History ToolStrings ErrorFacts ToolErrorFacts Demo.
Import ListNotations.
Open Scope N_scope.

(* ---- C56 *)
Theorem C56_initialize : forall E old a v e s,
  exists r v' s' o, do_initialize E old a v e s = Done (r, v') s' /\
  first_reason (named old E_RUNTIME_INITIALIZE_FAILED (initialize_reasons E v (tries s))) o /\ reported e o r s s'.
Proof. exact initialize_reports. Qed.
Print Assumptions C56_initialize.

Theorem C56_free : forall old a v e s, (forall q, v = Some (Some q) -> heap_ctx s a q) ->
  exists r v' s' o, do_free old a v e s = Done (r, v') s' /\
  first_reason (named old E_RUNTIME_FINALIZE_FAILED (free_reasons v)) o /\ reported e o r s s'.
Proof. exact free_reports. Qed.
Print Assumptions C56_free.

Theorem C56_update : forall E old a p b n e s, good_state s -> ctx_arg s a p -> arg s b n ->
  exists r s' o, do_update E old a p b n e s = Done r s' /\
  first_reason (named old E_RUNTIME_SET_FAILED (context_reason p :: input_reasons E b n)) o /\ reported e o r s s'.
Proof. exact update_reports. Qed.
Print Assumptions C56_update.

Theorem C56_finalize : forall E old a p h n e s, good_state s -> ctx_arg s a p -> arg s h n ->
  exists r s' o, do_finalize E old a p h n e s = Done r s' /\
  first_reason (named old E_RUNTIME_FINALIZE_FAILED (context_reason p :: output_reasons E a h n)) o /\ reported e o r s s'.
Proof. exact finalize_reports. Qed.
Print Assumptions C56_finalize.

Theorem C56_calculate : forall E a b n h hn e s, good_state s -> arg s b n -> arg s h hn ->
  exists r s' o, calculate E a b n h hn e s = Done r s' /\
  first_reason (calculate_reasons E a b n h hn (tries s)) o /\ reported e o r s s' /\ tries s' = S (tries s).
Proof. exact calculate_reports. Qed.
Print Assumptions C56_calculate.

Theorem C56_hmac : forall E a k kn b n h hn e s, good_state s -> arg s k kn -> arg s b n -> arg s h hn ->
  exists r s' o, calculate_hmac E a k kn b n h hn e s = Done r s' /\
  first_reason (hmac_reasons E a k kn b n h hn (tries s)) o /\ reported e o r s s' /\
  (tries s' <= tries s + hmac_allocations a kn)%nat /\ (r = 1%Z -> tries s' = tries s + hmac_allocations a kn)%nat.
Proof. exact hmac_reports. Qed.
Print Assumptions C56_hmac.

(* the functions of hmactools for texts *)
Theorem C56_copy_to_string : forall E d n t size e s r s', digest_hash_copy_to_string E d n t size e s = Done r s' ->
  exists o, first_reason (alone (copy_reasons E d n t size)) o /\ reported e o r s s'.
Proof. exact copy_reports. Qed.
Print Assumptions C56_copy_to_string.

Theorem C56_size_to_text : forall d target len size units e s, units = 1000 \/ units = 1024 -> size < 2 ^ 64 ->
  (forall t, target = Some t -> len <= N.of_nat (length t)) ->
  exists r v s' o, byte_size_string_create d target len size units e s = Done (r, v) s' /\
  first_reason (alone [ (target = None, E_ARGUMENT_INVALID_VALUE); (len < 9, E_ARGUMENT_VALUE_TOO_SMALL);
                        (d = None /\ exists f q, scaled units size f q /\ f <> 0 /\ q < 10, E_RUNTIME_GET_FAILED) ]) o /\
  reported e o r s s'.
Proof. exact create_reports. Qed.
Print Assumptions C56_size_to_text.

(* v is the value stored; which texts have none is said by C33 *)
Theorem C56_text_to_size : forall verbose d str len size e s r v s', byte_size_string_convert verbose d str len size e s = Done (r, v) s' ->
  exists o, first_reason (alone [ (str = None, E_ARGUMENT_INVALID_VALUE); (size = false, E_ARGUMENT_INVALID_VALUE);
    (d = None, E_RUNTIME_GET_FAILED); (v = None, E_RUNTIME_VALUE_OUT_OF_BOUNDS) ]) o /\ reported e o r s s'.
Proof. exact convert_reports. Qed.
Print Assumptions C56_text_to_size.

(* a reason is never missed and the answer is unique *)
Theorem C56_one_answer : forall l o o', first_reason l o -> first_reason l o' -> o = o'.
Proof. exact first_unique. Qed.
Print Assumptions C56_one_answer.

(* several reasons at once, with the entries of the first; allocation 2 of an HMAC with a long key is that of the
   inner padding, allocation 1 that of the context for the key *)
Example C56_example : forall b,
  let s := demo_state in let E := demo_env b true in
  let view (o : outcome Z) := (result o, errs (final o)) in
  good_state s /\ arg s (Some (4%nat, 0)) 131 /\
  view (calculate E SHA1 None (2 ^ 63) (Some (1%nat, 0)) 3 true s) = (Some (-1)%Z, [E_ARGUMENT_INVALID_VALUE; E_RUNTIME_SET_FAILED]) /\
  view (calculate E SHA1 (Some (0%nat, 0)) 3 (Some (1%nat, 0)) 19 true s) = (Some (-1)%Z, [E_ARGUMENT_VALUE_TOO_SMALL; E_RUNTIME_FINALIZE_FAILED]) /\
  view (calculate_hmac E MD5 (Some (2%nat, 0)) 20 None 8 (Some (1%nat, 0)) 15 true s) = (Some (-1)%Z, [E_ARGUMENT_VALUE_TOO_SMALL]) /\
  view (calculate_hmac (demo_fail b true 1) SHA256 (Some (4%nat, 0)) 131 (Some (5%nat, 0)) 54 (Some (1%nat, 0)) 32 true s) =
    (Some (-1)%Z, [E_MEMORY_INSUFFICIENT; E_RUNTIME_INITIALIZE_FAILED]) /\
  view (calculate_hmac (demo_fail b true 1) SHA256 (Some (2%nat, 0)) 20 None 54 (Some (1%nat, 0)) 32 true s) = (Some (-1)%Z, [E_MEMORY_INSUFFICIENT]) /\
  first_reason (hmac_reasons (demo_fail b true 1) SHA256 (Some (2%nat, 0)) 20 None 54 (Some (1%nat, 0)) 32 0) (Some [E_MEMORY_INSUFFICIENT]).
Proof.
  intros b. split; [exact demo_good|]. split; [demo_arg|]. repeat (split; [destruct b; vm_compute; reflexivity|]).
  cbn. do 3 (apply later_reason; [destruct b; vm_compute; discriminate|]). apply later_reason; [discriminate|].
  apply later_reason; [intros [C _]; revert C; vm_compute; discriminate|]. apply this_reason. reflexivity.
Qed.

(* ---- C57: the allocations do not grow with the data.  new_heap s s' are the cells that malloc gave between s and s'. *)
Theorem C57_update : forall E old a p b n e s r s', good_state s -> ctx_arg s a p -> arg s b n ->
  do_update E old a p b n e s = Done r s' -> tries s' = tries s /\ length (mem s') = length (mem s).
Proof. exact update_allocates. Qed.
Print Assumptions C57_update.

Theorem C57_finalize : forall E old a p h n e s r s', good_state s -> ctx_arg s a p -> arg s h n ->
  do_finalize E old a p h n e s = Done r s' -> tries s' = tries s /\ length (mem s') = length (mem s).
Proof. exact finalize_allocates. Qed.
Print Assumptions C57_finalize.

Theorem C57_initialize : forall E old a v e s r v' s', do_initialize E old a v e s = Done (r, v') s' ->
  (tries s' = match v with Some None => S (tries s) | _ => tries s end)%nat /\ Forall (small_cell a) (new_heap s s') /\
  length (new_heap s s') = (if (r =? 1)%Z then 1 else 0)%nat.
Proof. exact initialize_allocates. Qed.
Print Assumptions C57_initialize.

Theorem C57_free : forall old a v e s r v' s', (forall q, v = Some (Some q) -> heap_ctx s a q) ->
  do_free old a v e s = Done (r, v') s' -> tries s' = tries s.
Proof. exact free_allocates. Qed.
Print Assumptions C57_free.

Theorem C57_calculate : forall E a b n h hn e s r s', good_state s -> arg s b n -> arg s h hn ->
  calculate E a b n h hn e s = Done r s' ->
  tries s' = S (tries s) /\ Forall (small_cell a) (new_heap s s') /\ (length (new_heap s s') <= 1)%nat.
Proof. exact calculate_allocates. Qed.
Print Assumptions C57_calculate.

Theorem C57_hmac : forall E a k kn b n h hn e s r s', good_state s -> arg s k kn -> arg s b n -> arg s h hn ->
  calculate_hmac E a k kn b n h hn e s = Done r s' ->
  (tries s' <= tries s + hmac_allocations a kn)%nat /\ (r = 1%Z -> tries s' = tries s + hmac_allocations a kn)%nat /\
  Forall (small_cell a) (new_heap s s').
Proof. exact hmac_allocates. Qed.
Print Assumptions C57_hmac.

Example C57_example : forall b,
  let s := demo_state in let E := demo_env b true in
  let view (o : outcome Z) := (result o, tries (final o), length (new_heap s (final o))) in
  view (calculate_hmac E SHA256 (Some (2%nat, 0)) 20 (Some (3%nat, 0)) 8 (Some (1%nat, 0)) 32 true s) = (Some 1%Z, 5%nat, 5%nat) /\
  view (calculate_hmac E SHA256 (Some (4%nat, 0)) 131 (Some (3%nat, 0)) 8 (Some (1%nat, 0)) 32 true s) = (Some 1%Z, 6%nat, 6%nat) /\
  view (calculate E SHA256 (Some (6%nat, 0)) 200 (Some (1%nat, 0)) 32 true s) = (Some 1%Z, 1%nat, 1%nat).
Proof. intros b. destruct b; vm_compute; repeat split. Qed.
