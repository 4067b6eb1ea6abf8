(* Properties C47 and C49: objects and calls of the Python bindings.
   The model is in Py.v; programs and what should come of them are in PyVocab.v. *)
From Coq Require Import Arith NArith ZArith List Bool Lia.
From Verif Require Import Words Spec Machine Vocab Context Hash Demo Py PyVocab PyTheorems.
Import ListNotations.
Open Scope N_scope.

(* ------------------------------------------------------- C47 *)

(* Every program runs without undefined behaviour, with NULL returned exactly when an exception is set; error objects are
   freed, the caller's memory is as before, each calculation and each object shows what it should. *)
Theorem C47_program : forall E l S, good_state (lib S) -> errs (lib S) = [] -> exn S = None -> Forall (valid_op E (lib S)) l ->
  exists os vs S', run_program E l [] S = PDone (os, vs) S' /\ exn S' = None /\ errs (lib S') = [] /\ unchanged (lib S) (lib S') /\
  shown (lib S) 0 l os /\ map fst vs = flat_map made l /\ Forall (calculated (some_alloc_failed E (lib S) (lib S'))) os /\
  (forall i a v, nth_error vs i = Some (a, v) -> born (some_alloc_failed E (lib S) (lib S')) a i os).
Proof. exact python_program. Qed.
Print Assumptions C47_program.

(* Full statement: once all objects are deleted, all memory is released.  Missing: programs that call __init__ again and
   runs in which an allocation fails; there it is false (C47_reinit_refuted, C47_failed_new_refuted), and C47_leftovers
   says what can be left. *)
Theorem C47_released_partial : forall E l S os vs S', good_state (lib S) -> errs (lib S) = [] -> exn S = None ->
  Forall (valid_op E (lib S)) l -> run_program E l [] S = PDone (os, vs) S' ->
  no_init l -> all_allocs_ok E (lib S) (lib S') -> Forall (fun v => snd v = None) vs ->
  no_leak (lib S) (lib S').
Proof. exact python_released. Qed.
Print Assumptions C47_released_partial.

(* What is live at any time is part of an object, or one of the two kinds of leftovers; objects are distinct. *)
Theorem C47_leftovers : forall E l S os vs S', good_state (lib S) -> errs (lib S) = [] -> exn S = None ->
  Forall (valid_op E (lib S)) l -> run_program E l [] S = PDone (os, vs) S' ->
  (forall q c, (length (mem (lib S)) <= q)%nat -> nth_error (mem (lib S')) q = Some c -> live c = true ->
    belongs vs (lib S') q \/
    (some_alloc_failed E (lib S) (lib S') /\ content c = OPtr None) \/
    (~ no_init l /\ exists a x, content c = OCtx a x)) /\
  (forall i j a b p, nth_error vs i = Some (a, Some p) -> nth_error vs j = Some (b, Some p) -> i = j).
Proof. exact python_memory. Qed.
Print Assumptions C47_leftovers.

(* Full statement: the number of references to None is the same after a program.  It is not (C47_references_refuted): every
   calculation keeps one. *)
Theorem C47_references_partial : forall E l S os vs S', good_state (lib S) -> errs (lib S) = [] -> exn S = None ->
  Forall (valid_op E (lib S)) l -> run_program E l [] S = PDone (os, vs) S' ->
  exists k, none_refs S' = (none_refs S + Z.of_nat k)%Z /\ (digests_seen os <= k <= calculations os)%nat /\
  (all_allocs_ok E (lib S) (lib S') -> k = calculations os).
Proof. exact python_references. Qed.
Print Assumptions C47_references_partial.

Definition py_demo : pystate := mk_py demo_state 100 None.
Definition program (E : env) (l : list pyop) : option (list pyobs * pyvars * pystate) :=
  match run_program E l [] py_demo with PDone (os, vs) S' => Some (os, vs, S') | PUndef => None end.
Definition py_live (S : pystate) : list obj := map content (filter (fun c => live c) (skipn 7 (mem (lib S)))).
Definition abc : pyarg := ABytes (0%nat, 0) 3.
(* two objects, bad arguments, use of a deleted object *)
Definition program1 : list pyop :=
  [PNew MD5; PUpdate 0 (Some abc); PNew SHA1; PUpdate 0 (Some AOther); PUpdate 0 None; PFinalize 0; PUpdate 1 (Some (ABytes (6%nat, 10) 40));
   PDelete 0; PFinalize 0; PDelete 1; PHmac SHA512 (Some (abc, AFails))].
Example C47_program_example :
  Forall (valid_op (demo_env true true) (lib py_demo)) program1 /\ good_state (lib py_demo) /\ no_init program1 /\
  option_map (fun x => (fst (fst x), snd (fst x), none_refs (snd x), py_live (snd x))) (program (demo_env true true) program1) =
  Some ([ONew 0 None; OUpdate 0 (Some [97; 98; 99]) None; ONew 1 None; OUpdate 0 None (Some X_TypeError); OUpdate 0 None (Some X_TypeError);
         OFinalize 0 (inr [144; 1; 80; 152; 60; 210; 79; 176; 214; 150; 63; 125; 40; 225; 127; 114]);
         OUpdate 1 (Some (map (fun i => N.of_nat (7 * i) mod 256) (seq 10 40))) None;
         ODelete 0 None; OSkip 0; ODelete 1 None; OHmac SHA512 None (inl X_RuntimeError)], [(MD5, None); (SHA1, None)], 100%Z, []).
Proof.
  split; [|split; [exact demo_good|split; [intros i H; cbn in H; intuition discriminate|vm_compute; reflexivity]]].
  repeat constructor; cbn [valid_arg abc]; try (vm_compute; discriminate);
    try (exists [97; 98; 99]; split; [reflexivity|vm_compute; discriminate]).
  exists (map (fun i => N.of_nat (7 * i) mod 256) (seq 0 200)). split; [reflexivity|vm_compute; discriminate].
Qed.

(* Calling __init__ again loses the context that the object had. *)
Theorem C47_reinit_refuted : ~ (forall E l S os vs S', good_state (lib S) -> errs (lib S) = [] -> exn S = None ->
  Forall (valid_op E (lib S)) l -> run_program E l [] S = PDone (os, vs) S' ->
  all_allocs_ok E (lib S) (lib S') -> Forall (fun v => snd v = None) vs -> no_leak (lib S) (lib S')).
Proof. exact python_reinit. Qed.
Print Assumptions C47_reinit_refuted.

(* An object whose context cannot be allocated is not released, and the exception that is seen is not MemoryError. *)
Theorem C47_failed_new_refuted : exists E S os vs S', good_state (lib S) /\ errs (lib S) = [] /\ exn S = None /\
  run_program E [PNew MD5] [] S = PDone (os, vs) S' /\ vs = [(MD5, None)] /\ os = [ONew 0 (Some X_ValueError)] /\
  ~ no_leak (lib S) (lib S').
Proof. exact python_failed_new. Qed.
Print Assumptions C47_failed_new_refuted.

(* One calculation that returns a digest keeps a reference to None. *)
Theorem C47_references_refuted : ~ (forall E l S os vs S', good_state (lib S) -> errs (lib S) = [] -> exn S = None ->
  Forall (valid_op E (lib S)) l -> run_program E l [] S = PDone (os, vs) S' -> none_refs S' = none_refs S).
Proof. exact python_keeps_none. Qed.
Print Assumptions C47_references_refuted.

(* ------------------------------------------------------- C49 *)

Theorem C49_calculate : forall E a p n S, good_state (lib S) -> errs (lib S) = [] -> accessible (lib S) p n -> n <= ssize_max E ->
  in_domain a (bytes_at (lib S) p n) ->
  exists r S', py_calculate E a (Some (ABytes p n)) S = PDone r S' /\ errs (lib S') = [] /\ unchanged (lib S) (lib S') /\
  ((exists q, r = RBytes q /\ exn S' = None /\ get_obj (lib S') q = Some (OBytes (spec_hash a (bytes_at (lib S) p n))) /\
      no_leak_but (lib S) (lib S') q) \/
   (r = RNull /\ exn S' = Some X_IOError /\ no_leak (lib S) (lib S') /\ some_alloc_failed E (lib S) (lib S'))).
Proof. exact python_calculate. Qed.
Print Assumptions C49_calculate.

Theorem C49_hmac : forall E a kp kn p n S, good_state (lib S) -> errs (lib S) = [] -> accessible (lib S) kp kn -> kn <= ssize_max E ->
  accessible (lib S) p n -> n <= ssize_max E ->
  (a = SHA512 -> kn < 2 ^ 61 /\ 128 + n < 2 ^ 61) ->
  exists r S', py_calculate_hmac E a (Some (ABytes kp kn, ABytes p n)) S = PDone r S' /\ errs (lib S') = [] /\ unchanged (lib S) (lib S') /\
  ((exists q, r = RBytes q /\ exn S' = None /\ get_obj (lib S') q = Some (OBytes (spec_hmac a (bytes_at (lib S) kp kn) (bytes_at (lib S) p n))) /\
      no_leak_but (lib S) (lib S') q) \/
   (r = RNull /\ exn S' = Some X_IOError /\ no_leak (lib S) (lib S') /\ some_alloc_failed E (lib S) (lib S'))).
Proof. exact python_hmac. Qed.
Print Assumptions C49_hmac.

(* x = md5_context(), any number of updates, finalize *)
Theorem C49_session : forall E a pieces S, good_state (lib S) -> errs (lib S) = [] -> exn S = None ->
  (forall p n, In (p, n) pieces -> accessible (lib S) p n /\ n <= ssize_max E) ->
  in_domain a (concat (map (fun x => bytes_at (lib S) (fst x) (snd x)) pieces)) ->
  exists os vs S',
  run_program E (PNew a :: map (fun x => PUpdate 0 (Some (ABytes (fst x) (snd x)))) pieces ++ [PFinalize 0]) [] S = PDone (os, vs) S' /\
  (last os (OSkip 0) = OFinalize 0 (inr (spec_hash a (concat (map (fun x => bytes_at (lib S) (fst x) (snd x)) pieces)))) \/
   some_alloc_failed E (lib S) (lib S')).
Proof. exact python_session. Qed.
Print Assumptions C49_session.

(* arguments that meet the hypotheses: "abc" from three pieces, one of them empty; the failing run *)
Example C49_example :
  let pieces := [((0%nat, 0), 1); ((0%nat, 1), 0); ((0%nat, 1), 2)] in
  (forall p n, In (p, n) pieces -> accessible (lib py_demo) p n /\ n <= ssize_max (demo_env true false)) /\
  concat (map (fun x => bytes_at (lib py_demo) (fst x) (snd x)) pieces) = [97; 98; 99] /\
  option_map (fun x => (last (fst (fst x)) (OSkip 0), none_refs (snd x)))
    (program (demo_env true false) (PNew MD5 :: map (fun x => PUpdate 0 (Some (ABytes (fst x) (snd x)))) pieces ++ [PFinalize 0])) =
  Some (OFinalize 0 (inr [144; 1; 80; 152; 60; 210; 79; 176; 214; 150; 63; 125; 40; 225; 127; 114]), 100%Z) /\
  option_map (fun x => (fst (fst x), py_live (snd x))) (program (demo_fail true true 0) [PCalculate MD5 (Some abc)]) =
  Some ([OCalculate MD5 (Some [97; 98; 99]) (inl X_IOError)], []).
Proof.
  split; [|vm_compute; repeat split].
  intros p n H. cbn in H. destruct H as [H|[H|[H|[]]]]; injection H as <- <-; (split; [exists [97; 98; 99]; split; [reflexivity|vm_compute; discriminate]|vm_compute; discriminate]).
Qed.
