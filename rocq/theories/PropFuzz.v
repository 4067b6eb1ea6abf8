(* Property C55: the fuzz targets.  The model is in Fuzz.v. *)
From Coq Require Import String Ascii Arith NArith ZArith List Bool.
From Verif Require Import Words Spec Machine Vocab Context Hash LibTheorems Fuzz FuzzFacts Demo.
Import ListNotations.
Open Scope N_scope.

(* Whatever inputs an engine hands to a target one after another, NULL included, and whatever allocations fail: the target accesses
   no memory it may not, returns 0, leaves nothing allocated and leaves the memory of the engine alone. *)
Theorem C55_any_inputs : forall E a inputs s, good_state s -> Forall (fun i => arg s (fst i) (snd i)) inputs ->
  exists s', fuzz_run E a inputs s = Done 0%Z s' /\ unchanged s s' /\ no_leak s s' /\ errs s' = errs s.
Proof. exact fuzz_run_result. Qed.
Print Assumptions C55_any_inputs.

(* Every input is indeed hashed, to the end: when the target returns, its array holds the digest. *)
Theorem C55_hashed : forall E a p size s, good_state s -> accessible s p size -> size <= ssize_max E -> alloc_ok E (tries s) = true ->
  exists s', fuzz_target E a (Some p) size s = Done 0%Z s' /\
  nth_error (mem s') (List.length (mem s)) = Some (mk_cell false Stack (OBytes (lib_hash a (bytes_at s p size)))).
Proof. exact fuzz_covered. Qed.
Print Assumptions C55_hashed.

(* three inputs: "abc", nothing at NULL, and two bytes of it; the second call allocates, too *)
Example C55_example :
  good_state demo_state /\
  Forall (fun i => arg demo_state (fst i) (snd i)) [(Some (0%nat, 0), 3); (None, 0); (Some (0%nat, 1), 2)] /\
  (exists s', fuzz_run (demo_env true true) MD5 [(Some (0%nat, 0), 3); (None, 0); (Some (0%nat, 1), 2)] demo_state = Done 0%Z s' /\
   tries s' = (3 + tries demo_state)%nat) /\
  accessible demo_state (0%nat, 0) 3 /\ 3 <= ssize_max (demo_env true true) /\ alloc_ok (demo_env true true) (tries demo_state) = true.
Proof.
  split; [exact demo_good|]. split; [repeat constructor; cbn [fst snd]; try exact I; demo_arg|]. split.
  - eexists. split; vm_compute; reflexivity.
  - split; [demo_arg|]. split; [vm_compute; discriminate|reflexivity].
Qed.
