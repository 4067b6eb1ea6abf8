(* C44: what the functions do does not depend on the bytes they work on. *)
From Coq Require Import Arith NArith ZArith List Lia Bool.
From Verif Require Import Words Spec Machine Vocab Context Hash Trace TraceVocab TraceTheorems Demo.
Import ListNotations.
Open Scope N_scope.

(* ---- the functions that keep a record compute what the functions of the model compute ---- *)

Theorem C44_same_function_calculate : forall E a buffer size hash hash_size e s,
  outcome_of (t_calculate E a buffer size hash hash_size e s) = calculate E a buffer size hash hash_size e s.
Proof. exact erased_calculate. Qed.
Print Assumptions C44_same_function_calculate.

Theorem C44_same_function_hmac : forall E a key key_size buffer size hmac hmac_size e s,
  outcome_of (t_calculate_hmac E a key key_size buffer size hmac hmac_size e s) = calculate_hmac E a key key_size buffer size hmac hmac_size e s.
Proof. exact erased_hmac. Qed.
Print Assumptions C44_same_function_hmac.

Theorem C44_same_function_context : forall E a context buffer size hash hash_size v e s,
  outcome_of (t_initialize E a v e s) = context_initialize E a v e s /\
  outcome_of (t_update E a context buffer size e s) = context_update E a context buffer size e s /\
  outcome_of (t_finalize E a context hash hash_size e s) = context_finalize E a context hash hash_size e s /\
  outcome_of (t_free a v e s) = context_free a v e s.
Proof. exact erased_context_calls. Qed.
Print Assumptions C44_same_function_context.

(* ---- two runs that differ in bytes only leave the same record: they go the same way at every condition, touch the same
   places in the same order, ask for and free the same memory, process the same blocks, report the same errors and return
   the same value.  What memory and the stack hold at the start may differ as well. ---- *)

Theorem C44_calculate : forall E E' a buffer size hash hash_size e s s', same_choices E E' -> same_layout s s' ->
  same_run (t_calculate E a buffer size hash hash_size e s) (t_calculate E' a buffer size hash hash_size e s').
Proof. exact equal_calculate. Qed.
Print Assumptions C44_calculate.

Theorem C44_hmac : forall E E' a key key_size buffer size hmac hmac_size e s s', same_choices E E' -> same_layout s s' ->
  same_run (t_calculate_hmac E a key key_size buffer size hmac hmac_size e s) (t_calculate_hmac E' a key key_size buffer size hmac hmac_size e s').
Proof. exact equal_hmac. Qed.
Print Assumptions C44_hmac.

Theorem C44_context : forall E E' a context buffer size hash hash_size v e s s', same_choices E E' -> same_layout s s' ->
  same_run (t_initialize E a v e s) (t_initialize E' a v e s') /\
  same_run (t_update E a context buffer size e s) (t_update E' a context buffer size e s') /\
  same_run (t_finalize E a context hash hash_size e s) (t_finalize E' a context hash hash_size e s') /\
  same_run (t_free a v e s) (t_free a v e s').
Proof. exact equal_context_calls. Qed.
Print Assumptions C44_context.

(* the same memory with other bytes in it, and a machine on which new memory holds other bytes *)
Definition other_state : state :=
  mk_state (map (fun c => match content c with OBytes l => array (map (fun x => 255 - x) l) | _ => c end) demo_mem) 0 [] [].
Definition other_env (u p64 : bool) : env := mk_env u p64 (fun _ => true) (fun _ _ => 0) (fun _ _ => 77).
Example C44_layout_ex : same_choices (demo_env true true) (other_env true true) /\ same_layout demo_state other_state /\
  bytes_at demo_state (0%nat, 0) 3 <> bytes_at other_state (0%nat, 0) 3 /\ bytes_at demo_state (2%nat, 0) 20 <> bytes_at other_state (2%nat, 0) 20.
Proof.
  split; [repeat split|]. split; [split; [|reflexivity]; unfold demo_state, other_state, mem, demo_mem; cbn [map content array];
    repeat (apply Forall2_cons; [repeat split; symmetry; apply map_length|]); apply Forall2_nil|].
  split; vm_compute; discriminate.
Qed.
(* both runs are defined and return 1, with one block in 1948 events *)
Definition shape {A} (o : traced A) : option (nat * nat * A) := match o with TDone t r _ => Some (length t, blocks t, r) | TUndef => None end.
Example C44_calculate_ex :
  shape (t_calculate (demo_env false true) MD5 (Some (0%nat, 0)) 3 (Some (1%nat, 0)) 16 true demo_state) = 
  shape (t_calculate (other_env false true) MD5 (Some (0%nat, 0)) 3 (Some (1%nat, 0)) 16 true other_state) /\
  option_map (fun x => (snd (fst x), snd x)) (shape (t_calculate (demo_env false true) MD5 (Some (0%nat, 0)) 3 (Some (1%nat, 0)) 16 true demo_state)) = Some (1%nat, 1%Z).
Proof. split; vm_compute; reflexivity. Qed.

(* ---- the number of blocks is that of the padded message ---- *)

Theorem C44_blocks_calculate : forall E a buffer size hash hash_size e s t s',
  t_calculate E a buffer size hash hash_size e s = TDone t 1%Z s' -> N.of_nat (blocks t) = padded_blocks a size.
Proof. exact counted_calculate. Qed.
Print Assumptions C44_blocks_calculate.

(* one hash of the key when it is longer than a block, then the inner and the outer hash *)
Theorem C44_blocks_hmac : forall E a key key_size buffer size hmac hmac_size e s t s',
  t_calculate_hmac E a key key_size buffer size hmac hmac_size e s = TDone t 1%Z s' ->
  N.of_nat (blocks t) = (if key_size <=? block_size a then 0 else padded_blocks a key_size) +
    padded_blocks a (block_size a + size) + padded_blocks a (block_size a + digest_size a).
Proof. exact counted_hmac. Qed.
Print Assumptions C44_blocks_hmac.
Example C44_blocks_ex : padded_blocks MD5 55 = 1 /\ padded_blocks MD5 56 = 2 /\ padded_blocks MD5 64 = 2 /\
  padded_blocks SHA512 111 = 1 /\ padded_blocks SHA512 112 = 2 /\
  option_map (fun x => (snd (fst x), snd x)) (shape (t_calculate_hmac (demo_env true true) SHA256 (Some (4%nat, 0)) 131 (Some (5%nat, 0)) 54
    (Some (1%nat, 0)) 32 true demo_state)) = Some (7%nat, 1%Z).
Proof. repeat split; vm_compute; reflexivity. Qed.
