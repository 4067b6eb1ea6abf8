(* Property C54: signals in hmacsum, at any moment.  The model is in Signal.v. *)
From Coq Require Import Arith NArith ZArith List Bool.
From Verif Require Import Signal SignalVocab SignalFacts.
Import ListNotations.

(* Full statement: no signal makes hmacsum access the handle after it was freed.  Missing: runs with an error after the handler was
   attached, and runs in which it cannot be detached; there it is false (C54_refuted). *)
Theorem C54_safe_partial : forall R c, r_attach R = false \/
  (r_open R = true /\ r_process R = true /\ r_print R = true /\ r_close R = true /\ r_detach R = true) ->
  reached R c -> c <> Undefined.
Proof. exact signals_safe. Qed.
Print Assumptions C54_safe_partial.

(* The only way to get there: a signal between the release of the handle and the assignment of NULL to hmacsum_sum_handle, after an
   error or with the handler still attached. *)
Theorem C54_window : forall R, reached R Undefined ->
  exists s, reached R (Running s) /\ attached s = true /\ the_handle s = H_freed /\
  ((at_place s = P_clear /\ r_detach R = false) \/
   (at_place s = E_clear /\ (r_open R = false \/ r_process R = false \/ r_print R = false \/ r_close R = false))).
Proof. exact undefined_window. Qed.
Print Assumptions C54_window.

Theorem C54_refuted : (exists R, r_detach R = true /\ r_open R = false /\ reached R Undefined) /\
  (exists R, all_calls_work R /\ r_attach R = true /\ r_detach R = false /\ reached R Undefined).
Proof. exact signals_unsafe. Qed.
Print Assumptions C54_refuted.

(* When main returns the handle was released and is forgotten; the exit code is EXIT_SUCCESS exactly if every call worked and no
   signal came. *)
Theorem C54_exit : forall R n code s, reached_by R n (Exited code s) ->
  the_handle s = H_null /\ (code = 0%Z \/ code = 1%Z) /\ (code = 0%Z <-> all_calls_work R /\ n = 0%nat).
Proof. exact counted_exit. Qed.
Print Assumptions C54_exit.

(* After a signal that was handled, the handle knows of it as long as it exists: this is what stops sum_handle_process_input. *)
Theorem C54_noticed : forall R s, reached R (Running s) -> abort_flag s = true -> the_handle s = H_live -> handle_abort s = true.
Proof. exact abort_noticed. Qed.
Print Assumptions C54_noticed.

(* The handler closes the standard input, so that a read from it ends; nothing else does. *)
Theorem C54_input_closed : forall R n s, reached_by R n (Running s) -> (stdin_open s = true <-> n = 0%nat).
Proof. exact (fun R n s H => stdin_closed R n _ H s (or_introl eq_refl)). Qed.
Print Assumptions C54_input_closed.

(* Once the handler is attached no signal kills the process, not the second one either, until it is detached; the statements after an
   error aside, which may be reached without the handler. *)
Theorem C54_not_killed : forall R s, reached R (Running s) -> r_attach R = true ->
  ~ In (at_place s) [P_locale; P_output; P_initialize; P_size; P_digests; P_attach; E_test; E_parts; E_free; E_clear] ->
  (In (at_place s) [P_parts; P_free; P_clear; P_test_end] -> r_detach R = false) -> deliver s <> Killed.
Proof. exact not_killed. Qed.
Print Assumptions C54_not_killed.

(* a run with a signal before the input is processed, and one with a signal after the handler was detached *)
Definition all_work : results := mk_results true true true true true true true true true true true true.
Definition start : process := Running (mk_sig P_locale false false H_null false true).
Definition signal_after (n : nat) : process := match steps all_work n start with Running s => deliver s | c => c end.
Example C54_example :
  all_calls_work all_work /\
  signal_after 8 = Running (mk_sig P_process true true H_live true false) /\
  reached all_work (signal_after 8) /\
  steps all_work 20 (signal_after 8) = Exited 1 (mk_sig P_test_end false true H_null true false) /\
  steps all_work 20 start = Exited 0 (mk_sig P_test_end false false H_null false true) /\
  signal_after 15 = Killed /\ signal_after 2 = Killed.
Proof.
  split; [unfold all_calls_work; cbn; intuition|]. split; [vm_compute; reflexivity|]. split.
  - change (signal_after 8) with (deliver (mk_sig P_process true false H_live false true)).
    apply (reached_next all_work (Running (mk_sig P_process true false H_live false true))); [|constructor].
    replace (Running (mk_sig P_process true false H_live false true)) with (steps all_work 8 start) by (vm_compute; reflexivity).
    apply reached_steps, reached_start.
  - vm_compute. repeat split.
Qed.
(* every execution has such a number *)
Example C54_counted : forall R c, reached R c <-> exists n, reached_by R n c.
Proof. intros R c. split; [apply reached_counted|intros (n & H); exact (by_reached R n c H)]. Qed.
