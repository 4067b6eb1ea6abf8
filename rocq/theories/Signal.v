(* Signals in hmacsum: hmactools_signal.c, hmacsum_signal_handler and the order of the statements of main.

   The handler can run between any two steps of the program.  Of the state there is what the handler looks at and what decides
   where main goes: the work of the calls is a result that is given.  SumHandle.v has their work, with at most one signal that is
   noticed at the places where the flag is read.  After the options were read; POSIX build; signal() keeps the handler
   after it ran (BSD semantics).  The compiler keeps the order of accesses to hmacsum_abort and hmacsum_sum_handle. *)
From Coq Require Import Arith NArith ZArith List Bool.
Import ListNotations.

(* hmacsum_sum_handle: NULL, a handle, or the address of a handle that was freed *)
Inductive handle_var : Type := H_null | H_live | H_freed.

(* where main is: before the statement of that name.  P_free and E_free are memory_free in sum_handle_free, P_clear and E_clear the
   assignment after it; E: the call of sum_handle_free after on_error. *)
Inductive place : Type :=
| P_locale | P_output | P_initialize | P_size | P_digests | P_attach | P_open | P_test_open | P_process | P_test_process
| P_print | P_close | P_detach | P_parts | P_free | P_clear | P_test_end
| E_test | E_parts | E_free | E_clear.

(* what the calls return; for those with several results, whether main goes on *)
Record results : Type := mk_results {
  r_locale : bool; r_output : bool; r_initialize : bool; r_size : bool; r_digests : bool;
  r_attach : bool;               (* signal() did not return SIG_ERR *)
  r_open : bool; r_process : bool; r_print : bool; r_close : bool;
  r_detach : bool;               (* signal() did not return SIG_ERR *)
  r_parts : bool;                (* the parts of the handle were freed without error *)
}.

Record sigstate : Type := mk_sig {
  at_place : place;
  attached : bool;               (* the disposition of SIGINT is hmacsum_signal_handler, not SIG_DFL *)
  abort_flag : bool;             (* hmacsum_abort *)
  the_handle : handle_var;       (* hmacsum_sum_handle *)
  handle_abort : bool;           (* sum_handle->abort *)
  stdin_open : bool;
}.
Definition goto (p : place) (s : sigstate) : sigstate :=
  mk_sig p (attached s) (abort_flag s) (the_handle s) (handle_abort s) (stdin_open s).
Definition set_attached (b : bool) (s : sigstate) : sigstate :=
  mk_sig (at_place s) b (abort_flag s) (the_handle s) (handle_abort s) (stdin_open s).
Definition set_handle (h : handle_var) (s : sigstate) : sigstate :=
  mk_sig (at_place s) (attached s) (abort_flag s) h (handle_abort s) (stdin_open s).

(* the process: it runs, it was ended by the default action of the signal, main returned, or freed memory was accessed *)
Inductive process : Type := Running (s : sigstate) | Killed | Exited (code : Z) (s : sigstate) | Undefined.

(* hmacsum.c:85-123 hmacsum_signal_handler with sum_handle.c:300-320 sum_handle_signal_abort; or the default action *)
Definition deliver (s : sigstate) : process :=
  if attached s then
    match the_handle s with
    | H_null => Running (mk_sig (at_place s) true true H_null (handle_abort s) false)
    | H_live => Running (mk_sig (at_place s) true true H_live true false)
    | H_freed => Undefined
    end
  else Killed.

Section Main.
  Variable R : results.

  (* one step of main, hmacsum.c:148-402.  EXIT_SUCCESS is 0, EXIT_FAILURE 1. *)
  Definition step (s : sigstate) : process :=
    let go (p : place) := Running (goto p s) in
    let on_error := go E_test in
    match at_place s with
    | P_locale => if r_locale R then go P_output else on_error                    (* 148-157 *)
    | P_output => if r_output R then go P_initialize else on_error                (* 158-167; hmactools_output.c:49-101 *)
    | P_initialize =>                                                             (* 235-244; sum_handle.c:49-147 *)
        if r_initialize R then Running (goto P_size (set_handle H_live s)) else on_error
    | P_size => if r_size R then go P_digests else on_error                       (* 245-270 *)
    | P_digests => if r_digests R then go P_attach else on_error                  (* 271-285 *)
    | P_attach => Running (goto P_open (if r_attach R then set_attached true s else s))   (* 286-298; hmactools_signal.c:204-235 *)
    | P_open => go P_test_open                                                    (* 299-302 *)
    | P_test_open => if abort_flag s then go P_close                              (* 304-307 *)
                     else if r_open R then go P_process else on_error             (* 308-315 *)
    | P_process => go P_test_process                                              (* 316-318 *)
    | P_test_process => if abort_flag s then go P_close                           (* 320-323 *)
                        else if r_process R then go P_print else on_error         (* 324-331 *)
    | P_print => if r_print R then go P_close else on_error                       (* 332-342 *)
    | P_close => if r_close R then go P_detach else on_error                      (* 344-353 *)
    | P_detach => Running (goto P_parts (if r_detach R then set_attached false s else s)) (* 354-365; hmactools_signal.c:240-259 *)
    | P_parts => go P_free                                                        (* sum_handle.c:171-288 *)
    | P_free => match the_handle s with                                           (* sum_handle.c:289-290 *)
                | H_live => Running (goto P_clear (set_handle H_freed s))
                | _ => Undefined
                end
    | P_clear => let s := set_handle H_null s in                                  (* sum_handle.c:292; hmacsum.c:366-375 *)
                 Running (goto (if r_parts R then P_test_end else E_test) s)
    | P_test_end => Exited (if abort_flag s then 1 else 0) s                      (* 376-385 *)
    | E_test => match the_handle s with                                               (* 395 *)
                | H_null => Exited 1 s                                            (* 401 *)
                | _ => go E_parts
                end
    | E_parts => go E_free
    | E_free => match the_handle s with
                | H_live => Running (goto E_clear (set_handle H_freed s))
                | _ => Undefined
                end
    | E_clear => Exited 1 (set_handle H_null s)
    end.

  (* an execution: steps of main, and signals between them *)
  Inductive happens : process -> process -> Prop :=
  | happens_step : forall s, happens (Running s) (step s)
  | happens_signal : forall s, happens (Running s) (deliver s).
  Inductive reached : process -> Prop :=
  | reached_start : reached (Running (mk_sig P_locale false false H_null false true))     (* hmacsum.c:54-55 *)
  | reached_next : forall c d, reached c -> happens c d -> reached d.
End Main.
