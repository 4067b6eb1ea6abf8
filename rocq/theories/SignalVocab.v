(* What is said about signals in hmacsum.  No proofs. *)
From Coq Require Import Arith ZArith List Bool.
From Verif Require Import Signal.

(* every call of main does its work; attaching and detaching the handler aside *)
Definition all_calls_work (R : results) : Prop :=
  r_locale R = true /\ r_output R = true /\ r_initialize R = true /\ r_size R = true /\ r_digests R = true /\
  r_open R = true /\ r_process R = true /\ r_print R = true /\ r_close R = true /\ r_parts R = true.

(* an execution in which n signals came so far *)
Inductive reached_by (R : results) : nat -> process -> Prop :=
| by_start : reached_by R 0 (Running (mk_sig P_locale false false H_null false true))
| by_step : forall n s, reached_by R n (Running s) -> reached_by R n (step R s)
| by_signal : forall n s, reached_by R n (Running s) -> reached_by R (S n) (deliver s).
