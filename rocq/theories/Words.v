(* C unsigned integer operations used by the modelled code, on N.
   [w] is the width in bits of the C type; results are reduced explicitly. *)
From Coq Require Import Arith NArith List.
Import ListNotations.
Open Scope N_scope.

(* a + b on a w-bit unsigned type: wraps modulo 2^w (C11 6.2.5p9).
   Constants written with the UL suffix make some sums wider before they are
   stored back into a uint32_t; the final truncation gives the same value. *)
Definition uadd (w a b : N) : N := (a + b) mod 2 ^ w.

(* a - b on an unsigned type with modulus m, for a, b < m *)
Definition usub (m a b : N) : N := (a + (m - b)) mod m.

(* ~a on a w-bit unsigned type *)
Definition unot (w a : N) : N := N.lxor a (N.ones w).

(* a << n and a >> n on a w-bit unsigned type *)
Definition ushl (w a n : N) : N := N.shiftl a n mod 2 ^ w.
Definition ushr (a n : N) : N := N.shiftr a n.

(* common/byte_stream.h:234-235 and 240-241 byte_stream_bit_rotate_left_{32,64}bit *)
Definition rotl (w x n : N) : N := N.lor (ushl w x n) (ushr x (w - n)).

(* common/byte_stream.h:237-238 and 243-244 byte_stream_bit_rotate_right_{32,64}bit *)
Definition rotr (w x n : N) : N := N.lor (ushr x n) (ushl w x (w - n)).

(* Reads of a C array: None is an access outside the array. *)
Definition aget {A} (l : list A) (i : nat) : option A := nth_error l i.

Fixpoint aset {A} (l : list A) (i : nat) (v : A) : option (list A) :=
  match l, i with
  | [], _ => None
  | _ :: t, O => Some (v :: t)
  | x :: t, S j => match aset t j v with Some t' => Some (x :: t') | None => None end
  end.

(* Sequencing of steps which may leave the arrays they work on. *)
Definition obind {A B} (x : option A) (f : A -> option B) : option B :=
  match x with Some a => f a | None => None end.

Notation "x <-? a ; b" := (obind a (fun x => b)) (at level 61, a at next level, right associativity).

Fixpoint ofold {A B} (f : A -> B -> option A) (l : list B) (a : A) : option A :=
  match l with
  | [] => Some a
  | b :: t => a' <-? f a b; ofold f t a'
  end.
