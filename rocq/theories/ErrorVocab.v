(* Vocabulary for C56 and C57: for which reason a call is refused, and what it then adds to the error object.
   The reasons are in the order in which they are reported when several hold. *)
From Coq Require Import NArith ZArith List Bool.
From Verif Require Import Words Spec Machine Vocab.
Import ListNotations.
Open Scope N_scope.

(* the entries for the first of the reasons that holds, if any *)
Inductive first_reason : list (Prop * list err) -> option (list err) -> Prop :=
| no_reason : first_reason [] None
| this_reason : forall (P : Prop) ks l, P -> first_reason ((P, ks) :: l) (Some ks)
| later_reason : forall (P : Prop) ks l o, ~ P -> first_reason l o -> first_reason ((P, ks) :: l) o.

(* the return value and the error object say so *)
Definition reported (e : bool) (o : option (list err)) (r : Z) (s s' : state) : Prop :=
  match o with
  | None => r = 1%Z /\ errs s' = errs s
  | Some ks => r = (-1)%Z /\ errs s' = errs s ++ (if e then ks else [])
  end.

(* each entry alone, or followed by that of the function that made the call *)
Definition alone (l : list (Prop * err)) : list (Prop * list err) := map (fun x => (fst x, [snd x])) l.
Definition followed_by (k : err) (l : list (Prop * err)) : list (Prop * list err) := map (fun x => (fst x, [snd x; k])) l.
(* the functions with the old names add an entry of their own *)
Definition named (old : bool) (k : err) (l : list (Prop * err)) : list (Prop * list err) := if old then followed_by k l else alone l.

Definition initialize_reasons (E : env) (v : option (option nat)) (t : nat) : list (Prop * err) :=
  [ (v = None, E_ARGUMENT_INVALID_VALUE);
    (v <> Some None, E_RUNTIME_VALUE_ALREADY_SET);
    (alloc_ok E t = false, E_MEMORY_INSUFFICIENT) ].
Definition free_reasons (v : option (option nat)) : list (Prop * err) := [ (v = None, E_ARGUMENT_INVALID_VALUE) ].
Definition input_reasons (E : env) (b : option ptr) (n : N) : list (Prop * err) :=
  [ (b = None, E_ARGUMENT_INVALID_VALUE); (ssize_max E < n, E_ARGUMENT_VALUE_EXCEEDS_MAXIMUM) ].
Definition output_reasons (E : env) (a : algid) (h : option ptr) (n : N) : list (Prop * err) :=
  [ (h = None, E_ARGUMENT_INVALID_VALUE); (n < digest_size a, E_ARGUMENT_VALUE_TOO_SMALL);
    (ssize_max E < n, E_ARGUMENT_VALUE_EXCEEDS_MAXIMUM) ].
Definition context_reason (p : option nat) : Prop * err := (p = None, E_ARGUMENT_INVALID_VALUE).

(* allocation number t fails: of an array, of a context *)
Definition no_array (E : env) (t : nat) : Prop * list err := (alloc_ok E t = false, [E_MEMORY_INSUFFICIENT]).
Definition no_context (E : env) (t : nat) : Prop * list err :=
  (alloc_ok E t = false, [E_MEMORY_INSUFFICIENT; E_RUNTIME_INITIALIZE_FAILED]).

Definition calculate_reasons (E : env) (a : algid) (b : option ptr) (n : N) (h : option ptr) (hn : N) (t : nat) : list (Prop * list err) :=
  no_context E t :: followed_by E_RUNTIME_SET_FAILED (input_reasons E b n) ++
  followed_by E_RUNTIME_FINALIZE_FAILED (output_reasons E a h hn).

(* a long key is hashed, with a context of its own *)
Definition hmac_reasons (E : env) (a : algid) (k : option ptr) (kn : N) (b : option ptr) (n : N) (h : option ptr) (hn : N) (t : nat)
  : list (Prop * list err) :=
  let t' := if block_size a <? kn then (t + 2)%nat else (t + 1)%nat in
  alone (input_reasons E k kn ++ [ (hn < digest_size a, E_ARGUMENT_VALUE_TOO_SMALL) ]) ++
  [ no_array E t; (block_size a < kn /\ alloc_ok E (t + 1) = false, [E_MEMORY_INSUFFICIENT; E_RUNTIME_INITIALIZE_FAILED]);
    no_array E t'; no_array E (t' + 1); no_context E (t' + 2) ] ++
  followed_by E_RUNTIME_SET_FAILED (input_reasons E b n) ++
  followed_by E_RUNTIME_FINALIZE_FAILED (output_reasons E a h hn) ++
  [ no_context E (t' + 3) ].

(* digest_hash_copy_to_string: the digest, then the text *)
Definition copy_reasons (E : env) (d : option ptr) (n : N) (t : option ptr) (size : N) : list (Prop * err) :=
  input_reasons E d n ++ input_reasons E t size ++ [ (size < 2 * n + 1, E_ARGUMENT_VALUE_TOO_SMALL) ].

(* the number of allocations an HMAC makes: three arrays and two contexts, and one context more to hash a long key *)
Definition hmac_allocations (a : algid) (kn : N) : nat := if block_size a <? kn then 6 else 5.

(* what one allocation can be: a context, or an array of one block *)
Definition small_cell (a : algid) (c : cell) : Prop :=
  match content c with OCtx b _ => b = a | OBytes l => N.of_nat (length l) = block_size a | OPtr _ => False end.
(* the cells made since s that malloc gave *)
Definition new_heap (s s' : state) : list cell :=
  filter (fun c => match knd c with Heap => true | Stack => false end) (skipn (length (mem s)) (mem s')).
