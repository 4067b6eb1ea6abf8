(* Vocabulary for C58: for which reason a function of the sum handle fails, and what it then adds to the error object.
   As in ErrorVocab.v the reasons are in the order in which they are reported; t is the number of allocations so far. *)
From Coq Require Import NArith ZArith List Bool.
From Verif Require Import Words Spec Machine Vocab ErrorVocab SumHandle SumVocab.
Import ListNotations.
Open Scope N_scope.

(* as [reported], for a function that returns ok when it succeeds *)
Definition reported_as (ok : Z) (e : bool) (o : option (list err)) (r : Z) (s s' : state) : Prop :=
  match o with
  | None => r = ok /\ errs s' = errs s
  | Some ks => r = (-1)%Z /\ errs s' = errs s ++ (if e then ks else [])
  end.

Definition no_handle (h : option handle) : Prop * list err := (h = None, [E_ARGUMENT_INVALID_VALUE]).

Definition handle_reasons (E : env) (v : option (option handle)) (t : nat) : list (Prop * list err) :=
  [ (v = None, [E_ARGUMENT_INVALID_VALUE]);
    (v <> Some None, [E_RUNTIME_VALUE_ALREADY_SET]);
    (alloc_ok E t = false, [E_MEMORY_INSUFFICIENT]);
    (alloc_ok E (t + 1) = false, [E_RUNTIME_INITIALIZE_FAILED]);
    (alloc_ok E (t + 2) = false, [E_MEMORY_INSUFFICIENT]) ].

Definition read_reasons (E : env) (W : input) (k : nat) (h : option handle) (b : option ptr) (n : N) : list (Prop * list err) :=
  [ no_handle h; (b = None, [E_ARGUMENT_INVALID_VALUE]); (ssize_max E < n, [E_ARGUMENT_VALUE_OUT_OF_BOUNDS]);
    (in_read W k = None, [E_IO_READ_FAILED]) ].

(* the digests that are selected, in the order in which they are worked on *)
Definition selected (h : handle) : list algid := filter (fun a => calculate (slots h a)) [MD5; SHA1; SHA224; SHA256; SHA512].

(* a context for each of the digests l *)
Fixpoint context_reasons (E : env) (h : handle) (l : list algid) (t : nat) : list (Prop * list err) :=
  match l with
  | [] => []
  | a :: l =>
      (context (slots h a) <> None, [E_RUNTIME_VALUE_ALREADY_SET; E_RUNTIME_INITIALIZE_FAILED; E_RUNTIME_INITIALIZE_FAILED]) ::
      (alloc_ok E t = false, [E_MEMORY_INSUFFICIENT; E_RUNTIME_INITIALIZE_FAILED; E_RUNTIME_INITIALIZE_FAILED]) ::
      context_reasons E h l (S t)
  end.

(* processing an input with k reads: the process buffer, the contexts, then a read that fails and one that gives nothing *)
Definition process_reasons (E : env) (W : input) (h : handle) (k t : nat) : list (Prop * list err) :=
  [ (process_buffer_size h = 0 \/ ssize_max E < process_buffer_size h, [E_ARGUMENT_VALUE_OUT_OF_BOUNDS]);
    (in_size W = None, [E_RUNTIME_GET_FAILED]); no_array E t ] ++
  context_reasons E h (selected h) (S t) ++
  [ (exists j, (j < k)%nat /\ in_read W j = None, [E_IO_READ_FAILED; E_IO_READ_FAILED]);
    (exists j n, (j < k)%nat /\ in_size W = Some n /\
      position W (process_buffer_size h) n (S j) = position W (process_buffer_size h) n j, [E_IO_READ_FAILED]) ].

(* a string for each of the digests l *)
Fixpoint string_reasons (E : env) (l : list algid) (t : nat) : list (Prop * list err) :=
  match l with
  | [] => []
  | a :: l => no_array E t :: string_reasons E l (S t)
  end.

(* choosing the digests xs; l are those of them that were not chosen before *)
Definition types_reasons (E : env) (split : option (list (option (list N)))) (l : list algid) (t : nat) : list (Prop * list err) :=
  [ (split = None, [E_RUNTIME_INITIALIZE_FAILED]); (alloc_ok E t = false, [E_RUNTIME_INITIALIZE_FAILED]);
    (exists segs, split = Some segs /\ In None segs, [E_RUNTIME_VALUE_MISSING]) ] ++ string_reasons E l (S t).

(* l are the digests that [split] names and that are not selected yet *)
Definition newly_named (h : handle) (split : option (list (option (list N)))) (l : list algid) : Prop :=
  (exists p, l = filter p [MD5; SHA1; SHA224; SHA256; SHA512]) /\
  forall a, In a l <-> calculate (slots h a) = false /\ exists segs x, split = Some segs /\ In (Some x) segs /\ is_name a x.

(* the handle's contexts and strings are there or NULL *)
Definition slots_there (s : state) (h : option handle) : Prop :=
  forall x a, h = Some x -> ctx_arg s a (context (slots x a)) /\
    arg s (option_map (fun q => (q, 0)) (hash_string (slots x a))) (2 * digest_size a + 1).

(* preparing, feeding and ending the digests of a handle by calls of their own *)
Definition prepare_reasons (E : env) (h : option handle) (t : nat) : list (Prop * list err) :=
  no_handle h :: match h with
                 | None => []
                 | Some x => map (fun z => (fst z, removelast (snd z))) (context_reasons E x (selected x) t)
                 end.
Definition feed_reasons (E : env) (h : option handle) (b : option ptr) (n : N) : list (Prop * list err) :=
  no_handle h :: (b = None, [E_ARGUMENT_INVALID_VALUE]) :: (n = 0 \/ ssize_max E < n, [E_ARGUMENT_VALUE_OUT_OF_BOUNDS]) ::
  match h with
  | None => []
  | Some x => map (fun a => (context (slots x a) = None, [E_ARGUMENT_INVALID_VALUE; E_RUNTIME_SET_FAILED])) (selected x)
  end.
Definition end_reasons (h : option handle) : list (Prop * list err) :=
  no_handle h ::
  match h with
  | None => []
  | Some x => flat_map (fun a => [ (hash_string (slots x a) = None, [E_RUNTIME_VALUE_MISSING]);
                                   (context (slots x a) = None, [E_ARGUMENT_INVALID_VALUE; E_RUNTIME_FINALIZE_FAILED]) ]) (selected x)
  end.
