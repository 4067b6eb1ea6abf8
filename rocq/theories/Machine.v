(* Machine state of the model: memory objects, allocation, error reporting.

   Memory is a list of cells; a pointer is a cell number and a byte offset.
   A cell is never reused and a freed cell keeps its last contents, so what a
   function leaves behind in freed memory remains visible.  Every access is
   checked; an access outside an object, to a freed object or to an object of
   another type makes the whole run [Undef]. *)
From Coq Require Import Arith NArith ZArith List Bool.
From Verif Require Import Words.
Import ListNotations.
Open Scope N_scope.

Inductive algid : Type := MD5 | SHA1 | SHA224 | SHA256 | SHA512.

Definition algid_eqb (a b : algid) : bool :=
  match a, b with
  | MD5, MD5 | SHA1, SHA1 | SHA224, SHA224 | SHA256, SHA256 | SHA512, SHA512 => true
  | _, _ => false
  end.

(* libhmac_X_context.h struct libhmac_internal_X_context, the fallback members
   (md5:72-86, sha1:72-86, sha224/256/512 the same lines): hash_count (uint64_t), hash_values,
   block_offset (size_t), block[ 2 * BLOCK_SIZE ].  Structure padding bytes are
   not represented. *)
Record ctx : Type := mk_ctx {
  c_count : N;
  c_hash : list N;
  c_boff : N;
  c_block : list N;
}.

Inductive obj : Type :=
| OBytes (l : list N)               (* an array of uint8_t *)
| OCtx (a : algid) (c : ctx)        (* a context structure *)
| OPtr (p : option nat).            (* a structure with a pointer to another object *)

Inductive kind : Type := Heap | Stack.

Record cell : Type := mk_cell { live : bool; knd : kind; content : obj }.

(* libcerror_definitions.h error domains and codes used by libhmac and hmactools *)
Inductive err : Type :=
| E_ARGUMENT_INVALID_VALUE
| E_ARGUMENT_VALUE_EXCEEDS_MAXIMUM
| E_ARGUMENT_VALUE_TOO_SMALL
| E_MEMORY_INSUFFICIENT
| E_RUNTIME_VALUE_ALREADY_SET
| E_RUNTIME_VALUE_OUT_OF_BOUNDS
| E_RUNTIME_INITIALIZE_FAILED
| E_RUNTIME_SET_FAILED
| E_RUNTIME_FINALIZE_FAILED
| E_ARGUMENT_VALUE_OUT_OF_BOUNDS
| E_RUNTIME_GET_FAILED
| E_RUNTIME_UNSUPPORTED_VALUE
| E_RUNTIME_VALUE_MISSING
| E_RUNTIME_GENERIC
| E_IO_OPEN_FAILED
| E_IO_CLOSE_FAILED
| E_IO_READ_FAILED.

(* What the local arrays of a transform call held when it returned. *)
Record frame : Type := mk_frame { f_hash_values : list N; f_values : list N }.

Record state : Type := mk_state {
  mem : list cell;
  tries : nat;            (* number of allocation attempts made so far *)
  errs : list err;        (* entries of the caller's error object, oldest first *)
  resid : list frame;     (* ghost: stack residue of the transform calls so far *)
}.

(* Everything the code does not control. *)
Record env : Type := mk_env {
  unrolled : bool;             (* LIBHMAC_UNFOLLED_LOOPS, libhmac_definitions.h.in:53 *)
  plat64 : bool;               (* size_t and ssize_t have 64 (true) or 32 (false) bits *)
  alloc_ok : nat -> bool;      (* does the n-th allocation attempt succeed *)
  junk : nat -> nat -> N;      (* initial contents of memory cell i, position j *)
  stack_junk : nat -> nat -> N;(* initial contents of the local arrays of the i-th transform call *)
}.

Definition ssize_max (E : env) : N := if plat64 E then 2 ^ 63 - 1 else 2 ^ 31 - 1.
Definition size_mod (E : env) : N := if plat64 E then 2 ^ 64 else 2 ^ 32.

Inductive outcome (A : Type) : Type :=
| Done (a : A) (s : state)
| Undef.
Arguments Done {A}. Arguments Undef {A}.

Definition M (A : Type) : Type := state -> outcome A.
Definition ret {A} (a : A) : M A := fun s => Done a s.
Definition undef {A} : M A := fun _ => Undef.
Definition bind {A B} (m : M A) (f : A -> M B) : M B :=
  fun s => match m s with Done a s' => f a s' | Undef => Undef end.

Notation "x <- m ;; k" := (bind m (fun x => k)) (at level 61, m at next level, right associativity).
Notation "m ;;; k" := (bind m (fun _ => k)) (at level 61, right associativity).

(* A partial computation without effect; None is undefined behaviour. *)
Definition lift {A} (o : option A) : M A :=
  match o with Some a => ret a | None => undef end.

(* libcerror_error_set: adds an entry to the error object when the caller gave a
   place for one (error != NULL).  libcerror itself is outside the model; its own
   allocations are assumed to succeed. *)
Definition error_set (e : bool) (k : err) : M unit :=
  fun s => Done tt (mk_state (mem s) (tries s) (if e then errs s ++ [k] else errs s) (resid s)).

(* libcerror_error_set(...); return( -1 ); *)
Definition fail (e : bool) (k : err) : M Z := error_set e k ;;; ret (-1)%Z.

Definition set_mem (m : list cell) (s : state) : state := mk_state m (tries s) (errs s) (resid s).

Fixpoint replace {A} (l : list A) (i : nat) (v : A) : list A :=
  match l, i with
  | [], _ => []
  | _ :: t, O => v :: t
  | x :: t, S j => x :: replace t j v
  end.

(* the contents of a live cell *)
Definition get_obj (s : state) (p : nat) : option obj :=
  match nth_error (mem s) p with
  | Some c => if live c then Some (content c) else None
  | None => None
  end.

(* store into a live cell *)
Definition put_obj (p : nat) (o : obj) (s : state) : option state :=
  match nth_error (mem s) p with
  | Some c => if live c then Some (set_mem (replace (mem s) p (mk_cell true (knd c) o)) s) else None
  | None => None
  end.

(* common/memory.h:51-63 memory_allocate / memory_allocate_structure (malloc) *)
Definition allocate (o : obj) (E : env) : M (option nat) :=
  fun s =>
    if alloc_ok E (tries s)
    then Done (Some (length (mem s)))
              (mk_state (mem s ++ [mk_cell true Heap o]) (S (tries s)) (errs s) (resid s))
    else Done None (mk_state (mem s) (S (tries s)) (errs s) (resid s)).

(* common/memory.h:91-99 memory_free (free): only for live heap cells *)
Definition mfree (p : nat) : M unit :=
  fun s =>
    match nth_error (mem s) p with
    | Some (mk_cell true Heap o) => Done tt (set_mem (replace (mem s) p (mk_cell false Heap o)) s)
    | _ => Undef
    end.

(* entering and leaving a block with a local array *)
Definition push_local (o : obj) : M nat :=
  fun s => Done (length (mem s)) (set_mem (mem s ++ [mk_cell true Stack o]) s).
Definition pop_local (p : nat) : M unit :=
  fun s =>
    match nth_error (mem s) p with
    | Some (mk_cell true Stack o) => Done tt (set_mem (replace (mem s) p (mk_cell false Stack o)) s)
    | _ => Undef
    end.

Definition ptr : Type := (nat * N)%type.
Definition ptr_add (p : ptr) (k : N) : ptr := (fst p, snd p + k).

(* the bytes from a pointer to the end of the array it points into *)
Definition view (p : ptr) : M (list N) :=
  fun s => match get_obj s (fst p) with
           | Some (OBytes l) => if snd p <=? N.of_nat (length l)
                                then Done (skipn (N.to_nat (snd p)) l) s else Undef
           | _ => Undef
           end.

(* the first n of these bytes *)
Definition take (n : N) (l : list N) : option (list N) :=
  if n <=? N.of_nat (length l) then Some (firstn (N.to_nat n) l) else None.

(* overwrite part of an array *)
Definition splice (l : list N) (off : N) (d : list N) : option (list N) :=
  if off + N.of_nat (length d) <=? N.of_nat (length l)
  then Some (firstn (N.to_nat off) l ++ d ++ skipn (N.to_nat off + length d) l)
  else None.

Definition write (p : ptr) (d : list N) : M unit :=
  fun s => match get_obj s (fst p) with
           | Some (OBytes l) =>
               match splice l (snd p) d with
               | Some l' => match put_obj (fst p) (OBytes l') s with
                            | Some s' => Done tt s' | None => Undef end
               | None => Undef
               end
           | _ => Undef
           end.

(* common/memory.h:120-121 memory_set (memset); the result is never NULL because the destination is not *)
Definition mset (p : ptr) (v n : N) : M unit := write p (repeat v (N.to_nat n)).

(* do [n] bytes at p and q lie in disjoint places *)
Definition disjoint_ranges (p q : ptr) (n : N) : bool :=
  negb (Nat.eqb (fst p) (fst q)) || (snd p + n <=? snd q) || (snd q + n <=? snd p).

(* common/memory.h:113-114 memory_copy (memcpy): overlapping operands are undefined *)
Definition mcopy (dst src : ptr) (n : N) : M unit :=
  if disjoint_ranges dst src n
  then v <- view src ;; d <- lift (take n v) ;; write dst d
  else undef.

Definition read_byte (p : ptr) : M N := v <- view p ;; lift (nth_error v 0).
Definition write_byte (p : ptr) (b : N) : M unit := write p [b].

(* access to a context structure through its pointer *)
Definition load_ctx (a : algid) (p : nat) : M ctx :=
  fun s => match get_obj s p with
           | Some (OCtx a' c) => if algid_eqb a a' then Done c s else Undef
           | _ => Undef
           end.
Definition store_ctx (a : algid) (p : nat) (c : ctx) : M unit :=
  fun s => match get_obj s p with
           | Some (OCtx a' _) =>
               if algid_eqb a a'
               then match put_obj p (OCtx a c) s with Some s' => Done tt s' | None => Undef end
               else Undef
           | _ => Undef
           end.

Definition log_frame (f : frame) : M unit :=
  fun s => Done tt (mk_state (mem s) (tries s) (errs s) (resid s ++ [f])).

Fixpoint mfold {A B} (f : A -> B -> M A) (l : list B) (a : A) : M A :=
  match l with
  | [] => ret a
  | b :: t => a' <- f a b ;; mfold f t a'
  end.
