(* Threads that use contexts at the same time: pyhmac_X_context_update and pyhmac_X_context_finalize release the interpreter
   lock around the library call (pyhmac_md5_context.c:398-406 and 452-460), so that library calls of several threads overlap.

   A call is a tree of accesses to the context.  What a thread does between two accesses concerns only its local variables;
   threads take turns access by access.  This is the mildest reading of such a program: in C, accesses of two threads to the
   same member of which one is a write are undefined behaviour without more ado.  Simplifications, all of which leave out
   interleavings: one memory_copy, one call of transform and one call of finalize are single accesses. *)
From Coq Require Import Arith NArith ZArith List Bool.
From Verif Require Import Words Machine Context.
Import ListNotations.
Open Scope N_scope.

Inductive proc (A : Type) : Type :=
| Return (a : A)
| Do (B : Type) (act : M B) (k : B -> proc A).
Arguments Return {A}. Arguments Do {A B}.

(* one call after the other *)
Fixpoint andthen {A B} (m : proc A) (f : A -> proc B) : proc B :=
  match m with
  | Return a => f a
  | Do act k => Do act (fun b => andthen (k b) f)
  end.

(* without other threads *)
Fixpoint run_proc {A} (m : proc A) : M A :=
  match m with
  | Return a => ret a
  | Do act k => b <- act ;; run_proc (k b)
  end.

Section WithEnv.
  Variable E : env.

  (* internal_context->block_offset; also for hash_count *)
  Definition read_boff (a : algid) (p : nat) : M N := c <- load_ctx a p ;; ret (c_boff c).
  Definition write_boff (a : algid) (p : nat) (v : N) : M unit :=
    c <- load_ctx a p ;; store_ctx a p (mk_ctx (c_count c) (c_hash c) v (c_block c)).
  Definition read_count (a : algid) (p : nat) : M N := c <- load_ctx a p ;; ret (c_count c).
  Definition write_count (a : algid) (p : nat) (v : N) : M unit :=
    c <- load_ctx a p ;; store_ctx a p (mk_ctx v (c_hash c) (c_boff c) (c_block c)).
  (* memory_copy( &( internal_context->block[ at ] ), &( buffer[ off ] ), n ) *)
  Definition copy_in (a : algid) (p : nat) (at_ : N) (bp : ptr) (off n : N) : M unit :=
    c <- load_ctx a p ;;
    buf <- view bp ;;
    d <- lift (take n (skipn (N.to_nat off) buf)) ;;
    block <- lift (splice (c_block c) at_ d) ;;
    store_ctx a p (mk_ctx (c_count c) (c_hash c) (c_boff c) block).
  (* libhmac_X_context_transform( internal_context, internal_context->block, BLOCK_SIZE, error ) *)
  Definition transform_block (a : algid) (p : nat) (e : bool) : M Z :=
    c <- load_ctx a p ;; transform E a (Some p) (Some (c_block c)) (a_bs (alg_of a)) e.
  (* libhmac_X_context_transform( internal_context, &( buffer[ off ] ), size, error ) *)
  Definition transform_buffer (a : algid) (p : nat) (bp : ptr) (off size : N) (e : bool) : M Z :=
    buf <- view bp ;; transform E a (Some p) (Some (skipn (N.to_nat off) buf)) size e.

  (* md5 918-971 and the same lines as update_tail in Context.v *)
  Definition update_tail_proc (a : algid) (p : nat) (bp : ptr) (buffer_offset size : N) (e : bool) : proc Z :=
    let A := alg_of a in
    let rest (buffer_offset size : N) : proc Z :=
      if 0 <? size then                                                            (* 942 *)
        if a_bs A <=? size then Do (fail e E_RUNTIME_VALUE_OUT_OF_BOUNDS) Return   (* 944-954 *)
        else
          Do (copy_in a p 0 bp buffer_offset size) (fun _ =>                       (* 955-958 *)
          Do (write_boff a p size) (fun _ =>                                       (* 969 *)
          Return 1%Z))
      else Return 1%Z in
    if 0 <? size then                                                              (* 918 *)
      Do (transform_buffer a p bp buffer_offset size e) (fun process_count =>      (* 920-924 *)
      if (process_count =? -1)%Z then Do (fail e E_RUNTIME_SET_FAILED) Return      (* 926-936 *)
      else
        let n := Z.to_N (process_count mod 2 ^ 64) in
        Do (read_count a p) (fun count =>                                          (* 937 *)
        Do (write_count a p (uadd 64 count n)) (fun _ =>
        rest ((buffer_offset + n) mod size_mod E) (usub (size_mod E) size (n mod size_mod E)))))
    else rest buffer_offset size.

  (* libhmac_X_context_update, access by access: md5 805-972, sha1 878-1045, sha224/256 837-1004, sha512 873-1040;
     line numbers are those of md5 *)
  Definition update_proc (a : algid) (context : option nat) (buffer : option ptr) (size : N) (e : bool) : proc Z :=
    let A := alg_of a in
    match context with
    | None => Do (fail e E_ARGUMENT_INVALID_VALUE) Return
    | Some p =>
        match buffer with
        | None => Do (fail e E_ARGUMENT_INVALID_VALUE) Return
        | Some bp =>
            if ssize_max E <? size then Do (fail e E_ARGUMENT_VALUE_EXCEEDS_MAXIMUM) Return
            else if size =? 0 then Return 1%Z
            else
              Do (read_boff a p) (fun boff =>                                      (* 856 *)
              if 0 <? boff then
                Do (read_boff a p) (fun boff =>                                    (* 858 *)
                if a_bs A <=? boff then Do (fail e E_RUNTIME_VALUE_OUT_OF_BOUNDS) Return
                else
                  Do (read_boff a p) (fun boff =>                                  (* 869 *)
                  let remaining := usub (size_mod E) (a_bs A) boff in
                  let remaining := if size <? remaining then size else remaining in
                  Do (read_boff a p) (fun boff =>                                  (* 876 *)
                  Do (copy_in a p boff bp 0 remaining) (fun _ =>                   (* 875-878 *)
                  Do (read_boff a p) (fun boff =>                                  (* 889 *)
                  Do (write_boff a p ((boff + remaining) mod size_mod E)) (fun _ =>
                  Do (read_boff a p) (fun boff =>                                  (* 891 *)
                  if boff <? a_bs A then Return 1%Z
                  else
                    let size := size - remaining in                                (* 896 *)
                    Do (transform_block a p e) (fun process_count =>               (* 898-902 *)
                    if (process_count =? -1)%Z then Do (fail e E_RUNTIME_SET_FAILED) Return
                    else
                      let n := Z.to_N (process_count mod 2 ^ 64) in
                      Do (read_count a p) (fun count =>                            (* 915 *)
                      Do (write_count a p (uadd 64 count n)) (fun _ =>
                      Do (write_boff a p 0) (fun _ =>                              (* 916 *)
                      update_tail_proc a p bp remaining size e)))))))))))
              else update_tail_proc a p bp 0 size e)
        end
    end.

  (* libhmac_X_context_finalize as one access *)
  Definition finalize_proc (a : algid) (context : option nat) (hash : option ptr) (hash_size : N) (e : bool) : proc Z :=
    Do (context_finalize E a context hash hash_size e) Return.

  (* what a thread does with its context: library calls, one after the other; the results, latest first *)
  Inductive tcall : Type :=
  | TUpdate (buffer : option ptr) (size : N)
  | TFinalize (hash : option ptr) (hash_size : N).
  Definition call_proc (a : algid) (p : nat) (x : tcall) : proc Z :=
    match x with
    | TUpdate b n => update_proc a (Some p) b n true
    | TFinalize h n => finalize_proc a (Some p) h n true
    end.
  Fixpoint calls_proc (a : algid) (p : nat) (l : list tcall) (results : list Z) : proc (list Z) :=
    match l with
    | [] => Return results
    | x :: l => andthen (call_proc a p x) (fun r => calls_proc a p l (r :: results))
    end.
End WithEnv.

(* A thread: what it has still to do, its error object and its stack.  Memory is shared. *)
Record thread (A : Type) : Type := mk_thread { todo : proc A; t_errs : list err; t_resid : list frame }.
Arguments mk_thread {A}. Arguments todo {A}. Arguments t_errs {A}. Arguments t_resid {A}.
Record pool (A : Type) : Type := mk_pool { shared : list cell; p_tries : nat; threads : list (thread A) }.
Arguments mk_pool {A}. Arguments shared {A}. Arguments p_tries {A}. Arguments threads {A}.

(* the next access of thread i; nothing if it is done or there is none.  None: undefined behaviour *)
Definition pool_step {A} (i : nat) (P : pool A) : option (pool A) :=
  match nth_error (threads P) i with
  | None => Some P
  | Some t =>
      match todo t with
      | Return _ => Some P
      | Do act k =>
          match act (mk_state (shared P) (p_tries P) (t_errs t) (t_resid t)) with
          | Undef => None
          | Done b s => Some (mk_pool (mem s) (tries s) (replace (threads P) i (mk_thread (k b) (errs s) (resid s))))
          end
      end
  end.
(* a schedule says which thread is next *)
Fixpoint pool_run {A} (schedule : list nat) (P : pool A) : option (pool A) :=
  match schedule with
  | [] => Some P
  | i :: l => match pool_step i P with Some P' => pool_run l P' | None => None end
  end.
(* the threads at their start *)
Definition pool_start {A} (s : state) (l : list (proc A)) : pool A :=
  mk_pool (mem s) (tries s) (map (fun m => mk_thread m [] []) l).
