(* The Python bindings: pyhmac_X.c and pyhmac_X_context.c.  Line numbers are those of pyhmac_md5.c and
   pyhmac_md5_context.c; the files of the other algorithms have the same text up to names.

   A context object is a heap cell with a pointer to a context of the library, a bytes object a heap cell with its
   bytes.  Object headers and reference counts of objects other than None are not represented: an object is freed
   where its last reference is dropped.  The entries of the local variable error are [errs] of the machine state: they are
   empty on entry, and still there afterwards if the error object was not freed.
   Releasing and taking the interpreter lock (Py_BEGIN_ALLOW_THREADS) has no effect in one thread. *)
From Coq Require Import Arith NArith ZArith List Bool.
From Verif Require Import Words Machine Context Hash.
Import ListNotations.
Open Scope N_scope.

(* the exceptions that the bindings raise: PyExc_TypeError and so on *)
Inductive pyexn : Type := X_TypeError | X_ValueError | X_MemoryError | X_IOError | X_RuntimeError.

Record pystate : Type := mk_py {
  lib : state;              (* memory *)
  none_refs : Z;            (* references to Py_None *)
  exn : option pyexn;       (* the exception that is set in the interpreter *)
}.

Inductive pyoutcome (A : Type) : Type := PDone (a : A) (s : pystate) | PUndef.
Arguments PDone {A}. Arguments PUndef {A}.
Definition PM (A : Type) : Type := pystate -> pyoutcome A.
Definition pret {A} (a : A) : PM A := fun s => PDone a s.
Definition pbind {A B} (m : PM A) (f : A -> PM B) : PM B :=
  fun s => match m s with PDone a s' => f a s' | PUndef => PUndef end.
Notation "x <== m ;; k" := (pbind m (fun x => k)) (at level 61, m at next level, right associativity).
Notation "m >>> k" := (pbind m (fun _ => k)) (at level 61, right associativity).

(* a computation on memory *)
Definition inlib {A} (m : M A) : PM A :=
  fun s => match m (lib s) with Done a l => PDone a (mk_py l (none_refs s) (exn s)) | Undef => PUndef end.
(* PyErr_Format, and pyhmac_error.c:201-304 pyhmac_error_fetch_and_raise (see PyError.v; but for the references it does not drop) *)
Definition raise (x : pyexn) : PM unit := fun s => PDone tt (mk_py (lib s) (none_refs s) (Some x)).
(* PyErr_Clear *)
Definition clear : PM unit := fun s => PDone tt (mk_py (lib s) (none_refs s) None).
(* Py_IncRef( Py_None ), Py_DecRef( Py_None ) *)
Definition none_ref (k : Z) : PM unit := fun s => PDone tt (mk_py (lib s) (none_refs s + k)%Z (exn s)).
(* pyhmac_error.c:330-417 pyhmac_error_raise (see PyError.v), then libcerror_error_free *)
Definition error_raise (x : pyexn) : PM unit :=
  fun s => PDone tt (mk_py (mk_state (mem (lib s)) (tries (lib s)) [] (resid (lib s))) (none_refs s) (Some x)).

(* an argument: a bytes object of n bytes at p, an object of another type, or one for which PyObject_IsInstance fails *)
Inductive pyarg : Type := ABytes (p : ptr) (n : N) | AOther | AFails.
(* what a function returns: NULL, None or a bytes object *)
Inductive pyres : Type := RNull | RNone | RBytes (p : nat).

Section WithEnv.
  Variable E : env.

  (* pyhmac_md5.c:64-125, pyhmac_md5_context.c:342-398: the data of the argument.
     PyBytes_Size of a bytes object is not negative. *)
  Definition bytes_argument (x : pyarg) : PM (option (ptr * N)) :=
    clear >>>
    match x with
    | AFails => raise X_RuntimeError >>> pret None
    | AOther => raise X_TypeError >>> pret None
    | ABytes p n =>
        clear >>>
        if ssize_max E <? n then raise X_ValueError >>> pret None
        else pret (Some (p, n))
    end.

  (* PyBytes_FromStringAndSize( hash, LIBHMAC_X_HASH_SIZE ) *)
  Definition new_bytes (hash : nat) (n : N) : M (option nat) :=
    v <- view (hash, 0) ;;
    d <- lift (take n v) ;;
    allocate (OBytes d) E.

  (* uint8_t md5_hash[ LIBHMAC_MD5_HASH_SIZE ] *)
  Definition local_hash (a : algid) : M nat :=
    fun s => push_local (OBytes (junk_bytes E (length (mem s)) (a_hs (alg_of a)))) s.

  (* pyhmac_md5.c:143-163, 303-323, pyhmac_md5_context.c:472-492: the bytes object that is returned *)
  Definition bytes_result (hash : nat) (a : algid) : PM pyres :=
    bytes_object <== inlib (new_bytes hash (a_hs (alg_of a))) ;;
    match bytes_object with
    | None => raise X_IOError >>> pret RNull
    | Some p => pret (RBytes p)
    end.

  (* pyhmac_md5.c:38-164 pyhmac_md5_calculate; None: PyArg_ParseTupleAndKeywords fails and raises TypeError *)
  Definition py_calculate (a : algid) (arguments : option pyarg) : PM pyres :=
    match arguments with
    | None => raise X_TypeError >>> pret RNull
    | Some bytes_object =>
        data <== bytes_argument bytes_object ;;
        match data with
        | None => pret RNull
        | Some (data, data_size) =>
            hash <== inlib (local_hash a) ;;
            result <== inlib (calculate E a (Some data) data_size (Some (hash, 0)) (a_hs (alg_of a)) true) ;;
            r <== (if negb (result =? 1)%Z then error_raise X_IOError >>> pret RNull
                   else none_ref 1 >>> bytes_result hash a) ;;
            inlib (pop_local hash) >>> pret r
        end
    end.

  (* pyhmac_md5.c:169-324 pyhmac_md5_calculate_hmac; PyBytes_Size of a key of another type is -1 *)
  Definition py_calculate_hmac (a : algid) (arguments : option (pyarg * pyarg)) : PM pyres :=
    match arguments with
    | None => raise X_TypeError >>> pret RNull
    | Some (string_object, bytes_object) =>
        match string_object with
        | AOther | AFails => raise X_ValueError >>> pret RNull
        | ABytes key_data key_data_size =>
            if ssize_max E <? key_data_size then raise X_ValueError >>> pret RNull
            else
              data <== bytes_argument bytes_object ;;
              match data with
              | None => pret RNull
              | Some (data, data_size) =>
                  hmac <== inlib (local_hash a) ;;
                  result <== inlib (calculate_hmac E a (Some key_data) key_data_size (Some data) data_size
                                      (Some (hmac, 0)) (a_hs (alg_of a)) true) ;;
                  r <== (if negb (result =? 1)%Z then error_raise X_IOError >>> pret RNull
                         else none_ref 1 >>> bytes_result hmac a) ;;
                  inlib (pop_local hmac) >>> pret r
              end
        end
    end.

  (* pyhmac_md5_context->md5_context *)
  Definition get_field (self : nat) : M (option nat) :=
    fun s => match get_obj s self with Some (OPtr p) => Done p s | _ => Undef end.
  Definition set_field (self : nat) (p : option nat) : M unit :=
    fun s => match get_obj s self with
             | Some (OPtr _) => match put_obj self (OPtr p) s with Some s' => Done tt s' | None => Undef end
             | _ => Undef
             end.

  (* pyhmac_md5_context.c:203-236 pyhmac_md5_context_init *)
  Definition py_init (a : algid) (self : nat) : PM Z :=
    inlib (set_field self None) >>>
    context <== inlib (get_field self) ;;
    r <== inlib (hash_initialize E a (Some context) true) ;;
    inlib (set_field self (snd r)) >>>
    if negb (fst r =? 1)%Z then error_raise X_MemoryError >>> pret (-1)%Z
    else pret 0%Z.

  (* pyhmac_md5_context.c:240-308 pyhmac_md5_context_free; the type and its tp_free are always set *)
  Definition py_free (a : algid) (self : nat) : PM unit :=
    context <== inlib (get_field self) ;;
    match context with
    | None => raise X_ValueError
    | Some _ =>
        r <== inlib (hash_free a (Some context) true) ;;
        inlib (set_field self (snd r)) >>>
        (if negb (fst r =? 1)%Z then error_raise X_MemoryError else pret tt) >>>
        inlib (mfree self)
    end.

  (* pyhmac_md5_context.c:313-425 pyhmac_md5_context_update *)
  Definition py_update (a : algid) (self : nat) (arguments : option pyarg) : PM pyres :=
    match arguments with
    | None => raise X_TypeError >>> pret RNull
    | Some bytes_object =>
        data <== bytes_argument bytes_object ;;
        match data with
        | None => pret RNull
        | Some (data, data_size) =>
            context <== inlib (get_field self) ;;
            result <== inlib (hash_update E a context (Some data) data_size true) ;;
            if negb (result =? 1)%Z then error_raise X_IOError >>> pret RNull
            else none_ref 1 >>> pret RNone
        end
    end.

  (* pyhmac_md5_context.c:430-493 pyhmac_md5_context_finalize *)
  Definition py_finalize (a : algid) (self : nat) : PM pyres :=
    hash <== inlib (local_hash a) ;;
    context <== inlib (get_field self) ;;
    result <== inlib (hash_finalize E a context (Some (hash, 0)) (a_hs (alg_of a)) true) ;;
    r <== (if negb (result =? 1)%Z then error_raise X_IOError >>> pret RNull
           else bytes_result hash a) ;;
    inlib (pop_local hash) >>> pret r.

  (* What the interpreter does for pyhmac.X_context(): tp_new is PyType_GenericNew (pyhmac.c:238), which gives a zeroed
     object; then tp_init (pyhmac_md5_context.c:129-130); if that fails the reference is dropped, which calls
     tp_dealloc (pyhmac_md5_context.c:61-62) *)
  Definition py_create (a : algid) : PM (option nat) :=
    self <== inlib (allocate (OPtr None) E) ;;
    match self with
    | None => raise X_MemoryError >>> pret None
    | Some self =>
        r <== py_init a self ;;
        if (r <? 0)%Z then py_free a self >>> pret None
        else pret (Some self)
    end.
End WithEnv.
