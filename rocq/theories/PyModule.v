(* pyhmac/pyhmac.c: the names in the module pyhmac, and its initialisation.  How the interpreter calls a function by its name.
   Of object references only those that the initialisation itself takes and drops are counted. *)
From Coq Require Import Arith NArith ZArith List Bool String.
From Verif Require Import Words Machine Context Hash SumHandle Py.
Import ListNotations.
Open Scope N_scope.

(* the C functions in the method tables *)
Inductive pyfunction : Type := F_get_version | F_calculate (a : algid) | F_calculate_hmac (a : algid).
Inductive pymethod : Type := M_update (a : algid) | M_finalize (a : algid).

(* methodobject.h *)
Definition METH_VARARGS : N := 1.
Definition METH_KEYWORDS : N := 2.
Definition METH_NOARGS : N := 4.

(* pyhmac.c:48-128 pyhmac_module_methods: names, functions and flags *)
Definition module_methods : list (list N * pyfunction * N) :=
  [ (literal "get_version", F_get_version, METH_NOARGS);                                           (* 49-54 *)
    (literal "md5_calculate", F_calculate MD5, N.lor METH_VARARGS METH_KEYWORDS);                  (* 56-61 *)
    (literal "md5_calculate_hmac", F_calculate_hmac MD5, N.lor METH_VARARGS METH_KEYWORDS);        (* 63-68 *)
    (literal "sha1_calculate", F_calculate SHA1, N.lor METH_VARARGS METH_KEYWORDS);                (* 70-75 *)
    (literal "sha1_calculate_hmac", F_calculate_hmac SHA1, N.lor METH_VARARGS METH_KEYWORDS);      (* 77-82 *)
    (literal "sha224_calculate", F_calculate SHA224, N.lor METH_VARARGS METH_KEYWORDS);            (* 84-89 *)
    (literal "sha224_calculate_hmac", F_calculate_hmac SHA224, N.lor METH_VARARGS METH_KEYWORDS);  (* 91-96 *)
    (literal "sha256_calculate", F_calculate SHA256, N.lor METH_VARARGS METH_KEYWORDS);            (* 98-103 *)
    (literal "sha256_calculate_hmac", F_calculate_hmac SHA256, N.lor METH_VARARGS METH_KEYWORDS);  (* 105-110 *)
    (literal "sha512_calculate", F_calculate SHA512, N.lor METH_VARARGS METH_KEYWORDS);            (* 112-117 *)
    (literal "sha512_calculate_hmac", F_calculate_hmac SHA512, N.lor METH_VARARGS METH_KEYWORDS)   (* 119-124 *) ].

(* pyhmac_md5_context.c:36-54 pyhmac_md5_context_object_methods *)
Definition context_methods (a : algid) : list (list N * pymethod * N) :=
  [ (literal "update", M_update a, N.lor METH_VARARGS METH_KEYWORDS);
    (literal "finalize", M_finalize a, METH_NOARGS) ].

(* comparing names *)
Definition same_name (x y : list N) : bool := if list_eq_dec N.eq_dec x y then true else false.
(* the interpreter's look into a table: the first entry with the name *)
Fixpoint find_name {A} (name : list N) (l : list (list N * A)) : option A :=
  match l with
  | [] => None
  | (n, x) :: l => if same_name name n then Some x else find_name name l
  end.
Definition find_method {A} (name : list N) (l : list (list N * A * N)) : option (A * N) :=
  find_name name (map (fun x => (fst (fst x), (snd (fst x), snd x))) l).

(* PyArg_ParseTupleAndKeywords with the format O for every name: arguments by position come first, the others are looked for by
   name; None (TypeError) if there are too many, if a name is unknown or was given by position too, or if one is missing. *)
Fixpoint by_name (names : list (list N)) (keywords : list (list N * pyarg)) : option (list pyarg) :=
  match names with
  | [] => Some []
  | n :: names => x <-? find_name n keywords; l <-? by_name names keywords; Some (x :: l)
  end.
Definition parse_arguments (names : list (list N)) (arguments : list pyarg) (keywords : list (list N * pyarg)) : option (list pyarg) :=
  if Nat.ltb (List.length names) (List.length arguments) then None
  else
    let rest := skipn (List.length arguments) names in
    if forallb (fun k => existsb (same_name (fst k)) rest) keywords
    then l <-? by_name rest keywords; Some (arguments ++ l)
    else None.

(* what a call gives: an object as in Py.v, or a string *)
Inductive pyvalue : Type := VRes (r : pyres) | VText (t : list N).

Section WithEnv.
  Variable E : env.
  Variable version : list N.      (* LIBHMAC_VERSION_STRING: libhmac_support.c:32-36 libhmac_get_version *)

  (* pyhmac_md5.c:49-63, 182-198, pyhmac.c:133-160: the keywords of the functions, and the functions.
     PyUnicode_DecodeUTF8 of the version does not fail. *)
  Definition run_function (f : pyfunction) (arguments : list pyarg) (keywords : list (list N * pyarg)) : PM pyvalue :=
    match f with
    | F_get_version => pret (VText version)
    | F_calculate a =>
        r <== py_calculate E a (match parse_arguments [literal "data"] arguments keywords with
                                | Some [bytes_object] => Some bytes_object
                                | _ => None
                                end) ;;
        pret (VRes r)
    | F_calculate_hmac a =>
        r <== py_calculate_hmac E a (match parse_arguments [literal "key"; literal "data"] arguments keywords with
                                     | Some [string_object; bytes_object] => Some (string_object, bytes_object)
                                     | _ => None
                                     end) ;;
        pret (VRes r)
    end.
  (* whether the flags of a table entry call the function with the parameters that it has *)
  Definition function_flags (f : pyfunction) : N :=
    match f with F_get_version => METH_NOARGS | _ => N.lor METH_VARARGS METH_KEYWORDS end.
  Definition method_flags (m : pymethod) : N :=
    match m with M_finalize _ => METH_NOARGS | M_update _ => N.lor METH_VARARGS METH_KEYWORDS end.
  (* a call through a table entry: with METH_NOARGS the interpreter refuses arguments with a TypeError; other flags than those the
     function was written for are undefined behaviour *)
  Definition call_with {A} (flags expected : N) (none : A) (arguments : list pyarg) (keywords : list (list N * pyarg)) (m : PM A) : PM A :=
    if negb (flags =? expected) then fun _ => PUndef
    else if flags =? METH_NOARGS then
      match arguments, keywords with
      | [], [] => m
      | _, _ => raise X_TypeError >>> pret none
      end
    else m.
  (* pyhmac.NAME( ... ); None: there is no such function (AttributeError) *)
  Definition module_call (name : list N) (arguments : list pyarg) (keywords : list (list N * pyarg)) : option (PM pyvalue) :=
    x <-? find_method name module_methods;
    Some (call_with (snd x) (function_flags (fst x)) (VRes RNull) arguments keywords (run_function (fst x) arguments keywords)).

  (* pyhmac_md5_context.c:322-343: the keywords of update *)
  Definition run_method (m : pymethod) (self : nat) (arguments : list pyarg) (keywords : list (list N * pyarg)) : PM pyres :=
    match m with
    | M_update a => py_update E a self (match parse_arguments [literal "data"] arguments keywords with
                                        | Some [bytes_object] => Some bytes_object
                                        | _ => None
                                        end)
    | M_finalize a => py_finalize E a self
    end.
  (* x.NAME( ... ) for an object of the type of a; None: AttributeError *)
  Definition object_call (a : algid) (self : nat) (name : list N) (arguments : list pyarg) (keywords : list (list N * pyarg)) : option (PM pyres) :=
    x <-? find_method name (context_methods a);
    Some (call_with (snd x) (method_flags (fst x)) RNull arguments keywords (run_method (fst x) self arguments keywords)).
End WithEnv.

(* ------------------------------------------------------- initialisation *)

Record module_state : Type := mk_module {
  gil : Z;                                  (* how often this thread took the interpreter lock *)
  attributes : list (list N * algid);       (* types that were added to the module *)
  type_refs : algid -> Z;                   (* references to the type objects that the initialisation took *)
  tp_new : algid -> bool;                   (* tp_new of the type object is PyType_GenericNew *)
  module_refs : Z;                          (* references to the module that the initialisation owns *)
}.
Definition lock (k : Z) (s : module_state) : module_state :=
  mk_module (gil s + k) (attributes s) (type_refs s) (tp_new s) (module_refs s).
Definition hold_module (k : Z) (s : module_state) : module_state :=
  mk_module (gil s) (attributes s) (type_refs s) (tp_new s) (module_refs s + k).
Definition ref_type (a : algid) (k : Z) (s : module_state) : module_state :=
  mk_module (gil s) (attributes s) (fun b => if algid_eqb a b then type_refs s b + k else type_refs s b)%Z (tp_new s) (module_refs s).
Definition set_tp_new (a : algid) (s : module_state) : module_state :=
  mk_module (gil s) (attributes s) (type_refs s) (fun b => if algid_eqb a b then true else tp_new s b) (module_refs s).
Definition add_attribute (name : list N) (a : algid) (s : module_state) : module_state :=
  mk_module (gil s) (attributes s ++ [(name, a)]) (type_refs s) (tp_new s) (module_refs s).

Section Init.
  Variable create : bool.               (* PyModule_Create gives a module *)
  Variable ready : algid -> bool.       (* PyType_Ready does not fail *)
  Variable add : algid -> bool.         (* PyModule_AddObject does not fail: then the module owns the reference *)

  (* pyhmac.c:238-251, 255-268, 272-285, 289-302, 306-319: one type; false is on_error.  The result of PyModule_AddObject
     is not looked at. *)
  Definition setup_type (name : list N) (a : algid) (s : module_state) : bool * module_state :=
    let s := set_tp_new a s in
    if ready a then
      let s := ref_type a 1 s in
      (true, if add a then ref_type a (-1) (add_attribute name a s) else s)
    else (false, s).

  (* pyhmac.c:191-339 PyInit_pyhmac (Python 3); true: the module is returned, and its reference is the caller's *)
  Definition init_module (s : module_state) : bool * module_state :=
    if negb create then (false, s)
    else
      let s := lock 1 (hold_module 1 s) in
      let '(ok, s) := setup_type (literal "md5_context") MD5 s in
      if negb ok then (false, lock (-1) s) else
      let '(ok, s) := setup_type (literal "sha1_context") SHA1 s in
      if negb ok then (false, lock (-1) s) else
      let '(ok, s) := setup_type (literal "sha224_context") SHA224 s in
      if negb ok then (false, lock (-1) s) else
      let '(ok, s) := setup_type (literal "sha256_context") SHA256 s in
      if negb ok then (false, lock (-1) s) else
      let '(ok, s) := setup_type (literal "sha512_context") SHA512 s in
      if negb ok then (false, lock (-1) s) else
      (true, hold_module (-1) (lock (-1) s)).
End Init.
