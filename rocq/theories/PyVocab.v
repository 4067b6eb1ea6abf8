(* Programs in Python over the bindings, and what should come of them.  No proofs. *)
From Coq Require Import Arith NArith ZArith List Bool.
From Verif Require Import Words Spec Machine Vocab Context Hash Py.
Import ListNotations.
Open Scope N_scope.

(* One statement.  A program keeps its objects in variables; PNew makes the next variable. *)
Inductive pyop : Type :=
| PNew (a : algid)                                     (* x = pyhmac.md5_context() *)
| PInit (i : nat)                                      (* x.__init__() *)
| PUpdate (i : nat) (x : option pyarg)                 (* x.update(data); None: the wrong number of arguments *)
| PFinalize (i : nat)                                  (* x.finalize() *)
| PDelete (i : nat)                                    (* del x: the last reference to the object *)
| PCalculate (a : algid) (x : option pyarg)            (* pyhmac.md5_calculate(data) *)
| PHmac (a : algid) (x : option (pyarg * pyarg)).      (* pyhmac.md5_calculate_hmac(key, data) *)

(* the variables: the type and the object; None: there is no object *)
Definition pyvars : Type := list (algid * option nat).

(* What is seen of a statement: the exception, or the digest that was returned.  OSkip: there is no object to use. *)
Inductive pyobs : Type :=
| ONew (i : nat) (r : option pyexn)
| OInit (i : nat) (r : option pyexn)
| OUpdate (i : nat) (data : option (list N)) (r : option pyexn)
| OFinalize (i : nat) (r : pyexn + list N)
| ODelete (i : nat) (r : option pyexn)
| OCalculate (a : algid) (data : option (list N)) (r : pyexn + list N)
| OHmac (a : algid) (data : option (list N * list N)) (r : pyexn + list N)
| OSkip (i : nat).

(* the bytes of an argument *)
Definition given (s : state) (x : pyarg) : option (list N) :=
  match x with ABytes p n => Some (bytes_at s p n) | _ => None end.
Definition given1 (s : state) (x : option pyarg) : option (list N) :=
  match x with Some x => given s x | None => None end.
Definition given2 (s : state) (x : option (pyarg * pyarg)) : option (list N * list N) :=
  match x with
  | Some (k, d) => match given s k, given s d with Some k, Some d => Some (k, d) | _, _ => None end
  | None => None
  end.
(* an argument as there can be one: a bytes object of the caller, of a size that a Py_ssize_t can have *)
Definition valid_arg (E : env) (s : state) (x : pyarg) : Prop :=
  match x with ABytes p n => accessible s p n /\ n <= ssize_max E | _ => True end.
Definition valid_op (E : env) (s : state) (o : pyop) : Prop :=
  match o with
  | PUpdate _ (Some x) | PCalculate _ (Some x) => valid_arg E s x
  | PHmac _ (Some (k, d)) => valid_arg E s k /\ valid_arg E s d
  | _ => True
  end.

Section WithEnv.
  Variable E : env.

  (* The interpreter after a call: the exception is handled, a result is looked at and its reference dropped. *)
  Definition handled : PM (option pyexn) := fun s => PDone (exn s) (mk_py (lib s) (none_refs s) None).
  Definition peek_bytes (p : nat) : PM (list N) :=
    fun s => match get_obj (lib s) p with Some (OBytes l) => PDone l s | _ => PUndef end.
  (* NULL without an exception and a result with one are errors of the extension *)
  Definition look (r : pyres) : PM (pyexn + list N) :=
    x <== handled ;;
    match r, x with
    | RNull, Some x => pret (inl x)
    | RNone, None => none_ref (-1) >>> pret (inr [])
    | RBytes p, None => d <== peek_bytes p ;; inlib (mfree p) >>> pret (inr d)
    | _, _ => fun _ => PUndef
    end.
  Definition outcome_of (x : pyexn + list N) : option pyexn := match x with inl x => Some x | inr _ => None end.
  Definition self_of (vs : pyvars) (i : nat) : option (algid * nat) :=
    match nth_error vs i with Some (a, Some p) => Some (a, p) | _ => None end.
  Definition memory : PM state := fun s => PDone (lib s) s.

  Definition run_op (o : pyop) (vs : pyvars) : PM (pyobs * pyvars) :=
    match o with
    | PNew a =>
        self <== py_create E a ;;
        x <== handled ;;
        pret (ONew (length vs) x, vs ++ [(a, self)])
    | PInit i =>
        match self_of vs i with
        | None => pret (OSkip i, vs)
        | Some (a, self) => r <== py_init E a self ;; x <== handled ;; pret (OInit i x, vs)
        end
    | PUpdate i x =>
        match self_of vs i with
        | None => pret (OSkip i, vs)
        | Some (a, self) =>
            m <== memory ;; r <== py_update E a self x ;; d <== look r ;; pret (OUpdate i (given1 m x) (outcome_of d), vs)
        end
    | PFinalize i =>
        match self_of vs i with
        | None => pret (OSkip i, vs)
        | Some (a, self) => r <== py_finalize E a self ;; d <== look r ;; pret (OFinalize i d, vs)
        end
    | PDelete i =>
        match self_of vs i with
        | None => pret (OSkip i, vs)
        | Some (a, self) => py_free a self >>> x <== handled ;; pret (ODelete i x, replace vs i (a, None))
        end
    | PCalculate a x =>
        m <== memory ;; r <== py_calculate E a x ;; d <== look r ;; pret (OCalculate a (given1 m x) d, vs)
    | PHmac a x =>
        m <== memory ;; r <== py_calculate_hmac E a x ;; d <== look r ;; pret (OHmac a (given2 m x) d, vs)
    end.

  Fixpoint run_program (l : list pyop) (vs : pyvars) : PM (list pyobs * pyvars) :=
    match l with
    | [] => pret ([], vs)
    | o :: l => r <== run_op o vs ;; q <== run_program l (snd r) ;; pret (fst r :: fst q, snd q)
    end.
End WithEnv.

(* ------------------------------------------------------- what should happen *)

(* An object: there is none; it has no context; or m was given to it since it was made (true) or since the last
   finalize (false). *)
Inductive life : Type := Gone | Bare | Has (fresh : bool) (m : list N).

(* the digest of a life *)
Definition life_digest (a : algid) (f : bool) (m : list N) : list N := if f then lib_hash a m else zero_iv_hash a m.

(* [follows n a x i l]: the observations l are those of an object in variable i of type a that is now at x; out of memory
   is the only thing that may make a call with good arguments fail (n: whether that may happen) *)
Inductive follows (n : Prop) (a : algid) (i : nat) : life -> list pyobs -> Prop :=
| F_end : forall x, follows n a i x []
| F_other : forall x o l,
    match o with ONew j _ | OInit j _ | OUpdate j _ _ | OFinalize j _ | ODelete j _ | OSkip j => j <> i | _ => True end ->
    follows n a i x l -> follows n a i x (o :: l)
| F_skip : forall l, follows n a i Gone l -> follows n a i Gone (OSkip i :: l)
| F_init : forall f m l, follows n a i (Has true []) l -> follows n a i (Has f m) (OInit i None :: l)
| F_init_bare : forall l, follows n a i (Has true []) l -> follows n a i Bare (OInit i None :: l)
| F_init_fails : forall x l, n -> x <> Gone -> follows n a i Bare l -> follows n a i x (OInit i (Some X_MemoryError) :: l)
| F_update : forall f m d l, follows n a i (Has f (m ++ d)) l -> follows n a i (Has f m) (OUpdate i (Some d) None :: l)
| F_update_bad : forall x e l, x <> Gone -> e = X_TypeError \/ e = X_RuntimeError -> follows n a i x l ->
    follows n a i x (OUpdate i None (Some e) :: l)
| F_update_bare : forall d l, follows n a i Bare l -> follows n a i Bare (OUpdate i (Some d) (Some X_IOError) :: l)
| F_finalize : forall f m l, follows n a i (Has false []) l ->
    follows n a i (Has f m) (OFinalize i (inr (life_digest a f m)) :: l)
| F_finalize_fails : forall f m l, n -> follows n a i (Has false []) l ->
    follows n a i (Has f m) (OFinalize i (inl X_IOError) :: l)
| F_finalize_bare : forall l, follows n a i Bare l -> follows n a i Bare (OFinalize i (inl X_IOError) :: l)
| F_delete : forall f m l, follows n a i Gone l -> follows n a i (Has f m) (ODelete i None :: l)
| F_delete_bare : forall l, follows n a i Gone l -> follows n a i Bare (ODelete i (Some X_ValueError) :: l).

(* the same from the statement that makes the object; when it fails for want of memory for the context, the exception is
   one that the destructor raised *)
Inductive born (n : Prop) (a : algid) (i : nat) : list pyobs -> Prop :=
| B_later : forall o l, (forall r, o <> ONew i r) -> born n a i l -> born n a i (o :: l)
| B_here : forall l, follows n a i (Has true []) l -> born n a i (ONew i None :: l)
| B_fails : forall e l, n -> e = X_MemoryError \/ e = X_ValueError -> follows n a i Gone l -> born n a i (ONew i (Some e) :: l).

(* an observation of a statement *)
Definition shows (s : state) (op : pyop) (o : pyobs) : Prop :=
  match op, o with
  | PNew _, ONew _ _ => True
  | PInit i, OInit j _ | PFinalize i, OFinalize j _ | PDelete i, ODelete j _ => j = i
  | PUpdate i x, OUpdate j d _ => j = i /\ d = given1 s x
  | PInit i, OSkip j | PUpdate i _, OSkip j | PFinalize i, OSkip j | PDelete i, OSkip j => j = i
  | PCalculate a x, OCalculate b d _ => b = a /\ d = given1 s x
  | PHmac a x, OHmac b d _ => b = a /\ d = given2 s x
  | _, _ => False
  end.
(* the observations of a program whose next variable is k *)
Fixpoint shown (s : state) (k : nat) (l : list pyop) (os : list pyobs) : Prop :=
  match l, os with
  | [], [] => True
  | PNew a :: l, ONew i _ :: os => i = k /\ shown s (S k) l os
  | PNew _ :: _, _ => False
  | op :: l, o :: os => shows s op o /\ shown s k l os
  | _, _ => False
  end.
(* the types of the objects that a statement makes *)
Definition made (o : pyop) : list algid := match o with PNew a => [a] | _ => [] end.

(* a calculation: the digest, an exception for bad arguments, or out of memory *)
Definition calculated (n : Prop) (o : pyobs) : Prop :=
  match o with
  | OCalculate a (Some d) r => r = inr (lib_hash a d) \/ (n /\ r = inl X_IOError)
  | OCalculate a None r => r = inl X_TypeError \/ r = inl X_RuntimeError
  | OHmac a (Some (k, d)) r => r = inr (lib_hmac a k d) \/ (n /\ r = inl X_IOError)
  | OHmac a None r => r = inl X_TypeError \/ r = inl X_RuntimeError \/ r = inl X_ValueError
  | _ => True
  end.

(* cell q belongs to an object of the program *)
Definition belongs (vs : pyvars) (s : state) (q : nat) : Prop :=
  exists i a p, nth_error vs i = Some (a, Some p) /\ (q = p \/ get_obj s p = Some (OPtr (Some q))).
(* of the new cells only q is still live *)
Definition no_leak_but (s s' : state) (q : nat) : Prop :=
  forall x c, (length (mem s) <= x)%nat -> nth_error (mem s') x = Some c -> x <> q -> live c = false.
(* programs that never call __init__ *)
Definition no_init (l : list pyop) : Prop := forall i, ~ In (PInit i) l.
(* how many references to None calculations of these observations kept, at least and at most *)
Definition digests_seen (l : list pyobs) : nat :=
  length (filter (fun o => match o with OCalculate _ _ (inr _) | OHmac _ _ (inr _) => true | _ => false end) l).
Definition calculations (l : list pyobs) : nat :=
  length (filter (fun o => match o with OCalculate _ (Some _) _ | OHmac _ (Some _) _ => true | _ => false end) l).
