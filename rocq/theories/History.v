(* Programs that use the library: any sequence of calls of the public functions on
   any number of context variables.  Include/libhmac.h.in:95-700 declares the
   functions; the caller keeps its context pointers in variables and passes their
   addresses (initialize, free) or values (update, finalize), and passes pointers
   to arrays of bytes of its own as buffers. *)
From Coq Require Import Arith NArith ZArith List Bool.
From Verif Require Import Words Machine Context Hash Vocab.
Import ListNotations.
Open Scope N_scope.

(* libhmac.h.in: the argument libhmac_X_context_t *context or **context: NULL, or variable i *)
Inductive target : Type := Null (a : algid) | Var (i : nat).

(* One call.  old: the deprecated name libhmac_X_initialize etc. (libhmac.h.in:138-190)
   instead of libhmac_X_context_initialize etc. (libhmac.h.in:100-133).
   e: whether the caller passes an error pointer. *)
Inductive call : Type :=
| CInitialize (old : bool) (v : target) (e : bool)
| CFree (old : bool) (v : target) (e : bool)
| CUpdate (old : bool) (v : target) (buffer : option ptr) (size : N) (e : bool)
| CFinalize (old : bool) (v : target) (hash : option ptr) (hash_size : N) (e : bool)
| CCalculate (a : algid) (buffer : option ptr) (size : N) (hash : option ptr) (hash_size : N) (e : bool)
| CHmac (a : algid) (key : option ptr) (key_size : N) (buffer : option ptr) (size : N)
        (hmac : option ptr) (hmac_size : N) (e : bool).

(* The caller's context variables: the algorithm and the value (None is NULL). *)
Definition vars : Type := list (algid * option nat).

(* What is seen of a call: its return value, the bytes it was given and, if it
   returned 1, the digest in the output buffer afterwards. *)
Inductive obs : Type :=
| OInitialize (i : nat) (r : Z)
| OFree (i : nat) (r : Z)
| OUpdate (i : nat) (data : list N) (r : Z)
| OFinalize (i : nat) (digest : list N) (r : Z)
| OCalculate (a : algid) (data digest : list N) (r : Z)
| OHmac (a : algid) (key data digest : list N) (r : Z)
| ONull (r : Z).

(* the bytes behind a pointer argument *)
Definition peek (p : option ptr) (n : N) : M (list N) :=
  fun s => Done (match p with None => [] | Some q => bytes_at s q n end) s.
Definition peek_if (r : Z) (p : option ptr) (n : N) : M (list N) :=
  if (r =? 1)%Z then peek p n else ret [].

Section WithEnv.
  Variable E : env.

  (* libhmac_X.c:35-55 or libhmac_X_context.c libhmac_X_context_initialize; the variable gets the new value *)
  Definition do_initialize (old : bool) (a : algid) (c : option (option nat)) (e : bool) : M (Z * option nat) :=
    if old then hash_initialize E a c e else context_initialize E a c e.
  (* libhmac_X.c:60-80 or libhmac_X_context.c libhmac_X_context_free *)
  Definition do_free (old : bool) (a : algid) (c : option (option nat)) (e : bool) : M (Z * option nat) :=
    if old then hash_free a c e else context_free a c e.
  (* libhmac_X.c:85-109 or libhmac_X_context.c libhmac_X_context_update *)
  Definition do_update (old : bool) (a : algid) (c : option nat) (b : option ptr) (n : N) (e : bool) : M Z :=
    if old then hash_update E a c b n e else context_update E a c b n e.
  (* libhmac_X.c:114-138 or libhmac_X_context.c libhmac_X_context_finalize *)
  Definition do_finalize (old : bool) (a : algid) (c : option nat) (h : option ptr) (n : N) (e : bool) : M Z :=
    if old then hash_finalize E a c h n e else context_finalize E a c h n e.

  (* libhmac.h.in:95-700, a call made by the program *)
  Definition run_call (c : call) (vs : vars) : M (obs * vars) :=
    match c with
    | CInitialize old (Null a) e => r <- do_initialize old a None e ;; ret (ONull (fst r), vs)
    | CInitialize old (Var i) e =>
        v <- lift (nth_error vs i) ;;
        r <- do_initialize old (fst v) (Some (snd v)) e ;;
        ret (OInitialize i (fst r), replace vs i (fst v, snd r))
    | CFree old (Null a) e => r <- do_free old a None e ;; ret (ONull (fst r), vs)
    | CFree old (Var i) e =>
        v <- lift (nth_error vs i) ;;
        r <- do_free old (fst v) (Some (snd v)) e ;;
        ret (OFree i (fst r), replace vs i (fst v, snd r))
    | CUpdate old (Null a) b n e => r <- do_update old a None b n e ;; ret (ONull r, vs)
    | CUpdate old (Var i) b n e =>
        v <- lift (nth_error vs i) ;;
        d <- peek b n ;;
        r <- do_update old (fst v) (snd v) b n e ;;
        ret (OUpdate i d r, vs)
    | CFinalize old (Null a) h n e => r <- do_finalize old a None h n e ;; ret (ONull r, vs)
    | CFinalize old (Var i) h n e =>
        v <- lift (nth_error vs i) ;;
        r <- do_finalize old (fst v) (snd v) h n e ;;
        d <- peek_if r h (digest_size (fst v)) ;;
        ret (OFinalize i d r, vs)
    | CCalculate a b n h hn e =>
        m <- peek b n ;;
        r <- calculate E a b n h hn e ;;
        d <- peek_if r h (digest_size a) ;;
        ret (OCalculate a m d r, vs)
    | CHmac a k kn b n h hn e =>
        key <- peek k kn ;;
        m <- peek b n ;;
        r <- calculate_hmac E a k kn b n h hn e ;;
        d <- peek_if r h (digest_size a) ;;
        ret (OHmac a key m d r, vs)
    end.

  (* libhmac.h.in:95-700, a program *)
  Fixpoint run (h : list call) (vs : vars) : M (list obs * vars) :=
    match h with
    | [] => ret ([], vs)
    | c :: t =>
        r <- run_call c vs ;;
        q <- run t (snd r) ;;
        ret (fst r :: fst q, snd q)
    end.
End WithEnv.

(* The caller's side of the contract: variables exist and buffers have the given
   size (in the memory at the start: the caller's arrays are never freed or
   resized by the library). *)
Definition valid_call (s : state) (vs : vars) (c : call) : Prop :=
  match c with
  | CInitialize _ v _ | CFree _ v _ => match v with Var i => (i < length vs)%nat | Null _ => True end
  | CUpdate _ v b n _ => match v with Var i => (i < length vs)%nat | Null _ => True end /\ arg s b n
  | CFinalize _ v h n _ => match v with Var i => (i < length vs)%nat | Null _ => True end /\ arg s h n
  | CCalculate _ b n h hn _ => arg s b n /\ arg s h hn
  | CHmac _ k kn b n h hn _ => arg s k kn /\ arg s b n /\ arg s h hn
  end.

(* ------------------------------------------------------- what should happen *)

(* The expected life of one context variable of algorithm a, from the observations
   on it.  None: NULL.  Some (true, m): m was absorbed since initialize.
   Some (false, m): m was absorbed since the last finalize.  digest and stale give the
   digest in the two cases. *)
Fixpoint accepts (digest stale : list N -> list N) (x : option (bool * list N)) (i : nat) (l : list obs) : Prop :=
  match l with
  | [] => True
  | OInitialize j r :: t =>
      if Nat.eqb i j then
        match x with
        | None => (r = 1%Z /\ accepts digest stale (Some (true, [])) i t) \/ (r = (-1)%Z /\ accepts digest stale None i t)
        | Some _ => r = (-1)%Z /\ accepts digest stale x i t
        end
      else accepts digest stale x i t
  | OFree j r :: t => if Nat.eqb i j then r = 1%Z /\ accepts digest stale None i t else accepts digest stale x i t
  | OUpdate j d r :: t =>
      if Nat.eqb i j then
        match x with
        | Some (f, m) => (r = 1%Z /\ accepts digest stale (Some (f, m ++ d)) i t) \/ (r = (-1)%Z /\ accepts digest stale x i t)
        | None => r = (-1)%Z /\ accepts digest stale x i t
        end
      else accepts digest stale x i t
  | OFinalize j h r :: t =>
      if Nat.eqb i j then
        match x with
        | Some (f, m) => (r = 1%Z /\ h = (if f then digest m else stale m) /\ accepts digest stale (Some (false, [])) i t)
                         \/ (r = (-1)%Z /\ accepts digest stale x i t)
        | None => r = (-1)%Z /\ accepts digest stale x i t
        end
      else accepts digest stale x i t
  | _ :: t => accepts digest stale x i t
  end.

(* one-shot calls among the observations give the right answers *)
Definition one_shot_ok (hash : algid -> list N -> list N) (mac : algid -> list N -> list N -> list N) (o : obs) : Prop :=
  match o with
  | OCalculate a m d r => r = (-1)%Z \/ (r = 1%Z /\ d = hash a m)
  | OHmac a k m d r => r = (-1)%Z \/ (r = 1%Z /\ d = mac a k m)
  | ONull r => r = (-1)%Z
  | _ => True
  end.

(* the observations on variable i *)
Definition mine (i : nat) (o : obs) : bool :=
  match o with
  | OInitialize j _ | OFree j _ | OUpdate j _ _ | OFinalize j _ _ => Nat.eqb i j
  | _ => false
  end.
(* an observation without the digest *)
Definition ask (o : obs) : obs := match o with OFinalize j _ r => OFinalize j [] r | _ => o end.
(* the digests that successful finalize calls on variable i gave *)
Fixpoint digests (i : nat) (l : list obs) : list (list N) :=
  match l with
  | [] => []
  | OFinalize j h r :: t => if Nat.eqb i j && (r =? 1)%Z then h :: digests i t else digests i t
  | _ :: t => digests i t
  end.

(* A program that hashes one message given in pieces (libhmac.h.in:100-133 or 138-190): the pieces,
   where they are and how they are passed. *)
Record piece : Type := mk_piece { pc_old : bool; pc_ptr : ptr; pc_size : N; pc_e : bool }.
(* libhmac.h.in:119-123 or 161-165, update of context variable 0 with a piece *)
Definition piece_call (x : piece) : call := CUpdate (pc_old x) (Var 0) (Some (pc_ptr x)) (pc_size x) (pc_e x).
Definition piece_bytes (s : state) (x : piece) : list N := bytes_at s (pc_ptr x) (pc_size x).
(* libhmac.h.in:100-133 or 138-190: initialize, all updates, finalize *)
Definition whole_message (oi of ei ef : bool) (xs : list piece) (hp : ptr) (hash_size : N) : list call :=
  CInitialize oi (Var 0) ei :: map piece_call xs ++ [CFinalize of (Var 0) (Some hp) hash_size ef].
