(* Vocabulary for the statements about threads. No proofs. *)
From Coq Require Import Arith NArith ZArith List Bool.
From Verif Require Import Words Spec Machine Vocab Context Threads.
Import ListNotations.
Open Scope N_scope.

(* the same calls without other threads, by the functions of Context.v; results latest first *)
Definition call_seq (E : env) (a : algid) (p : nat) (x : tcall) : M Z :=
  match x with
  | TUpdate b n => context_update E a (Some p) b n true
  | TFinalize h n => context_finalize E a (Some p) h n true
  end.
Fixpoint calls_seq (E : env) (a : algid) (p : nat) (l : list tcall) (results : list Z) : M (list Z) :=
  match l with
  | [] => ret results
  | x :: l => r <- call_seq E a p x ;; calls_seq E a p l (r :: results)
  end.

(* a thread that makes calls on one context *)
Record worker : Type := mk_worker { w_alg : algid; w_ctx : nat; w_calls : list tcall }.
Definition worker_proc (E : env) (w : worker) : proc (list Z) := calls_proc E (w_alg w) (w_ctx w) (w_calls w) [].

(* the arguments of a call: NULL or as many bytes as the size says *)
Definition call_arg (s : state) (x : tcall) : Prop :=
  match x with TUpdate b n => arg s b n | TFinalize h n => arg s h n end.
Definition worker_args (s : state) (w : worker) : Prop :=
  (exists c, get_obj s (w_ctx w) = Some (OCtx (w_alg w) c)) /\ Forall (call_arg s) (w_calls w).

(* the objects that a worker writes to, and all that it uses *)
Definition call_writes (x : tcall) : list nat := match x with TFinalize (Some h) _ => [fst h] | _ => [] end.
Definition call_uses (x : tcall) : list nat :=
  match x with TUpdate (Some b) _ => [fst b] | TFinalize (Some h) _ => [fst h] | _ => [] end.
Definition writes (w : worker) : list nat := w_ctx w :: flat_map call_writes (w_calls w).
Definition uses (w : worker) : list nat := w_ctx w :: flat_map call_uses (w_calls w).
(* no worker writes to what another one uses *)
Definition separate (ws : list worker) : Prop :=
  forall i j u v q, nth_error ws i = Some u -> nth_error ws j = Some v -> i <> j -> In q (writes u) -> ~ In q (uses v).

(* how often a schedule gives thread i its turn *)
Definition turns (schedule : list nat) (i : nat) : nat := count_occ Nat.eq_dec schedule i.

(* c is what initialize leaves in a context *)
Definition fresh (a : algid) (c : ctx) : Prop :=
  exists E s e p s', context_initialize E a (Some None) e s = Done (1%Z, Some p) s' /\ get_obj s' p = Some (OCtx a c).

(* a thread that hashes: update with every piece, then finalize *)
Definition hashing (a : algid) (p : nat) (pieces : list (ptr * N)) (h : ptr) : worker :=
  mk_worker a p (map (fun x => TUpdate (Some (fst x)) (snd x)) pieces ++ [TFinalize (Some h) (digest_size a)]).
Definition message (s : state) (pieces : list (ptr * N)) : list N :=
  concat (map (fun x => bytes_at s (fst x) (snd x)) pieces).

(* thread i returned r *)
Definition returned {A} (P : pool A) (i : nat) (r : A) : Prop :=
  exists t, nth_error (threads P) i = Some t /\ todo t = Return r.

(* a thread that hashes: algorithm, context, pieces, place for the digest *)
Definition job : Type := (algid * nat * list (ptr * N) * ptr)%type.
Definition job_worker (j : job) : worker := let '(a, p, pieces, h) := j in hashing a p pieces h.
Definition job_ok (E : env) (s : state) (j : job) : Prop :=
  let '(a, p, pieces, h) := j in
  (exists c, get_obj s p = Some (OCtx a c) /\ fresh a c) /\
  Forall (fun x => accessible s (fst x) (snd x) /\ snd x <= ssize_max E) pieces /\ accessible s h (digest_size a).
Definition job_done (s : state) (P : pool (list Z)) (i : nat) (j : job) : Prop :=
  let '(a, p, pieces, h) := j in
  returned P i (repeat 1%Z (S (length pieces))) /\
  bytes_at (mk_state (shared P) (p_tries P) [] []) h (digest_size a) = lib_hash a (message s pieces).

(* the claim about one shared context: when every one of the threads with one call each is done, results and context are as
   if the calls had been made one after the other in some order.  Results are those of each thread. *)
Definition as_if_sequential (E : env) (s : state) (a : algid) (p : nat) (calls : list tcall) : Prop :=
  forall schedule P,
  pool_run schedule (pool_start s (map (fun x => calls_proc E a p [x] []) calls)) = Some P ->
  (forall i, (i < length calls)%nat -> exists r, returned P i r) ->
  exists order : list nat, NoDup order /\ (forall i, In i order <-> (i < length calls)%nat) /\
  exists results s', calls_seq E a p (flat_map (fun i => match nth_error calls i with Some x => [x] | None => [] end) order) [] s = Done results s' /\
  nth_error (shared P) p = nth_error (mem s') p.
