(* C46: contexts used from several threads. *)
From Coq Require Import Arith NArith ZArith List Lia Bool.
From Verif Require Import Words Spec Machine Vocab Context Threads ThreadVocab Demo ThreadFacts ThreadTheorems ReprFacts.
Import ListNotations.
Open Scope N_scope.

(* ---- the calls access by access are the calls of Context.v when no other thread runs ---- *)

Theorem C46_same_calls_alone : forall E a context buffer size e s, arg s buffer size ->
  run_proc (update_proc E a context buffer size e) s = context_update E a context buffer size e s.
Proof. exact update_alone. Qed.
Print Assumptions C46_same_calls_alone.
Example C46_same_calls_alone_ex : arg demo_state (Some (6%nat, 3)) 197.
Proof. demo_arg. Qed.

(* ---- threads on contexts of their own: nothing depends on the schedule ----
   Threads may read the same arrays, but none writes to what another one uses.  Whatever the schedule, there is no undefined
   behaviour, and a thread that had its turn often enough has returned the results that it gets without other threads, has
   the same errors in its error object, and leaves its context and arrays the same. *)
Theorem C46_separate_contexts_partial : forall E s ws,
  good_state s -> errs s = [] -> resid s = [] -> Forall (worker_args s) ws -> separate ws ->
  exists enough : nat -> nat, forall schedule, exists P,
  pool_run schedule (pool_start s (map (worker_proc E) ws)) = Some P /\
  (forall i w, nth_error ws i = Some w -> (enough i <= turns schedule i)%nat ->
   exists r s', calls_seq E (w_alg w) (w_ctx w) (w_calls w) [] s = Done r s' /\
   nth_error (threads P) i = Some (mk_thread (Return r) (errs s') (resid s')) /\
   forall q, In q (uses w) -> nth_error (shared P) q = nth_error (mem s') q) /\
  (forall q, (forall w, In w ws -> ~ In q (writes w)) -> nth_error (shared P) q = nth_error (mem s) q) /\
  length (shared P) = length (mem s) /\ p_tries P = tries s.
Proof. exact separate_threads. Qed.
Print Assumptions C46_separate_contexts_partial.

(* the same for threads that hash: every one gets the digest of its pieces *)
Theorem C46_separate_digests_partial : forall E s js,
  good_state s -> errs s = [] -> resid s = [] -> Forall (job_ok E s) js -> separate (map job_worker js) ->
  exists enough : nat -> nat, forall schedule, exists P,
  pool_run schedule (pool_start s (map (worker_proc E) (map job_worker js))) = Some P /\
  forall i j, nth_error js i = Some j -> (enough i <= turns schedule i)%nat -> job_done s P i j.
Proof. exact separate_digests. Qed.
Print Assumptions C46_separate_digests_partial.

(* two threads that read the same array, one with MD5 and one with SHA-256 *)
Definition two_state : state :=
  mk_state [array (repeat 7 100); array (repeat 0 16); array (repeat 0 40);
            mk_cell true Heap (OCtx MD5 (init_ctx MD5)); mk_cell true Heap (OCtx SHA256 (init_ctx SHA256))] 0 [] [].
Definition two_jobs : list job :=
  [(MD5, 3%nat, [((0%nat, 0), 3); ((0%nat, 1), 70)], (1%nat, 0)); (SHA256, 4%nat, [((0%nat, 20), 80)], (2%nat, 8))].
Example C46_separate_ex : good_state two_state /\ errs two_state = [] /\ resid two_state = [] /\
  Forall (job_ok (demo_env true true) two_state) two_jobs /\ separate (map job_worker two_jobs) /\
  Forall (worker_args two_state) (map job_worker two_jobs).
Proof.
  assert (J : Forall (job_ok (demo_env true true) two_state) two_jobs).
  { repeat constructor; try (eexists; split; [reflexivity|apply init_fresh]); try (eexists; split; [reflexivity|vm_compute; discriminate]); vm_compute; discriminate. }
  split; [|split; [reflexivity|split; [reflexivity|split; [exact J|split]]]].
  - intros [|[|[|[|[|p]]]]] o H; [| | | | |destruct p; discriminate]; injection H as <-.
    1-3: repeat (apply Forall_cons; [reflexivity|]); apply Forall_nil.
    + exact (shared_good MD5 1%nat _ eq_refl).
    + exact (shared_good SHA256 1%nat _ eq_refl).
  - intros [|[|i]] [|[|j]] u v q U V D; try (now destruct D); try (destruct i; discriminate); try (destruct j; discriminate); injection U as <-; injection V as <-;
      intros I K; vm_compute in I, K; intuition lia.
  - apply Forall_forall. intros w W. apply in_map_iff in W. destruct W as (j & <- & H). rewrite Forall_forall in J. apply (job_args (demo_env true true)). now apply J.
Qed.
(* both have returned under this schedule, and their digests are right *)
Definition two_schedule : list nat := concat (repeat [0; 1; 1; 0]%nat 14).
Example C46_separate_run :
  match pool_run two_schedule (pool_start two_state (map (worker_proc (demo_env true true)) (map job_worker two_jobs))) with
  | Some P => map (fun t => match todo t with Return r => Some r | _ => None end) (threads P) = [Some [1; 1; 1]; Some [1; 1]]%Z /\
      nth_error (shared P) 1 = Some (array (md5 (repeat 7 73)))
  | None => False
  end.
Proof. vm_compute. split; reflexivity. Qed.

(* ---- threads on one context: the claim is false ----
   Two threads give an initialized context one byte each.  Under some schedule both calls return 1, but the context is
   neither that of the one order nor that of the other: one of the bytes is lost. *)
Theorem C46_shared_context_refuted : forall E a, exists s p x y,
  good_state s /\ (exists c, get_obj s p = Some (OCtx a c) /\ fresh a c) /\ call_arg s x /\ call_arg s y /\
  ~ as_if_sequential E s a p [x; y].
Proof. exact shared_context. Qed.
Print Assumptions C46_shared_context_refuted.

(* what the schedule leaves: the context of the second byte alone *)
Theorem C46_lost_update_refuted : forall E a, exists s p b b' schedule P c,
  good_state s /\ get_obj s p = Some (OCtx a c) /\ fresh a c /\ bytes_at s b 1 = [1] /\ bytes_at s b' 1 = [2] /\
  pool_run schedule (pool_start s (map (fun x => calls_proc E a p [x] []) [TUpdate (Some b) 1; TUpdate (Some b') 1])) = Some P /\
  returned P 0 [1%Z] /\ returned P 1 [1%Z] /\
  exists s', context_update E a (Some p) (Some b') 1 true s = Done 1%Z s' /\ nth_error (shared P) p = nth_error (mem s') p.
Proof. exact lost_byte. Qed.
Print Assumptions C46_lost_update_refuted.

(* Three threads give an initialized context one byte and then less than a block each.  Under some schedule all of them
   compute the room that is left before any of them uses it, and the last one copies beyond the end of the context. *)
Theorem C46_overflow_refuted : forall E a, exists s p ws schedule,
  good_state s /\ (exists c, get_obj s p = Some (OCtx a c) /\ fresh a c) /\ Forall (worker_args s) ws /\
  Forall (fun w => w_alg w = a /\ w_ctx w = p) ws /\
  pool_run schedule (pool_start s (map (worker_proc E) ws)) = None.
Proof. exact overflow. Qed.
Print Assumptions C46_overflow_refuted.
