(* Properties C07, C09-C13, C15, C20, C22-C27: contexts and programs over the library.
   [run E h vs s] runs the program h (a list of API calls) with context variables vs in memory s;
   [do_initialize], [do_update], [do_finalize], [do_free] are the API functions under their old (true)
   and new (false) names.  The observations and what is expected of them are in History.v,
   the other notions in Vocab.v. *)
From Coq Require Import String Ascii NArith ZArith List Bool.
From Verif Require Import Words Spec Machine Vocab Context Hash History LibTheorems Demo Witness.
Import ListNotations.
Open Scope N_scope.

(* ---- C07: splitting over updates ---- *)

(* initialize, any number of updates of any sizes, finalize: all calls succeed and the digest is that of
   the concatenation *)
Theorem C07_pieces : forall E a oi of ei ef xs hp hash_size s,
  good_state s -> Forall (fun x => arg s (Some (pc_ptr x)) (pc_size x) /\ pc_size x <= ssize_max E) xs ->
  arg s (Some hp) hash_size -> digest_size a <= hash_size <= ssize_max E -> alloc_ok E (tries s) = true ->
  let m := concat (map (piece_bytes s) xs) in
  exists s' q, run E (whole_message oi of ei ef xs hp hash_size) [(a, None)] s =
    Done (OInitialize 0 1 :: map (fun x => OUpdate 0 (piece_bytes s x) 1) xs ++ [OFinalize 0 (lib_hash a m) 1], [(a, Some q)]) s' /\
    bytes_at s' hp (digest_size a) = lib_hash a m /\ (in_domain a m -> lib_hash a m = spec_hash a m).
Proof. exact pieces_lib. Qed.
Print Assumptions C07_pieces.

(* two ways of splitting the same message give the same digest *)
Theorem C07_same_split : forall E E' a oi of ei ef xs hp hash_size s oi' of' ei' ef' xs' hp' hash_size' s2,
  good_state s -> Forall (fun x => arg s (Some (pc_ptr x)) (pc_size x) /\ pc_size x <= ssize_max E) xs ->
  arg s (Some hp) hash_size -> digest_size a <= hash_size <= ssize_max E -> alloc_ok E (tries s) = true ->
  good_state s2 -> Forall (fun x => arg s2 (Some (pc_ptr x)) (pc_size x) /\ pc_size x <= ssize_max E') xs' ->
  arg s2 (Some hp') hash_size' -> digest_size a <= hash_size' <= ssize_max E' -> alloc_ok E' (tries s2) = true ->
  concat (map (piece_bytes s) xs) = concat (map (piece_bytes s2) xs') ->
  exists o s' o2 s2', run E (whole_message oi of ei ef xs hp hash_size) [(a, None)] s = Done o s' /\
    run E' (whole_message oi' of' ei' ef' xs' hp' hash_size') [(a, None)] s2 = Done o2 s2' /\
    bytes_at s' hp (digest_size a) = bytes_at s2' hp' (digest_size a).
Proof. exact pieces_pieces. Qed.
Print Assumptions C07_same_split.

(* ... which is the digest of the one-shot function *)
Theorem C07_one_shot : forall E E' a oi of ei ef xs hp hash_size s bp size hp' hash_size' e s2 r s2',
  good_state s -> Forall (fun x => arg s (Some (pc_ptr x)) (pc_size x) /\ pc_size x <= ssize_max E) xs ->
  arg s (Some hp) hash_size -> digest_size a <= hash_size <= ssize_max E -> alloc_ok E (tries s) = true ->
  good_state s2 -> arg s2 (Some bp) size -> arg s2 (Some hp') hash_size' ->
  calculate E' a (Some bp) size (Some hp') hash_size' e s2 = Done r s2' -> r = 1%Z ->
  bytes_at s2 bp size = concat (map (piece_bytes s) xs) ->
  exists s' o, run E (whole_message oi of ei ef xs hp hash_size) [(a, None)] s = Done o s' /\
    bytes_at s' hp (digest_size a) = bytes_at s2' hp' (digest_size a).
Proof. exact pieces_one_shot. Qed.
Print Assumptions C07_one_shot.

(* the 200 bytes of array 6 in pieces of 1, 0, 63, 130 and 6 bytes *)
Definition C07_pieces_list : list piece :=
  [ mk_piece true (6%nat, 0) 1 true; mk_piece false (6%nat, 50) 0 true; mk_piece false (6%nat, 1) 63 false;
    mk_piece true (6%nat, 64) 130 true; mk_piece false (6%nat, 194) 6 true ].
Example C07_example : forall b,
  Forall (fun x => arg demo_state (Some (pc_ptr x)) (pc_size x) /\ pc_size x <= ssize_max (demo_env b b)) C07_pieces_list /\
  concat (map (piece_bytes demo_state) C07_pieces_list) = bytes_at demo_state (6%nat, 0) 200 /\
  option_map (fun o => nth_error (fst o) 6)
     (result (run (demo_env b b) (whole_message true false true true C07_pieces_list (1%nat, 0) 64) [(SHA1, None)] demo_state))
    = Some (Some (OFinalize 0 (be_bytes 20 0x6071e0338c68d8fbc6ce92fe6ba208fea2b68cf1) 1)).
Proof.
  intros b. split.
  { repeat apply Forall_cons; try apply Forall_nil; (split; [demo_arg|destruct b; vm_compute; discriminate]). }
  split; [vm_compute; reflexivity|]. destruct b; vm_compute; reflexivity.
Qed.

(* ---- C09: no undefined behaviour; C15: no leak; C24: independence ---- *)

(* Every program that respects the caller's side of the contract runs to its end (Done, not Undef); its one-shot
   calls give the right digests; each context variable behaves as the automaton [accepts] says; the caller's arrays
   keep their places and sizes; the variables hold NULL or distinct live contexts; and every live allocation made by
   the library is one of these, so nothing has leaked (in particular when all variables are NULL again). *)
Theorem C09_C15_any_program : forall E s vs h, good_state s -> Forall (fun v => snd v = None) vs -> Forall (valid_call s vs) h ->
  exists os vs' s', run E h vs s = Done (os, vs') s' /\ length os = length h /\ map fst vs' = map fst vs /\
  Forall (one_shot_ok lib_hash lib_hmac) os /\
  (forall i a p, nth_error vs i = Some (a, p) -> accepts (lib_hash a) (zero_iv_hash a) None i os) /\
  good_state s' /\ kept_sizes s s' /\
  (forall i a p, nth_error vs' i = Some (a, Some p) -> (length (mem s) <= p)%nat /\ heap_ctx s' a p) /\
  (forall i j a b p, nth_error vs' i = Some (a, Some p) -> nth_error vs' j = Some (b, Some p) -> i = j) /\
  (forall p c, (length (mem s) <= p)%nat -> nth_error (mem s') p = Some c -> live c = true ->
     exists i a, nth_error vs' i = Some (a, Some p)).
Proof. exact any_program. Qed.
Print Assumptions C09_C15_any_program.

(* the states in which the theorems below are stated (good_state, ctx_arg, heap_ctx, arg) include all reachable ones *)
Theorem reachable_states : forall E s vs h os vs' s', good_state s -> Forall (fun v => snd v = None) vs -> Forall (valid_call s vs) h ->
  run E h vs s = Done (os, vs') s' ->
  good_state s' /\ (forall q n, arg s q n -> arg s' q n) /\
  (forall i a p, nth_error vs' i = Some (a, p) -> ctx_arg s' a p /\ forall q, p = Some q -> heap_ctx s' a q).
Proof. exact reachable. Qed.
Print Assumptions reachable_states.

(* C24: if two programs (in any environments, with any other variables and any other calls between) do the same with
   variable i - the same calls with the same data and return codes in the same order - the digests are the same *)
Theorem C24_independence : forall E1 s1 vs1 h1 os1 vs1' s1' E2 s2 vs2 h2 os2 vs2' s2' i a,
  good_state s1 -> Forall (fun v => snd v = None) vs1 -> Forall (valid_call s1 vs1) h1 -> run E1 h1 vs1 s1 = Done (os1, vs1') s1' ->
  good_state s2 -> Forall (fun v => snd v = None) vs2 -> Forall (valid_call s2 vs2) h2 -> run E2 h2 vs2 s2 = Done (os2, vs2') s2' ->
  nth_error vs1 i = Some (a, None) -> nth_error vs2 i = Some (a, None) ->
  map ask (filter (mine i) os1) = map ask (filter (mine i) os2) -> digests i os1 = digests i os2.
Proof. exact programs_agree. Qed.
Print Assumptions C24_independence.

(* two contexts interleaved, with a rejected update, a one-shot call and frees *)
Definition C09_vars : vars := [(MD5, None); (SHA1, None)].
Definition C09_program : list call :=
  [ CInitialize false (Var 0) true; CInitialize true (Var 1) true; CUpdate false (Var 0) (Some (6%nat, 0)) 100 true;
    CUpdate false (Var 1) (Some (6%nat, 10)) 70 true; CUpdate false (Var 0) None 5 true; CUpdate true (Var 0) (Some (6%nat, 100)) 100 true;
    CHmac SHA1 (Some (2%nat, 0)) 20 (Some (3%nat, 0)) 8 (Some (1%nat, 40)) 20 true;
    CFinalize false (Var 1) (Some (1%nat, 0)) 20 true; CFinalize false (Var 0) (Some (1%nat, 0)) 16 true;
    CFree false (Var 0) true; CFree true (Var 1) true; CFree true (Var 1) true; CInitialize true (Null MD5) true ].
Example C09_example : forall b,
  good_state demo_state /\ Forall (fun v => snd v = None) C09_vars /\ Forall (valid_call demo_state C09_vars) C09_program /\
  option_map fst (result (run (demo_env b b) C09_program C09_vars demo_state)) = Some
    [ OInitialize 0 1; OInitialize 1 1; OUpdate 0 (bytes_at demo_state (6%nat, 0) 100) 1; OUpdate 1 (bytes_at demo_state (6%nat, 10) 70) 1;
      OUpdate 0 [] (-1); OUpdate 0 (bytes_at demo_state (6%nat, 100) 100) 1;
      OHmac SHA1 (repeat 0x0b 20) (text "Hi There") (be_bytes 20 0xb617318655057264e28bc0b6fb378c8ef146be00) 1;
      OFinalize 1 (be_bytes 20 0x51f8c08e5b8c740b0c33415eed63c32a1bde6b47) 1; OFinalize 0 (be_bytes 16 0xd96c89b9da43f6903ceaa14a7166a22e) 1;
      OFree 0 1; OFree 1 1; OFree 1 1; ONull (-1) ].
Proof.
  intros b. split; [exact demo_good|]. split; [repeat constructor|]. split.
  { repeat apply Forall_cons; try apply Forall_nil; cbn [valid_call]; try exact Logic.I; try (repeat constructor);
      repeat (match goal with |- _ /\ _ => split end); try exact Logic.I; try (repeat constructor); try demo_arg. }
  destruct b; vm_compute; reflexivity.
Qed.
(* the same calls on variable 0 alone: the same digests *)
Definition C24_alone : list call :=
  [ CInitialize false (Var 0) true; CUpdate false (Var 0) (Some (6%nat, 0)) 100 true; CUpdate false (Var 0) None 5 true;
    CUpdate true (Var 0) (Some (6%nat, 100)) 100 true; CFinalize false (Var 0) (Some (1%nat, 0)) 16 true; CFree false (Var 0) true ].
Example C24_example : forall b os1 vs1 s1 os2 vs2 s2,
  run (demo_env b b) C09_program C09_vars demo_state = Done (os1, vs1) s1 ->
  run (demo_env false true) C24_alone [(MD5, None)] demo_state = Done (os2, vs2) s2 ->
  map ask (filter (mine 0) os1) = map ask (filter (mine 0) os2) /\ digests 0 os1 = [be_bytes 16 0xd96c89b9da43f6903ceaa14a7166a22e].
Proof.
  intros b os1 vs1 s1 os2 vs2 s2 H1 H2. apply (f_equal result) in H1. apply (f_equal result) in H2.
  vm_compute in H2. injection H2 as <- <-. destruct b; vm_compute in H1; injection H1 as <- <-; split; vm_compute; reflexivity.
Qed.

(* ---- C10, C11, C12: which calls are rejected; rejected calls change nothing; error entries ---- *)

Theorem C10_C11_C12_update : forall E old a p b n e s, good_state s -> ctx_arg s a p -> arg s b n ->
  exists r s', do_update E old a p b n e s = Done r s' /\ (r = 1%Z \/ r = (-1)%Z) /\
  (r = (-1)%Z <-> p = None \/ b = None \/ ssize_max E < n) /\
  (r = (-1)%Z -> mem s' = mem s /\ tries s' = tries s /\ resid s' = resid s) /\
  (r = 1%Z -> errors_same s s') /\ (r = (-1)%Z -> errors_added e s s').
Proof. exact update_decides. Qed.
Print Assumptions C10_C11_C12_update.

Theorem C10_C11_C12_finalize : forall E old a p h n e s, good_state s -> ctx_arg s a p -> arg s h n ->
  exists r s', do_finalize E old a p h n e s = Done r s' /\ (r = 1%Z \/ r = (-1)%Z) /\
  (r = (-1)%Z <-> p = None \/ h = None \/ n < digest_size a \/ ssize_max E < n) /\
  (r = (-1)%Z -> mem s' = mem s /\ tries s' = tries s /\ resid s' = resid s) /\
  (r = 1%Z -> errors_same s s') /\ (r = (-1)%Z -> errors_added e s s').
Proof. exact finalize_decides. Qed.
Print Assumptions C10_C11_C12_finalize.

Theorem C10_C12_initialize : forall E old a v e s,
  exists r v' s', do_initialize E old a v e s = Done (r, v') s' /\ (r = 1%Z \/ r = (-1)%Z) /\
  (r = (-1)%Z <-> v = None \/ (exists q, v = Some (Some q)) \/ alloc_ok E (tries s) = false) /\
  (r = (-1)%Z -> mem s' = mem s) /\
  (r = 1%Z -> errors_same s s') /\ (r = (-1)%Z -> errors_added e s s').
Proof. exact initialize_decides. Qed.
Print Assumptions C10_C12_initialize.

Theorem C10_C12_free : forall old a v e s, (forall q, v = Some (Some q) -> heap_ctx s a q) ->
  exists r v' s', do_free old a v e s = Done (r, v') s' /\ (r = 1%Z \/ r = (-1)%Z) /\
  (r = (-1)%Z <-> v = None) /\ (r = (-1)%Z -> mem s' = mem s) /\
  (r = 1%Z -> errors_same s s') /\ (r = (-1)%Z -> errors_added e s s').
Proof. exact free_decides. Qed.
Print Assumptions C10_C12_free.

Theorem C12_calculate : forall E a buffer size hash hash_size e s,
  good_state s -> arg s buffer size -> arg s hash hash_size ->
  exists r s', calculate E a buffer size hash hash_size e s = Done r s' /\ (r = 1%Z \/ r = (-1)%Z) /\
  (r = 1%Z -> errors_same s s') /\ (r = (-1)%Z -> errors_added e s s').
Proof. exact calculate_errors. Qed.
Print Assumptions C12_calculate.

Theorem C12_hmac : forall E a key key_size buffer size hmac hmac_size e s,
  good_state s -> arg s key key_size -> arg s buffer size -> arg s hmac hmac_size ->
  exists r s', calculate_hmac E a key key_size buffer size hmac hmac_size e s = Done r s' /\ (r = 1%Z \/ r = (-1)%Z) /\
  (r = 1%Z -> errors_same s s') /\ (r = (-1)%Z -> errors_added e s s').
Proof. exact hmac_errors. Qed.
Print Assumptions C12_hmac.

(* a state with a context in it: "abc" absorbed by a SHA-256 context, cell 7 *)
Definition mid_state (u p64 : bool) : state :=
  final (run (demo_env u p64) [CInitialize false (Var 0) true; CUpdate false (Var 0) (Some (0%nat, 0)) 3 true] [(SHA1, None)] demo_state).
Example mid_good : forall u p64, good_state (mid_state u p64) /\ ctx_arg (mid_state u p64) SHA1 (Some 7%nat) /\
  heap_ctx (mid_state u p64) SHA1 7 /\ arg (mid_state u p64) (Some (1%nat, 2)) 78.
Proof.
  intros u p64. set (h := [CInitialize false (Var 0) true; CUpdate false (Var 0) (Some (0%nat, 0)) 3 true]).
  assert (HR : exists os, run (demo_env u p64) h [(SHA1, None)] demo_state = Done (os, [(SHA1, Some 7%nat)]) (mid_state u p64)).
  { destruct u, p64; eexists; vm_compute; reflexivity. }
  destruct HR as (os & HR). eapply reachable_states in HR.
  - destruct HR as (HG & HA & HC). destruct (HC 0%nat SHA1 (Some 7%nat) eq_refl) as [H1 H2].
    split; [exact HG|]. split; [exact H1|]. split; [now apply H2|]. apply HA. demo_arg.
  - exact demo_good.
  - repeat constructor.
  - repeat apply Forall_cons; try apply Forall_nil; cbn [valid_call]; try split; try (repeat constructor); demo_arg.
Qed.
(* both outcomes occur, with error entries exactly on failure *)
Example C10_example : forall b,
  let s := mid_state b b in let E := demo_env b b in
  let view (o : outcome Z) := (result o, errs (final o)) in
  let view2 (o : outcome (Z * option nat)) := (result o, errs (final o)) in
  view (do_update E false SHA1 (Some 7%nat) (Some (6%nat, 0)) 200 true s) = (Some 1%Z, []) /\
  view (do_update E true SHA1 (Some 7%nat) None 200 true s) = (Some (-1)%Z, [E_ARGUMENT_INVALID_VALUE; E_RUNTIME_SET_FAILED]) /\
  view (do_update E false SHA1 (Some 7%nat) (Some (6%nat, 0)) (2 ^ 63) true s) = (Some (-1)%Z, [E_ARGUMENT_VALUE_EXCEEDS_MAXIMUM]) /\
  view (do_finalize E false SHA1 (Some 7%nat) (Some (1%nat, 0)) 19 true s) = (Some (-1)%Z, [E_ARGUMENT_VALUE_TOO_SMALL]) /\
  view (do_finalize E false SHA1 (Some 7%nat) (Some (1%nat, 0)) 20 true s) = (Some 1%Z, []) /\
  view2 (do_free false SHA1 (Some (Some 7%nat)) true s) = (Some (1%Z, None), []) /\
  view2 (do_initialize (demo_fail b b 1) false SHA1 (Some None) true s) = (Some ((-1)%Z, None), [E_MEMORY_INSUFFICIENT]).
Proof. intros b. destruct b; vm_compute; repeat split. Qed.

(* ---- C13, C22: what finalize, update, calculate and calculate_hmac write; finalize erases the context ---- *)

Theorem C13_C22_finalize_writes : forall E old a p hp n e s s', good_state s -> ctx_arg s a (Some p) -> arg s (Some hp) n ->
  do_finalize E old a (Some p) (Some hp) n e s = Done 1%Z s' ->
  (exists c', get_obj s' p = Some (OCtx a c') /\ blank c' /\ length (c_hash c') = state_words a /\
     length (c_block c') = (2 * N.to_nat (block_size a))%nat) /\
  length (mem s') = length (mem s) /\
  (forall q, q <> p -> q <> fst hp -> nth_error (mem s') q = nth_error (mem s) q) /\
  exists l l', get_obj s (fst hp) = Some (OBytes l) /\ get_obj s' (fst hp) = Some (OBytes l') /\ length l' = length l /\
    forall i, (N.of_nat i < snd hp \/ snd hp + digest_size a <= N.of_nat i) -> nth_error l' i = nth_error l i.
Proof. exact finalize_writes. Qed.
Print Assumptions C13_C22_finalize_writes.

Theorem C13_update_writes : forall E old a p b n e s r s', good_state s -> ctx_arg s a (Some p) -> arg s b n ->
  do_update E old a (Some p) b n e s = Done r s' ->
  length (mem s') = length (mem s) /\ (forall q, q <> p -> nth_error (mem s') q = nth_error (mem s) q) /\
  exists c', get_obj s' p = Some (OCtx a c').
Proof. exact update_writes. Qed.
Print Assumptions C13_update_writes.

Theorem C13_calculate_writes : forall E a bp size hp hash_size e s s',
  good_state s -> arg s (Some bp) size -> arg s (Some hp) hash_size ->
  calculate E a (Some bp) size (Some hp) hash_size e s = Done 1%Z s' -> unchanged_but s s' hp (digest_size a).
Proof. exact calculate_writes. Qed.
Print Assumptions C13_calculate_writes.

Theorem C13_hmac_writes : forall E a kp key_size bp size hp hmac_size e s s',
  good_state s -> arg s (Some kp) key_size -> arg s (Some bp) size -> arg s (Some hp) hmac_size ->
  calculate_hmac E a (Some kp) key_size (Some bp) size (Some hp) hmac_size e s = Done 1%Z s' -> unchanged_but s s' hp (digest_size a).
Proof. exact hmac_writes. Qed.
Print Assumptions C13_hmac_writes.

(* finalizing "abc" into the middle of the output array: the bytes around stay 0xee *)
Example C13_example : forall b,
  let o := do_finalize (demo_env b b) false SHA1 (Some 7%nat) (Some (1%nat, 4)) 70 true (mid_state b b) in
  result o = Some 1%Z /\ bytes_at (final o) (1%nat, 0) 80 = repeat 0xee 4 ++ be_bytes 20 0xa9993e364706816aba3e25717850c26c9cd0d89d ++ repeat 0xee 56 /\
  get_obj (final o) 7 = Some (OCtx SHA1 (mk_ctx 0 (repeat 0 5) 0 (repeat 0 128))).
Proof. intros b. destruct b; vm_compute; repeat split. Qed.

(* ---- C20: scratch arrays of block processing ---- *)

(* for MD5, SHA-224, SHA-256 and SHA-512 the local arrays of every transform call hold only zeros when it returns *)
Theorem C20_update_scratch_partial : forall E old a p b n e s r s', a <> SHA1 -> good_state s -> ctx_arg s a p -> arg s b n ->
  do_update E old a p b n e s = Done r s' -> Forall frame_zero (new_frames s s').
Proof. exact update_frames_zero. Qed.
Print Assumptions C20_update_scratch_partial.

Theorem C20_finalize_scratch_partial : forall E old a p h n e s r s', a <> SHA1 -> good_state s -> ctx_arg s a p -> arg s h n ->
  do_finalize E old a p h n e s = Done r s' -> Forall frame_zero (new_frames s s').
Proof. exact finalize_frames_zero. Qed.
Print Assumptions C20_finalize_scratch_partial.

Theorem C20_calculate_scratch_partial : forall E a b n h hn e s r s', a <> SHA1 -> good_state s -> arg s b n -> arg s h hn ->
  calculate E a b n h hn e s = Done r s' -> Forall frame_zero (new_frames s s').
Proof. exact calculate_frames_zero. Qed.
Print Assumptions C20_calculate_scratch_partial.

Theorem C20_hmac_scratch_partial : forall E a k kn b n h hn e s r s', a <> SHA1 -> good_state s -> arg s k kn -> arg s b n -> arg s h hn ->
  calculate_hmac E a k kn b n h hn e s = Done r s' -> Forall frame_zero (new_frames s s').
Proof. exact hmac_frames_zero. Qed.
Print Assumptions C20_hmac_scratch_partial.

(* SHA-1: the chaining value copies and the first 16 of the 80 schedule words are cleared *)
Theorem C20_sha1_scratch_partial : forall E b n h hn e s r s', good_state s -> arg s b n -> arg s h hn ->
  calculate E SHA1 b n h hn e s = Done r s' ->
  Forall (fun f => Forall (eq 0) (f_hash_values f) /\ Forall (eq 0) (firstn 16 (f_values f))) (new_frames s s').
Proof. exact calculate_frames_sha1. Qed.
Print Assumptions C20_sha1_scratch_partial.

(* ... and the other 64 are not: two messages leave different words, exactly words 16 to 79 of the message schedule *)
Theorem C20_sha1_scratch_refuted : forall b, exists E s m1 m2 s1 s2,
  unrolled E = b /\ plat64 E = b /\ good_state s /\ arg s (Some m1) 64 /\ arg s (Some m2) 64 /\
  calculate E SHA1 (Some m1) 64 (Some (1%nat, 0)) 20 true s = Done 1%Z s1 /\
  calculate E SHA1 (Some m2) 64 (Some (1%nat, 0)) 20 true s = Done 1%Z s2 /\
  map f_values (new_frames s s1) <> map f_values (new_frames s s2) /\
  exists f fs, new_frames s s1 = f :: fs /\
    skipn 16 (f_values f) = skipn 16 (schedule sha1_next (map be_value (Spec.pieces 4 (bytes_at s m1 64))) 80).
Proof. exact sha1_scratch_witness. Qed.
Print Assumptions C20_sha1_scratch_refuted.

Example C20_example : forall b,
  let o := calculate (demo_env b b) MD5 (Some (6%nat, 0)) 200 (Some (1%nat, 0)) 16 true demo_state in
  result o = Some 1%Z /\ new_frames demo_state (final o) = repeat (mk_frame (repeat 0 4) (repeat 0 16)) 2.
Proof. intros b. destruct b; vm_compute; repeat split. Qed.

(* ---- C23: a finalized context used again: neither refused nor fresh ---- *)

(* What such a context computes is said by C09_C15_any_program: the hash function started from zeros (zero_iv_hash).
   Witness, for every algorithm: a second finalize succeeds, and its digest is not that of the empty message. *)
Theorem C23_reuse_refuted : forall a, exists E s vs h os vs' s' d,
  good_state s /\ Forall (fun v => snd v = None) vs /\ Forall (valid_call s vs) h /\
  run E h vs s = Done (os, vs') s' /\ vs = [(a, None)] /\
  h = [ CInitialize false (Var 0) true; CUpdate false (Var 0) (Some (0%nat, 0)) 3 true;
        CFinalize false (Var 0) (Some (1%nat, 0)) 64 true; CFinalize false (Var 0) (Some (1%nat, 0)) 64 true ] /\
  os = [ OInitialize 0 1; OUpdate 0 (text "abc") 1; OFinalize 0 (spec_hash a (text "abc")) 1; OFinalize 0 d 1 ] /\
  d <> spec_hash a [] /\ d <> spec_hash a (text "abc").
Proof. exact finalize_twice_witness. Qed.
Print Assumptions C23_reuse_refuted.

(* ---- C25: the life cycle of a context pointer ---- *)

Theorem C25_initialize : forall E old a v e s r v' s',
  do_initialize E old a (Some v) e s = Done (r, v') s' ->
  (r = 1%Z -> v = None /\ v' = Some (length (mem s)) /\ get_obj s (length (mem s)) = None /\
     (exists c, nth_error (mem s') (length (mem s)) = Some (mk_cell true Heap (OCtx a c)) /\ good_ctx a c) /\
     length (mem s') = S (length (mem s)) /\ unchanged s s') /\
  (r <> 1%Z -> v' = v /\ mem s' = mem s) /\
  (v <> None -> r = (-1)%Z).
Proof. exact initialize_pointer. Qed.
Print Assumptions C25_initialize.

Theorem C25_free : forall old a v e s, (forall q, v = Some q -> heap_ctx s a q) ->
  exists s', do_free old a (Some v) e s = Done (1%Z, None) s' /\ errors_same s s' /\
  (v = None -> s' = s) /\
  (forall q, v = Some q -> get_obj s' q = None /\ (forall p, p <> q -> nth_error (mem s') p = nth_error (mem s) p) /\
     forall e', do_free old a (Some None) e' s' = Done (1%Z, None) s').
Proof. exact free_pointer. Qed.
Print Assumptions C25_free.

(* ---- C26: the two sets of names ---- *)

Theorem C26_update : forall E a p b n e s, good_state s -> ctx_arg s a p -> arg s b n ->
  exists r s', context_update E a p b n e s = Done r s' /\ hash_update E a p b n e s = Done r (more_errors e r E_RUNTIME_SET_FAILED s').
Proof. exact update_names. Qed.
Print Assumptions C26_update.

Theorem C26_finalize : forall E a p h n e s, good_state s -> ctx_arg s a p -> arg s h n ->
  exists r s', context_finalize E a p h n e s = Done r s' /\ hash_finalize E a p h n e s = Done r (more_errors e r E_RUNTIME_FINALIZE_FAILED s').
Proof. exact finalize_names. Qed.
Print Assumptions C26_finalize.

Theorem C26_initialize : forall E a v e s,
  exists r v' s', context_initialize E a v e s = Done (r, v') s' /\ hash_initialize E a v e s = Done (r, v') (more_errors e r E_RUNTIME_INITIALIZE_FAILED s').
Proof. exact initialize_names. Qed.
Print Assumptions C26_initialize.

Theorem C26_free : forall a v e s, (forall q, v = Some (Some q) -> heap_ctx s a q) ->
  exists r v' s', context_free a v e s = Done (r, v') s' /\ hash_free a v e s = Done (r, v') (more_errors e r E_RUNTIME_FINALIZE_FAILED s').
Proof. exact free_names. Qed.
Print Assumptions C26_free.

(* mid_good above meets the hypotheses of C25_free and C26; the values: *)
Example C25_C26_example : forall b,
  let s := mid_state b b in let E := demo_env b b in
  result (do_initialize E false MD5 (Some None) true s) = Some (1%Z, Some 8%nat) /\
  result (do_initialize E false MD5 (Some (Some 7%nat)) true s) = Some ((-1)%Z, Some 7%nat) /\
  get_obj (final (do_free true SHA1 (Some (Some 7%nat)) true s)) 7 = None /\
  errs (final (hash_update E SHA1 (Some 7%nat) None 3 true s)) = errs (final (context_update E SHA1 (Some 7%nat) None 3 true s)) ++ [E_RUNTIME_SET_FAILED] /\
  mem (final (hash_update E SHA1 (Some 7%nat) (Some (6%nat, 0)) 99 true s)) = mem (final (context_update E SHA1 (Some 7%nat) (Some (6%nat, 0)) 99 true s)).
Proof. intros b. destruct b; vm_compute; repeat split. Qed.

(* ---- C27: length accounting ---- *)

(* after any updates the context accounts for the number of bytes absorbed, modulo 2^64: hash_count plus block_offset;
   C07_pieces says that the length field then is right (lib_hash is the standard's hash for MD5, SHA-1, SHA-224 and
   SHA-256 for every message length, with the bit length modulo 2^64 in the padding) *)
Theorem C27_length : forall E a oi ei xs s,
  good_state s -> Forall (fun x => arg s (Some (pc_ptr x)) (pc_size x) /\ pc_size x <= ssize_max E) xs ->
  alloc_ok E (tries s) = true ->
  let m := concat (map (piece_bytes s) xs) in
  exists os q s1 c, run E (CInitialize oi (Var 0) ei :: map piece_call xs) [(a, None)] s = Done (os, [(a, Some q)]) s1 /\
    get_obj s1 q = Some (OCtx a c) /\ c_boff c < block_size a /\ c_boff c = N.of_nat (length m) mod block_size a /\
    (c_count c + c_boff c) mod 2 ^ 64 = N.of_nat (length m) mod 2 ^ 64.
Proof. exact pieces_count. Qed.
Print Assumptions C27_length.

Example C27_example : forall b,
  get_obj (final (run (demo_env b b) (CInitialize false (Var 0) true :: map piece_call C07_pieces_list) [(SHA1, None)] demo_state)) 7
  <> None /\
  match get_obj (final (run (demo_env b b) (CInitialize false (Var 0) true :: map piece_call C07_pieces_list) [(SHA1, None)] demo_state)) 7 with
  | Some (OCtx SHA1 c) => c_count c = 192 /\ c_boff c = 8
  | _ => False
  end.
Proof. intros b. destruct b; vm_compute; repeat split; discriminate. Qed.
