(* Concrete runs of the model that contradict properties. *)
From Coq Require Import String Ascii Arith NArith ZArith List Bool.
From Verif Require Import Words Spec Machine Vocab Context Hash History Demo ModelEval.
Import ListNotations.
Open Scope N_scope.

(* the fifth allocation (the context of the outer hash) fails *)
Lemma failing_hmac_witness : forall b, exists E a key buffer hmac s s',
  unrolled E = b /\ plat64 E = b /\ good_state s /\ arg s (Some key) 20 /\ arg s (Some buffer) 8 /\ arg s (Some hmac) 16 /\
  calculate_hmac E a (Some key) 20 (Some buffer) 8 (Some hmac) 16 true s = Done (-1)%Z s' /\
  bytes_at s hmac 16 <> bytes_at s' hmac 16 /\
  bytes_at s' hmac 16 = spec_hash a (map (N.lxor 0x36) (bytes_at s key 20 ++ repeat 0 44) ++ bytes_at s buffer 8).
Proof.
  intros b.
  assert (H : exists s', calculate_hmac (demo_fail b b 4) MD5 (Some (2%nat, 0)) 20 (Some (3%nat, 0)) 8 (Some (1%nat, 0)) 16 true demo_state = Done (-1)%Z s' /\
     bytes_at s' (1%nat, 0) 16 = eval_hash MD5 (map (N.lxor 0x36) (repeat 0x0b 20 ++ repeat 0 44) ++ text "Hi There")).
  { destruct b; (eexists; split; [vm_compute; reflexivity|vm_compute; reflexivity]). }
  destruct H as (s' & HR & HD).
  exists (demo_fail b b 4), MD5, (2%nat, 0), (3%nat, 0), (1%nat, 0), demo_state, s'.
  do 2 (split; [reflexivity|]). split; [exact demo_good|]. do 3 (split; [demo_arg|]). split; [exact HR|].
  split.
  - rewrite HD. vm_compute. discriminate.
  - rewrite HD. symmetry. apply spec_eval; vm_compute; reflexivity.
Qed.

(* a NULL message *)
Lemma null_message_witness : forall b, exists E key hmac s s',
  unrolled E = b /\ plat64 E = b /\ (forall i, alloc_ok E i = true) /\ good_state s /\ arg s (Some key) 20 /\ arg s (Some hmac) 20 /\
  calculate_hmac E SHA1 (Some key) 20 None 0 (Some hmac) 20 true s = Done (-1)%Z s' /\
  exists p x, (length (mem s) <= p)%nat /\ nth_error (mem s') p = Some (mk_cell false Heap (OCtx SHA1 x)) /\
  c_hash x = let '(a, b, c, d, e) := sha1_compress sha1_iv (map (N.lxor 0x36) (bytes_at s key 20 ++ repeat 0 44)) in [a; b; c; d; e].
Proof.
  intros b.
  assert (H : exists s' x, calculate_hmac (demo_env b b) SHA1 (Some (2%nat, 0)) 20 None 0 (Some (1%nat, 0)) 20 true demo_state = Done (-1)%Z s' /\
     nth_error (mem s') 11 = Some (mk_cell false Heap (OCtx SHA1 x)) /\
     c_hash x = let '(a, b, c, d, e) := sha1_compress sha1_iv (map (N.lxor 0x36) (bytes_at demo_state (2%nat, 0) 20 ++ repeat 0 44)) in [a; b; c; d; e]).
  { destruct b; (do 2 eexists; split; [vm_compute; reflexivity|split; [vm_compute; reflexivity|vm_compute; reflexivity]]). }
  destruct H as (s' & x & HR & HN & HX).
  exists (demo_env b b), (2%nat, 0), (1%nat, 0), demo_state, s'.
  do 2 (split; [reflexivity|]). split; [reflexivity|]. split; [exact demo_good|]. do 2 (split; [demo_arg|]).
  split; [exact HR|]. exists 11%nat, x. split; [repeat constructor|]. split; [exact HN|exact HX].
Qed.

(* finalize twice: the second digest is neither refused nor that of the empty message *)
Definition twice : list call :=
  [ CInitialize false (Var 0) true; CUpdate false (Var 0) (Some (0%nat, 0)) 3 true;
    CFinalize false (Var 0) (Some (1%nat, 0)) 64 true; CFinalize false (Var 0) (Some (1%nat, 0)) 64 true ].
Lemma twice_run : forall a, exists s' vs' d d1 d0, run (demo_env false false) twice [(a, None)] demo_state =
    Done ([ OInitialize 0 1; OUpdate 0 (text "abc") 1; OFinalize 0 d1 1; OFinalize 0 d 1 ], vs') s' /\
  d1 = eval_hash a (text "abc") /\ d0 = eval_hash a [] /\ d <> d0 /\ d <> d1.
Proof.
  intros a. destruct a; (do 5 eexists; split; [vm_compute; reflexivity|]; split; [vm_compute; reflexivity|]; split; [vm_compute; reflexivity|];
    split; discriminate).
Qed.
Lemma finalize_twice_witness : forall a, exists E s vs h os vs' s' d,
  good_state s /\ Forall (fun v => snd v = None) vs /\ Forall (valid_call s vs) h /\
  run E h vs s = Done (os, vs') s' /\ vs = [(a, None)] /\
  h = [ CInitialize false (Var 0) true; CUpdate false (Var 0) (Some (0%nat, 0)) 3 true;
        CFinalize false (Var 0) (Some (1%nat, 0)) 64 true; CFinalize false (Var 0) (Some (1%nat, 0)) 64 true ] /\
  os = [ OInitialize 0 1; OUpdate 0 (text "abc") 1; OFinalize 0 (spec_hash a (text "abc")) 1; OFinalize 0 d 1 ] /\
  d <> spec_hash a [] /\ d <> spec_hash a (text "abc").
Proof.
  intros a. destruct (twice_run a) as (s' & vs' & d & d1 & d0 & HR & H1 & H0 & N0 & N1).
  assert (S1 : spec_hash a (text "abc") = d1) by (rewrite H1; apply spec_by_model; [apply bytesb_ok; reflexivity|reflexivity]).
  assert (S0 : spec_hash a [] = d0) by (rewrite H0; apply spec_by_model; [apply bytesb_ok; reflexivity|reflexivity]).
  exists (demo_env false false), demo_state, [(a, None)], twice. do 2 eexists. exists s', d.
  split; [exact demo_good|]. split; [repeat constructor|].
  split. { repeat apply Forall_cons; try apply Forall_nil; cbn [valid_call]; try split; try (repeat constructor); demo_arg. }
  split; [exact HR|]. split; [reflexivity|]. split; [reflexivity|]. rewrite S1, S0.
  split; [reflexivity|]. split; [exact N0|exact N1].
Qed.

(* SHA-1: 64 of the 80 words of the message schedule stay on the stack; two messages leave different words *)
Lemma sha1_scratch_witness : forall b, exists E s m1 m2 s1 s2,
  unrolled E = b /\ plat64 E = b /\ good_state s /\ arg s (Some m1) 64 /\ arg s (Some m2) 64 /\
  calculate E SHA1 (Some m1) 64 (Some (1%nat, 0)) 20 true s = Done 1%Z s1 /\
  calculate E SHA1 (Some m2) 64 (Some (1%nat, 0)) 20 true s = Done 1%Z s2 /\
  map f_values (new_frames s s1) <> map f_values (new_frames s s2) /\
  exists f fs, new_frames s s1 = f :: fs /\
    skipn 16 (f_values f) = skipn 16 (schedule sha1_next (map be_value (Spec.pieces 4 (bytes_at s m1 64))) 80).
Proof.
  intros b.
  assert (H : exists s1 s2 f fs,
    calculate (demo_env b b) SHA1 (Some (6%nat, 0)) 64 (Some (1%nat, 0)) 20 true demo_state = Done 1%Z s1 /\
    calculate (demo_env b b) SHA1 (Some (6%nat, 1)) 64 (Some (1%nat, 0)) 20 true demo_state = Done 1%Z s2 /\
    map f_values (new_frames demo_state s1) <> map f_values (new_frames demo_state s2) /\ new_frames demo_state s1 = f :: fs /\
    skipn 16 (f_values f) = skipn 16 (schedule sha1_next (map be_value (Spec.pieces 4 (bytes_at demo_state (6%nat, 0) 64))) 80)).
  { destruct b; (do 4 eexists; split; [vm_compute; reflexivity|split; [vm_compute; reflexivity|split; [vm_compute; discriminate|
      split; [vm_compute; reflexivity|vm_compute; reflexivity]]]]). }
  destruct H as (s1 & s2 & f & fs & R1 & R2 & ND & NF & HS).
  exists (demo_env b b), demo_state, (6%nat, 0), (6%nat, 1), s1, s2.
  do 2 (split; [reflexivity|]). split; [exact demo_good|]. do 2 (split; [demo_arg|]).
  split; [exact R1|]. split; [exact R2|]. split; [exact ND|]. exists f, fs. split; [exact NF|exact HS].
Qed.
