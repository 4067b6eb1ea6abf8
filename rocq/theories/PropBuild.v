(* Property C08: the build option LIBHMAC_UNFOLLED_LOOPS makes no difference.
   An environment is [mk_env unrolled plat64 alloc_ok junk stack_junk]; the two sides of each
   equation differ in the first component only.  The equations are between whole outcomes: the
   return value, every byte of memory, the error entries, what stays on the stack, and whether the
   call is defined at all; no assumption is made on the arguments. *)
From Coq Require Import String Ascii NArith ZArith List Bool.
From Verif Require Import Words Spec Machine Vocab Context Hash History BuildFacts Demo.
Import ListNotations.
Open Scope N_scope.

(* ---- C08: any program *)
Theorem C08_run : forall u1 u2 p64 ok j sj h vs s, good_state s ->
  run (mk_env u1 p64 ok j sj) h vs s = run (mk_env u2 p64 ok j sj) h vs s.
Proof. exact builds_run. Qed.
Print Assumptions C08_run.

(* ---- C08: single calls on any memory *)
Theorem C08_calculate : forall u1 u2 p64 ok j sj a buffer size hash hash_size e s, good_state s ->
  calculate (mk_env u1 p64 ok j sj) a buffer size hash hash_size e s = calculate (mk_env u2 p64 ok j sj) a buffer size hash hash_size e s.
Proof. exact builds_calculate. Qed.
Print Assumptions C08_calculate.

Theorem C08_calculate_hmac : forall u1 u2 p64 ok j sj a key key_size buffer size hmac hmac_size e s, good_state s ->
  calculate_hmac (mk_env u1 p64 ok j sj) a key key_size buffer size hmac hmac_size e s =
  calculate_hmac (mk_env u2 p64 ok j sj) a key key_size buffer size hmac hmac_size e s.
Proof. exact builds_hmac. Qed.
Print Assumptions C08_calculate_hmac.

Theorem C08_update : forall u1 u2 p64 ok j sj a context buffer size e s, good_state s ->
  context_update (mk_env u1 p64 ok j sj) a context buffer size e s = context_update (mk_env u2 p64 ok j sj) a context buffer size e s.
Proof. exact builds_update. Qed.
Print Assumptions C08_update.

Theorem C08_finalize : forall u1 u2 p64 ok j sj a context hash hash_size e s, good_state s ->
  context_finalize (mk_env u1 p64 ok j sj) a context hash hash_size e s = context_finalize (mk_env u2 p64 ok j sj) a context hash hash_size e s.
Proof. exact builds_finalize. Qed.
Print Assumptions C08_finalize.

(* the digest of 200 bytes, computed by both builds separately; and a call with a buffer that ends too early,
   which is undefined in both *)
Example C08_example : good_state demo_state /\ forall u,
  seen (calculate (demo_env u true) SHA1 (Some (6%nat, 0)) 200 (Some (1%nat, 0)) 20 true demo_state) 1 20
    = Some (1%Z, be_bytes 20 0x6071e0338c68d8fbc6ce92fe6ba208fea2b68cf1) /\
  calculate (demo_env u true) MD5 (Some (6%nat, 199)) 64 (Some (1%nat, 0)) 20 true demo_state = Undef.
Proof. split; [exact demo_good|]. intros u. destruct u; (split; vm_compute; reflexivity). Qed.
