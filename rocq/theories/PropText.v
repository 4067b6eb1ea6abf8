(* Property C60: the model does what the text of the C files does.  On the left of each equation the body of the function, as
   it stands in the file and as TextMd5.v to TextSha512.v repeat it, is executed by the rules of CText.v; on the right is the
   model.  The equation says that both are undefined or both end with the same result, memory and error entries.
   [fuel] bounds the turns of each loop: the text is given enough of them and then ends by itself. *)
From Coq Require Import NArith ZArith List Bool String.
From Verif Require Import Words Spec Machine Vocab Context Hash Demo CText TextAll TextRun.
Import ListNotations.
Open Scope string_scope.
Open Scope list_scope.
Open Scope N_scope.

(* the second component: what is left in the pointer variables whose addresses were passed *)
Theorem C60_initialize : forall E fuel a c e s,
  run_text E fuel a "context_initialize" [v_place a c; v_error e] s =
  (r <- context_initialize E a c e ;; ret (VS R32 (fst r), [option_map (fun _ => v_ctx a (snd r)) c; None])) s.
Proof. exact run_initialize. Qed.
Print Assumptions C60_initialize.

Theorem C60_free : forall E fuel a c e s,
  run_text E fuel a "context_free" [v_place a c; v_error e] s =
  (r <- context_free a c e ;; ret (VS R32 (fst r), [option_map (fun _ => v_ctx a (snd r)) c; None])) s.
Proof. exact run_free. Qed.
Print Assumptions C60_free.

Theorem C60_update : forall E fuel a p b n e s,
  good_state s -> ctx_arg s a p -> arg s b n -> n < size_mod E -> (N.to_nat n + 400 <= fuel)%nat ->
  run_text E fuel a "context_update" [v_ctx a p; v_bytes b; VU RSz n; v_error e] s =
  (r <- context_update E a p b n e ;; ret (VS R32 r, [None; None; None; None])) s.
Proof. exact run_update. Qed.
Print Assumptions C60_update.

Theorem C60_finalize : forall E fuel a p h n e s,
  good_state s -> ctx_arg s a p -> arg s h n -> n < size_mod E -> (400 <= fuel)%nat ->
  run_text E fuel a "context_finalize" [v_ctx a p; v_bytes h; VU RSz n; v_error e] s =
  (r <- context_finalize E a p h n e ;; ret (VS R32 r, [None; None; None; None])) s.
Proof. exact run_finalize. Qed.
Print Assumptions C60_finalize.

(* a context for "abc", made, fed, ended and freed by the text alone: the pointer that initialize left is the fresh cell 7 *)
Definition by_text (a : algid) (u p64 : bool) (n : N) : outcome (val * list (option val)) :=
  (run_text (demo_env u p64) 500 a "context_initialize" [v_place a (Some None); VErr] ;;;
   run_text (demo_env u p64) 500 a "context_update" [VCtx a 7; VBytes (0%nat, 0); VU RSz 3; VErr] ;;;
   run_text (demo_env u p64) 500 a "context_finalize" [VCtx a 7; VBytes (1%nat, 0); VU RSz n; VErr] ;;;
   run_text (demo_env u p64) 500 a "context_free" [v_place a (Some (Some 7%nat)); VErr]) demo_state.
Example C60_md5_abc :
  seen (by_text MD5 true true 16) 1 16 =
  Some (VS R32 1%Z, [Some VNull; None],
        [0x90; 0x01; 0x50; 0x98; 0x3c; 0xd2; 0x4f; 0xb0; 0xd6; 0x96; 0x3f; 0x7d; 0x28; 0xe1; 0x7f; 0x72]).
Proof. vm_compute. reflexivity. Qed.
Example C60_sha1_abc :
  seen (by_text SHA1 false false 20) 1 20 =
  Some (VS R32 1%Z, [Some VNull; None],
        [0xa9; 0x99; 0x3e; 0x36; 0x47; 0x06; 0x81; 0x6a; 0xba; 0x3e; 0x25; 0x71; 0x78; 0x50; 0xc2; 0x6c; 0x9c; 0xd0; 0xd8; 0x9d]).
Proof. vm_compute. reflexivity. Qed.
(* the hypotheses: a memory with a context in it *)
Example C60_case : let s := final (context_initialize (demo_env true true) SHA256 (Some None) true demo_state) in
  good_state s /\ ctx_arg s SHA256 (Some 7%nat) /\ arg s (Some (6%nat, 0)) 200 /\ arg s (Some (1%nat, 0)) 32 /\
  200 < size_mod (demo_env true true) /\ (N.to_nat 200 + 400 <= 600)%nat.
Proof. exact text_case. Qed.

(* ---- libhmac_X.c ---- *)

Theorem C60_hash_initialize : forall E fuel a c e s,
  run_text E fuel a "initialize" [v_place a c; v_error e] s =
  (r <- hash_initialize E a c e ;; ret (VS R32 (fst r), [option_map (fun _ => v_ctx a (snd r)) c; None])) s.
Proof. exact run_hash_initialize. Qed.
Print Assumptions C60_hash_initialize.

Theorem C60_hash_free : forall E fuel a c e s,
  run_text E fuel a "free" [v_place a c; v_error e] s =
  (r <- hash_free a c e ;; ret (VS R32 (fst r), [option_map (fun _ => v_ctx a (snd r)) c; None])) s.
Proof. exact run_hash_free. Qed.
Print Assumptions C60_hash_free.

Theorem C60_hash_update : forall E fuel a p b n e s,
  good_state s -> ctx_arg s a p -> arg s b n -> n < size_mod E -> (N.to_nat n + 400 <= fuel)%nat ->
  run_text E fuel a "update" [v_ctx a p; v_bytes b; VU RSz n; v_error e] s =
  (r <- hash_update E a p b n e ;; ret (VS R32 r, [None; None; None; None])) s.
Proof. exact run_hash_update. Qed.
Print Assumptions C60_hash_update.

Theorem C60_hash_finalize : forall E fuel a p h n e s,
  good_state s -> ctx_arg s a p -> arg s h n -> n < size_mod E -> (400 <= fuel)%nat ->
  run_text E fuel a "finalize" [v_ctx a p; v_bytes h; VU RSz n; v_error e] s =
  (r <- hash_finalize E a p h n e ;; ret (VS R32 r, [None; None; None; None])) s.
Proof. exact run_hash_finalize. Qed.
Print Assumptions C60_hash_finalize.

Theorem C60_calculate : forall E fuel a b n h hn e s,
  good_state s -> arg s b n -> arg s h hn -> n < size_mod E -> hn < size_mod E -> (N.to_nat n + 400 <= fuel)%nat ->
  run_text E fuel a "calculate" [v_bytes b; VU RSz n; v_bytes h; VU RSz hn; v_error e] s =
  (r <- calculate E a b n h hn e ;; ret (VS R32 r, [None; None; None; None; None])) s.
Proof. exact run_calculate. Qed.
Print Assumptions C60_calculate.

Theorem C60_calculate_hmac : forall E fuel a k kn b n h hn e s,
  good_state s -> arg s k kn -> arg s b n -> arg s h hn -> kn < size_mod E -> n < size_mod E -> hn < size_mod E ->
  (N.to_nat kn + 400 <= fuel)%nat -> (N.to_nat n + 400 <= fuel)%nat ->
  run_text E fuel a "calculate_hmac" [v_bytes k; VU RSz kn; v_bytes b; VU RSz n; v_bytes h; VU RSz hn; v_error e] s =
  (r <- calculate_hmac E a k kn b n h hn e ;; ret (VS R32 r, [None; None; None; None; None; None; None])) s.
Proof. exact run_calculate_hmac. Qed.
Print Assumptions C60_calculate_hmac.

(* ---- without the model: running the text computes what the standards say ----
   The bound for SHA-512 is that of C05 and C06: beyond it the code is not SHA-512. *)

Theorem C60_digest : forall a E fuel buffer size hash hash_size e s,
  good_state s -> arg s buffer size -> arg s hash hash_size -> size < size_mod E -> hash_size < size_mod E ->
  (N.to_nat size + 400 <= fuel)%nat -> (a = SHA512 -> plat64 E = false \/ size < 2 ^ 61) ->
  exists r s', run_text E fuel a "calculate" [v_bytes buffer; VU RSz size; v_bytes hash; VU RSz hash_size; v_error e] s =
               Done (VS R32 r, [None; None; None; None; None]) s' /\
  ((r = 1%Z /\ hash_args E a buffer size hash hash_size /\ all_allocs_ok E s s' /\
    exists bp hp, buffer = Some bp /\ hash = Some hp /\ bytes_at s' hp (digest_size a) = spec_hash a (bytes_at s bp size))
   \/ (r = (-1)%Z /\ (some_alloc_failed E s s' \/ ~ hash_args E a buffer size hash hash_size))).
Proof. exact text_digest. Qed.
Print Assumptions C60_digest.

Theorem C60_hmac : forall a E fuel key key_size buffer size hmac hmac_size e s,
  good_state s -> arg s key key_size -> arg s buffer size -> arg s hmac hmac_size ->
  key_size < size_mod E -> size < size_mod E -> hmac_size < size_mod E ->
  (N.to_nat key_size + 400 <= fuel)%nat -> (N.to_nat size + 400 <= fuel)%nat ->
  (a = SHA512 -> plat64 E = false \/ (key_size < 2 ^ 61 /\ 128 + size < 2 ^ 61)) ->
  exists r s', run_text E fuel a "calculate_hmac"
                 [v_bytes key; VU RSz key_size; v_bytes buffer; VU RSz size; v_bytes hmac; VU RSz hmac_size; v_error e] s =
               Done (VS R32 r, [None; None; None; None; None; None; None]) s' /\
  ((r = 1%Z /\ hmac_args E a key key_size buffer size hmac hmac_size /\ all_allocs_ok E s s' /\
    exists kp bp hp, key = Some kp /\ buffer = Some bp /\ hmac = Some hp /\
    bytes_at s' hp (digest_size a) = spec_hmac a (bytes_at s kp key_size) (bytes_at s bp size))
   \/ (r = (-1)%Z /\ (some_alloc_failed E s s' \/ ~ hmac_args E a key key_size buffer size hmac hmac_size))).
Proof. exact text_hmac. Qed.
Print Assumptions C60_hmac.

(* RFC 2202, test case 1 for HMAC-MD5 *)
Example C60_hmac_md5 :
  seen (run_text (demo_env true true) 500 MD5 "calculate_hmac"
         [VBytes (2%nat, 0); VU RSz 16; VBytes (3%nat, 0); VU RSz 8; VBytes (1%nat, 0); VU RSz 70; VErr] demo_state) 1 16
    = Some ((VS R32 1%Z, [None; None; None; None; None; None; None]), be_bytes 16 0x9294727a3638bb1c13f48ef8158bfc9d).
Proof. vm_compute. reflexivity. Qed.
(* a key longer than a block: its digest takes its place *)
Example C60_hmac_long_key :
  good_state demo_state /\ arg demo_state (Some (6%nat, 0)) 65 /\ arg demo_state (Some (0%nat, 0)) 3 /\ arg demo_state (Some (1%nat, 0)) 70 /\
  seen (run_text (demo_env true true) 500 MD5 "calculate_hmac"
         [VBytes (6%nat, 0); VU RSz 65; VBytes (0%nat, 0); VU RSz 3; VBytes (1%nat, 0); VU RSz 70; VErr] demo_state) 1 16
    = Some ((VS R32 1%Z, [None; None; None; None; None; None; None]),
            spec_hmac MD5 (bytes_at demo_state (6%nat, 0) 65) (bytes_at demo_state (0%nat, 0) 3)).
Proof. split; [exact demo_good|]. split; [demo_arg|]. split; [demo_arg|]. split; [demo_arg|]. vm_compute. reflexivity. Qed.
