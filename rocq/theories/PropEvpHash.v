(* C60 and C45 for libhmac_X.c in the builds with libcrypto: the text of libhmac_X.c, with calls that execute the text of
   libhmac_X_context.c in the build, does what the model of Evp.v says, and yields the digest and the HMAC of the standards. *)
From Coq Require Import Arith NArith ZArith List Bool String.
From Verif Require Import Words Spec Machine Vocab Context Hash Demo Evp EvpVocab EvpFacts EvpTheorems CText TextAll TextEvp EvpCalls
  EvpHash TextEvpAll TextEvpHashClient.
Import ListNotations.
Open Scope string_scope.
Open Scope list_scope.
Open Scope N_scope.

Theorem C60_evp_hash_initialize : forall E P v ex2 fuel a c e s,
  run_evp_hash E P v ex2 fuel a "initialize" [v_place a c; v_error e] s =
  (r <- hash_initialize_with (evp E P v a) c e ;; ret (VS R32 (fst r), [option_map (fun _ => v_ctx a (snd r)) c; None])) s.
Proof. exact evp_hash_initialize. Qed.
Print Assumptions C60_evp_hash_initialize.

Theorem C60_evp_hash_free : forall E P v ex2 fuel a c e s,
  run_evp_hash E P v ex2 fuel a "free" [v_place a c; v_error e] s =
  (r <- hash_free_with (evp E P v a) c e ;; ret (VS R32 (fst r), [option_map (fun _ => v_ctx a (snd r)) c; None])) s.
Proof. exact evp_hash_free. Qed.
Print Assumptions C60_evp_hash_free.

Theorem C60_evp_hash_update : forall E P v ex2 fuel a c b n e s, (v = Legacy true -> plat64 E = true) ->
  run_evp_hash E P v ex2 fuel a "update" [v_ctx a c; v_bytes b; VU RSz n; v_error e] s =
  (r <- hash_update_with (evp E P v a) c b n e ;; ret (VS R32 r, [None; None; None; None])) s.
Proof. exact evp_hash_update. Qed.
Print Assumptions C60_evp_hash_update.

Theorem C60_evp_hash_finalize : forall E P v ex2 fuel a c h n e s,
  run_evp_hash E P v ex2 fuel a "finalize" [v_ctx a c; v_bytes h; VU RSz n; v_error e] s =
  (r <- hash_finalize_with (evp E P v a) c h n e ;; ret (VS R32 r, [None; None; None; None])) s.
Proof. exact evp_hash_finalize. Qed.
Print Assumptions C60_evp_hash_finalize.

(* "abc" by the text of both files: the structure is cell 7, the digest context of EVP_MD_CTX_new cell 8, and both are freed; then a
   provider whose cleanup fails: free adds one entry to the error and returns 1 *)
Definition evp_hash_run (v : variant) (P : provider) : outcome (val * list (option val)) :=
  (run_evp_hash (demo_env true true) P v true 1 MD5 "initialize" [v_place MD5 (Some None); VErr] ;;;
   run_evp_hash (demo_env true true) P v true 1 MD5 "update" [VCtx MD5 7; VBytes (0%nat, 0); VU RSz 3; VErr] ;;;
   run_evp_hash (demo_env true true) P v true 1 MD5 "finalize" [VCtx MD5 7; VBytes (1%nat, 0); VU RSz 16; VErr] ;;;
   run_evp_hash (demo_env true true) P v true 1 MD5 "free" [v_place MD5 (Some (Some 7%nat)); VErr]) demo_state.
Definition unclean : provider := mk_provider (p_init plain_provider) (p_update plain_provider) (p_final plain_provider) (fun _ _ => 0%Z).
Example C60_evp_hash_example :
  seen (evp_hash_run Outside plain_provider) 1 16 = Some (VS R32 1%Z, [Some VNull; None], be_bytes 16 0x900150983cd24fb0d6963f7d28e17f72) /\
  map live (skipn 7 (mem (final (evp_hash_run Outside plain_provider)))) = [false; false] /\
  result (evp_hash_run Inside unclean) = Some (VS R32 1%Z, [Some VNull; None]) /\
  errs (final (evp_hash_run Inside unclean)) = [E_RUNTIME_FINALIZE_FAILED].
Proof. vm_compute. repeat split. Qed.

Theorem C60_evp_calculate : forall E P v ex2 fuel a b n h hn e s, (v = Legacy true -> plat64 E = true) ->
  run_evp_hash E P v ex2 fuel a "calculate" [v_bytes b; VU RSz n; v_bytes h; VU RSz hn; v_error e] s =
  (r <- calculate_with (evp E P v a) a b n h hn e ;; ret (VS R32 r, [None; None; None; None; None])) s.
Proof. exact evp_hash_calculate. Qed.
Print Assumptions C60_evp_calculate.

(* 128 turns of a loop are enough for the block sizes *)
Theorem C60_evp_hmac : forall E P v ex2 fuel a k kn b n h hn e s, (v = Legacy true -> plat64 E = true) -> gives_bytes P a ->
  good_state s -> (128 <= fuel)%nat ->
  run_evp_hash E P v ex2 fuel a "calculate_hmac" [v_bytes k; VU RSz kn; v_bytes b; VU RSz n; v_bytes h; VU RSz hn; v_error e] s =
  (r <- calculate_hmac_with E (evp E P v a) a k kn b n h hn e ;; ret (VS R32 r, [None; None; None; None; None; None; None])) s.
Proof. exact evp_hash_hmac. Qed.
Print Assumptions C60_evp_hmac.

(* a client of initialize, update, finalize and free of libhmac_X.c, by the text of both files *)
Theorem C45_both_texts_pieces : forall E P v ex2 fuel a holds, (v = Legacy true -> plat64 E = true) -> honours P a holds ->
  forall e ups hash hash_size s,
  good_state s -> (forall up, In up ups -> arg s (fst up) (snd up)) -> arg s hash hash_size ->
  exists r s', client (hash_by_text E P v ex2 fuel a) ups hash hash_size e s = Done r s' /\
  good_state s' /\ no_leak s s' /\ only_output a s s' hash /\
  ((r = true /\ client_args E v a ups hash hash_size /\ (reliable P a -> errs s' = errs s) /\
    exists hp, hash = Some hp /\ bytes_at s' hp (digest_size a) = spec_hash a (all_bytes s ups))
   \/ (r = false /\ errors_added e s s' /\
       (some_alloc_failed E s s' \/ ~ reliable P a \/ ~ client_args E v a ups hash hash_size))).
Proof. exact both_texts_pieces. Qed.
Print Assumptions C45_both_texts_pieces.

(* "abc" in two pieces; then a provider that refuses the digest of more than two bytes: an entry of each of the two functions and one of the client *)
Example C45_both_texts_example :
  seen (client (hash_by_text (demo_env true true) plain_provider Outside true 1 MD5) [(Some (0%nat, 0), 1); (Some (0%nat, 1), 2)]
         (Some (1%nat, 0)) 16 true demo_state) 1 16
    = Some (true, be_bytes 16 0x900150983cd24fb0d6963f7d28e17f72) /\
  errs (final (client (hash_by_text (demo_env true true) (small_provider 2) Outside true 1 MD5) [(Some (0%nat, 0), 1); (Some (0%nat, 1), 2)]
         (Some (1%nat, 0)) 16 true demo_state)) = [E_RUNTIME_FINALIZE_FAILED; E_RUNTIME_FINALIZE_FAILED; E_RUNTIME_FINALIZE_FAILED].
Proof. vm_compute. split; reflexivity. Qed.

Theorem C45_both_texts_calculate : forall E P v ex2 fuel a holds, (v = Legacy true -> plat64 E = true) -> honours P a holds ->
  forall e buffer size hash hash_size s,
  good_state s -> arg s buffer size -> arg s hash hash_size ->
  exists r s', run_evp_hash E P v ex2 fuel a "calculate" [v_bytes buffer; VU RSz size; v_bytes hash; VU RSz hash_size; v_error e] s =
    Done (VS R32 r, [None; None; None; None; None]) s' /\
  good_state s' /\ no_leak s s' /\ only_output a s s' hash /\
  ((r = 1%Z /\ evp_hash_args E v a buffer size hash hash_size /\ (reliable P a -> errs s' = errs s) /\
    exists bp hp, buffer = Some bp /\ hash = Some hp /\
    bytes_at s' hp (digest_size a) = spec_hash a (bytes_at s bp size))
   \/ (r = (-1)%Z /\ errors_added e s s' /\
       (some_alloc_failed E s s' \/ ~ reliable P a \/ ~ evp_hash_args E v a buffer size hash hash_size))).
Proof. exact both_texts_calculate. Qed.
Print Assumptions C45_both_texts_calculate.

Theorem C45_both_texts_hmac : forall E P v ex2 fuel a holds, (v = Legacy true -> plat64 E = true) -> honours P a holds -> (128 <= fuel)%nat ->
  forall e key key_size buffer size hmac hmac_size s,
  good_state s -> arg s key key_size -> arg s buffer size -> arg s hmac hmac_size ->
  exists r s', run_evp_hash E P v ex2 fuel a "calculate_hmac"
      [v_bytes key; VU RSz key_size; v_bytes buffer; VU RSz size; v_bytes hmac; VU RSz hmac_size; v_error e] s =
    Done (VS R32 r, [None; None; None; None; None; None; None]) s' /\
  good_state s' /\ no_leak s s' /\ only_output a s s' hmac /\
  ((r = 1%Z /\ evp_hmac_args E v a key key_size buffer size hmac hmac_size /\ (reliable P a -> errs s' = errs s) /\
    exists kp bp hp, key = Some kp /\ buffer = Some bp /\ hmac = Some hp /\
    bytes_at s' hp (digest_size a) = spec_hmac a (bytes_at s kp key_size) (bytes_at s bp size))
   \/ (r = (-1)%Z /\ errors_added e s s' /\
       (some_alloc_failed E s s' \/ ~ reliable P a \/ ~ evp_hmac_args E v a key key_size buffer size hmac hmac_size))).
Proof. exact both_texts_hmac. Qed.
Print Assumptions C45_both_texts_hmac.

(* the hypotheses of the last four: the key of 16 bytes and "Hi There" of RFC 2202 *)
Example C60_evp_hmac_example : gives_bytes plain_provider MD5 /\ honours plain_provider MD5 keeps /\ good_state demo_state /\
  arg demo_state (Some (2%nat, 0)) 16 /\ arg demo_state (Some (3%nat, 0)) 8 /\ arg demo_state (Some (1%nat, 0)) 70 /\
  seen (run_evp_hash (demo_env true true) plain_provider Inside false 128 MD5 "calculate_hmac"
         [VBytes (2%nat, 0); VU RSz 16; VBytes (3%nat, 0); VU RSz 8; VBytes (1%nat, 0); VU RSz 70; VErr] demo_state) 1 16
    = Some (VS R32 1%Z, [None; None; None; None; None; None; None], be_bytes 16 0x9294727a3638bb1c13f48ef8158bfc9d).
Proof.
  split; [exact (honours_bytes _ _ _ (plain_honours MD5))|]. split; [exact (plain_honours MD5)|]. split; [exact demo_good|].
  repeat (split; [demo_arg|]). vm_compute. reflexivity.
Qed.
