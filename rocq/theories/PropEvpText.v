(* Property C60 for the builds with libcrypto: the model of Evp.v does what the text of the five files libhmac_X_context.c does in them.
   [v] says which build it is, [ex2] whether it has EVP_DigestInit_ex2.  A build where long is smaller than size_t is one with a size_t of
   64 bits.  Then property C45 again, with the text of the context functions in place of their model. *)
From Coq Require Import NArith ZArith List Bool String.
From Verif Require Import Words Spec Machine Vocab Context Hash Demo Evp EvpVocab EvpFacts EvpTheorems CText TextAll TextEvp EvpCalls
  TextEvpInit TextEvpFree TextEvpUpdate TextEvpFinalize TextEvpClient.
Import ListNotations.
Open Scope string_scope.
Open Scope list_scope.
Open Scope N_scope.

Theorem C60_evp_initialize : forall E P v ex2 fuel a c e s,
  run_evp E P v ex2 fuel a "context_initialize" [v_place a c; v_error e] s =
  (r <- evp_initialize E P v a c e ;; ret (VS R32 (fst r), [option_map (fun _ => v_ctx a (snd r)) c; None])) s.
Proof. exact evp_initialize_agrees. Qed.
Print Assumptions C60_evp_initialize.

Theorem C60_evp_free : forall E P v ex2 fuel a c e s,
  run_evp E P v ex2 fuel a "context_free" [v_place a c; v_error e] s =
  (r <- evp_free P v a c e ;; ret (VS R32 (fst r), [option_map (fun _ => v_ctx a (snd r)) c; None])) s.
Proof. exact evp_free_agrees. Qed.
Print Assumptions C60_evp_free.

Theorem C60_evp_update : forall E P v ex2 fuel a c b n e s, (v = Legacy true -> plat64 E = true) ->
  run_evp E P v ex2 fuel a "context_update" [v_ctx a c; v_bytes b; VU RSz n; v_error e] s =
  (r <- evp_update E P v a c b n e ;; ret (VS R32 r, [None; None; None; None])) s.
Proof. exact evp_update_agrees. Qed.
Print Assumptions C60_evp_update.

Theorem C60_evp_finalize : forall E P v ex2 fuel a c h n e s,
  run_evp E P v ex2 fuel a "context_finalize" [v_ctx a c; v_bytes h; VU RSz n; v_error e] s =
  (r <- evp_finalize E P v a c h n e ;; ret (VS R32 r, [None; None; None; None])) s.
Proof. exact evp_finalize_agrees. Qed.
Print Assumptions C60_evp_finalize.

(* the message "abc" by the text: the structure is cell 7.  The last digest context of EVP_MD_CTX_new is cell 8, and all is freed. *)
Definition evp_run (v : variant) (ex2 : bool) (P : provider) : outcome (val * list (option val)) :=
  (run_evp (demo_env true true) P v ex2 1 MD5 "context_initialize" [v_place MD5 (Some None); VErr] ;;;
   run_evp (demo_env true true) P v ex2 1 MD5 "context_update" [VCtx MD5 7; VBytes (0%nat, 0); VU RSz 3; VErr] ;;;
   run_evp (demo_env true true) P v ex2 1 MD5 "context_finalize" [VCtx MD5 7; VBytes (1%nat, 0); VU RSz 16; VErr] ;;;
   run_evp (demo_env true true) P v ex2 1 MD5 "context_free" [v_place MD5 (Some (Some 7%nat)); VErr]) demo_state.
Example C60_evp_example :
  seen (evp_run Outside true plain_provider) 1 16 = Some (VS R32 1%Z, [Some VNull; None], be_bytes 16 0x900150983cd24fb0d6963f7d28e17f72) /\
  map live (skipn 7 (mem (final (evp_run Outside true plain_provider)))) = [false; false] /\
  map live (skipn 7 (mem (final (evp_run (Legacy true) false plain_provider)))) = [false] /\
  errs (final (evp_run Inside false messy_provider)) = [E_RUNTIME_FINALIZE_FAILED].
Proof. repeat split; vm_compute; reflexivity. Qed.

(* Property C45 with the text *)
Theorem C45_text_pieces : forall E P v ex2 fuel a holds, (v = Legacy true -> plat64 E = true) -> honours P a holds ->
  forall e ups hash hash_size s,
  good_state s -> (forall up, In up ups -> arg s (fst up) (snd up)) -> arg s hash hash_size ->
  exists r s', client (evp_by_text E P v ex2 fuel a) ups hash hash_size e s = Done r s' /\
  good_state s' /\ no_leak s s' /\ only_output a s s' hash /\
  ((r = true /\ client_args E v a ups hash hash_size /\ (reliable P a -> errs s' = errs s) /\
    exists hp, hash = Some hp /\ bytes_at s' hp (digest_size a) = spec_hash a (all_bytes s ups))
   \/ (r = false /\ errors_added e s s' /\
       (some_alloc_failed E s s' \/ ~ reliable P a \/ ~ client_args E v a ups hash hash_size))).
Proof. exact text_pieces. Qed.
Print Assumptions C45_text_pieces.

Theorem C45_text_calculate : forall E P v ex2 fuel a holds, (v = Legacy true -> plat64 E = true) -> honours P a holds ->
  forall e buffer size hash hash_size s,
  good_state s -> arg s buffer size -> arg s hash hash_size ->
  exists r s', calculate_with (evp_by_text E P v ex2 fuel a) a buffer size hash hash_size e s = Done r s' /\
  good_state s' /\ no_leak s s' /\ only_output a s s' hash /\
  ((r = 1%Z /\ evp_hash_args E v a buffer size hash hash_size /\ (reliable P a -> errs s' = errs s) /\
    exists bp hp, buffer = Some bp /\ hash = Some hp /\
    bytes_at s' hp (digest_size a) = spec_hash a (bytes_at s bp size))
   \/ (r = (-1)%Z /\ errors_added e s s' /\
       (some_alloc_failed E s s' \/ ~ reliable P a \/ ~ evp_hash_args E v a buffer size hash hash_size))).
Proof. exact text_calculate. Qed.
Print Assumptions C45_text_calculate.

Theorem C45_text_hmac : forall E P v ex2 fuel a holds, (v = Legacy true -> plat64 E = true) -> honours P a holds ->
  forall e key key_size buffer size hmac hmac_size s,
  good_state s -> arg s key key_size -> arg s buffer size -> arg s hmac hmac_size ->
  exists r s', calculate_hmac_with E (evp_by_text E P v ex2 fuel a) a key key_size buffer size hmac hmac_size e s = Done r s' /\
  good_state s' /\ no_leak s s' /\ only_output a s s' hmac /\
  ((r = 1%Z /\ evp_hmac_args E v a key key_size buffer size hmac hmac_size /\ (reliable P a -> errs s' = errs s) /\
    exists kp bp hp, key = Some kp /\ buffer = Some bp /\ hmac = Some hp /\
    bytes_at s' hp (digest_size a) = spec_hmac a (bytes_at s kp key_size) (bytes_at s bp size))
   \/ (r = (-1)%Z /\ errors_added e s s' /\
       (some_alloc_failed E s s' \/ ~ reliable P a \/ ~ evp_hmac_args E v a key key_size buffer size hmac hmac_size))).
Proof. exact text_hmac. Qed.
Print Assumptions C45_text_hmac.

(* the hypotheses of these three hold as C45_example_provider and C45_example_args (PropEvp.v) show; "abc" in two pieces by the text *)
Example C45_text_example : honours plain_provider MD5 keeps /\
  seen (client (evp_by_text (demo_env true true) plain_provider (Legacy true) false 1 MD5) [(Some (0%nat, 0), 1); (Some (0%nat, 1), 2)]
         (Some (1%nat, 0)) 16 true demo_state) 1 16
    = Some (true, be_bytes 16 0x900150983cd24fb0d6963f7d28e17f72).
Proof. split; [exact (plain_honours MD5)|]. vm_compute. reflexivity. Qed.
