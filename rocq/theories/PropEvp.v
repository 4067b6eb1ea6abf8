(* Property C45: the builds on a message digest provider.
   The model is in Evp.v, the contract of the provider ([honours], [reliable]) in EvpVocab.v.  Every theorem is about every
   hash function, every provider that keeps the contract and each of the three forms of the code: the functions of
   md5.h and sha.h, the EVP functions on a context in the structure, and on a context from EVP_MD_CTX_new. *)
From Coq Require Import NArith ZArith List Bool.
From Verif Require Import Words Spec Machine Vocab Context Hash Demo Evp EvpVocab EvpFacts EvpTheorems.
Import ListNotations.
Open Scope N_scope.

(* The functions above the contexts have the same text in every build; with the built-in contexts they are those of Hash.v. *)
Theorem C45_built_in : forall E a,
  calculate_with (fallback E a) a = calculate E a /\ calculate_hmac_with E (fallback E a) a = calculate_hmac E a.
Proof. exact (fun E a => conj (calculate_fallback E a) (calculate_hmac_fallback E a)). Qed.
Print Assumptions C45_built_in.

Theorem C45_calculate : forall E P v a holds, honours P a holds -> forall e buffer size hash hash_size s,
  good_state s -> arg s buffer size -> arg s hash hash_size ->
  exists r s', calculate_with (evp E P v a) a buffer size hash hash_size e s = Done r s' /\
  good_state s' /\ no_leak s s' /\ only_output a s s' hash /\
  ((r = 1%Z /\ evp_hash_args E v a buffer size hash hash_size /\ (reliable P a -> errs s' = errs s) /\
    exists bp hp, buffer = Some bp /\ hash = Some hp /\
    bytes_at s' hp (digest_size a) = spec_hash a (bytes_at s bp size))
   \/ (r = (-1)%Z /\ errors_added e s s' /\
       (some_alloc_failed E s s' \/ ~ reliable P a \/ ~ evp_hash_args E v a buffer size hash hash_size))).
Proof. exact evp_calculate. Qed.
Print Assumptions C45_calculate.

Theorem C45_hmac : forall E P v a holds, honours P a holds -> forall e key key_size buffer size hmac hmac_size s,
  good_state s -> arg s key key_size -> arg s buffer size -> arg s hmac hmac_size ->
  exists r s', calculate_hmac_with E (evp E P v a) a key key_size buffer size hmac hmac_size e s = Done r s' /\
  good_state s' /\ no_leak s s' /\ only_output a s s' hmac /\
  ((r = 1%Z /\ evp_hmac_args E v a key key_size buffer size hmac hmac_size /\ (reliable P a -> errs s' = errs s) /\
    exists kp bp hp, key = Some kp /\ buffer = Some bp /\ hmac = Some hp /\
    bytes_at s' hp (digest_size a) = spec_hmac a (bytes_at s kp key_size) (bytes_at s bp size))
   \/ (r = (-1)%Z /\ errors_added e s s' /\
       (some_alloc_failed E s s' \/ ~ reliable P a \/ ~ evp_hmac_args E v a key key_size buffer size hmac hmac_size))).
Proof. exact evp_hmac. Qed.
Print Assumptions C45_hmac.

(* the context functions in the hands of a client that gives the message in any number of pieces *)
Theorem C45_pieces : forall E P v a holds, honours P a holds -> forall e ups hash hash_size s,
  good_state s -> (forall up, In up ups -> arg s (fst up) (snd up)) -> arg s hash hash_size ->
  exists r s', client (evp E P v a) ups hash hash_size e s = Done r s' /\
  good_state s' /\ no_leak s s' /\ only_output a s s' hash /\
  ((r = true /\ client_args E v a ups hash hash_size /\ (reliable P a -> errs s' = errs s) /\
    exists hp, hash = Some hp /\ bytes_at s' hp (digest_size a) = spec_hash a (all_bytes s ups))
   \/ (r = false /\ errors_added e s s' /\
       (some_alloc_failed E s s' \/ ~ reliable P a \/ ~ client_args E v a ups hash hash_size))).
Proof. exact evp_client. Qed.
Print Assumptions C45_pieces.

(* with a provider that does not fail and memory for everything, arguments in range are answered *)
Theorem C45_calculate_succeeds : forall E P v a holds e buffer size hash hash_size s,
  honours P a holds -> reliable P a -> (forall i, alloc_ok E i = true) ->
  good_state s -> arg s buffer size -> arg s hash hash_size -> evp_hash_args E v a buffer size hash hash_size ->
  exists s' bp hp, calculate_with (evp E P v a) a buffer size hash hash_size e s = Done 1%Z s' /\ errs s' = errs s /\
  buffer = Some bp /\ hash = Some hp /\ bytes_at s' hp (digest_size a) = spec_hash a (bytes_at s bp size).
Proof. exact evp_calculate_succeeds. Qed.
Print Assumptions C45_calculate_succeeds.

Theorem C45_hmac_succeeds : forall E P v a holds e key key_size buffer size hmac hmac_size s,
  honours P a holds -> reliable P a -> (forall i, alloc_ok E i = true) ->
  good_state s -> arg s key key_size -> arg s buffer size -> arg s hmac hmac_size ->
  evp_hmac_args E v a key key_size buffer size hmac hmac_size ->
  exists s' kp bp hp, calculate_hmac_with E (evp E P v a) a key key_size buffer size hmac hmac_size e s = Done 1%Z s' /\
  errs s' = errs s /\ key = Some kp /\ buffer = Some bp /\ hmac = Some hp /\
  bytes_at s' hp (digest_size a) = spec_hmac a (bytes_at s kp key_size) (bytes_at s bp size).
Proof. exact evp_hmac_succeeds. Qed.
Print Assumptions C45_hmac_succeeds.

(* the built-in functions and those on a provider leave the caller's memory alike *)
Theorem C45_same_calculate : forall E P v a holds e buffer size hash hash_size s,
  honours P a holds -> reliable P a -> (forall i, alloc_ok E i = true) ->
  good_state s -> arg s buffer size -> arg s hash hash_size ->
  hash_args E a buffer size hash hash_size -> evp_hash_args E v a buffer size hash hash_size -> a <> SHA512 ->
  exists s1 s2, calculate E a buffer size hash hash_size e s = Done 1%Z s1 /\
  calculate_with (evp E P v a) a buffer size hash hash_size e s = Done 1%Z s2 /\ same_cells s s1 s2 /\ errs s1 = errs s2.
Proof.
  exact (fun E P v a holds e b n h hn s HP R A G HB HH H1 H2 X =>
    evp_calculate_same E P v a holds e b n h hn s HP R A G HB HH H1 H2 (fun Y => False_ind _ (X Y))).
Qed.
Print Assumptions C45_same_calculate.

Theorem C45_same_hmac : forall E P v a holds e key key_size buffer size hmac hmac_size s,
  honours P a holds -> reliable P a -> (forall i, alloc_ok E i = true) ->
  good_state s -> arg s key key_size -> arg s buffer size -> arg s hmac hmac_size ->
  hmac_args E a key key_size buffer size hmac hmac_size -> evp_hmac_args E v a key key_size buffer size hmac hmac_size ->
  a <> SHA512 ->
  exists s1 s2, calculate_hmac E a key key_size buffer size hmac hmac_size e s = Done 1%Z s1 /\
  calculate_hmac_with E (evp E P v a) a key key_size buffer size hmac hmac_size e s = Done 1%Z s2 /\
  same_cells s s1 s2 /\ errs s1 = errs s2.
Proof.
  exact (fun E P v a holds e k kn b n h hn s HP R A G HK HB HH H1 H2 X =>
    evp_hmac_same E P v a holds e k kn b n h hn s HP R A G HK HB HH H1 H2 (fun Y => False_ind _ (X Y))).
Qed.
Print Assumptions C45_same_hmac.

(* SHA-512: the full property has no bound on sizes; the built-in functions are wrong from about 2^61 bytes with a 64-bit
   size_t (C05), those on a provider are not. *)
Theorem C45_same_calculate_sha512_partial : forall E P v holds e buffer size hash hash_size s,
  honours P SHA512 holds -> reliable P SHA512 -> (forall i, alloc_ok E i = true) ->
  good_state s -> arg s buffer size -> arg s hash hash_size ->
  hash_args E SHA512 buffer size hash hash_size -> evp_hash_args E v SHA512 buffer size hash hash_size ->
  plat64 E = false \/ size < 2 ^ 61 ->
  exists s1 s2, calculate E SHA512 buffer size hash hash_size e s = Done 1%Z s1 /\
  calculate_with (evp E P v SHA512) SHA512 buffer size hash hash_size e s = Done 1%Z s2 /\
  same_cells s s1 s2 /\ errs s1 = errs s2.
Proof.
  exact (fun E P v holds e b n h hn s HP R A G HB HH H1 H2 X =>
    evp_calculate_same E P v SHA512 holds e b n h hn s HP R A G HB HH H1 H2 (fun _ => X)).
Qed.
Print Assumptions C45_same_calculate_sha512_partial.

Theorem C45_same_hmac_sha512_partial : forall E P v holds e key key_size buffer size hmac hmac_size s,
  honours P SHA512 holds -> reliable P SHA512 -> (forall i, alloc_ok E i = true) ->
  good_state s -> arg s key key_size -> arg s buffer size -> arg s hmac hmac_size ->
  hmac_args E SHA512 key key_size buffer size hmac hmac_size ->
  evp_hmac_args E v SHA512 key key_size buffer size hmac hmac_size ->
  plat64 E = false \/ (key_size < 2 ^ 61 /\ 128 + size < 2 ^ 61) ->
  exists s1 s2, calculate_hmac E SHA512 key key_size buffer size hmac hmac_size e s = Done 1%Z s1 /\
  calculate_hmac_with E (evp E P v SHA512) SHA512 key key_size buffer size hmac hmac_size e s = Done 1%Z s2 /\
  same_cells s s1 s2 /\ errs s1 = errs s2.
Proof.
  exact (fun E P v holds e k kn b n h hn s HP R A G HK HB HH H1 H2 X =>
    evp_hmac_same E P v SHA512 holds e k kn b n h hn s HP R A G HK HB HH H1 H2 (fun _ => X)).
Qed.
Print Assumptions C45_same_hmac_sha512_partial.

(* "whatever the built-in functions answer, those on a provider answer too" is false: with the EVP functions
   a place for the digest of 2^32 bytes or more is refused *)
Theorem C45_same_range_refuted : exists E P v a holds buffer size hash hash_size e s s1 s2,
  honours P a holds /\ reliable P a /\ (forall i, alloc_ok E i = true) /\
  good_state s /\ arg s buffer size /\ arg s hash hash_size /\ hash_args E a buffer size hash hash_size /\
  calculate E a buffer size hash hash_size e s = Done 1%Z s1 /\
  calculate_with (evp E P v a) a buffer size hash hash_size e s = Done (-1)%Z s2.
Proof. exact evp_large. Qed.
Print Assumptions C45_same_range_refuted.

(* "a call that succeeds adds no error" is false without [reliable]: EVP_MD_CTX_cleanup may fail, which
   libhmac_md5_context.c:380-404 reports and then returns 1 *)
Theorem C45_silent_refuted : exists E P a holds buffer size hash hash_size s s',
  honours P a holds /\ (forall i, alloc_ok E i = true) /\
  good_state s /\ arg s buffer size /\ arg s hash hash_size /\ errs s = [] /\
  calculate_with (evp E P Inside a) a buffer size hash hash_size true s = Done 1%Z s' /\ errs s' <> [].
Proof. exact evp_not_silent. Qed.
Print Assumptions C45_silent_refuted.

(* ---- a provider that keeps the contract, and what the functions on it answer ---- *)

Example C45_example_provider : forall a, honours plain_provider a keeps /\ reliable plain_provider a.
Proof. exact (fun a => conj (plain_honours a) (plain_reliable a)). Qed.

Example C45_example_args : forall b v, v = Legacy b \/ v = Inside \/ v = Outside ->
  good_state demo_state /\ arg demo_state (Some (2%nat, 0)) 16 /\ arg demo_state (Some (3%nat, 0)) 8 /\
  arg demo_state (Some (1%nat, 0)) 70 /\
  hmac_args (demo_env b b) MD5 (Some (2%nat, 0)) 16 (Some (3%nat, 0)) 8 (Some (1%nat, 0)) 70 /\
  evp_hmac_args (demo_env b b) v MD5 (Some (2%nat, 0)) 16 (Some (3%nat, 0)) 8 (Some (1%nat, 0)) 70.
Proof.
  intros b v V. split; [exact demo_good|]. split; [demo_arg|]. split; [demo_arg|]. split; [demo_arg|].
  destruct V as [->|[->| ->]]; destruct b; repeat split; discriminate.
Qed.

(* RFC 2202 case 1, and "abc" in two pieces *)
Example C45_example_hmac :
  seen (calculate_hmac_with (demo_env true true) (evp (demo_env true true) plain_provider Outside MD5) MD5
         (Some (2%nat, 0)) 16 (Some (3%nat, 0)) 8 (Some (1%nat, 0)) 70 true demo_state) 1 16
    = Some (1%Z, be_bytes 16 0x9294727a3638bb1c13f48ef8158bfc9d).
Proof. vm_compute. reflexivity. Qed.
Example C45_example_pieces :
  seen (client (evp (demo_env true false) plain_provider Inside MD5) [(Some (0%nat, 0), 1); (Some (0%nat, 1), 2)]
         (Some (1%nat, 0)) 16 true demo_state) 1 16
    = Some (true, be_bytes 16 0x900150983cd24fb0d6963f7d28e17f72).
Proof. vm_compute. reflexivity. Qed.

(* a provider that keeps the contract and fails; an allocation that fails *)
Example C45_example_failing : honours (small_provider 2) MD5 keeps /\
  seen (calculate_with (evp (demo_env true true) (small_provider 2) Outside MD5) MD5 (Some (0%nat, 0)) 3 (Some (1%nat, 0)) 16 true demo_state) 1 2
    = Some ((-1)%Z, [0xee; 0xee]) /\
  seen (calculate_with (evp (demo_fail true true 1) plain_provider Outside MD5) MD5 (Some (0%nat, 0)) 3 (Some (1%nat, 0)) 16 true demo_state) 1 2
    = Some ((-1)%Z, [0xee; 0xee]).
Proof. split; [apply small_honours|]. split; vm_compute; reflexivity. Qed.
