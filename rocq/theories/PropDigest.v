(* Properties C01-C05: the one-shot digest functions compute the standard hash functions,
   for every message, memory, allocation pattern, platform and build variant.
   [calculate], [Done] and [env] are the model; [md5] ... [sha512] are the specification (Spec.v);
   [arg], [bytes_at], [hash_args], ... are in Vocab.v. *)
From Coq Require Import String Ascii NArith ZArith List Bool.
From Verif Require Import Words Spec Machine Vocab Context Hash LibTheorems Demo.
Import ListNotations.
Open Scope N_scope.

(* C01: libhmac_md5_calculate is MD5 of RFC 1321 *)
Theorem C01_md5_calculate : forall E buffer size hash hash_size e s,
  good_state s -> arg s buffer size -> arg s hash hash_size ->
  exists r s', calculate E MD5 buffer size hash hash_size e s = Done r s' /\
  ((r = 1%Z /\ hash_args E MD5 buffer size hash hash_size /\ all_allocs_ok E s s' /\
    exists bp hp, buffer = Some bp /\ hash = Some hp /\ bytes_at s' hp 16 = md5 (bytes_at s bp size))
   \/ (r = (-1)%Z /\ (some_alloc_failed E s s' \/ ~ hash_args E MD5 buffer size hash hash_size))).
Proof. exact (fun E b n h k e s G HB HH => calc_spec MD5 E b n h k e s G HB HH (fun X => ltac:(discriminate X))). Qed.
Print Assumptions C01_md5_calculate.
(* test vector "abc" through the model, the looped build on a 32-bit platform and the unrolled build on a 64-bit one *)
Example C01_example : forall b,
  good_state demo_state /\ arg demo_state (Some (0%nat, 0)) 3 /\ arg demo_state (Some (1%nat, 5)) 70 /\
  seen (calculate (demo_env b b) MD5 (Some (0%nat, 0)) 3 (Some (1%nat, 0)) 80 true demo_state) 1 16
    = Some (1%Z, be_bytes 16 0x900150983cd24fb0d6963f7d28e17f72).
Proof.
  intros b. split; [exact demo_good|]. split; [demo_arg|]. split; [demo_arg|].
  destruct b; vm_compute; reflexivity.
Qed.

(* C02: libhmac_sha1_calculate is SHA1 of FIPS 180-4 *)
Theorem C02_sha1_calculate : forall E buffer size hash hash_size e s,
  good_state s -> arg s buffer size -> arg s hash hash_size ->
  exists r s', calculate E SHA1 buffer size hash hash_size e s = Done r s' /\
  ((r = 1%Z /\ hash_args E SHA1 buffer size hash hash_size /\ all_allocs_ok E s s' /\
    exists bp hp, buffer = Some bp /\ hash = Some hp /\ bytes_at s' hp 20 = sha1 (bytes_at s bp size))
   \/ (r = (-1)%Z /\ (some_alloc_failed E s s' \/ ~ hash_args E SHA1 buffer size hash hash_size))).
Proof. exact (fun E b n h k e s G HB HH => calc_spec SHA1 E b n h k e s G HB HH (fun X => ltac:(discriminate X))). Qed.
Print Assumptions C02_sha1_calculate.
(* test vector "abc" through the model, the looped build on a 32-bit platform and the unrolled build on a 64-bit one *)
Example C02_example : forall b,
  good_state demo_state /\ arg demo_state (Some (0%nat, 0)) 3 /\ arg demo_state (Some (1%nat, 5)) 70 /\
  seen (calculate (demo_env b b) SHA1 (Some (0%nat, 0)) 3 (Some (1%nat, 0)) 80 true demo_state) 1 20
    = Some (1%Z, be_bytes 20 0xa9993e364706816aba3e25717850c26c9cd0d89d).
Proof.
  intros b. split; [exact demo_good|]. split; [demo_arg|]. split; [demo_arg|].
  destruct b; vm_compute; reflexivity.
Qed.

(* C03: libhmac_sha224_calculate is SHA224 of FIPS 180-4 *)
Theorem C03_sha224_calculate : forall E buffer size hash hash_size e s,
  good_state s -> arg s buffer size -> arg s hash hash_size ->
  exists r s', calculate E SHA224 buffer size hash hash_size e s = Done r s' /\
  ((r = 1%Z /\ hash_args E SHA224 buffer size hash hash_size /\ all_allocs_ok E s s' /\
    exists bp hp, buffer = Some bp /\ hash = Some hp /\ bytes_at s' hp 28 = sha224 (bytes_at s bp size))
   \/ (r = (-1)%Z /\ (some_alloc_failed E s s' \/ ~ hash_args E SHA224 buffer size hash hash_size))).
Proof. exact (fun E b n h k e s G HB HH => calc_spec SHA224 E b n h k e s G HB HH (fun X => ltac:(discriminate X))). Qed.
Print Assumptions C03_sha224_calculate.
(* test vector "abc" through the model, the looped build on a 32-bit platform and the unrolled build on a 64-bit one *)
Example C03_example : forall b,
  good_state demo_state /\ arg demo_state (Some (0%nat, 0)) 3 /\ arg demo_state (Some (1%nat, 5)) 70 /\
  seen (calculate (demo_env b b) SHA224 (Some (0%nat, 0)) 3 (Some (1%nat, 0)) 80 true demo_state) 1 28
    = Some (1%Z, be_bytes 28 0x23097d223405d8228642a477bda255b32aadbce4bda0b3f7e36c9da7).
Proof.
  intros b. split; [exact demo_good|]. split; [demo_arg|]. split; [demo_arg|].
  destruct b; vm_compute; reflexivity.
Qed.

(* C04: libhmac_sha256_calculate is SHA256 of FIPS 180-4 *)
Theorem C04_sha256_calculate : forall E buffer size hash hash_size e s,
  good_state s -> arg s buffer size -> arg s hash hash_size ->
  exists r s', calculate E SHA256 buffer size hash hash_size e s = Done r s' /\
  ((r = 1%Z /\ hash_args E SHA256 buffer size hash hash_size /\ all_allocs_ok E s s' /\
    exists bp hp, buffer = Some bp /\ hash = Some hp /\ bytes_at s' hp 32 = sha256 (bytes_at s bp size))
   \/ (r = (-1)%Z /\ (some_alloc_failed E s s' \/ ~ hash_args E SHA256 buffer size hash hash_size))).
Proof. exact (fun E b n h k e s G HB HH => calc_spec SHA256 E b n h k e s G HB HH (fun X => ltac:(discriminate X))). Qed.
Print Assumptions C04_sha256_calculate.
(* test vector "abc" through the model, the looped build on a 32-bit platform and the unrolled build on a 64-bit one *)
Example C04_example : forall b,
  good_state demo_state /\ arg demo_state (Some (0%nat, 0)) 3 /\ arg demo_state (Some (1%nat, 5)) 70 /\
  seen (calculate (demo_env b b) SHA256 (Some (0%nat, 0)) 3 (Some (1%nat, 0)) 80 true demo_state) 1 32
    = Some (1%Z, be_bytes 32 0xba7816bf8f01cfea414140de5dae2223b00361a396177a9cb410ff61f20015ad).
Proof.
  intros b. split; [exact demo_good|]. split; [demo_arg|]. split; [demo_arg|].
  destruct b; vm_compute; reflexivity.
Qed.

(* C05: libhmac_sha512_calculate is SHA-512 of FIPS 180-4 for messages below 2^61 bytes.
   The full property has no bound on size; it is false at 2^61 bytes and above with a 64-bit
   size_t, because only 64 bits of the length are put in the padding: see C05_sha512_total,
   which says what is computed for every size, and C05_sha512_padding_refuted.  With a 32-bit
   size_t the property holds in full: C05_sha512_calculate_32bit. *)
Theorem C05_sha512_calculate_partial : forall E buffer size hash hash_size e s,
  good_state s -> arg s buffer size -> arg s hash hash_size -> size < 2 ^ 61 ->
  exists r s', calculate E SHA512 buffer size hash hash_size e s = Done r s' /\
  ((r = 1%Z /\ hash_args E SHA512 buffer size hash hash_size /\ all_allocs_ok E s s' /\
    exists bp hp, buffer = Some bp /\ hash = Some hp /\ bytes_at s' hp 64 = sha512 (bytes_at s bp size))
   \/ (r = (-1)%Z /\ (some_alloc_failed E s s' \/ ~ hash_args E SHA512 buffer size hash hash_size))).
Proof. exact (fun E b n h k e s G HB HH HS => calc_spec SHA512 E b n h k e s G HB HH (fun _ => or_intror HS)). Qed.
Print Assumptions C05_sha512_calculate_partial.

Theorem C05_sha512_calculate_32bit : forall E buffer size hash hash_size e s,
  good_state s -> arg s buffer size -> arg s hash hash_size -> plat64 E = false ->
  exists r s', calculate E SHA512 buffer size hash hash_size e s = Done r s' /\
  ((r = 1%Z /\ hash_args E SHA512 buffer size hash hash_size /\ all_allocs_ok E s s' /\
    exists bp hp, buffer = Some bp /\ hash = Some hp /\ bytes_at s' hp 64 = sha512 (bytes_at s bp size))
   \/ (r = (-1)%Z /\ (some_alloc_failed E s s' \/ ~ hash_args E SHA512 buffer size hash hash_size))).
Proof. exact (fun E b n h k e s G HB HH HS => calc_spec SHA512 E b n h k e s G HB HH (fun _ => or_introl HS)). Qed.
Print Assumptions C05_sha512_calculate_32bit.

(* every size: the hash computed is SHA-512 with the bit length reduced modulo 2^64 *)
Theorem C05_sha512_total : forall E buffer size hash hash_size e s,
  good_state s -> arg s buffer size -> arg s hash hash_size ->
  exists r s', calculate E SHA512 buffer size hash hash_size e s = Done r s' /\
  ((r = 1%Z /\ hash_args E SHA512 buffer size hash hash_size /\ all_allocs_ok E s s' /\
    exists bp hp, buffer = Some bp /\ hash = Some hp /\ bytes_at s' hp 64 = sha512_len64 (bytes_at s bp size))
   \/ (r = (-1)%Z /\ (some_alloc_failed E s s' \/ ~ hash_args E SHA512 buffer size hash hash_size))).
Proof. exact (calc_lib SHA512). Qed.
Print Assumptions C05_sha512_total.

(* for every message of 2^61 bytes and more (below the 2^125 of the standard) the padded
   message that is hashed is not the one of the standard *)
Theorem C05_sha512_padding_refuted : forall m, 2 ^ 61 <= N.of_nat (length m) < 2 ^ 125 ->
  sha512_len64_padded m <> sha512_padded m.
Proof. exact sha512_padding_differs. Qed.
Print Assumptions C05_sha512_padding_refuted.
(* there are such messages *)
Example C05_sha512_padding_example : exists m : list N, 2 ^ 61 <= N.of_nat (length m) < 2 ^ 125.
Proof. exists (repeat 0 (N.to_nat (2 ^ 61))). rewrite repeat_length, N2Nat.id. split; [discriminate|reflexivity]. Qed.

(* test vector "abc" through the model, the looped build on a 32-bit platform and the unrolled build on a 64-bit one *)
Example C05_example : forall b,
  good_state demo_state /\ arg demo_state (Some (0%nat, 0)) 3 /\ arg demo_state (Some (1%nat, 5)) 70 /\
  seen (calculate (demo_env b b) SHA512 (Some (0%nat, 0)) 3 (Some (1%nat, 0)) 80 true demo_state) 1 64
    = Some (1%Z, be_bytes 64 0xddaf35a193617abacc417349ae20413112e6fa4e89a97ea20a9eeee64b55d39a2192992a274fc1a836ba3c23a3feebbd454d4423643ce80e2a9ac94fa54ca49f).
Proof.
  intros b. split; [exact demo_good|]. split; [demo_arg|]. split; [demo_arg|].
  destruct b; vm_compute; reflexivity.
Qed.

(* the same for a message of several blocks, and a failing allocation: the call returns -1 *)
Example C01_C05_fail : forall b,
  seen (calculate (demo_fail b b 0) SHA256 (Some (6%nat, 0)) 200 (Some (1%nat, 0)) 80 true demo_state) 1 2
    = Some ((-1)%Z, [0xee; 0xee]).
Proof. intros b. destruct b; vm_compute; reflexivity. Qed.
(* hash_args is met: the arguments above are allowed *)
Example C01_C05_args : forall u, hash_args (demo_env u true) SHA512 (Some (0%nat, 0)) 3 (Some (1%nat, 0)) 80 /\
  hash_args (demo_env u false) MD5 (Some (0%nat, 0)) 3 (Some (1%nat, 0)) 80.
Proof. intros u. unfold hash_args. repeat split; (discriminate || (intros X; discriminate X)). Qed.
