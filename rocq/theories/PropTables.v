(* Property C29: the constants in the code against their definition over the real numbers.
   [Int_part] and [frac_part] are the standard library's integer and fractional part of a real number,
   [sin] its sine, [prime] its primality.  [nth_prime i p] says that p is prime and has exactly i primes below it. *)
From Coq Require Import Arith NArith ZArith Reals Lra List Znumtheory.
From Verif Require Import Words Spec Tables Transform TableFacts.
Import ListNotations.
Open Scope Z_scope.

(* ---- C29: MD5.  Entry i of the table is the integer part of 2^32 |sin (i + 1)| *)
Theorem C29_md5_sines : forall i n, nth_error md5_sines i = Some n ->
  Int_part (4294967296 * Rabs (sin (INR (S i)))) = Z.of_N n.
Proof. exact md5_sines_ok. Qed.
Print Assumptions C29_md5_sines.

(* the same for the table T of the specification that C01 refers to *)
Theorem C29_spec_md5_sines : forall i n, nth_error md5_T i = Some n ->
  Int_part (4294967296 * Rabs (sin (INR (S i)))) = Z.of_N n.
Proof. exact md5_T_ok. Qed.
Print Assumptions C29_spec_md5_sines.

Example C29_md5_example : length md5_sines = 64%nat /\ nth_error md5_sines 63 = Some 0xeb86d391%N /\
  Int_part (4294967296 * Rabs (sin 64)) = 0xeb86d391.
Proof.
  split; [reflexivity|]. split; [reflexivity|]. pose proof (C29_md5_sines 63 0xeb86d391%N eq_refl) as H.
  replace (INR 64) with 64%R in H by (cbn; lra). exact H.
Qed.

(* ---- C29: SHA-2.  x is the cube (square) root of the i-th prime *)
Theorem C29_sha224_cube_roots : forall i n p x, nth_error sha224_cube_roots i = Some n -> nth_prime i p ->
  (0 <= x)%R -> (x ^ 3 = IZR p)%R -> Int_part (frac_part x * IZR (2 ^ 32)) = Z.of_N n.
Proof. exact sha224_cube_ok. Qed.
Print Assumptions C29_sha224_cube_roots.

Theorem C29_sha256_cube_roots : forall i n p x, nth_error sha256_cube_roots i = Some n -> nth_prime i p ->
  (0 <= x)%R -> (x ^ 3 = IZR p)%R -> Int_part (frac_part x * IZR (2 ^ 32)) = Z.of_N n.
Proof. exact sha256_cube_ok. Qed.
Print Assumptions C29_sha256_cube_roots.

Theorem C29_sha512_cube_roots : forall i n p x, nth_error sha512_cube_roots i = Some n -> nth_prime i p ->
  (0 <= x)%R -> (x ^ 3 = IZR p)%R -> Int_part (frac_part x * IZR (2 ^ 64)) = Z.of_N n.
Proof. exact sha512_cube_ok. Qed.
Print Assumptions C29_sha512_cube_roots.

Theorem C29_sha256_square_roots : forall i n p x, nth_error sha256_square_roots i = Some n -> nth_prime i p ->
  (0 <= x)%R -> (x ^ 2 = IZR p)%R -> Int_part (frac_part x * IZR (2 ^ 32)) = Z.of_N n.
Proof. exact sha256_square_ok. Qed.
Print Assumptions C29_sha256_square_roots.

Theorem C29_sha512_square_roots : forall i n p x, nth_error sha512_square_roots i = Some n -> nth_prime i p ->
  (0 <= x)%R -> (x ^ 2 = IZR p)%R -> Int_part (frac_part x * IZR (2 ^ 64)) = Z.of_N n.
Proof. exact sha512_square_ok. Qed.
Print Assumptions C29_sha512_square_roots.

(* SHA-224 starts from the second 32 bits of the roots of the 9th to 16th primes *)
Theorem C29_sha224_square_roots : forall i n p x, nth_error sha224_square_roots i = Some n -> nth_prime (8 + i) p ->
  (0 <= x)%R -> (x ^ 2 = IZR p)%R ->
  Int_part (frac_part (frac_part x * IZR (2 ^ 32)) * IZR (2 ^ 32)) = Z.of_N n.
Proof. exact sha224_square_ok. Qed.
Print Assumptions C29_sha224_square_roots.

(* the hypotheses can be met for every entry: the primes and the roots exist *)
Theorem C29_primes_and_roots : forall i k, (i < 80)%nat -> exists p x, nth_prime i p /\ (0 <= x)%R /\ (x ^ S k = IZR p)%R.
Proof. exact primes_and_roots. Qed.
Print Assumptions C29_primes_and_roots.

Example C29_sha2_example :
  map (@length N) [sha224_cube_roots; sha256_cube_roots; sha512_cube_roots] = [64; 64; 80]%nat /\
  map (@length N) [sha224_square_roots; sha256_square_roots; sha512_square_roots] = [8; 8; 8]%nat /\
  nth_prime 79 409 /\ nth_error sha512_cube_roots 79 = Some 0x6c44198c4a475817%N /\
  exists x, (x ^ 3 = 409)%R /\ Int_part (frac_part x * IZR (2 ^ 64)) = 0x6c44198c4a475817.
Proof.
  split; [reflexivity|]. split; [reflexivity|]. assert (P : nth_prime 79 409) by (apply nth_prime_ok; reflexivity). split; [exact P|].
  split; [reflexivity|]. destruct (root_exists 2 409 eq_refl) as [x [H1 H2]]. exists x. split; [exact H2|].
  exact (C29_sha512_cube_roots 79 0x6c44198c4a475817%N 409 x eq_refl P H1 H2).
Qed.

(* ---- C29: SHA-1.  The constant of each of the four rounds is the integer part of 2^30 times the square root of 2, 3, 5, 10 *)
Theorem C29_sha1_round_constants : forall round h1 h2 h3 f k x, sha1_round_fun round h1 h2 h3 = Some (f, k) ->
  (0 <= x)%R -> (x ^ 2 = IZR (nth (round - 1)%nat [2; 3; 5; 10] 0)%Z)%R -> Int_part (x * IZR (2 ^ 30)) = Z.of_N k.
Proof. exact sha1_round_ok. Qed.
Print Assumptions C29_sha1_round_constants.

Example C29_sha1_example : sha1_round_fun 4 1 2 4 = Some (7%N, 0xca62c1d6%N) /\ exists x, (0 <= x)%R /\ (x ^ 2 = 10)%R.
Proof. split; [reflexivity|]. exact (root_exists 1 10 eq_refl). Qed.

(* ---- C29: the start values of MD5 and SHA-1 count through the hexadecimal digits, up and then down *)
Theorem C29_start_values :
  concat (map (le_bytes 4) md5_fixed_constants) =
    (map (fun i => 0x01 + 0x22 * N.of_nat i) (seq 0 8) ++ map (fun i => 0xfe - 0x22 * N.of_nat i) (seq 0 8))%N /\
  sha1_fixed_constants = md5_fixed_constants ++ [le_value (map (fun i => 0xf0 - 0x0f * N.of_nat i)%N (seq 0 4))].
Proof. exact start_values. Qed.
Print Assumptions C29_start_values.
