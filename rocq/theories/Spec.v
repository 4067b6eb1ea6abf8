(* Specifications of MD5 (RFC 1321), SHA-1, SHA-224, SHA-256, SHA-512
   (FIPS 180-4) and HMAC (RFC 2104 / FIPS 198-1), written from the standards.
   Nothing in this file refers to the model of the C code. *)
From Coq Require Import Arith NArith List.
Import ListNotations.
Open Scope N_scope.

(* ---------- byte strings and numbers ---------- *)

Definition is_byte (b : N) : Prop := b < 256.

(* number denoted by a byte string, most significant byte first *)
Definition be_value (l : list N) : N := fold_left (fun acc b => 256 * acc + b) l 0.
(* least significant byte first *)
Definition le_value (l : list N) : N := be_value (rev l).

(* the n low-order bytes of v, least significant first / most significant first *)
Fixpoint le_bytes (n : nat) (v : N) : list N :=
  match n with
  | O => []
  | S k => v mod 256 :: le_bytes k (v / 256)
  end.
Definition be_bytes (n : nat) (v : N) : list N := rev (le_bytes n v).

(* cut a string into consecutive pieces of k elements (the last may be shorter) *)
Fixpoint pieces_from {A} (fuel k : nat) (l : list A) : list (list A) :=
  match fuel with
  | O => []
  | S f => match l with
           | [] => []
           | _ => firstn k l :: pieces_from f k (skipn k l)
           end
  end.
Definition pieces {A} (k : nat) (l : list A) : list (list A) := pieces_from (length l) k l.

(* ---------- w-bit words (FIPS 180-4 section 2.2.2, 3.2) ---------- *)

Definition plus (w a b : N) : N := (a + b) mod 2 ^ w.
Definition ROTL (w n x : N) : N := (x * 2 ^ n) mod 2 ^ w + x / 2 ^ (w - n).
Definition ROTR (w n x : N) : N := x / 2 ^ n + (x mod 2 ^ n) * 2 ^ (w - n).
Definition SHR (n x : N) : N := x / 2 ^ n.
Definition complement (w x : N) : N := 2 ^ w - 1 - x.
Definition Ch (w x y z : N) : N := N.lxor (N.land x y) (N.land (complement w x) z).
Definition Parity (x y z : N) : N := N.lxor (N.lxor x y) z.
Definition Maj (x y z : N) : N := N.lxor (N.lxor (N.land x y) (N.land x z)) (N.land y z).

(* ---------- padding ---------- *)

(* Append the bit 1 (byte 0x80), then the least number of zero bytes that makes
   room for an [f]-byte length field at the end of a [b]-byte block. *)
Definition zero_bytes (b f len : N) : N := (b - (len + 1 + f) mod b) mod b.

Definition padded (b f : N) (len_field : N -> list N) (m : list N) : list N :=
  let len := N.of_nat (length m) in
  m ++ [0x80] ++ repeat 0 (N.to_nat (zero_bytes b f len)) ++ len_field (8 * len).

(* iterate a compression function over the blocks of a padded message *)
Definition iterate {S} (compress : S -> list N -> S) (iv : S) (b : nat) (m : list N) : S :=
  fold_left compress (pieces b m) iv.

(* ---------- MD5, RFC 1321 section 3 ---------- *)

Definition md5_F (x y z : N) : N := N.lor (N.land x y) (N.land (complement 32 x) z).
Definition md5_G (x y z : N) : N := N.lor (N.land x z) (N.land y (complement 32 z)).
Definition md5_H (x y z : N) : N := N.lxor (N.lxor x y) z.
Definition md5_I (x y z : N) : N := N.lxor y (N.lor x (complement 32 z)).

Definition md5_fun (i : nat) : N -> N -> N -> N :=
  match (i / 16)%nat with
  | 0%nat => md5_F | 1%nat => md5_G | 2%nat => md5_H | _ => md5_I
  end.

(* which message word is used in operation i (0..63) *)
Definition md5_word (i : nat) : nat :=
  match (i / 16)%nat with
  | 0%nat => i
  | 1%nat => ((5 * i + 1) mod 16)%nat
  | 2%nat => ((3 * i + 5) mod 16)%nat
  | _ => ((7 * i) mod 16)%nat
  end.

(* rotation amounts, four per round *)
Definition md5_shift (i : nat) : N :=
  nth (i mod 4)%nat
      (nth (i / 16)%nat [ [7; 12; 17; 22]; [5; 9; 14; 20]; [4; 11; 16; 23]; [6; 10; 15; 21] ] [])
      0.

(* The table T of RFC 1321 section 3.4 (T[i+1] at position i).  That it is the
   integer part of 2^32 * abs(sin(i+1)) is proved separately. *)
Definition md5_T : list N :=
  [ 0xd76aa478; 0xe8c7b756; 0x242070db; 0xc1bdceee; 0xf57c0faf; 0x4787c62a; 0xa8304613; 0xfd469501;
    0x698098d8; 0x8b44f7af; 0xffff5bb1; 0x895cd7be; 0x6b901122; 0xfd987193; 0xa679438e; 0x49b40821;
    0xf61e2562; 0xc040b340; 0x265e5a51; 0xe9b6c7aa; 0xd62f105d; 0x02441453; 0xd8a1e681; 0xe7d3fbc8;
    0x21e1cde6; 0xc33707d6; 0xf4d50d87; 0x455a14ed; 0xa9e3e905; 0xfcefa3f8; 0x676f02d9; 0x8d2a4c8a;
    0xfffa3942; 0x8771f681; 0x6d9d6122; 0xfde5380c; 0xa4beea44; 0x4bdecfa9; 0xf6bb4b60; 0xbebfbc70;
    0x289b7ec6; 0xeaa127fa; 0xd4ef3085; 0x04881d05; 0xd9d4d039; 0xe6db99e5; 0x1fa27cf8; 0xc4ac5665;
    0xf4292244; 0x432aff97; 0xab9423a7; 0xfc93a039; 0x655b59c3; 0x8f0ccc92; 0xffeff47d; 0x85845dd1;
    0x6fa87e4f; 0xfe2ce6e0; 0xa3014314; 0x4e0811a1; 0xf7537e82; 0xbd3af235; 0x2ad7d2bb; 0xeb86d391 ].

Definition q4 : Type := (N * N * N * N)%type.

(* one operation:  a = b + ((a + f(b,c,d) + X[k] + T[i]) <<< s), then the roles
   of the four registers rotate *)
Definition md5_step (X : list N) (r : q4) (i : nat) : q4 :=
  let '(a, b, c, d) := r in
  let t := plus 32 (plus 32 (plus 32 a (md5_fun i b c d)) (nth (md5_word i) X 0)) (nth i md5_T 0) in
  (d, plus 32 b (ROTL 32 (md5_shift i) t), b, c).

Definition md5_compress (r : q4) (block : list N) : q4 :=
  let X := map le_value (pieces 4 block) in
  let '(a, b, c, d) := r in
  let '(a', b', c', d') := fold_left (md5_step X) (seq 0 64) r in
  (plus 32 a a', plus 32 b b', plus 32 c c', plus 32 d d').

(* RFC 1321 3.3: word A: 01 23 45 67, ..., low-order bytes first *)
Definition md5_iv : q4 :=
  (le_value [0x01; 0x23; 0x45; 0x67], le_value [0x89; 0xab; 0xcd; 0xef],
   le_value [0xfe; 0xdc; 0xba; 0x98], le_value [0x76; 0x54; 0x32; 0x10]).

(* RFC 1321 3.2: the low-order 64 bits of the bit length, low-order byte first *)
Definition md5_padded : list N -> list N := padded 64 8 (le_bytes 8).

Definition md5 (m : list N) : list N :=
  let '(a, b, c, d) := iterate md5_compress md5_iv 64 (md5_padded m) in
  le_bytes 4 a ++ le_bytes 4 b ++ le_bytes 4 c ++ le_bytes 4 d.

(* ---------- SHA-1, FIPS 180-4 section 6.1 ---------- *)

(* the message schedule W_0 .. W_(n-1) as a list *)
Fixpoint schedule (next : list N -> nat -> N) (M : list N) (n : nat) : list N :=
  match n with
  | O => []
  | S t => let W := schedule next M t in
           W ++ [if Nat.ltb t 16 then nth t M 0 else next W t]
  end.

Definition sha1_next (W : list N) (t : nat) : N :=
  ROTL 32 1 (N.lxor (N.lxor (N.lxor (nth (t - 3)%nat W 0) (nth (t - 8)%nat W 0)) (nth (t - 14)%nat W 0)) (nth (t - 16)%nat W 0)).

Definition sha1_f (t : nat) : N -> N -> N -> N :=
  match (t / 20)%nat with
  | 0%nat => Ch 32 | 1%nat => Parity | 2%nat => Maj | _ => Parity
  end.

(* FIPS 180-4 4.2.1 lists 5a827999, 6ed9eba1, 8f1bbcdc, ca62c1d6: the integer parts of
   2^30 times the square roots of 2, 3, 5 and 10 *)
Definition sha1_K (t : nat) : N :=
  N.sqrt (nth (t / 20)%nat [2; 3; 5; 10] 0 * 2 ^ 60).

Definition q5 : Type := (N * N * N * N * N)%type.

Definition sha1_step (W : list N) (r : q5) (t : nat) : q5 :=
  let '(a, b, c, d, e) := r in
  let T := plus 32 (plus 32 (plus 32 (plus 32 (ROTL 32 5 a) (sha1_f t b c d)) e) (sha1_K t)) (nth t W 0) in
  (T, a, ROTL 32 30 b, c, d).

Definition sha1_compress (H : q5) (block : list N) : q5 :=
  let W := schedule sha1_next (map be_value (pieces 4 block)) 80 in
  let '(h0, h1, h2, h3, h4) := H in
  let '(a, b, c, d, e) := fold_left (sha1_step W) (seq 0 80) H in
  (plus 32 a h0, plus 32 b h1, plus 32 c h2, plus 32 d h3, plus 32 e h4).

Definition sha1_iv : q5 :=
  (0x67452301, 0xefcdab89, 0x98badcfe, 0x10325476, 0xc3d2e1f0).

Definition sha1_padded : list N -> list N := padded 64 8 (be_bytes 8).

Definition sha1 (m : list N) : list N :=
  let '(h0, h1, h2, h3, h4) := iterate sha1_compress sha1_iv 64 (sha1_padded m) in
  concat (map (be_bytes 4) [h0; h1; h2; h3; h4]).

(* ---------- SHA-2, FIPS 180-4 sections 4.1.2, 4.1.3, 6.2, 6.4 ---------- *)

(* integer square and cube roots, and primes, for the constants *)
Fixpoint icbrt_bits (n : N) (bits : nat) (r : N) : N :=
  match bits with
  | O => r
  | S k => let c := r + 2 ^ N.of_nat k in
           icbrt_bits n k (if c * c * c <=? n then c else r)
  end.
(* the greatest r with r^3 <= n (for n < 2^300) *)
Definition icbrt (n : N) : N := icbrt_bits n 100 0.

Definition divides (d n : N) : bool := n mod d =? 0.
Definition is_prime (n : nat) : bool :=
  andb (Nat.leb 2 n) (forallb (fun d => negb (divides (N.of_nat d) (N.of_nat n))) (seq 2 (n - 2)%nat)).
Definition primes_below (n : nat) : list N := map N.of_nat (filter is_prime (seq 0 n)).

(* the first [bits] bits of the fractional part of the square / cube root of p *)
Definition sqrt_frac (bits p : N) : N := N.sqrt (p * 2 ^ (2 * bits)) mod 2 ^ bits.
Definition cbrt_frac (bits p : N) : N := icbrt (p * 2 ^ (3 * bits)) mod 2 ^ bits.

Definition first_primes (n : nat) : list N := firstn n (primes_below 420).

Record sha2 : Type := {
  s_w : N;                       (* word size in bits *)
  s_K : list N;                  (* round constants *)
  s_Sigma0 : N -> N; s_Sigma1 : N -> N; s_sigma0 : N -> N; s_sigma1 : N -> N;
}.

Definition xor3 (a b c : N) : N := N.lxor (N.lxor a b) c.

Definition sha2_32 : sha2 := {|
  s_w := 32;
  s_K := map (cbrt_frac 32) (first_primes 64);
  s_Sigma0 x := xor3 (ROTR 32 2 x) (ROTR 32 13 x) (ROTR 32 22 x);
  s_Sigma1 x := xor3 (ROTR 32 6 x) (ROTR 32 11 x) (ROTR 32 25 x);
  s_sigma0 x := xor3 (ROTR 32 7 x) (ROTR 32 18 x) (SHR 3 x);
  s_sigma1 x := xor3 (ROTR 32 17 x) (ROTR 32 19 x) (SHR 10 x);
|}.

Definition sha2_64 : sha2 := {|
  s_w := 64;
  s_K := map (cbrt_frac 64) (first_primes 80);
  s_Sigma0 x := xor3 (ROTR 64 28 x) (ROTR 64 34 x) (ROTR 64 39 x);
  s_Sigma1 x := xor3 (ROTR 64 14 x) (ROTR 64 18 x) (ROTR 64 41 x);
  s_sigma0 x := xor3 (ROTR 64 1 x) (ROTR 64 8 x) (SHR 7 x);
  s_sigma1 x := xor3 (ROTR 64 19 x) (ROTR 64 61 x) (SHR 6 x);
|}.

Definition sha2_next (P : sha2) (W : list N) (t : nat) : N :=
  plus (s_w P) (plus (s_w P) (plus (s_w P) (s_sigma1 P (nth (t - 2)%nat W 0)) (nth (t - 7)%nat W 0))
                     (s_sigma0 P (nth (t - 15)%nat W 0))) (nth (t - 16)%nat W 0).

Definition q8 : Type := (N * N * N * N * N * N * N * N)%type.

Definition sha2_step (P : sha2) (W : list N) (r : q8) (t : nat) : q8 :=
  let w := s_w P in
  let '(a, b, c, d, e, f, g, h) := r in
  let T1 := plus w (plus w (plus w (plus w h (s_Sigma1 P e)) (Ch w e f g)) (nth t (s_K P) 0)) (nth t W 0) in
  let T2 := plus w (s_Sigma0 P a) (Maj a b c) in
  (plus w T1 T2, a, b, c, plus w d T1, e, f, g).

Definition sha2_compress (P : sha2) (H : q8) (block : list N) : q8 :=
  let w := s_w P in
  let rounds := length (s_K P) in
  let M := map be_value (pieces (N.to_nat (w / 8)) block) in
  let W := schedule (sha2_next P) M rounds in
  let '(h0, h1, h2, h3, h4, h5, h6, h7) := H in
  let '(a, b, c, d, e, f, g, h) := fold_left (sha2_step P W) (seq 0 rounds) H in
  (plus w a h0, plus w b h1, plus w c h2, plus w d h3, plus w e h4, plus w f h5, plus w g h6, plus w h h7).

Definition q8_of (l : list N) : q8 :=
  (nth 0 l 0, nth 1 l 0, nth 2 l 0, nth 3 l 0, nth 4 l 0, nth 5 l 0, nth 6 l 0, nth 7 l 0).
Definition list_of_q8 (q : q8) : list N :=
  let '(a, b, c, d, e, f, g, h) := q in [a; b; c; d; e; f; g; h].

(* 5.3.3: fractional parts of the square roots of the first eight primes *)
Definition sha256_iv : q8 := q8_of (map (sqrt_frac 32) (first_primes 8)).
(* 5.3.2: the second 32 bits of the fractional parts of the square roots of the
   9th through 16th primes *)
Definition sha224_iv : q8 :=
  q8_of (map (fun p => sqrt_frac 64 p mod 2 ^ 32) (skipn 8 (first_primes 16))).
(* 5.3.5: 64 bits of the fractional parts of the square roots of the first eight primes *)
Definition sha512_iv : q8 := q8_of (map (sqrt_frac 64) (first_primes 8)).

Definition sha256_padded : list N -> list N := padded 64 8 (be_bytes 8).
Definition sha512_padded : list N -> list N := padded 128 16 (be_bytes 16).

Definition sha256 (m : list N) : list N :=
  concat (map (be_bytes 4) (list_of_q8 (iterate (sha2_compress sha2_32) sha256_iv 64 (sha256_padded m)))).
Definition sha224 (m : list N) : list N :=
  concat (map (be_bytes 4) (firstn 7 (list_of_q8 (iterate (sha2_compress sha2_32) sha224_iv 64 (sha256_padded m))))).
Definition sha512 (m : list N) : list N :=
  concat (map (be_bytes 8) (list_of_q8 (iterate (sha2_compress sha2_64) sha512_iv 128 (sha512_padded m)))).

(* Not from the standard: SHA-512 with the bit length reduced modulo 2^64 before it is
   put in the 16-byte length field.  It is SHA-512 for messages shorter than 2^61 bytes. *)
Definition sha512_len64_padded : list N -> list N := padded 128 16 (fun bits => be_bytes 16 (bits mod 2 ^ 64)).
Definition sha512_len64 (m : list N) : list N :=
  concat (map (be_bytes 8) (list_of_q8 (iterate (sha2_compress sha2_64) sha512_iv 128 (sha512_len64_padded m)))).

(* ---------- HMAC, RFC 2104 section 2 ---------- *)

Definition hmac_key (H : list N -> list N) (b : nat) (key : list N) : list N :=
  let k := if Nat.ltb b (length key) then H key else key in
  k ++ repeat 0 (b - length k)%nat.

Definition hmac (H : list N -> list N) (b : nat) (key text : list N) : list N :=
  let k0 := hmac_key H b key in
  H (map (N.lxor 0x5c) k0 ++ H (map (N.lxor 0x36) k0 ++ text)).
