(* Vocabulary for the statements about equal digests.  No proofs. *)
From Coq Require Import Arith NArith ZArith List Bool.
From Verif Require Import Spec Machine Vocab.
Import ListNotations.
Open Scope N_scope.

(* the blocks of a message with its padding; SHA-512 with the length field that the library writes *)
Definition message_blocks (a : algid) (m : list N) : list (list N) :=
  pieces (N.to_nat (block_size a))
    (match a with
     | MD5 => md5_padded m | SHA1 => sha1_padded m | SHA224 | SHA256 => sha256_padded m | SHA512 => sha512_len64_padded m
     end).
(* one application of the compression function of the standard *)
Definition block_step (a : algid) (h block : list N) : list N :=
  match a with
  | MD5 => let '(x0, x1, x2, x3) := md5_compress (nth 0 h 0, nth 1 h 0, nth 2 h 0, nth 3 h 0) block in [x0; x1; x2; x3]
  | SHA1 => let '(x0, x1, x2, x3, x4) := sha1_compress (nth 0 h 0, nth 1 h 0, nth 2 h 0, nth 3 h 0, nth 4 h 0) block in [x0; x1; x2; x3; x4]
  | SHA224 | SHA256 => list_of_q8 (sha2_compress sha2_32 (q8_of h) block)
  | SHA512 => list_of_q8 (sha2_compress sha2_64 (q8_of h) block)
  end.
Definition start_value (a : algid) : list N :=
  match a with
  | MD5 => let '(x0, x1, x2, x3) := md5_iv in [x0; x1; x2; x3]
  | SHA1 => let '(x0, x1, x2, x3, x4) := sha1_iv in [x0; x1; x2; x3; x4]
  | SHA224 => list_of_q8 sha224_iv | SHA256 => list_of_q8 sha256_iv | SHA512 => list_of_q8 sha512_iv
  end.
(* the chaining value after some blocks *)
Definition chain (a : algid) (l : list (list N)) : list N := fold_left (block_step a) l (start_value a).
(* words of the last chaining value that are part of the digest *)
Definition digest_words (a : algid) : nat := match a with MD5 => 4 | SHA1 => 5 | SHA224 => 7 | SHA256 | SHA512 => 8 end.

(* Somewhere in the computation of the two digests the compression function meets two different inputs with the same result;
   at the end of both, with the same words of the digest. *)
Definition collision_within (a : algid) (m1 m2 : list N) : Prop :=
  exists i j x y, nth_error (message_blocks a m1) i = Some x /\ nth_error (message_blocks a m2) j = Some y /\
  let h1 := chain a (firstn i (message_blocks a m1)) in let h2 := chain a (firstn j (message_blocks a m2)) in
  (h1 <> h2 \/ x <> y) /\
  (block_step a h1 x = block_step a h2 y \/
   S i = length (message_blocks a m1) /\ S j = length (message_blocks a m2) /\
   firstn (digest_words a) (block_step a h1 x) = firstn (digest_words a) (block_step a h2 y)) /\
  (length m1 = length m2 -> i = j).
(* the start value comes again in the course of the computation *)
Definition start_again (a : algid) (m : list N) : Prop :=
  exists i, (0 < i <= length (message_blocks a m))%nat /\ chain a (firstn i (message_blocks a m)) = start_value a.

(* what makes two digests or HMACs the same, if not the inputs *)
Definition same_digest_reason (a : algid) (m1 m2 : list N) : Prop :=
  collision_within a m1 m2 \/
  (length m1 <> length m2 /\ N.of_nat (length m1) mod 2 ^ 61 = N.of_nat (length m2) mod 2 ^ 61 /\ (start_again a m1 \/ start_again a m2)).
(* the two hash inputs of HMAC *)
Definition inner_input (a : algid) (key text : list N) : list N :=
  map (N.lxor 0x36) (hmac_key (lib_hash a) (N.to_nat (block_size a)) key) ++ text.
Definition outer_input (a : algid) (key text : list N) : list N :=
  map (N.lxor 0x5c) (hmac_key (lib_hash a) (N.to_nat (block_size a)) key) ++ lib_hash a (inner_input a key text).
(* two keys that HMAC cannot tell apart: they differ in zeros at the end only *)
Definition up_to_zeros (k1 k2 : list N) : Prop := exists n, k1 = k2 ++ repeat 0 n \/ k2 = k1 ++ repeat 0 n.
