(* Property C30: the byte order macros of common/byte_stream.h and libhmac/libhmac_byte_stream.h.
   [l] are the bytes at the pointer given to the macro, [rest] whatever follows them; [w] is the width of
   the variable and [v0] its value before; [be_value], [le_value], [be_bytes] and [le_bytes] are those of
   the standards (Spec.v).  The lists say which macro is for how many bytes. *)
From Coq Require Import Arith NArith List.
From Verif Require Import Words Spec WordFacts ByteStream ByteStreamFacts.
Import ListNotations.
Open Scope N_scope.

(* ---- C30: what the reading macros give *)
Theorem C30_read_big : forall n m w l rest v0,
  In (n, m) [(2%nat, copy_to_uint16_big_endian); (3%nat, copy_to_uint24_big_endian); (4%nat, copy_to_uint32_big_endian);
             (6%nat, copy_to_uint48_big_endian); (8%nat, copy_to_uint64_big_endian);
             (4%nat, copy_to_1x_uint32_big_endian); (8%nat, copy_to_1x_uint64_big_endian)] ->
  length l = n -> Forall is_byte l -> 8 * N.of_nat n <= w ->
  read_macro w (l ++ rest) m v0 = Some (be_value l).
Proof. exact read_be_all. Qed.
Print Assumptions C30_read_big.

Theorem C30_read_little_partial : forall n m w l rest v0,
  In (n, m) [(2%nat, copy_to_uint16_little_endian); (3%nat, copy_to_uint24_little_endian); (4%nat, copy_to_uint32_little_endian);
             (8%nat, copy_to_uint64_little_endian); (4%nat, copy_to_1x_uint32_little_endian)] ->
  length l = n -> Forall is_byte l -> 8 * N.of_nat n <= w ->
  read_macro w (l ++ rest) m v0 = Some (le_value l).
Proof. exact read_le_all. Qed.
Print Assumptions C30_read_little_partial.

Example C30_read_example : Forall is_byte [0x12; 0x34; 0x56] /\
  read_macro 32 ([0x12; 0x34; 0x56] ++ [0x78]) copy_to_uint24_big_endian 0xffffffff = Some 0x123456 /\
  read_macro 32 ([0x12; 0x34; 0x56] ++ [0x78]) copy_to_uint24_little_endian 0xffffffff = Some 0x563412.
Proof. split; [repeat constructor|split; reflexivity]. Qed.

(* Missing from the little endian statement are two macros that do not satisfy it.  The one for 48 bits starts
   with |= and needs a zero variable (byte_stream.h:110). *)
Theorem C30_read48_little_partial : forall w l rest, length l = 6%nat -> Forall is_byte l -> 48 <= w ->
  read_macro w (l ++ rest) copy_to_uint48_little_endian 0 = Some (le_value l).
Proof. exact read48_le. Qed.
Print Assumptions C30_read48_little_partial.

Theorem C30_read48_little_refuted : exists l v0, length l = 6%nat /\ Forall is_byte l /\ v0 < 2 ^ 64 /\
  read_macro 64 l copy_to_uint48_little_endian v0 <> Some (le_value l).
Proof. exact read48_le_bad. Qed.
Print Assumptions C30_read48_little_refuted.

(* The 64-bit one of libhmac_byte_stream.h:110-118 loses the upper four bytes, always. *)
Theorem C30_read64_little_refuted : forall l rest v0, length l = 8%nat -> Forall is_byte l ->
  read_macro 64 (l ++ rest) copy_to_1x_uint64_little_endian v0 = Some (le_value (firstn 4 l)).
Proof. exact read64_le_bad. Qed.
Print Assumptions C30_read64_little_refuted.

Example C30_read64_little_example :
  read_macro 64 [1; 2; 3; 4; 5; 6; 7; 8] copy_to_1x_uint64_little_endian 0 = Some 0x04030201 /\
  le_value [1; 2; 3; 4; 5; 6; 7; 8] = 0x0807060504030201 /\
  read_macro 64 [1; 2; 3; 4; 5; 6; 7; 8] copy_to_uint48_little_endian 0 = Some 0x060504030201.
Proof. repeat split; reflexivity. Qed.

(* ---- C30: what the writing macros leave; [old] are the bytes that were there *)
Theorem C30_write_big : forall n m v old rest,
  In (n, m) [(2%nat, copy_from_uint16_big_endian); (3%nat, copy_from_uint24_big_endian); (4%nat, copy_from_uint32_big_endian);
             (6%nat, copy_from_uint48_big_endian); (8%nat, copy_from_uint64_big_endian)] ->
  length old = n -> write_macro v m (old ++ rest) = Some (be_bytes n v ++ rest).
Proof. exact write_be_all. Qed.
Print Assumptions C30_write_big.

Theorem C30_write_little : forall n m v old rest,
  In (n, m) [(2%nat, copy_from_uint16_little_endian); (3%nat, copy_from_uint24_little_endian); (4%nat, copy_from_uint32_little_endian);
             (6%nat, copy_from_uint48_little_endian); (8%nat, copy_from_uint64_little_endian)] ->
  length old = n -> write_macro v m (old ++ rest) = Some (le_bytes n v ++ rest).
Proof. exact write_le_all. Qed.
Print Assumptions C30_write_little.

Example C30_write_example :
  write_macro 0x123456789abc copy_from_uint48_big_endian [0; 0; 0; 0; 0; 0; 7] = Some [0x12; 0x34; 0x56; 0x78; 0x9a; 0xbc; 7] /\
  write_macro 0x123456789abc copy_from_uint48_little_endian [0; 0; 0; 0; 0; 0; 7] = Some [0xbc; 0x9a; 0x78; 0x56; 0x34; 0x12; 7].
Proof. split; reflexivity. Qed.

(* ---- C30: nothing is lost, in either direction *)
Theorem C30_number_round_trip_big : forall n r m w v old rest v0 out,
  In (n, r) be_readers -> In (n, m) be_writers ->
  length old = n -> v < 256 ^ N.of_nat n -> 8 * N.of_nat n <= w ->
  write_macro v m (old ++ rest) = Some out -> read_macro w out r v0 = Some v.
Proof. exact round_trip_be. Qed.
Print Assumptions C30_number_round_trip_big.

Theorem C30_number_round_trip_little : forall n r m w v old rest v0 out,
  In (n, r) le_readers -> In (n, m) le_writers ->
  length old = n -> v < 256 ^ N.of_nat n -> 8 * N.of_nat n <= w ->
  write_macro v m (old ++ rest) = Some out -> read_macro w out r v0 = Some v.
Proof. exact round_trip_le. Qed.
Print Assumptions C30_number_round_trip_little.

Theorem C30_bytes_round_trip_big : forall n r m w l rest v0 v old rest',
  In (n, r) be_readers -> In (n, m) be_writers ->
  length l = n -> length old = n -> Forall is_byte l -> 8 * N.of_nat n <= w ->
  read_macro w (l ++ rest) r v0 = Some v -> write_macro v m (old ++ rest') = Some (l ++ rest').
Proof. exact rewrite_be. Qed.
Print Assumptions C30_bytes_round_trip_big.

Theorem C30_bytes_round_trip_little : forall n r m w l rest v0 v old rest',
  In (n, r) le_readers -> In (n, m) le_writers ->
  length l = n -> length old = n -> Forall is_byte l -> 8 * N.of_nat n <= w ->
  read_macro w (l ++ rest) r v0 = Some v -> write_macro v m (old ++ rest') = Some (l ++ rest').
Proof. exact rewrite_le. Qed.
Print Assumptions C30_bytes_round_trip_little.

(* every width from 16 to 64 bits has a reader and a writer in the lists (48 bits little endian only a writer) *)
Example C30_round_trip_example :
  map fst be_readers = [2; 3; 4; 6; 8; 4; 8]%nat /\ map fst be_writers = [2; 3; 4; 6; 8]%nat /\
  map fst le_readers = [2; 3; 4; 8; 4]%nat /\ map fst le_writers = [2; 3; 4; 6; 8]%nat /\
  In (8%nat, copy_to_uint64_big_endian) be_readers /\
  write_macro 0x123456789abcdef0 copy_from_uint64_big_endian [0; 0; 0; 0; 0; 0; 0; 0; 7]
    = Some [0x12; 0x34; 0x56; 0x78; 0x9a; 0xbc; 0xde; 0xf0; 7] /\
  read_macro 64 [0x12; 0x34; 0x56; 0x78; 0x9a; 0xbc; 0xde; 0xf0; 7] copy_to_uint64_big_endian 5 = Some 0x123456789abcdef0.
Proof. repeat split; try reflexivity. do 4 right. left. reflexivity. Qed.

(* ---- C48: the rotation macros are the rotations of the standards and undo each other.  A rotation by 0 or by
   the width would shift by the width, which C leaves undefined; the code never does it. *)
Theorem C48_rotate_left : forall w x n, (w = 8 \/ w = 16 \/ w = 32 \/ w = 64) -> x < 2 ^ w -> 0 < n < w ->
  rotate_left_macro w x n = ROTL w n x.
Proof. exact rotate_left_eq. Qed.
Print Assumptions C48_rotate_left.

Theorem C48_rotate_right : forall w x n, (w = 8 \/ w = 16 \/ w = 32 \/ w = 64) -> x < 2 ^ w -> 0 < n < w ->
  rotate_right_macro w x n = ROTR w n x.
Proof. exact rotate_right_eq. Qed.
Print Assumptions C48_rotate_right.

Theorem C48_rotate_back : forall w x n, (w = 8 \/ w = 16 \/ w = 32 \/ w = 64) -> x < 2 ^ w -> 0 < n < w ->
  rotate_right_macro w (rotate_left_macro w x n) n = x.
Proof. exact rotate_back. Qed.
Print Assumptions C48_rotate_back.

Example C48_example : rotate_left_macro 8 0x81 1 = 0x03 /\ rotate_left_macro 16 0x8001 4 = 0x0018 /\
  rotate_right_macro 8 0x03 1 = 0x81 /\ rotate_right_macro 32 0x12345678 8 = 0x78123456.
Proof. repeat split; reflexivity. Qed.
