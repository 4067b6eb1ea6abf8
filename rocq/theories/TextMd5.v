(* The text of libhmac/libhmac_md5_context.c and libhmac/libhmac_md5.c for a build without
   libcrypto, and of the macros they use, as terms of CText.v.  Written by
   tools/ctext.py from the files in /repo; #if on LIBHMAC_UNFOLLED_LOOPS became a Coq if.
   Left out: casts between pointer types, the declaration of the function name for
   messages, and the message arguments of libcerror_error_set. *)
From Coq Require Import NArith ZArith List String.
From Verif Require Import Machine CText.
Import ListNotations.
Open Scope string_scope.
Open Scope list_scope.
Open Scope N_scope.

(* libhmac/libhmac_md5_context.h:55-89 struct libhmac_internal_md5_context: uint64_t hash_count; uint32_t hash_values[ 4 ];
   size_t block_offset; uint8_t block[ 128 ] *)
Definition layout_md5 : layout := mk_layout R32 4 128.

(* libhmac/libhmac_md5_context.c:48-50 libhmac_md5_context_fixed_constants *)
Definition tab_libhmac_md5_context_fixed_constants : list N :=
  [0x67452301; 0xefcdab89; 0x98badcfe; 0x10325476].

(* libhmac/libhmac_md5_context.c:54-71 libhmac_md5_context_sines *)
Definition tab_libhmac_md5_context_sines : list N :=
  [0xd76aa478; 0xe8c7b756; 0x242070db; 0xc1bdceee; 0xf57c0faf; 0x4787c62a; 0xa8304613; 0xfd469501;
   0x698098d8; 0x8b44f7af; 0xffff5bb1; 0x895cd7be; 0x6b901122; 0xfd987193; 0xa679438e; 0x49b40821;
   0xf61e2562; 0xc040b340; 0x265e5a51; 0xe9b6c7aa; 0xd62f105d; 0x02441453; 0xd8a1e681; 0xe7d3fbc8;
   0x21e1cde6; 0xc33707d6; 0xf4d50d87; 0x455a14ed; 0xa9e3e905; 0xfcefa3f8; 0x676f02d9; 0x8d2a4c8a;
   0xfffa3942; 0x8771f681; 0x6d9d6122; 0xfde5380c; 0xa4beea44; 0x4bdecfa9; 0xf6bb4b60; 0xbebfbc70;
   0x289b7ec6; 0xeaa127fa; 0xd4ef3085; 0x04881d05; 0xd9d4d039; 0xe6db99e5; 0x1fa27cf8; 0xc4ac5665;
   0xf4292244; 0x432aff97; 0xab9423a7; 0xfc93a039; 0x655b59c3; 0x8f0ccc92; 0xffeff47d; 0x85845dd1;
   0x6fa87e4f; 0xfe2ce6e0; 0xa3014314; 0x4e0811a1; 0xf7537e82; 0xbd3af235; 0x2ad7d2bb; 0xeb86d391].

(* libhmac/libhmac_md5_context.c:75-80 libhmac_md5_context_bit_shifts *)
Definition tab_libhmac_md5_context_bit_shifts : list N :=
  [7; 12; 17; 22; 7; 12; 17; 22;
   7; 12; 17; 22; 7; 12; 17; 22;
   5; 9; 14; 20; 5; 9; 14; 20;
   5; 9; 14; 20; 5; 9; 14; 20;
   4; 11; 16; 23; 4; 11; 16; 23;
   4; 11; 16; 23; 4; 11; 16; 23;
   6; 10; 15; 21; 6; 10; 15; 21;
   6; 10; 15; 21; 6; 10; 15; 21].

(* libhmac/libhmac_md5_context.c:88-93 libhmac_md5_context_values_32bit_index *)
Definition tab_libhmac_md5_context_values_32bit_index : list N :=
  [0; 1; 2; 3; 4; 5; 6; 7;
   8; 9; 10; 11; 12; 13; 14; 15;
   1; 6; 11; 0; 5; 10; 15; 4;
   9; 14; 3; 8; 13; 2; 7; 12;
   5; 8; 11; 14; 1; 4; 7; 10;
   13; 0; 3; 6; 9; 12; 15; 2;
   0; 7; 14; 5; 12; 3; 10; 1;
   8; 15; 6; 13; 4; 11; 2; 9].

(* common/byte_stream.h:87-94 #define byte_stream_copy_to_uint32_little_endian *)
Definition byte_stream_copy_to_uint32_little_endian (byte_stream value : expr) : stmt :=
  SAssign value (EIndex byte_stream (EInt 3)) ;-
  SOp OShl value (EInt 8) ;-
  SOp OOr value (EIndex byte_stream (EInt 2)) ;-
  SOp OShl value (EInt 8) ;-
  SOp OOr value (EIndex byte_stream (EInt 1)) ;-
  SOp OShl value (EInt 8) ;-
  SOp OOr value (EIndex byte_stream (EInt 0)).

(* common/byte_stream.h:234-235 #define byte_stream_bit_rotate_left_32bit *)
Definition byte_stream_bit_rotate_left_32bit (byte_stream number_of_bits : expr) : expr :=
  (EBin OOr (EBin OShl byte_stream number_of_bits) (EBin OShr byte_stream (EBin OSub (EInt 32) number_of_bits))).

(* libhmac/libhmac_byte_stream.h:41-48 #define libhmac_byte_stream_copy_to_1x_uint32_little_endian *)
Definition libhmac_byte_stream_copy_to_1x_uint32_little_endian (byte_stream values values_index : expr) : stmt :=
  SAssign (EIndex values values_index) (EIndex byte_stream (EBin OAdd (EBin OShl values_index (EInt 2)) (EInt 3))) ;-
  SOp OShl (EIndex values values_index) (EInt 8) ;-
  SOp OOr (EIndex values values_index) (EIndex byte_stream (EBin OAdd (EBin OShl values_index (EInt 2)) (EInt 2))) ;-
  SOp OShl (EIndex values values_index) (EInt 8) ;-
  SOp OOr (EIndex values values_index) (EIndex byte_stream (EBin OAdd (EBin OShl values_index (EInt 2)) (EInt 1))) ;-
  SOp OShl (EIndex values values_index) (EInt 8) ;-
  SOp OOr (EIndex values values_index) (EIndex byte_stream (EBin OShl values_index (EInt 2))).

(* libhmac/libhmac_byte_stream.h:68-84 #define libhmac_byte_stream_copy_to_16x_uint32_little_endian *)
Definition libhmac_byte_stream_copy_to_16x_uint32_little_endian (byte_stream values : expr) : stmt :=
  libhmac_byte_stream_copy_to_1x_uint32_little_endian byte_stream values (EInt 0) ;-
  libhmac_byte_stream_copy_to_1x_uint32_little_endian byte_stream values (EInt 1) ;-
  libhmac_byte_stream_copy_to_1x_uint32_little_endian byte_stream values (EInt 2) ;-
  libhmac_byte_stream_copy_to_1x_uint32_little_endian byte_stream values (EInt 3) ;-
  libhmac_byte_stream_copy_to_1x_uint32_little_endian byte_stream values (EInt 4) ;-
  libhmac_byte_stream_copy_to_1x_uint32_little_endian byte_stream values (EInt 5) ;-
  libhmac_byte_stream_copy_to_1x_uint32_little_endian byte_stream values (EInt 6) ;-
  libhmac_byte_stream_copy_to_1x_uint32_little_endian byte_stream values (EInt 7) ;-
  libhmac_byte_stream_copy_to_1x_uint32_little_endian byte_stream values (EInt 8) ;-
  libhmac_byte_stream_copy_to_1x_uint32_little_endian byte_stream values (EInt 9) ;-
  libhmac_byte_stream_copy_to_1x_uint32_little_endian byte_stream values (EInt 10) ;-
  libhmac_byte_stream_copy_to_1x_uint32_little_endian byte_stream values (EInt 11) ;-
  libhmac_byte_stream_copy_to_1x_uint32_little_endian byte_stream values (EInt 12) ;-
  libhmac_byte_stream_copy_to_1x_uint32_little_endian byte_stream values (EInt 13) ;-
  libhmac_byte_stream_copy_to_1x_uint32_little_endian byte_stream values (EInt 14) ;-
  libhmac_byte_stream_copy_to_1x_uint32_little_endian byte_stream values (EInt 15).

(* libhmac/libhmac_md5_context.c:95-105 #define libhmac_md5_context_transform_unfolded_calculate_hash_value_round1 *)
Definition libhmac_md5_context_transform_unfolded_calculate_hash_value_round1 (values_32bit value_32bit_index hash_values hash_value_index0 hash_value_index1 hash_value_index2 hash_value_index3 block_index : expr) : stmt :=
  SOp OAdd (EIndex hash_values hash_value_index0) (EBin OOr (EBin OAnd (EIndex hash_values hash_value_index1) (EIndex hash_values hash_value_index2)) (EBin OAnd (ENot (EIndex hash_values hash_value_index1)) (EIndex hash_values hash_value_index3))) ;-
  SOp OAdd (EIndex hash_values hash_value_index0) (EIndex values_32bit value_32bit_index) ;-
  SOp OAdd (EIndex hash_values hash_value_index0) (EIndex (EVar "libhmac_md5_context_sines") block_index) ;-
  SAssign (EIndex hash_values hash_value_index0) (byte_stream_bit_rotate_left_32bit (EIndex hash_values hash_value_index0) (EIndex (EVar "libhmac_md5_context_bit_shifts") block_index)) ;-
  SOp OAdd (EIndex hash_values hash_value_index0) (EIndex hash_values hash_value_index1).

(* libhmac/libhmac_md5_context.c:107-117 #define libhmac_md5_context_transform_unfolded_calculate_hash_value_round2 *)
Definition libhmac_md5_context_transform_unfolded_calculate_hash_value_round2 (values_32bit value_32bit_index hash_values hash_value_index0 hash_value_index1 hash_value_index2 hash_value_index3 block_index : expr) : stmt :=
  SOp OAdd (EIndex hash_values hash_value_index0) (EBin OOr (EBin OAnd (EIndex hash_values hash_value_index1) (EIndex hash_values hash_value_index3)) (EBin OAnd (EIndex hash_values hash_value_index2) (ENot (EIndex hash_values hash_value_index3)))) ;-
  SOp OAdd (EIndex hash_values hash_value_index0) (EIndex values_32bit value_32bit_index) ;-
  SOp OAdd (EIndex hash_values hash_value_index0) (EIndex (EVar "libhmac_md5_context_sines") block_index) ;-
  SAssign (EIndex hash_values hash_value_index0) (byte_stream_bit_rotate_left_32bit (EIndex hash_values hash_value_index0) (EIndex (EVar "libhmac_md5_context_bit_shifts") block_index)) ;-
  SOp OAdd (EIndex hash_values hash_value_index0) (EIndex hash_values hash_value_index1).

(* libhmac/libhmac_md5_context.c:119-130 #define libhmac_md5_context_transform_unfolded_calculate_hash_value_round3 *)
Definition libhmac_md5_context_transform_unfolded_calculate_hash_value_round3 (values_32bit value_32bit_index hash_values hash_value_index0 hash_value_index1 hash_value_index2 hash_value_index3 block_index : expr) : stmt :=
  SOp OAdd (EIndex hash_values hash_value_index0) (EBin OXor (EBin OXor (EIndex hash_values hash_value_index1) (EIndex hash_values hash_value_index2)) (EIndex hash_values hash_value_index3)) ;-
  SOp OAdd (EIndex hash_values hash_value_index0) (EIndex values_32bit value_32bit_index) ;-
  SOp OAdd (EIndex hash_values hash_value_index0) (EIndex (EVar "libhmac_md5_context_sines") block_index) ;-
  SAssign (EIndex hash_values hash_value_index0) (byte_stream_bit_rotate_left_32bit (EIndex hash_values hash_value_index0) (EIndex (EVar "libhmac_md5_context_bit_shifts") block_index)) ;-
  SOp OAdd (EIndex hash_values hash_value_index0) (EIndex hash_values hash_value_index1).

(* libhmac/libhmac_md5_context.c:132-142 #define libhmac_md5_context_transform_unfolded_calculate_hash_value_round4 *)
Definition libhmac_md5_context_transform_unfolded_calculate_hash_value_round4 (values_32bit value_32bit_index hash_values hash_value_index0 hash_value_index1 hash_value_index2 hash_value_index3 block_index : expr) : stmt :=
  SOp OAdd (EIndex hash_values hash_value_index0) (EBin OXor (EIndex hash_values hash_value_index2) (EBin OOr (EIndex hash_values hash_value_index1) (ENot (EIndex hash_values hash_value_index3)))) ;-
  SOp OAdd (EIndex hash_values hash_value_index0) (EIndex values_32bit value_32bit_index) ;-
  SOp OAdd (EIndex hash_values hash_value_index0) (EIndex (EVar "libhmac_md5_context_sines") block_index) ;-
  SAssign (EIndex hash_values hash_value_index0) (byte_stream_bit_rotate_left_32bit (EIndex hash_values hash_value_index0) (EIndex (EVar "libhmac_md5_context_bit_shifts") block_index)) ;-
  SOp OAdd (EIndex hash_values hash_value_index0) (EIndex hash_values hash_value_index1).

(* libhmac/libhmac_md5_context.c:144-211 #define libhmac_md5_context_transform_unfolded_calculate_hash_values *)
Definition libhmac_md5_context_transform_unfolded_calculate_hash_values (values_32bit hash_values : expr) : stmt :=
  libhmac_md5_context_transform_unfolded_calculate_hash_value_round1 values_32bit (EInt 0) hash_values (EInt 0) (EInt 1) (EInt 2) (EInt 3) (EInt 0) ;-
  libhmac_md5_context_transform_unfolded_calculate_hash_value_round1 values_32bit (EInt 1) hash_values (EInt 3) (EInt 0) (EInt 1) (EInt 2) (EInt 1) ;-
  libhmac_md5_context_transform_unfolded_calculate_hash_value_round1 values_32bit (EInt 2) hash_values (EInt 2) (EInt 3) (EInt 0) (EInt 1) (EInt 2) ;-
  libhmac_md5_context_transform_unfolded_calculate_hash_value_round1 values_32bit (EInt 3) hash_values (EInt 1) (EInt 2) (EInt 3) (EInt 0) (EInt 3) ;-
  libhmac_md5_context_transform_unfolded_calculate_hash_value_round1 values_32bit (EInt 4) hash_values (EInt 0) (EInt 1) (EInt 2) (EInt 3) (EInt 4) ;-
  libhmac_md5_context_transform_unfolded_calculate_hash_value_round1 values_32bit (EInt 5) hash_values (EInt 3) (EInt 0) (EInt 1) (EInt 2) (EInt 5) ;-
  libhmac_md5_context_transform_unfolded_calculate_hash_value_round1 values_32bit (EInt 6) hash_values (EInt 2) (EInt 3) (EInt 0) (EInt 1) (EInt 6) ;-
  libhmac_md5_context_transform_unfolded_calculate_hash_value_round1 values_32bit (EInt 7) hash_values (EInt 1) (EInt 2) (EInt 3) (EInt 0) (EInt 7) ;-
  libhmac_md5_context_transform_unfolded_calculate_hash_value_round1 values_32bit (EInt 8) hash_values (EInt 0) (EInt 1) (EInt 2) (EInt 3) (EInt 8) ;-
  libhmac_md5_context_transform_unfolded_calculate_hash_value_round1 values_32bit (EInt 9) hash_values (EInt 3) (EInt 0) (EInt 1) (EInt 2) (EInt 9) ;-
  libhmac_md5_context_transform_unfolded_calculate_hash_value_round1 values_32bit (EInt 10) hash_values (EInt 2) (EInt 3) (EInt 0) (EInt 1) (EInt 10) ;-
  libhmac_md5_context_transform_unfolded_calculate_hash_value_round1 values_32bit (EInt 11) hash_values (EInt 1) (EInt 2) (EInt 3) (EInt 0) (EInt 11) ;-
  libhmac_md5_context_transform_unfolded_calculate_hash_value_round1 values_32bit (EInt 12) hash_values (EInt 0) (EInt 1) (EInt 2) (EInt 3) (EInt 12) ;-
  libhmac_md5_context_transform_unfolded_calculate_hash_value_round1 values_32bit (EInt 13) hash_values (EInt 3) (EInt 0) (EInt 1) (EInt 2) (EInt 13) ;-
  libhmac_md5_context_transform_unfolded_calculate_hash_value_round1 values_32bit (EInt 14) hash_values (EInt 2) (EInt 3) (EInt 0) (EInt 1) (EInt 14) ;-
  libhmac_md5_context_transform_unfolded_calculate_hash_value_round1 values_32bit (EInt 15) hash_values (EInt 1) (EInt 2) (EInt 3) (EInt 0) (EInt 15) ;-
  libhmac_md5_context_transform_unfolded_calculate_hash_value_round2 values_32bit (EInt 1) hash_values (EInt 0) (EInt 1) (EInt 2) (EInt 3) (EInt 16) ;-
  libhmac_md5_context_transform_unfolded_calculate_hash_value_round2 values_32bit (EInt 6) hash_values (EInt 3) (EInt 0) (EInt 1) (EInt 2) (EInt 17) ;-
  libhmac_md5_context_transform_unfolded_calculate_hash_value_round2 values_32bit (EInt 11) hash_values (EInt 2) (EInt 3) (EInt 0) (EInt 1) (EInt 18) ;-
  libhmac_md5_context_transform_unfolded_calculate_hash_value_round2 values_32bit (EInt 0) hash_values (EInt 1) (EInt 2) (EInt 3) (EInt 0) (EInt 19) ;-
  libhmac_md5_context_transform_unfolded_calculate_hash_value_round2 values_32bit (EInt 5) hash_values (EInt 0) (EInt 1) (EInt 2) (EInt 3) (EInt 20) ;-
  libhmac_md5_context_transform_unfolded_calculate_hash_value_round2 values_32bit (EInt 10) hash_values (EInt 3) (EInt 0) (EInt 1) (EInt 2) (EInt 21) ;-
  libhmac_md5_context_transform_unfolded_calculate_hash_value_round2 values_32bit (EInt 15) hash_values (EInt 2) (EInt 3) (EInt 0) (EInt 1) (EInt 22) ;-
  libhmac_md5_context_transform_unfolded_calculate_hash_value_round2 values_32bit (EInt 4) hash_values (EInt 1) (EInt 2) (EInt 3) (EInt 0) (EInt 23) ;-
  libhmac_md5_context_transform_unfolded_calculate_hash_value_round2 values_32bit (EInt 9) hash_values (EInt 0) (EInt 1) (EInt 2) (EInt 3) (EInt 24) ;-
  libhmac_md5_context_transform_unfolded_calculate_hash_value_round2 values_32bit (EInt 14) hash_values (EInt 3) (EInt 0) (EInt 1) (EInt 2) (EInt 25) ;-
  libhmac_md5_context_transform_unfolded_calculate_hash_value_round2 values_32bit (EInt 3) hash_values (EInt 2) (EInt 3) (EInt 0) (EInt 1) (EInt 26) ;-
  libhmac_md5_context_transform_unfolded_calculate_hash_value_round2 values_32bit (EInt 8) hash_values (EInt 1) (EInt 2) (EInt 3) (EInt 0) (EInt 27) ;-
  libhmac_md5_context_transform_unfolded_calculate_hash_value_round2 values_32bit (EInt 13) hash_values (EInt 0) (EInt 1) (EInt 2) (EInt 3) (EInt 28) ;-
  libhmac_md5_context_transform_unfolded_calculate_hash_value_round2 values_32bit (EInt 2) hash_values (EInt 3) (EInt 0) (EInt 1) (EInt 2) (EInt 29) ;-
  libhmac_md5_context_transform_unfolded_calculate_hash_value_round2 values_32bit (EInt 7) hash_values (EInt 2) (EInt 3) (EInt 0) (EInt 1) (EInt 30) ;-
  libhmac_md5_context_transform_unfolded_calculate_hash_value_round2 values_32bit (EInt 12) hash_values (EInt 1) (EInt 2) (EInt 3) (EInt 0) (EInt 31) ;-
  libhmac_md5_context_transform_unfolded_calculate_hash_value_round3 values_32bit (EInt 5) hash_values (EInt 0) (EInt 1) (EInt 2) (EInt 3) (EInt 32) ;-
  libhmac_md5_context_transform_unfolded_calculate_hash_value_round3 values_32bit (EInt 8) hash_values (EInt 3) (EInt 0) (EInt 1) (EInt 2) (EInt 33) ;-
  libhmac_md5_context_transform_unfolded_calculate_hash_value_round3 values_32bit (EInt 11) hash_values (EInt 2) (EInt 3) (EInt 0) (EInt 1) (EInt 34) ;-
  libhmac_md5_context_transform_unfolded_calculate_hash_value_round3 values_32bit (EInt 14) hash_values (EInt 1) (EInt 2) (EInt 3) (EInt 0) (EInt 35) ;-
  libhmac_md5_context_transform_unfolded_calculate_hash_value_round3 values_32bit (EInt 1) hash_values (EInt 0) (EInt 1) (EInt 2) (EInt 3) (EInt 36) ;-
  libhmac_md5_context_transform_unfolded_calculate_hash_value_round3 values_32bit (EInt 4) hash_values (EInt 3) (EInt 0) (EInt 1) (EInt 2) (EInt 37) ;-
  libhmac_md5_context_transform_unfolded_calculate_hash_value_round3 values_32bit (EInt 7) hash_values (EInt 2) (EInt 3) (EInt 0) (EInt 1) (EInt 38) ;-
  libhmac_md5_context_transform_unfolded_calculate_hash_value_round3 values_32bit (EInt 10) hash_values (EInt 1) (EInt 2) (EInt 3) (EInt 0) (EInt 39) ;-
  libhmac_md5_context_transform_unfolded_calculate_hash_value_round3 values_32bit (EInt 13) hash_values (EInt 0) (EInt 1) (EInt 2) (EInt 3) (EInt 40) ;-
  libhmac_md5_context_transform_unfolded_calculate_hash_value_round3 values_32bit (EInt 0) hash_values (EInt 3) (EInt 0) (EInt 1) (EInt 2) (EInt 41) ;-
  libhmac_md5_context_transform_unfolded_calculate_hash_value_round3 values_32bit (EInt 3) hash_values (EInt 2) (EInt 3) (EInt 0) (EInt 1) (EInt 42) ;-
  libhmac_md5_context_transform_unfolded_calculate_hash_value_round3 values_32bit (EInt 6) hash_values (EInt 1) (EInt 2) (EInt 3) (EInt 0) (EInt 43) ;-
  libhmac_md5_context_transform_unfolded_calculate_hash_value_round3 values_32bit (EInt 9) hash_values (EInt 0) (EInt 1) (EInt 2) (EInt 3) (EInt 44) ;-
  libhmac_md5_context_transform_unfolded_calculate_hash_value_round3 values_32bit (EInt 12) hash_values (EInt 3) (EInt 0) (EInt 1) (EInt 2) (EInt 45) ;-
  libhmac_md5_context_transform_unfolded_calculate_hash_value_round3 values_32bit (EInt 15) hash_values (EInt 2) (EInt 3) (EInt 0) (EInt 1) (EInt 46) ;-
  libhmac_md5_context_transform_unfolded_calculate_hash_value_round3 values_32bit (EInt 2) hash_values (EInt 1) (EInt 2) (EInt 3) (EInt 0) (EInt 47) ;-
  libhmac_md5_context_transform_unfolded_calculate_hash_value_round4 values_32bit (EInt 0) hash_values (EInt 0) (EInt 1) (EInt 2) (EInt 3) (EInt 48) ;-
  libhmac_md5_context_transform_unfolded_calculate_hash_value_round4 values_32bit (EInt 7) hash_values (EInt 3) (EInt 0) (EInt 1) (EInt 2) (EInt 49) ;-
  libhmac_md5_context_transform_unfolded_calculate_hash_value_round4 values_32bit (EInt 14) hash_values (EInt 2) (EInt 3) (EInt 0) (EInt 1) (EInt 50) ;-
  libhmac_md5_context_transform_unfolded_calculate_hash_value_round4 values_32bit (EInt 5) hash_values (EInt 1) (EInt 2) (EInt 3) (EInt 0) (EInt 51) ;-
  libhmac_md5_context_transform_unfolded_calculate_hash_value_round4 values_32bit (EInt 12) hash_values (EInt 0) (EInt 1) (EInt 2) (EInt 3) (EInt 52) ;-
  libhmac_md5_context_transform_unfolded_calculate_hash_value_round4 values_32bit (EInt 3) hash_values (EInt 3) (EInt 0) (EInt 1) (EInt 2) (EInt 53) ;-
  libhmac_md5_context_transform_unfolded_calculate_hash_value_round4 values_32bit (EInt 10) hash_values (EInt 2) (EInt 3) (EInt 0) (EInt 1) (EInt 54) ;-
  libhmac_md5_context_transform_unfolded_calculate_hash_value_round4 values_32bit (EInt 1) hash_values (EInt 1) (EInt 2) (EInt 3) (EInt 0) (EInt 55) ;-
  libhmac_md5_context_transform_unfolded_calculate_hash_value_round4 values_32bit (EInt 8) hash_values (EInt 0) (EInt 1) (EInt 2) (EInt 3) (EInt 56) ;-
  libhmac_md5_context_transform_unfolded_calculate_hash_value_round4 values_32bit (EInt 15) hash_values (EInt 3) (EInt 0) (EInt 1) (EInt 2) (EInt 57) ;-
  libhmac_md5_context_transform_unfolded_calculate_hash_value_round4 values_32bit (EInt 6) hash_values (EInt 2) (EInt 3) (EInt 0) (EInt 1) (EInt 58) ;-
  libhmac_md5_context_transform_unfolded_calculate_hash_value_round4 values_32bit (EInt 13) hash_values (EInt 1) (EInt 2) (EInt 3) (EInt 0) (EInt 59) ;-
  libhmac_md5_context_transform_unfolded_calculate_hash_value_round4 values_32bit (EInt 4) hash_values (EInt 0) (EInt 1) (EInt 2) (EInt 3) (EInt 60) ;-
  libhmac_md5_context_transform_unfolded_calculate_hash_value_round4 values_32bit (EInt 11) hash_values (EInt 3) (EInt 0) (EInt 1) (EInt 2) (EInt 61) ;-
  libhmac_md5_context_transform_unfolded_calculate_hash_value_round4 values_32bit (EInt 2) hash_values (EInt 2) (EInt 3) (EInt 0) (EInt 1) (EInt 62) ;-
  libhmac_md5_context_transform_unfolded_calculate_hash_value_round4 values_32bit (EInt 9) hash_values (EInt 1) (EInt 2) (EInt 3) (EInt 0) (EInt 63).

(* libhmac/libhmac_md5_context.c:216-416 libhmac_md5_context_transform *)
Definition text_libhmac_md5_context_transform (unfolled : bool) : fundef := {|
  f_name := "libhmac_md5_context_transform";
  f_ret := (true, RSz);
  f_params := [("internal_context", CPtr); ("buffer", CPtr); ("size", CInt false RSz); ("error", CPtr)];
  f_arrays := [("hash_values", R32, 4%nat); ("values_32bit", R32, 16%nat)];
  f_locals :=
     [("buffer_offset", (CInt false RSz), (EInt 0))] ++
     (if unfolled then [] else
      [("hash_value", (CInt false R32), (EInt 0));
       ("block_index", (CInt false R8), (EInt 0));
       ("hash_values_index", (CInt false R8), (EInt 0));
       ("value_32bit_index", (CInt false R8), (EInt 0))]);
  f_body :=
    SIf (EBin OEq (EVar "internal_context") ENull) (
      SExpr (ECall "libcerror_error_set" [(EVar "error"); (EName "LIBCERROR_ERROR_DOMAIN_ARGUMENTS"); (EName "LIBCERROR_ARGUMENT_ERROR_INVALID_VALUE")]) ;-
      SReturn (EInt (-1))) SSkip ;-
    SIf (EBin OEq (EVar "buffer") ENull) (
      SExpr (ECall "libcerror_error_set" [(EVar "error"); (EName "LIBCERROR_ERROR_DOMAIN_ARGUMENTS"); (EName "LIBCERROR_ARGUMENT_ERROR_INVALID_VALUE")]) ;-
      SReturn (EInt (-1))) SSkip ;-
    SIf (EBin OGt (EVar "size") (ECast false RSz ESsizeMax)) (
      SExpr (ECall "libcerror_error_set" [(EVar "error"); (EName "LIBCERROR_ERROR_DOMAIN_ARGUMENTS"); (EName "LIBCERROR_ARGUMENT_ERROR_VALUE_EXCEEDS_MAXIMUM")]) ;-
      SReturn (EInt (-1))) SSkip ;-
    SWhile (EBin OGe (EVar "size") (EInt 64)) (
      SIf (EBin OEq (ECall "memory_copy" [(EVar "hash_values"); (EField (EVar "internal_context") "hash_values"); (EBin OMul (ESize 4) (EInt 4))]) ENull) (
        SExpr (ECall "libcerror_error_set" [(EVar "error"); (EName "LIBCERROR_ERROR_DOMAIN_MEMORY"); (EName "LIBCERROR_MEMORY_ERROR_COPY_FAILED")]) ;-
        SGoto) SSkip ;-
      (if unfolled then
        libhmac_byte_stream_copy_to_16x_uint32_little_endian (EAddr (EIndex (EVar "buffer") (EVar "buffer_offset"))) (EVar "values_32bit") ;-
        SOp OAdd (EVar "buffer_offset") (EInt 64) ;-
        libhmac_md5_context_transform_unfolded_calculate_hash_values (EVar "values_32bit") (EVar "hash_values") ;-
        SOp OAdd (EIndex (EField (EVar "internal_context") "hash_values") (EInt 0)) (EIndex (EVar "hash_values") (EInt 0)) ;-
        SOp OAdd (EIndex (EField (EVar "internal_context") "hash_values") (EInt 1)) (EIndex (EVar "hash_values") (EInt 1)) ;-
        SOp OAdd (EIndex (EField (EVar "internal_context") "hash_values") (EInt 2)) (EIndex (EVar "hash_values") (EInt 2)) ;-
        SOp OAdd (EIndex (EField (EVar "internal_context") "hash_values") (EInt 3)) (EIndex (EVar "hash_values") (EInt 3))
      else
        SFor (SAssign (EVar "value_32bit_index") (EInt 0)) (EBin OLt (EVar "value_32bit_index") (EInt 16)) (SOp OAdd (EVar "value_32bit_index") (EInt 1)) (
          byte_stream_copy_to_uint32_little_endian (EAddr (EIndex (EVar "buffer") (EVar "buffer_offset"))) (EIndex (EVar "values_32bit") (EVar "value_32bit_index")) ;-
          SOp OAdd (EVar "buffer_offset") (ESize 4)) ;-
        SFor (SAssign (EVar "block_index") (EInt 0)) (EBin OLt (EVar "block_index") (EInt 64)) (SOp OAdd (EVar "block_index") (EInt 1)) (
          SIf (EBin OLt (EVar "block_index") (EInt 16)) (
            SOp OAdd (EIndex (EVar "hash_values") (EInt 0)) (EBin OOr (EBin OAnd (EIndex (EVar "hash_values") (EInt 1)) (EIndex (EVar "hash_values") (EInt 2))) (EBin OAnd (ENot (EIndex (EVar "hash_values") (EInt 1))) (EIndex (EVar "hash_values") (EInt 3)))))
          (
            SIf (EBin OLt (EVar "block_index") (EInt 32)) (
              SOp OAdd (EIndex (EVar "hash_values") (EInt 0)) (EBin OOr (EBin OAnd (EIndex (EVar "hash_values") (EInt 1)) (EIndex (EVar "hash_values") (EInt 3))) (EBin OAnd (EIndex (EVar "hash_values") (EInt 2)) (ENot (EIndex (EVar "hash_values") (EInt 3))))))
            (
              SIf (EBin OLt (EVar "block_index") (EInt 48)) (
                SOp OAdd (EIndex (EVar "hash_values") (EInt 0)) (EBin OXor (EBin OXor (EIndex (EVar "hash_values") (EInt 1)) (EIndex (EVar "hash_values") (EInt 2))) (EIndex (EVar "hash_values") (EInt 3))))
              (
                SOp OAdd (EIndex (EVar "hash_values") (EInt 0)) (EBin OXor (EIndex (EVar "hash_values") (EInt 2)) (EBin OOr (EIndex (EVar "hash_values") (EInt 1)) (ENot (EIndex (EVar "hash_values") (EInt 3)))))))) ;-
          SAssign (EVar "value_32bit_index") (EIndex (EVar "libhmac_md5_context_values_32bit_index") (EVar "block_index")) ;-
          SOp OAdd (EIndex (EVar "hash_values") (EInt 0)) (EIndex (EVar "values_32bit") (EVar "value_32bit_index")) ;-
          SOp OAdd (EIndex (EVar "hash_values") (EInt 0)) (EIndex (EVar "libhmac_md5_context_sines") (EVar "block_index")) ;-
          SAssign (EIndex (EVar "hash_values") (EInt 0)) (byte_stream_bit_rotate_left_32bit (EIndex (EVar "hash_values") (EInt 0)) (EIndex (EVar "libhmac_md5_context_bit_shifts") (EVar "block_index"))) ;-
          SAssign (EVar "hash_value") (EIndex (EVar "hash_values") (EInt 3)) ;-
          SAssign (EIndex (EVar "hash_values") (EInt 3)) (EIndex (EVar "hash_values") (EInt 2)) ;-
          SAssign (EIndex (EVar "hash_values") (EInt 2)) (EIndex (EVar "hash_values") (EInt 1)) ;-
          SOp OAdd (EIndex (EVar "hash_values") (EInt 1)) (EIndex (EVar "hash_values") (EInt 0)) ;-
          SAssign (EIndex (EVar "hash_values") (EInt 0)) (EVar "hash_value")) ;-
        SFor (SAssign (EVar "hash_values_index") (EInt 0)) (EBin OLt (EVar "hash_values_index") (EInt 4)) (SOp OAdd (EVar "hash_values_index") (EInt 1)) (
          SOp OAdd (EIndex (EField (EVar "internal_context") "hash_values") (EVar "hash_values_index")) (EIndex (EVar "hash_values") (EVar "hash_values_index")))) ;-
      SOp OSub (EVar "size") (EInt 64)) ;-
    SIf (EBin OEq (ECall "memory_set" [(EVar "hash_values"); (EInt 0); (EBin OMul (ESize 4) (EInt 4))]) ENull) (
      SExpr (ECall "libcerror_error_set" [(EVar "error"); (EName "LIBCERROR_ERROR_DOMAIN_MEMORY"); (EName "LIBCERROR_MEMORY_ERROR_SET_FAILED")]) ;-
      SGoto) SSkip ;-
    SIf (EBin OEq (ECall "memory_set" [(EVar "values_32bit"); (EInt 0); (EBin OMul (ESize 4) (EInt 16))]) ENull) (
      SExpr (ECall "libcerror_error_set" [(EVar "error"); (EName "LIBCERROR_ERROR_DOMAIN_MEMORY"); (EName "LIBCERROR_MEMORY_ERROR_SET_FAILED")]) ;-
      SGoto) SSkip ;-
    SReturn (ECast true RSz (EVar "buffer_offset"));
  f_error :=
    SExpr (ECall "memory_set" [(EVar "values_32bit"); (EInt 0); (EBin OMul (ESize 4) (EInt 16))]) ;-
    SExpr (ECall "memory_set" [(EVar "hash_values"); (EInt 0); (EBin OMul (ESize 4) (EInt 4))]) ;-
    SReturn (EInt (-1)) |}.

(* libhmac/libhmac_md5_context.c:424-587 libhmac_md5_context_initialize *)
Definition text_libhmac_md5_context_initialize (unfolled : bool) : fundef := {|
  f_name := "libhmac_md5_context_initialize";
  f_ret := (true, R32);
  f_params := [("context", CPtr); ("error", CPtr)];
  f_arrays := [];
  f_locals :=
     [("internal_context", CPtr, ENull)];
  f_body :=
    SIf (EBin OEq (EVar "context") ENull) (
      SExpr (ECall "libcerror_error_set" [(EVar "error"); (EName "LIBCERROR_ERROR_DOMAIN_ARGUMENTS"); (EName "LIBCERROR_ARGUMENT_ERROR_INVALID_VALUE")]) ;-
      SReturn (EInt (-1))) SSkip ;-
    SIf (EBin ONe (EStar "context") ENull) (
      SExpr (ECall "libcerror_error_set" [(EVar "error"); (EName "LIBCERROR_ERROR_DOMAIN_RUNTIME"); (EName "LIBCERROR_RUNTIME_ERROR_VALUE_ALREADY_SET")]) ;-
      SReturn (EInt (-1))) SSkip ;-
    SAssign (EVar "internal_context") (ECall "memory_allocate_structure" [ESizeof "libhmac_internal_md5_context_t"]) ;-
    SIf (EBin OEq (EVar "internal_context") ENull) (
      SExpr (ECall "libcerror_error_set" [(EVar "error"); (EName "LIBCERROR_ERROR_DOMAIN_MEMORY"); (EName "LIBCERROR_MEMORY_ERROR_INSUFFICIENT")]) ;-
      SGoto) SSkip ;-
    SIf (EBin OEq (ECall "memory_set" [(EVar "internal_context"); (EInt 0); (ESizeof "libhmac_internal_md5_context_t")]) ENull) (
      SExpr (ECall "libcerror_error_set" [(EVar "error"); (EName "LIBCERROR_ERROR_DOMAIN_MEMORY"); (EName "LIBCERROR_MEMORY_ERROR_SET_FAILED")]) ;-
      SExpr (ECall "memory_free" [(EVar "internal_context")]) ;-
      SReturn (EInt (-1))) SSkip ;-
    SIf (EBin OEq (ECall "memory_copy" [(EField (EVar "internal_context") "hash_values"); (EVar "libhmac_md5_context_fixed_constants"); (EBin OMul (ESize 4) (EInt 4))]) ENull) (
      SExpr (ECall "libcerror_error_set" [(EVar "error"); (EName "LIBCERROR_ERROR_DOMAIN_MEMORY"); (EName "LIBCERROR_MEMORY_ERROR_COPY_FAILED")]) ;-
      SGoto) SSkip ;-
    SAssign (EStar "context") (EVar "internal_context") ;-
    SReturn (EInt 1);
  f_error :=
    SIf (EBin ONe (EVar "internal_context") ENull) (
      SExpr (ECall "memory_free" [(EVar "internal_context")])) SSkip ;-
    SReturn (EInt (-1)) |}.

(* libhmac/libhmac_md5_context.c:592-651 libhmac_md5_context_free *)
Definition text_libhmac_md5_context_free (unfolled : bool) : fundef := {|
  f_name := "libhmac_md5_context_free";
  f_ret := (true, R32);
  f_params := [("context", CPtr); ("error", CPtr)];
  f_arrays := [];
  f_locals :=
     [("internal_context", CPtr, ENull)];
  f_body :=
    SIf (EBin OEq (EVar "context") ENull) (
      SExpr (ECall "libcerror_error_set" [(EVar "error"); (EName "LIBCERROR_ERROR_DOMAIN_ARGUMENTS"); (EName "LIBCERROR_ARGUMENT_ERROR_INVALID_VALUE")]) ;-
      SReturn (EInt (-1))) SSkip ;-
    SIf (EBin ONe (EStar "context") ENull) (
      SAssign (EVar "internal_context") (EStar "context") ;-
      SAssign (EStar "context") ENull ;-
      SExpr (ECall "memory_free" [(EVar "internal_context")])) SSkip ;-
    SReturn (EInt 1);
  f_error :=
    SSkip |}.

(* libhmac/libhmac_md5_context.c:805-972 libhmac_md5_context_update *)
Definition text_libhmac_md5_context_update (unfolled : bool) : fundef := {|
  f_name := "libhmac_md5_context_update";
  f_ret := (true, R32);
  f_params := [("context", CPtr); ("buffer", CPtr); ("size", CInt false RSz); ("error", CPtr)];
  f_arrays := [];
  f_locals :=
     [("internal_context", CPtr, ENull);
      ("buffer_offset", (CInt false RSz), (EInt 0));
      ("remaining_block_size", (CInt false RSz), (EInt 0));
      ("process_count", (CInt true RSz), (EInt 0))];
  f_body :=
    SIf (EBin OEq (EVar "context") ENull) (
      SExpr (ECall "libcerror_error_set" [(EVar "error"); (EName "LIBCERROR_ERROR_DOMAIN_ARGUMENTS"); (EName "LIBCERROR_ARGUMENT_ERROR_INVALID_VALUE")]) ;-
      SReturn (EInt (-1))) SSkip ;-
    SAssign (EVar "internal_context") (EVar "context") ;-
    SIf (EBin OEq (EVar "buffer") ENull) (
      SExpr (ECall "libcerror_error_set" [(EVar "error"); (EName "LIBCERROR_ERROR_DOMAIN_ARGUMENTS"); (EName "LIBCERROR_ARGUMENT_ERROR_INVALID_VALUE")]) ;-
      SReturn (EInt (-1))) SSkip ;-
    SIf (EBin OGt (EVar "size") (ECast false RSz ESsizeMax)) (
      SExpr (ECall "libcerror_error_set" [(EVar "error"); (EName "LIBCERROR_ERROR_DOMAIN_ARGUMENTS"); (EName "LIBCERROR_ARGUMENT_ERROR_VALUE_EXCEEDS_MAXIMUM")]) ;-
      SReturn (EInt (-1))) SSkip ;-
    SIf (EBin OEq (EVar "size") (EInt 0)) (
      SReturn (EInt 1)) SSkip ;-
    SIf (EBin OGt (EField (EVar "internal_context") "block_offset") (EInt 0)) (
      SIf (EBin OGe (EField (EVar "internal_context") "block_offset") (EInt 64)) (
        SExpr (ECall "libcerror_error_set" [(EVar "error"); (EName "LIBCERROR_ERROR_DOMAIN_RUNTIME"); (EName "LIBCERROR_RUNTIME_ERROR_VALUE_OUT_OF_BOUNDS")]) ;-
        SReturn (EInt (-1))) SSkip ;-
      SAssign (EVar "remaining_block_size") (EBin OSub (EInt 64) (EField (EVar "internal_context") "block_offset")) ;-
      SIf (EBin OGt (EVar "remaining_block_size") (EVar "size")) (
        SAssign (EVar "remaining_block_size") (EVar "size")) SSkip ;-
      SIf (EBin OEq (ECall "memory_copy" [(EAddr (EIndex (EField (EVar "internal_context") "block") (EField (EVar "internal_context") "block_offset"))); (EVar "buffer"); (EVar "remaining_block_size")]) ENull) (
        SExpr (ECall "libcerror_error_set" [(EVar "error"); (EName "LIBCERROR_ERROR_DOMAIN_MEMORY"); (EName "LIBCERROR_MEMORY_ERROR_COPY_FAILED")]) ;-
        SReturn (EInt (-1))) SSkip ;-
      SOp OAdd (EField (EVar "internal_context") "block_offset") (EVar "remaining_block_size") ;-
      SIf (EBin OLt (EField (EVar "internal_context") "block_offset") (EInt 64)) (
        SReturn (EInt 1)) SSkip ;-
      SOp OAdd (EVar "buffer_offset") (EVar "remaining_block_size") ;-
      SOp OSub (EVar "size") (EVar "remaining_block_size") ;-
      SAssign (EVar "process_count") (ECall "libhmac_md5_context_transform" [(EVar "internal_context"); (EField (EVar "internal_context") "block"); (EInt 64); (EVar "error")]) ;-
      SIf (EBin OEq (EVar "process_count") (EInt (-1))) (
        SExpr (ECall "libcerror_error_set" [(EVar "error"); (EName "LIBCERROR_ERROR_DOMAIN_RUNTIME"); (EName "LIBCERROR_RUNTIME_ERROR_SET_FAILED")]) ;-
        SReturn (EInt (-1))) SSkip ;-
      SOp OAdd (EField (EVar "internal_context") "hash_count") (EVar "process_count") ;-
      SAssign (EField (EVar "internal_context") "block_offset") (EInt 0)) SSkip ;-
    SIf (EBin OGt (EVar "size") (EInt 0)) (
      SAssign (EVar "process_count") (ECall "libhmac_md5_context_transform" [(EVar "internal_context"); (EAddr (EIndex (EVar "buffer") (EVar "buffer_offset"))); (EVar "size"); (EVar "error")]) ;-
      SIf (EBin OEq (EVar "process_count") (EInt (-1))) (
        SExpr (ECall "libcerror_error_set" [(EVar "error"); (EName "LIBCERROR_ERROR_DOMAIN_RUNTIME"); (EName "LIBCERROR_RUNTIME_ERROR_SET_FAILED")]) ;-
        SReturn (EInt (-1))) SSkip ;-
      SOp OAdd (EField (EVar "internal_context") "hash_count") (EVar "process_count") ;-
      SOp OAdd (EVar "buffer_offset") (EVar "process_count") ;-
      SOp OSub (EVar "size") (EVar "process_count")) SSkip ;-
    SIf (EBin OGt (EVar "size") (EInt 0)) (
      SIf (EBin OGe (EVar "size") (EInt 64)) (
        SExpr (ECall "libcerror_error_set" [(EVar "error"); (EName "LIBCERROR_ERROR_DOMAIN_RUNTIME"); (EName "LIBCERROR_RUNTIME_ERROR_VALUE_OUT_OF_BOUNDS")]) ;-
        SReturn (EInt (-1))) SSkip ;-
      SIf (EBin OEq (ECall "memory_copy" [(EField (EVar "internal_context") "block"); (EAddr (EIndex (EVar "buffer") (EVar "buffer_offset"))); (EVar "size")]) ENull) (
        SExpr (ECall "libcerror_error_set" [(EVar "error"); (EName "LIBCERROR_ERROR_DOMAIN_MEMORY"); (EName "LIBCERROR_MEMORY_ERROR_COPY_FAILED")]) ;-
        SReturn (EInt (-1))) SSkip ;-
      SAssign (EField (EVar "internal_context") "block_offset") (EVar "size")) SSkip ;-
    SReturn (EInt 1);
  f_error :=
    SSkip |}.

(* common/byte_stream.h:180-184 #define byte_stream_copy_from_uint32_little_endian *)
Definition byte_stream_copy_from_uint32_little_endian (byte_stream value : expr) : stmt :=
  SAssign (EIndex byte_stream (EInt 3)) (ECast false R8 (EBin OAnd (EBin OShr value (EInt 24)) (EInt 255))) ;-
  SAssign (EIndex byte_stream (EInt 2)) (ECast false R8 (EBin OAnd (EBin OShr value (EInt 16)) (EInt 255))) ;-
  SAssign (EIndex byte_stream (EInt 1)) (ECast false R8 (EBin OAnd (EBin OShr value (EInt 8)) (EInt 255))) ;-
  SAssign (EIndex byte_stream (EInt 0)) (ECast false R8 (EBin OAnd value (EInt 255))).

(* common/byte_stream.h:212-220 #define byte_stream_copy_from_uint64_little_endian *)
Definition byte_stream_copy_from_uint64_little_endian (byte_stream value : expr) : stmt :=
  SAssign (EIndex byte_stream (EInt 7)) (ECast false R8 (EBin OAnd (EBin OShr value (EInt 56)) (EInt 255))) ;-
  SAssign (EIndex byte_stream (EInt 6)) (ECast false R8 (EBin OAnd (EBin OShr value (EInt 48)) (EInt 255))) ;-
  SAssign (EIndex byte_stream (EInt 5)) (ECast false R8 (EBin OAnd (EBin OShr value (EInt 40)) (EInt 255))) ;-
  SAssign (EIndex byte_stream (EInt 4)) (ECast false R8 (EBin OAnd (EBin OShr value (EInt 32)) (EInt 255))) ;-
  SAssign (EIndex byte_stream (EInt 3)) (ECast false R8 (EBin OAnd (EBin OShr value (EInt 24)) (EInt 255))) ;-
  SAssign (EIndex byte_stream (EInt 2)) (ECast false R8 (EBin OAnd (EBin OShr value (EInt 16)) (EInt 255))) ;-
  SAssign (EIndex byte_stream (EInt 1)) (ECast false R8 (EBin OAnd (EBin OShr value (EInt 8)) (EInt 255))) ;-
  SAssign (EIndex byte_stream (EInt 0)) (ECast false R8 (EBin OAnd value (EInt 255))).

(* libhmac/libhmac_md5_context.c:1127-1289 libhmac_md5_context_finalize *)
Definition text_libhmac_md5_context_finalize (unfolled : bool) : fundef := {|
  f_name := "libhmac_md5_context_finalize";
  f_ret := (true, R32);
  f_params := [("context", CPtr); ("hash", CPtr); ("hash_size", CInt false RSz); ("error", CPtr)];
  f_arrays := [];
  f_locals :=
     [("internal_context", CPtr, ENull);
      ("block_size", (CInt false RSz), (EInt 0));
      ("number_of_blocks", (CInt false RSz), (EInt 0));
      ("process_count", (CInt true RSz), (EInt 0));
      ("bit_size", (CInt false R64), (EInt 0))] ++
     (if unfolled then [] else
      [("hash_index", (CInt false RSz), (EInt 0));
       ("hash_values_index", (CInt true R32), (EInt 0))]);
  f_body :=
    SIf (EBin OEq (EVar "context") ENull) (
      SExpr (ECall "libcerror_error_set" [(EVar "error"); (EName "LIBCERROR_ERROR_DOMAIN_ARGUMENTS"); (EName "LIBCERROR_ARGUMENT_ERROR_INVALID_VALUE")]) ;-
      SReturn (EInt (-1))) SSkip ;-
    SAssign (EVar "internal_context") (EVar "context") ;-
    SIf (EBin OEq (EVar "hash") ENull) (
      SExpr (ECall "libcerror_error_set" [(EVar "error"); (EName "LIBCERROR_ERROR_DOMAIN_ARGUMENTS"); (EName "LIBCERROR_ARGUMENT_ERROR_INVALID_VALUE")]) ;-
      SReturn (EInt (-1))) SSkip ;-
    SIf (EBin OGt (EVar "hash_size") (ECast false RSz ESsizeMax)) (
      SExpr (ECall "libcerror_error_set" [(EVar "error"); (EName "LIBCERROR_ERROR_DOMAIN_ARGUMENTS"); (EName "LIBCERROR_ARGUMENT_ERROR_VALUE_EXCEEDS_MAXIMUM")]) ;-
      SReturn (EInt (-1))) SSkip ;-
    SIf (EBin OLt (EVar "hash_size") (ECast false RSz (EInt 16))) (
      SExpr (ECall "libcerror_error_set" [(EVar "error"); (EName "LIBCERROR_ERROR_DOMAIN_ARGUMENTS"); (EName "LIBCERROR_ARGUMENT_ERROR_VALUE_TOO_SMALL")]) ;-
      SReturn (EInt (-1))) SSkip ;-
    SAssign (EVar "number_of_blocks") (EInt 1) ;-
    SIf (EBin OGt (EField (EVar "internal_context") "block_offset") (EInt 55)) (
      SOp OAdd (EVar "number_of_blocks") (EInt 1)) SSkip ;-
    SAssign (EVar "block_size") (EBin OMul (EVar "number_of_blocks") (EInt 64)) ;-
    SIf (EBin OEq (ECall "memory_set" [(EAddr (EIndex (EField (EVar "internal_context") "block") (EField (EVar "internal_context") "block_offset"))); (EInt 0); (EBin OSub (EVar "block_size") (EField (EVar "internal_context") "block_offset"))]) ENull) (
      SExpr (ECall "libcerror_error_set" [(EVar "error"); (EName "LIBCERROR_ERROR_DOMAIN_MEMORY"); (EName "LIBCERROR_MEMORY_ERROR_SET_FAILED")]) ;-
      SReturn (EInt (-1))) SSkip ;-
    SAssign (EIndex (EField (EVar "internal_context") "block") (EField (EVar "internal_context") "block_offset")) (EInt 128) ;-
    SAssign (EVar "bit_size") (EBin OMul (EBin OAdd (EField (EVar "internal_context") "hash_count") (EField (EVar "internal_context") "block_offset")) (EInt 8)) ;-
    byte_stream_copy_from_uint64_little_endian (EAddr (EIndex (EField (EVar "internal_context") "block") (EBin OSub (EVar "block_size") (EInt 8)))) (EVar "bit_size") ;-
    SAssign (EVar "process_count") (ECall "libhmac_md5_context_transform" [(EVar "internal_context"); (EField (EVar "internal_context") "block"); (EVar "block_size"); (EVar "error")]) ;-
    SIf (EBin OEq (EVar "process_count") (EInt (-1))) (
      SExpr (ECall "libcerror_error_set" [(EVar "error"); (EName "LIBCERROR_ERROR_DOMAIN_RUNTIME"); (EName "LIBCERROR_RUNTIME_ERROR_SET_FAILED")]) ;-
      SReturn (EInt (-1))) SSkip ;-
    (if unfolled then
      byte_stream_copy_from_uint32_little_endian (EAddr (EIndex (EVar "hash") (EInt 0))) (EIndex (EField (EVar "internal_context") "hash_values") (EInt 0)) ;-
      byte_stream_copy_from_uint32_little_endian (EAddr (EIndex (EVar "hash") (EInt 4))) (EIndex (EField (EVar "internal_context") "hash_values") (EInt 1)) ;-
      byte_stream_copy_from_uint32_little_endian (EAddr (EIndex (EVar "hash") (EInt 8))) (EIndex (EField (EVar "internal_context") "hash_values") (EInt 2)) ;-
      byte_stream_copy_from_uint32_little_endian (EAddr (EIndex (EVar "hash") (EInt 12))) (EIndex (EField (EVar "internal_context") "hash_values") (EInt 3))
    else
      SFor (SAssign (EVar "hash_values_index") (EInt 0)) (EBin OLt (EVar "hash_values_index") (EInt 4)) (SOp OAdd (EVar "hash_values_index") (EInt 1)) (
        byte_stream_copy_from_uint32_little_endian (EAddr (EIndex (EVar "hash") (EVar "hash_index"))) (EIndex (EField (EVar "internal_context") "hash_values") (EVar "hash_values_index")) ;-
        SOp OAdd (EVar "hash_index") (ESize 4))) ;-
    SIf (EBin OEq (ECall "memory_set" [(EVar "internal_context"); (EInt 0); (ESizeof "libhmac_internal_md5_context_t")]) ENull) (
      SExpr (ECall "libcerror_error_set" [(EVar "error"); (EName "LIBCERROR_ERROR_DOMAIN_MEMORY"); (EName "LIBCERROR_MEMORY_ERROR_SET_FAILED")]) ;-
      SReturn (EInt (-1))) SSkip ;-
    SReturn (EInt 1);
  f_error :=
    SSkip |}.

(* libhmac/libhmac_md5.c:35-55 libhmac_md5_initialize *)
Definition text_libhmac_md5_initialize (unfolled : bool) : fundef := {|
  f_name := "libhmac_md5_initialize";
  f_ret := (true, R32);
  f_params := [("context", CPtr); ("error", CPtr)];
  f_arrays := [];
  f_locals :=
     [];
  f_body :=
    SIf (EBin ONe (ECall "libhmac_md5_context_initialize" [(EVar "context"); (EVar "error")]) (EInt 1)) (
      SExpr (ECall "libcerror_error_set" [(EVar "error"); (EName "LIBCERROR_ERROR_DOMAIN_RUNTIME"); (EName "LIBCERROR_RUNTIME_ERROR_INITIALIZE_FAILED")]) ;-
      SReturn (EInt (-1))) SSkip ;-
    SReturn (EInt 1);
  f_error :=
    SSkip |}.

(* libhmac/libhmac_md5.c:60-80 libhmac_md5_free *)
Definition text_libhmac_md5_free (unfolled : bool) : fundef := {|
  f_name := "libhmac_md5_free";
  f_ret := (true, R32);
  f_params := [("context", CPtr); ("error", CPtr)];
  f_arrays := [];
  f_locals :=
     [];
  f_body :=
    SIf (EBin ONe (ECall "libhmac_md5_context_free" [(EVar "context"); (EVar "error")]) (EInt 1)) (
      SExpr (ECall "libcerror_error_set" [(EVar "error"); (EName "LIBCERROR_ERROR_DOMAIN_RUNTIME"); (EName "LIBCERROR_RUNTIME_ERROR_FINALIZE_FAILED")]) ;-
      SReturn (EInt (-1))) SSkip ;-
    SReturn (EInt 1);
  f_error :=
    SSkip |}.

(* libhmac/libhmac_md5.c:85-109 libhmac_md5_update *)
Definition text_libhmac_md5_update (unfolled : bool) : fundef := {|
  f_name := "libhmac_md5_update";
  f_ret := (true, R32);
  f_params := [("context", CPtr); ("buffer", CPtr); ("size", CInt false RSz); ("error", CPtr)];
  f_arrays := [];
  f_locals :=
     [];
  f_body :=
    SIf (EBin ONe (ECall "libhmac_md5_context_update" [(EVar "context"); (EVar "buffer"); (EVar "size"); (EVar "error")]) (EInt 1)) (
      SExpr (ECall "libcerror_error_set" [(EVar "error"); (EName "LIBCERROR_ERROR_DOMAIN_RUNTIME"); (EName "LIBCERROR_RUNTIME_ERROR_SET_FAILED")]) ;-
      SReturn (EInt (-1))) SSkip ;-
    SReturn (EInt 1);
  f_error :=
    SSkip |}.

(* libhmac/libhmac_md5.c:114-138 libhmac_md5_finalize *)
Definition text_libhmac_md5_finalize (unfolled : bool) : fundef := {|
  f_name := "libhmac_md5_finalize";
  f_ret := (true, R32);
  f_params := [("context", CPtr); ("hash", CPtr); ("hash_size", CInt false RSz); ("error", CPtr)];
  f_arrays := [];
  f_locals :=
     [];
  f_body :=
    SIf (EBin ONe (ECall "libhmac_md5_context_finalize" [(EVar "context"); (EVar "hash"); (EVar "hash_size"); (EVar "error")]) (EInt 1)) (
      SExpr (ECall "libcerror_error_set" [(EVar "error"); (EName "LIBCERROR_ERROR_DOMAIN_RUNTIME"); (EName "LIBCERROR_RUNTIME_ERROR_FINALIZE_FAILED")]) ;-
      SReturn (EInt (-1))) SSkip ;-
    SReturn (EInt 1);
  f_error :=
    SSkip |}.

(* libhmac/libhmac_md5.c:143-219 libhmac_md5_calculate *)
Definition text_libhmac_md5_calculate (unfolled : bool) : fundef := {|
  f_name := "libhmac_md5_calculate";
  f_ret := (true, R32);
  f_params := [("buffer", CPtr); ("size", CInt false RSz); ("hash", CPtr); ("hash_size", CInt false RSz); ("error", CPtr)];
  f_arrays := [];
  f_locals :=
     [("context", CPtr, ENull)];
  f_body :=
    SIf (EBin ONe (ECall "libhmac_md5_context_initialize" [(ERef "context"); (EVar "error")]) (EInt 1)) (
      SExpr (ECall "libcerror_error_set" [(EVar "error"); (EName "LIBCERROR_ERROR_DOMAIN_RUNTIME"); (EName "LIBCERROR_RUNTIME_ERROR_INITIALIZE_FAILED")]) ;-
      SGoto) SSkip ;-
    SIf (EBin ONe (ECall "libhmac_md5_context_update" [(EVar "context"); (EVar "buffer"); (EVar "size"); (EVar "error")]) (EInt 1)) (
      SExpr (ECall "libcerror_error_set" [(EVar "error"); (EName "LIBCERROR_ERROR_DOMAIN_RUNTIME"); (EName "LIBCERROR_RUNTIME_ERROR_SET_FAILED")]) ;-
      SGoto) SSkip ;-
    SIf (EBin ONe (ECall "libhmac_md5_context_finalize" [(EVar "context"); (EVar "hash"); (EVar "hash_size"); (EVar "error")]) (EInt 1)) (
      SExpr (ECall "libcerror_error_set" [(EVar "error"); (EName "LIBCERROR_ERROR_DOMAIN_RUNTIME"); (EName "LIBCERROR_RUNTIME_ERROR_FINALIZE_FAILED")]) ;-
      SGoto) SSkip ;-
    SIf (EBin ONe (ECall "libhmac_md5_context_free" [(ERef "context"); (EVar "error")]) (EInt 1)) (
      SExpr (ECall "libcerror_error_set" [(EVar "error"); (EName "LIBCERROR_ERROR_DOMAIN_RUNTIME"); (EName "LIBCERROR_RUNTIME_ERROR_FINALIZE_FAILED")]) ;-
      SGoto) SSkip ;-
    SReturn (EInt 1);
  f_error :=
    SIf (EBin ONe (EVar "context") ENull) (
      SExpr (ECall "libhmac_md5_context_free" [(ERef "context"); ENull])) SSkip ;-
    SReturn (EInt (-1)) |}.

(* libhmac/libhmac_md5.c:225-714 libhmac_md5_calculate_hmac *)
Definition text_libhmac_md5_calculate_hmac (unfolled : bool) : fundef := {|
  f_name := "libhmac_md5_calculate_hmac";
  f_ret := (true, R32);
  f_params := [("key", CPtr); ("key_size", CInt false RSz); ("buffer", CPtr); ("size", CInt false RSz); ("hmac", CPtr); ("hmac_size", CInt false RSz); ("error", CPtr)];
  f_arrays := [("key_hash", R8, 16%nat)];
  f_locals :=
     [("context", CPtr, ENull);
      ("key_data", CPtr, ENull);
      ("inner_padding", CPtr, ENull);
      ("outer_padding", CPtr, ENull);
      ("block_index", (CInt false RSz), (EInt 0));
      ("block_size", (CInt false RSz), (EInt 64))];
  f_body :=
    SIf (EBin OEq (EVar "key") ENull) (
      SExpr (ECall "libcerror_error_set" [(EVar "error"); (EName "LIBCERROR_ERROR_DOMAIN_ARGUMENTS"); (EName "LIBCERROR_ARGUMENT_ERROR_INVALID_VALUE")]) ;-
      SReturn (EInt (-1))) SSkip ;-
    SIf (EBin OGt (EVar "key_size") (ECast false RSz ESsizeMax)) (
      SExpr (ECall "libcerror_error_set" [(EVar "error"); (EName "LIBCERROR_ERROR_DOMAIN_ARGUMENTS"); (EName "LIBCERROR_ARGUMENT_ERROR_VALUE_EXCEEDS_MAXIMUM")]) ;-
      SReturn (EInt (-1))) SSkip ;-
    SIf (EBin OLt (EVar "hmac_size") (ECast false RSz (EInt 16))) (
      SExpr (ECall "libcerror_error_set" [(EVar "error"); (EName "LIBCERROR_ERROR_DOMAIN_ARGUMENTS"); (EName "LIBCERROR_ARGUMENT_ERROR_VALUE_TOO_SMALL")]) ;-
      SReturn (EInt (-1))) SSkip ;-
    SAssign (EVar "key_data") (ECall "memory_allocate" [(EBin OMul (ESize 1) (EVar "block_size"))]) ;-
    SIf (EBin OEq (EVar "key_data") ENull) (
      SExpr (ECall "libcerror_error_set" [(EVar "error"); (EName "LIBCERROR_ERROR_DOMAIN_MEMORY"); (EName "LIBCERROR_MEMORY_ERROR_INSUFFICIENT")]) ;-
      SGoto) SSkip ;-
    SIf (EBin OLe (EVar "key_size") (EVar "block_size")) (
      SIf (EBin OEq (ECall "memory_copy" [(EVar "key_data"); (EVar "key"); (EVar "key_size")]) ENull) (
        SExpr (ECall "libcerror_error_set" [(EVar "error"); (EName "LIBCERROR_ERROR_DOMAIN_MEMORY"); (EName "LIBCERROR_MEMORY_ERROR_COPY_FAILED")]) ;-
        SGoto) SSkip ;-
      SIf (EBin OEq (ECall "memory_set" [(EAddr (EIndex (EVar "key_data") (EVar "key_size"))); (EInt 0); (EBin OSub (EVar "block_size") (EVar "key_size"))]) ENull) (
        SExpr (ECall "libcerror_error_set" [(EVar "error"); (EName "LIBCERROR_ERROR_DOMAIN_MEMORY"); (EName "LIBCERROR_MEMORY_ERROR_SET_FAILED")]) ;-
        SGoto) SSkip)
    (
      SIf (EBin ONe (ECall "libhmac_md5_context_initialize" [(ERef "context"); (EVar "error")]) (EInt 1)) (
        SExpr (ECall "libcerror_error_set" [(EVar "error"); (EName "LIBCERROR_ERROR_DOMAIN_RUNTIME"); (EName "LIBCERROR_RUNTIME_ERROR_INITIALIZE_FAILED")]) ;-
        SGoto) SSkip ;-
      SIf (EBin ONe (ECall "libhmac_md5_context_update" [(EVar "context"); (EVar "key"); (EVar "key_size"); (EVar "error")]) (EInt 1)) (
        SExpr (ECall "libcerror_error_set" [(EVar "error"); (EName "LIBCERROR_ERROR_DOMAIN_RUNTIME"); (EName "LIBCERROR_RUNTIME_ERROR_SET_FAILED")]) ;-
        SGoto) SSkip ;-
      SIf (EBin ONe (ECall "libhmac_md5_context_finalize" [(EVar "context"); (EVar "key_hash"); (EInt 16); (EVar "error")]) (EInt 1)) (
        SExpr (ECall "libcerror_error_set" [(EVar "error"); (EName "LIBCERROR_ERROR_DOMAIN_RUNTIME"); (EName "LIBCERROR_RUNTIME_ERROR_FINALIZE_FAILED")]) ;-
        SGoto) SSkip ;-
      SIf (EBin ONe (ECall "libhmac_md5_context_free" [(ERef "context"); (EVar "error")]) (EInt 1)) (
        SExpr (ECall "libcerror_error_set" [(EVar "error"); (EName "LIBCERROR_ERROR_DOMAIN_RUNTIME"); (EName "LIBCERROR_RUNTIME_ERROR_FINALIZE_FAILED")]) ;-
        SGoto) SSkip ;-
      SIf (EBin OGt (EVar "block_size") (EInt 16)) (
        SIf (EBin OEq (ECall "memory_set" [(EAddr (EIndex (EVar "key_data") (EInt 16))); (EInt 0); (EBin OSub (EVar "block_size") (EInt 16))]) ENull) (
          SExpr (ECall "libcerror_error_set" [(EVar "error"); (EName "LIBCERROR_ERROR_DOMAIN_MEMORY"); (EName "LIBCERROR_MEMORY_ERROR_SET_FAILED")]) ;-
          SGoto) SSkip) SSkip ;-
      SIf (EBin OEq (ECall "memory_copy" [(EVar "key_data"); (EVar "key_hash"); (EInt 16)]) ENull) (
        SExpr (ECall "libcerror_error_set" [(EVar "error"); (EName "LIBCERROR_ERROR_DOMAIN_MEMORY"); (EName "LIBCERROR_MEMORY_ERROR_COPY_FAILED")]) ;-
        SGoto) SSkip) ;-
    SAssign (EVar "inner_padding") (ECall "memory_allocate" [(EBin OMul (ESize 1) (EVar "block_size"))]) ;-
    SIf (EBin OEq (EVar "inner_padding") ENull) (
      SExpr (ECall "libcerror_error_set" [(EVar "error"); (EName "LIBCERROR_ERROR_DOMAIN_MEMORY"); (EName "LIBCERROR_MEMORY_ERROR_INSUFFICIENT")]) ;-
      SGoto) SSkip ;-
    SIf (EBin OEq (ECall "memory_set" [(EVar "inner_padding"); (EInt 54); (EVar "block_size")]) ENull) (
      SExpr (ECall "libcerror_error_set" [(EVar "error"); (EName "LIBCERROR_ERROR_DOMAIN_MEMORY"); (EName "LIBCERROR_MEMORY_ERROR_SET_FAILED")]) ;-
      SGoto) SSkip ;-
    SAssign (EVar "outer_padding") (ECall "memory_allocate" [(EBin OMul (ESize 1) (EVar "block_size"))]) ;-
    SIf (EBin OEq (EVar "outer_padding") ENull) (
      SExpr (ECall "libcerror_error_set" [(EVar "error"); (EName "LIBCERROR_ERROR_DOMAIN_MEMORY"); (EName "LIBCERROR_MEMORY_ERROR_INSUFFICIENT")]) ;-
      SGoto) SSkip ;-
    SIf (EBin OEq (ECall "memory_set" [(EVar "outer_padding"); (EInt 92); (EVar "block_size")]) ENull) (
      SExpr (ECall "libcerror_error_set" [(EVar "error"); (EName "LIBCERROR_ERROR_DOMAIN_MEMORY"); (EName "LIBCERROR_MEMORY_ERROR_SET_FAILED")]) ;-
      SGoto) SSkip ;-
    SFor (SAssign (EVar "block_index") (EInt 0)) (EBin OLt (EVar "block_index") (EVar "block_size")) (SOp OAdd (EVar "block_index") (EInt 1)) (
      SOp OXor (EIndex (EVar "inner_padding") (EVar "block_index")) (EIndex (EVar "key_data") (EVar "block_index")) ;-
      SOp OXor (EIndex (EVar "outer_padding") (EVar "block_index")) (EIndex (EVar "key_data") (EVar "block_index"))) ;-
    SIf (EBin ONe (ECall "libhmac_md5_context_initialize" [(ERef "context"); (EVar "error")]) (EInt 1)) (
      SExpr (ECall "libcerror_error_set" [(EVar "error"); (EName "LIBCERROR_ERROR_DOMAIN_RUNTIME"); (EName "LIBCERROR_RUNTIME_ERROR_INITIALIZE_FAILED")]) ;-
      SGoto) SSkip ;-
    SIf (EBin ONe (ECall "libhmac_md5_context_update" [(EVar "context"); (EVar "inner_padding"); (EVar "block_size"); (EVar "error")]) (EInt 1)) (
      SExpr (ECall "libcerror_error_set" [(EVar "error"); (EName "LIBCERROR_ERROR_DOMAIN_RUNTIME"); (EName "LIBCERROR_RUNTIME_ERROR_SET_FAILED")]) ;-
      SGoto) SSkip ;-
    SIf (EBin ONe (ECall "libhmac_md5_context_update" [(EVar "context"); (EVar "buffer"); (EVar "size"); (EVar "error")]) (EInt 1)) (
      SExpr (ECall "libcerror_error_set" [(EVar "error"); (EName "LIBCERROR_ERROR_DOMAIN_RUNTIME"); (EName "LIBCERROR_RUNTIME_ERROR_SET_FAILED")]) ;-
      SGoto) SSkip ;-
    SIf (EBin ONe (ECall "libhmac_md5_context_finalize" [(EVar "context"); (EVar "hmac"); (EVar "hmac_size"); (EVar "error")]) (EInt 1)) (
      SExpr (ECall "libcerror_error_set" [(EVar "error"); (EName "LIBCERROR_ERROR_DOMAIN_RUNTIME"); (EName "LIBCERROR_RUNTIME_ERROR_FINALIZE_FAILED")]) ;-
      SGoto) SSkip ;-
    SIf (EBin ONe (ECall "libhmac_md5_context_free" [(ERef "context"); (EVar "error")]) (EInt 1)) (
      SExpr (ECall "libcerror_error_set" [(EVar "error"); (EName "LIBCERROR_ERROR_DOMAIN_RUNTIME"); (EName "LIBCERROR_RUNTIME_ERROR_FINALIZE_FAILED")]) ;-
      SGoto) SSkip ;-
    SIf (EBin ONe (ECall "libhmac_md5_context_initialize" [(ERef "context"); (EVar "error")]) (EInt 1)) (
      SExpr (ECall "libcerror_error_set" [(EVar "error"); (EName "LIBCERROR_ERROR_DOMAIN_RUNTIME"); (EName "LIBCERROR_RUNTIME_ERROR_INITIALIZE_FAILED")]) ;-
      SGoto) SSkip ;-
    SIf (EBin ONe (ECall "libhmac_md5_context_update" [(EVar "context"); (EVar "outer_padding"); (EVar "block_size"); (EVar "error")]) (EInt 1)) (
      SExpr (ECall "libcerror_error_set" [(EVar "error"); (EName "LIBCERROR_ERROR_DOMAIN_RUNTIME"); (EName "LIBCERROR_RUNTIME_ERROR_SET_FAILED")]) ;-
      SGoto) SSkip ;-
    SIf (EBin ONe (ECall "libhmac_md5_context_update" [(EVar "context"); (EVar "hmac"); (EInt 16); (EVar "error")]) (EInt 1)) (
      SExpr (ECall "libcerror_error_set" [(EVar "error"); (EName "LIBCERROR_ERROR_DOMAIN_RUNTIME"); (EName "LIBCERROR_RUNTIME_ERROR_SET_FAILED")]) ;-
      SGoto) SSkip ;-
    SIf (EBin ONe (ECall "libhmac_md5_context_finalize" [(EVar "context"); (EVar "hmac"); (EVar "hmac_size"); (EVar "error")]) (EInt 1)) (
      SExpr (ECall "libcerror_error_set" [(EVar "error"); (EName "LIBCERROR_ERROR_DOMAIN_RUNTIME"); (EName "LIBCERROR_RUNTIME_ERROR_FINALIZE_FAILED")]) ;-
      SGoto) SSkip ;-
    SIf (EBin ONe (ECall "libhmac_md5_context_free" [(ERef "context"); (EVar "error")]) (EInt 1)) (
      SExpr (ECall "libcerror_error_set" [(EVar "error"); (EName "LIBCERROR_ERROR_DOMAIN_RUNTIME"); (EName "LIBCERROR_RUNTIME_ERROR_FINALIZE_FAILED")]) ;-
      SGoto) SSkip ;-
    SIf (EBin OEq (ECall "memory_set" [(EVar "outer_padding"); (EInt 0); (EVar "block_size")]) ENull) (
      SExpr (ECall "libcerror_error_set" [(EVar "error"); (EName "LIBCERROR_ERROR_DOMAIN_MEMORY"); (EName "LIBCERROR_MEMORY_ERROR_SET_FAILED")]) ;-
      SGoto) SSkip ;-
    SExpr (ECall "memory_free" [(EVar "outer_padding")]) ;-
    SAssign (EVar "outer_padding") ENull ;-
    SIf (EBin OEq (ECall "memory_set" [(EVar "inner_padding"); (EInt 0); (EVar "block_size")]) ENull) (
      SExpr (ECall "libcerror_error_set" [(EVar "error"); (EName "LIBCERROR_ERROR_DOMAIN_MEMORY"); (EName "LIBCERROR_MEMORY_ERROR_SET_FAILED")]) ;-
      SGoto) SSkip ;-
    SExpr (ECall "memory_free" [(EVar "inner_padding")]) ;-
    SAssign (EVar "inner_padding") ENull ;-
    SIf (EBin OEq (ECall "memory_set" [(EVar "key_data"); (EInt 0); (EVar "block_size")]) ENull) (
      SExpr (ECall "libcerror_error_set" [(EVar "error"); (EName "LIBCERROR_ERROR_DOMAIN_MEMORY"); (EName "LIBCERROR_MEMORY_ERROR_SET_FAILED")]) ;-
      SGoto) SSkip ;-
    SExpr (ECall "memory_free" [(EVar "key_data")]) ;-
    SAssign (EVar "key_data") ENull ;-
    SReturn (EInt 1);
  f_error :=
    SIf (EBin ONe (EVar "context") ENull) (
      SExpr (ECall "libhmac_md5_context_free" [(ERef "context"); ENull])) SSkip ;-
    SIf (EBin ONe (EVar "outer_padding") ENull) (
      SExpr (ECall "memory_set" [(EVar "outer_padding"); (EInt 0); (EVar "block_size")]) ;-
      SExpr (ECall "memory_free" [(EVar "outer_padding")])) SSkip ;-
    SIf (EBin ONe (EVar "inner_padding") ENull) (
      SExpr (ECall "memory_set" [(EVar "inner_padding"); (EInt 0); (EVar "block_size")]) ;-
      SExpr (ECall "memory_free" [(EVar "inner_padding")])) SSkip ;-
    SIf (EBin ONe (EVar "key_data") ENull) (
      SExpr (ECall "memory_set" [(EVar "key_data"); (EInt 0); (EVar "block_size")]) ;-
      SExpr (ECall "memory_free" [(EVar "key_data")])) SSkip ;-
    SReturn (EInt (-1)) |}.

(* the tables and functions of libhmac/libhmac_md5_context.c and libhmac/libhmac_md5.c, and the structure *)
Definition md5_text (unfolled : bool) : program := {|
  p_tables := [("libhmac_md5_context_fixed_constants", (R32, tab_libhmac_md5_context_fixed_constants));
    ("libhmac_md5_context_sines", (R32, tab_libhmac_md5_context_sines));
    ("libhmac_md5_context_bit_shifts", (R8, tab_libhmac_md5_context_bit_shifts));
    ("libhmac_md5_context_values_32bit_index", (R8, tab_libhmac_md5_context_values_32bit_index))];
  p_functions := [text_libhmac_md5_context_transform unfolled;
    text_libhmac_md5_context_initialize unfolled;
    text_libhmac_md5_context_free unfolled;
    text_libhmac_md5_context_update unfolled;
    text_libhmac_md5_context_finalize unfolled;
    text_libhmac_md5_initialize unfolled;
    text_libhmac_md5_free unfolled;
    text_libhmac_md5_update unfolled;
    text_libhmac_md5_finalize unfolled;
    text_libhmac_md5_calculate unfolled;
    text_libhmac_md5_calculate_hmac unfolled];
  p_types := [("libhmac_internal_md5_context_t", (MD5, layout_md5))];
  p_char := true |}.
