(* The text of libhmac/libhmac_sha224_context.c and libhmac/libhmac_sha224.c for a build without
   libcrypto, and of the macros they use, as terms of CText.v.  Written by
   tools/ctext.py from the files in /repo; #if on LIBHMAC_UNFOLLED_LOOPS became a Coq if.
   Left out: casts between pointer types, the declaration of the function name for
   messages, and the message arguments of libcerror_error_set. *)
From Coq Require Import NArith ZArith List String.
From Verif Require Import Machine CText.
Import ListNotations.
Open Scope string_scope.
Open Scope list_scope.
Open Scope N_scope.

(* libhmac/libhmac_sha224_context.h:55-89 struct libhmac_internal_sha224_context: uint64_t hash_count; uint32_t hash_values[ 8 ];
   size_t block_offset; uint8_t block[ 128 ] *)
Definition layout_sha224 : layout := mk_layout R32 8 128.

(* libhmac/libhmac_sha224_context.c:47-50 libhmac_sha224_context_prime_square_roots *)
Definition tab_libhmac_sha224_context_prime_square_roots : list N :=
  [0xc1059ed8; 0x367cd507; 0x3070dd17; 0xf70e5939; 0xffc00b31; 0x68581511; 0x64f98fa7; 0xbefa4fa4].

(* libhmac/libhmac_sha224_context.c:54-71 libhmac_sha224_context_prime_cube_roots *)
Definition tab_libhmac_sha224_context_prime_cube_roots : list N :=
  [0x428a2f98; 0x71374491; 0xb5c0fbcf; 0xe9b5dba5; 0x3956c25b; 0x59f111f1; 0x923f82a4; 0xab1c5ed5;
   0xd807aa98; 0x12835b01; 0x243185be; 0x550c7dc3; 0x72be5d74; 0x80deb1fe; 0x9bdc06a7; 0xc19bf174;
   0xe49b69c1; 0xefbe4786; 0x0fc19dc6; 0x240ca1cc; 0x2de92c6f; 0x4a7484aa; 0x5cb0a9dc; 0x76f988da;
   0x983e5152; 0xa831c66d; 0xb00327c8; 0xbf597fc7; 0xc6e00bf3; 0xd5a79147; 0x06ca6351; 0x14292967;
   0x27b70a85; 0x2e1b2138; 0x4d2c6dfc; 0x53380d13; 0x650a7354; 0x766a0abb; 0x81c2c92e; 0x92722c85;
   0xa2bfe8a1; 0xa81a664b; 0xc24b8b70; 0xc76c51a3; 0xd192e819; 0xd6990624; 0xf40e3585; 0x106aa070;
   0x19a4c116; 0x1e376c08; 0x2748774c; 0x34b0bcb5; 0x391c0cb3; 0x4ed8aa4a; 0x5b9cca4f; 0x682e6ff3;
   0x748f82ee; 0x78a5636f; 0x84c87814; 0x8cc70208; 0x90befffa; 0xa4506ceb; 0xbef9a3f7; 0xc67178f2].

(* common/byte_stream.h:78-85 #define byte_stream_copy_to_uint32_big_endian *)
Definition byte_stream_copy_to_uint32_big_endian (byte_stream value : expr) : stmt :=
  SAssign value (EIndex byte_stream (EInt 0)) ;-
  SOp OShl value (EInt 8) ;-
  SOp OOr value (EIndex byte_stream (EInt 1)) ;-
  SOp OShl value (EInt 8) ;-
  SOp OOr value (EIndex byte_stream (EInt 2)) ;-
  SOp OShl value (EInt 8) ;-
  SOp OOr value (EIndex byte_stream (EInt 3)).

(* common/byte_stream.h:237-238 #define byte_stream_bit_rotate_right_32bit *)
Definition byte_stream_bit_rotate_right_32bit (byte_stream number_of_bits : expr) : expr :=
  (EBin OOr (EBin OShr byte_stream number_of_bits) (EBin OShl byte_stream (EBin OSub (EInt 32) number_of_bits))).

(* libhmac/libhmac_byte_stream.h:32-39 #define libhmac_byte_stream_copy_to_1x_uint32_big_endian *)
Definition libhmac_byte_stream_copy_to_1x_uint32_big_endian (byte_stream values values_index : expr) : stmt :=
  SAssign (EIndex values values_index) (EIndex byte_stream (EBin OShl values_index (EInt 2))) ;-
  SOp OShl (EIndex values values_index) (EInt 8) ;-
  SOp OOr (EIndex values values_index) (EIndex byte_stream (EBin OAdd (EBin OShl values_index (EInt 2)) (EInt 1))) ;-
  SOp OShl (EIndex values values_index) (EInt 8) ;-
  SOp OOr (EIndex values values_index) (EIndex byte_stream (EBin OAdd (EBin OShl values_index (EInt 2)) (EInt 2))) ;-
  SOp OShl (EIndex values values_index) (EInt 8) ;-
  SOp OOr (EIndex values values_index) (EIndex byte_stream (EBin OAdd (EBin OShl values_index (EInt 2)) (EInt 3))).

(* libhmac/libhmac_byte_stream.h:50-66 #define libhmac_byte_stream_copy_to_16x_uint32_big_endian *)
Definition libhmac_byte_stream_copy_to_16x_uint32_big_endian (byte_stream values : expr) : stmt :=
  libhmac_byte_stream_copy_to_1x_uint32_big_endian byte_stream values (EInt 0) ;-
  libhmac_byte_stream_copy_to_1x_uint32_big_endian byte_stream values (EInt 1) ;-
  libhmac_byte_stream_copy_to_1x_uint32_big_endian byte_stream values (EInt 2) ;-
  libhmac_byte_stream_copy_to_1x_uint32_big_endian byte_stream values (EInt 3) ;-
  libhmac_byte_stream_copy_to_1x_uint32_big_endian byte_stream values (EInt 4) ;-
  libhmac_byte_stream_copy_to_1x_uint32_big_endian byte_stream values (EInt 5) ;-
  libhmac_byte_stream_copy_to_1x_uint32_big_endian byte_stream values (EInt 6) ;-
  libhmac_byte_stream_copy_to_1x_uint32_big_endian byte_stream values (EInt 7) ;-
  libhmac_byte_stream_copy_to_1x_uint32_big_endian byte_stream values (EInt 8) ;-
  libhmac_byte_stream_copy_to_1x_uint32_big_endian byte_stream values (EInt 9) ;-
  libhmac_byte_stream_copy_to_1x_uint32_big_endian byte_stream values (EInt 10) ;-
  libhmac_byte_stream_copy_to_1x_uint32_big_endian byte_stream values (EInt 11) ;-
  libhmac_byte_stream_copy_to_1x_uint32_big_endian byte_stream values (EInt 12) ;-
  libhmac_byte_stream_copy_to_1x_uint32_big_endian byte_stream values (EInt 13) ;-
  libhmac_byte_stream_copy_to_1x_uint32_big_endian byte_stream values (EInt 14) ;-
  libhmac_byte_stream_copy_to_1x_uint32_big_endian byte_stream values (EInt 15).

(* libhmac/libhmac_sha224_context.c:73-84 #define libhmac_sha224_context_transform_extend_32bit_value *)
Definition libhmac_sha224_context_transform_extend_32bit_value (values_32bit value_32bit_index s0 s1 : expr) : stmt :=
  SAssign s0 (EBin OXor (EBin OXor (byte_stream_bit_rotate_right_32bit (EIndex values_32bit (EBin OSub value_32bit_index (EInt 15))) (EInt 7)) (byte_stream_bit_rotate_right_32bit (EIndex values_32bit (EBin OSub value_32bit_index (EInt 15))) (EInt 18))) (EBin OShr (EIndex values_32bit (EBin OSub value_32bit_index (EInt 15))) (EInt 3))) ;-
  SAssign s1 (EBin OXor (EBin OXor (byte_stream_bit_rotate_right_32bit (EIndex values_32bit (EBin OSub value_32bit_index (EInt 2))) (EInt 17)) (byte_stream_bit_rotate_right_32bit (EIndex values_32bit (EBin OSub value_32bit_index (EInt 2))) (EInt 19))) (EBin OShr (EIndex values_32bit (EBin OSub value_32bit_index (EInt 2))) (EInt 10))) ;-
  SAssign (EIndex values_32bit value_32bit_index) (EBin OAdd (EBin OAdd (EBin OAdd (EIndex values_32bit (EBin OSub value_32bit_index (EInt 16))) s0) (EIndex values_32bit (EBin OSub value_32bit_index (EInt 7)))) s1).

(* libhmac/libhmac_sha224_context.c:86-134 #define libhmac_sha224_context_transform_unfolded_extend_32bit_values *)
Definition libhmac_sha224_context_transform_unfolded_extend_32bit_values (values_32bit s0 s1 : expr) : stmt :=
  libhmac_sha224_context_transform_extend_32bit_value values_32bit (EInt 16) s0 s1 ;-
  libhmac_sha224_context_transform_extend_32bit_value values_32bit (EInt 17) s0 s1 ;-
  libhmac_sha224_context_transform_extend_32bit_value values_32bit (EInt 18) s0 s1 ;-
  libhmac_sha224_context_transform_extend_32bit_value values_32bit (EInt 19) s0 s1 ;-
  libhmac_sha224_context_transform_extend_32bit_value values_32bit (EInt 20) s0 s1 ;-
  libhmac_sha224_context_transform_extend_32bit_value values_32bit (EInt 21) s0 s1 ;-
  libhmac_sha224_context_transform_extend_32bit_value values_32bit (EInt 22) s0 s1 ;-
  libhmac_sha224_context_transform_extend_32bit_value values_32bit (EInt 23) s0 s1 ;-
  libhmac_sha224_context_transform_extend_32bit_value values_32bit (EInt 24) s0 s1 ;-
  libhmac_sha224_context_transform_extend_32bit_value values_32bit (EInt 25) s0 s1 ;-
  libhmac_sha224_context_transform_extend_32bit_value values_32bit (EInt 26) s0 s1 ;-
  libhmac_sha224_context_transform_extend_32bit_value values_32bit (EInt 27) s0 s1 ;-
  libhmac_sha224_context_transform_extend_32bit_value values_32bit (EInt 28) s0 s1 ;-
  libhmac_sha224_context_transform_extend_32bit_value values_32bit (EInt 29) s0 s1 ;-
  libhmac_sha224_context_transform_extend_32bit_value values_32bit (EInt 30) s0 s1 ;-
  libhmac_sha224_context_transform_extend_32bit_value values_32bit (EInt 31) s0 s1 ;-
  libhmac_sha224_context_transform_extend_32bit_value values_32bit (EInt 32) s0 s1 ;-
  libhmac_sha224_context_transform_extend_32bit_value values_32bit (EInt 33) s0 s1 ;-
  libhmac_sha224_context_transform_extend_32bit_value values_32bit (EInt 34) s0 s1 ;-
  libhmac_sha224_context_transform_extend_32bit_value values_32bit (EInt 35) s0 s1 ;-
  libhmac_sha224_context_transform_extend_32bit_value values_32bit (EInt 36) s0 s1 ;-
  libhmac_sha224_context_transform_extend_32bit_value values_32bit (EInt 37) s0 s1 ;-
  libhmac_sha224_context_transform_extend_32bit_value values_32bit (EInt 38) s0 s1 ;-
  libhmac_sha224_context_transform_extend_32bit_value values_32bit (EInt 39) s0 s1 ;-
  libhmac_sha224_context_transform_extend_32bit_value values_32bit (EInt 40) s0 s1 ;-
  libhmac_sha224_context_transform_extend_32bit_value values_32bit (EInt 41) s0 s1 ;-
  libhmac_sha224_context_transform_extend_32bit_value values_32bit (EInt 42) s0 s1 ;-
  libhmac_sha224_context_transform_extend_32bit_value values_32bit (EInt 43) s0 s1 ;-
  libhmac_sha224_context_transform_extend_32bit_value values_32bit (EInt 44) s0 s1 ;-
  libhmac_sha224_context_transform_extend_32bit_value values_32bit (EInt 45) s0 s1 ;-
  libhmac_sha224_context_transform_extend_32bit_value values_32bit (EInt 46) s0 s1 ;-
  libhmac_sha224_context_transform_extend_32bit_value values_32bit (EInt 47) s0 s1 ;-
  libhmac_sha224_context_transform_extend_32bit_value values_32bit (EInt 48) s0 s1 ;-
  libhmac_sha224_context_transform_extend_32bit_value values_32bit (EInt 49) s0 s1 ;-
  libhmac_sha224_context_transform_extend_32bit_value values_32bit (EInt 50) s0 s1 ;-
  libhmac_sha224_context_transform_extend_32bit_value values_32bit (EInt 51) s0 s1 ;-
  libhmac_sha224_context_transform_extend_32bit_value values_32bit (EInt 52) s0 s1 ;-
  libhmac_sha224_context_transform_extend_32bit_value values_32bit (EInt 53) s0 s1 ;-
  libhmac_sha224_context_transform_extend_32bit_value values_32bit (EInt 54) s0 s1 ;-
  libhmac_sha224_context_transform_extend_32bit_value values_32bit (EInt 55) s0 s1 ;-
  libhmac_sha224_context_transform_extend_32bit_value values_32bit (EInt 56) s0 s1 ;-
  libhmac_sha224_context_transform_extend_32bit_value values_32bit (EInt 57) s0 s1 ;-
  libhmac_sha224_context_transform_extend_32bit_value values_32bit (EInt 58) s0 s1 ;-
  libhmac_sha224_context_transform_extend_32bit_value values_32bit (EInt 59) s0 s1 ;-
  libhmac_sha224_context_transform_extend_32bit_value values_32bit (EInt 60) s0 s1 ;-
  libhmac_sha224_context_transform_extend_32bit_value values_32bit (EInt 61) s0 s1 ;-
  libhmac_sha224_context_transform_extend_32bit_value values_32bit (EInt 62) s0 s1 ;-
  libhmac_sha224_context_transform_extend_32bit_value values_32bit (EInt 63) s0 s1.

(* libhmac/libhmac_sha224_context.c:136-156 #define libhmac_sha224_context_transform_unfolded_calculate_hash_value *)
Definition libhmac_sha224_context_transform_unfolded_calculate_hash_value (values_32bit value_32bit_index hash_values hash_value_index0 hash_value_index1 hash_value_index2 hash_value_index3 hash_value_index4 hash_value_index5 hash_value_index6 hash_value_index7 s0 s1 t1 t2 : expr) : stmt :=
  SAssign s0 (EBin OXor (EBin OXor (byte_stream_bit_rotate_right_32bit (EIndex hash_values hash_value_index0) (EInt 2)) (byte_stream_bit_rotate_right_32bit (EIndex hash_values hash_value_index0) (EInt 13))) (byte_stream_bit_rotate_right_32bit (EIndex hash_values hash_value_index0) (EInt 22))) ;-
  SAssign s1 (EBin OXor (EBin OXor (byte_stream_bit_rotate_right_32bit (EIndex hash_values hash_value_index4) (EInt 6)) (byte_stream_bit_rotate_right_32bit (EIndex hash_values hash_value_index4) (EInt 11))) (byte_stream_bit_rotate_right_32bit (EIndex hash_values hash_value_index4) (EInt 25))) ;-
  SAssign t1 (EIndex hash_values hash_value_index7) ;-
  SOp OAdd t1 s1 ;-
  SOp OAdd t1 (EBin OXor (EBin OAnd (EIndex hash_values hash_value_index4) (EIndex hash_values hash_value_index5)) (EBin OAnd (ENot (EIndex hash_values hash_value_index4)) (EIndex hash_values hash_value_index6))) ;-
  SOp OAdd t1 (EIndex (EVar "libhmac_sha224_context_prime_cube_roots") value_32bit_index) ;-
  SOp OAdd t1 (EIndex values_32bit value_32bit_index) ;-
  SAssign t2 s0 ;-
  SOp OAdd t2 (EBin OXor (EBin OXor (EBin OAnd (EIndex hash_values hash_value_index0) (EIndex hash_values hash_value_index1)) (EBin OAnd (EIndex hash_values hash_value_index0) (EIndex hash_values hash_value_index2))) (EBin OAnd (EIndex hash_values hash_value_index1) (EIndex hash_values hash_value_index2))) ;-
  SOp OAdd (EIndex hash_values hash_value_index3) t1 ;-
  SAssign (EIndex hash_values hash_value_index7) (EBin OAdd t1 t2).

(* libhmac/libhmac_sha224_context.c:158-222 #define libhmac_sha224_context_transform_unfolded_calculate_hash_values *)
Definition libhmac_sha224_context_transform_unfolded_calculate_hash_values (values_32bit hash_values s0 s1 t1 t2 : expr) : stmt :=
  libhmac_sha224_context_transform_unfolded_calculate_hash_value values_32bit (EInt 0) hash_values (EInt 0) (EInt 1) (EInt 2) (EInt 3) (EInt 4) (EInt 5) (EInt 6) (EInt 7) s0 s1 t1 t2 ;-
  libhmac_sha224_context_transform_unfolded_calculate_hash_value values_32bit (EInt 1) hash_values (EInt 7) (EInt 0) (EInt 1) (EInt 2) (EInt 3) (EInt 4) (EInt 5) (EInt 6) s0 s1 t1 t2 ;-
  libhmac_sha224_context_transform_unfolded_calculate_hash_value values_32bit (EInt 2) hash_values (EInt 6) (EInt 7) (EInt 0) (EInt 1) (EInt 2) (EInt 3) (EInt 4) (EInt 5) s0 s1 t1 t2 ;-
  libhmac_sha224_context_transform_unfolded_calculate_hash_value values_32bit (EInt 3) hash_values (EInt 5) (EInt 6) (EInt 7) (EInt 0) (EInt 1) (EInt 2) (EInt 3) (EInt 4) s0 s1 t1 t2 ;-
  libhmac_sha224_context_transform_unfolded_calculate_hash_value values_32bit (EInt 4) hash_values (EInt 4) (EInt 5) (EInt 6) (EInt 7) (EInt 0) (EInt 1) (EInt 2) (EInt 3) s0 s1 t1 t2 ;-
  libhmac_sha224_context_transform_unfolded_calculate_hash_value values_32bit (EInt 5) hash_values (EInt 3) (EInt 4) (EInt 5) (EInt 6) (EInt 7) (EInt 0) (EInt 1) (EInt 2) s0 s1 t1 t2 ;-
  libhmac_sha224_context_transform_unfolded_calculate_hash_value values_32bit (EInt 6) hash_values (EInt 2) (EInt 3) (EInt 4) (EInt 5) (EInt 6) (EInt 7) (EInt 0) (EInt 1) s0 s1 t1 t2 ;-
  libhmac_sha224_context_transform_unfolded_calculate_hash_value values_32bit (EInt 7) hash_values (EInt 1) (EInt 2) (EInt 3) (EInt 4) (EInt 5) (EInt 6) (EInt 7) (EInt 0) s0 s1 t1 t2 ;-
  libhmac_sha224_context_transform_unfolded_calculate_hash_value values_32bit (EInt 8) hash_values (EInt 0) (EInt 1) (EInt 2) (EInt 3) (EInt 4) (EInt 5) (EInt 6) (EInt 7) s0 s1 t1 t2 ;-
  libhmac_sha224_context_transform_unfolded_calculate_hash_value values_32bit (EInt 9) hash_values (EInt 7) (EInt 0) (EInt 1) (EInt 2) (EInt 3) (EInt 4) (EInt 5) (EInt 6) s0 s1 t1 t2 ;-
  libhmac_sha224_context_transform_unfolded_calculate_hash_value values_32bit (EInt 10) hash_values (EInt 6) (EInt 7) (EInt 0) (EInt 1) (EInt 2) (EInt 3) (EInt 4) (EInt 5) s0 s1 t1 t2 ;-
  libhmac_sha224_context_transform_unfolded_calculate_hash_value values_32bit (EInt 11) hash_values (EInt 5) (EInt 6) (EInt 7) (EInt 0) (EInt 1) (EInt 2) (EInt 3) (EInt 4) s0 s1 t1 t2 ;-
  libhmac_sha224_context_transform_unfolded_calculate_hash_value values_32bit (EInt 12) hash_values (EInt 4) (EInt 5) (EInt 6) (EInt 7) (EInt 0) (EInt 1) (EInt 2) (EInt 3) s0 s1 t1 t2 ;-
  libhmac_sha224_context_transform_unfolded_calculate_hash_value values_32bit (EInt 13) hash_values (EInt 3) (EInt 4) (EInt 5) (EInt 6) (EInt 7) (EInt 0) (EInt 1) (EInt 2) s0 s1 t1 t2 ;-
  libhmac_sha224_context_transform_unfolded_calculate_hash_value values_32bit (EInt 14) hash_values (EInt 2) (EInt 3) (EInt 4) (EInt 5) (EInt 6) (EInt 7) (EInt 0) (EInt 1) s0 s1 t1 t2 ;-
  libhmac_sha224_context_transform_unfolded_calculate_hash_value values_32bit (EInt 15) hash_values (EInt 1) (EInt 2) (EInt 3) (EInt 4) (EInt 5) (EInt 6) (EInt 7) (EInt 0) s0 s1 t1 t2 ;-
  libhmac_sha224_context_transform_unfolded_calculate_hash_value values_32bit (EInt 16) hash_values (EInt 0) (EInt 1) (EInt 2) (EInt 3) (EInt 4) (EInt 5) (EInt 6) (EInt 7) s0 s1 t1 t2 ;-
  libhmac_sha224_context_transform_unfolded_calculate_hash_value values_32bit (EInt 17) hash_values (EInt 7) (EInt 0) (EInt 1) (EInt 2) (EInt 3) (EInt 4) (EInt 5) (EInt 6) s0 s1 t1 t2 ;-
  libhmac_sha224_context_transform_unfolded_calculate_hash_value values_32bit (EInt 18) hash_values (EInt 6) (EInt 7) (EInt 0) (EInt 1) (EInt 2) (EInt 3) (EInt 4) (EInt 5) s0 s1 t1 t2 ;-
  libhmac_sha224_context_transform_unfolded_calculate_hash_value values_32bit (EInt 19) hash_values (EInt 5) (EInt 6) (EInt 7) (EInt 0) (EInt 1) (EInt 2) (EInt 3) (EInt 4) s0 s1 t1 t2 ;-
  libhmac_sha224_context_transform_unfolded_calculate_hash_value values_32bit (EInt 20) hash_values (EInt 4) (EInt 5) (EInt 6) (EInt 7) (EInt 0) (EInt 1) (EInt 2) (EInt 3) s0 s1 t1 t2 ;-
  libhmac_sha224_context_transform_unfolded_calculate_hash_value values_32bit (EInt 21) hash_values (EInt 3) (EInt 4) (EInt 5) (EInt 6) (EInt 7) (EInt 0) (EInt 1) (EInt 2) s0 s1 t1 t2 ;-
  libhmac_sha224_context_transform_unfolded_calculate_hash_value values_32bit (EInt 22) hash_values (EInt 2) (EInt 3) (EInt 4) (EInt 5) (EInt 6) (EInt 7) (EInt 0) (EInt 1) s0 s1 t1 t2 ;-
  libhmac_sha224_context_transform_unfolded_calculate_hash_value values_32bit (EInt 23) hash_values (EInt 1) (EInt 2) (EInt 3) (EInt 4) (EInt 5) (EInt 6) (EInt 7) (EInt 0) s0 s1 t1 t2 ;-
  libhmac_sha224_context_transform_unfolded_calculate_hash_value values_32bit (EInt 24) hash_values (EInt 0) (EInt 1) (EInt 2) (EInt 3) (EInt 4) (EInt 5) (EInt 6) (EInt 7) s0 s1 t1 t2 ;-
  libhmac_sha224_context_transform_unfolded_calculate_hash_value values_32bit (EInt 25) hash_values (EInt 7) (EInt 0) (EInt 1) (EInt 2) (EInt 3) (EInt 4) (EInt 5) (EInt 6) s0 s1 t1 t2 ;-
  libhmac_sha224_context_transform_unfolded_calculate_hash_value values_32bit (EInt 26) hash_values (EInt 6) (EInt 7) (EInt 0) (EInt 1) (EInt 2) (EInt 3) (EInt 4) (EInt 5) s0 s1 t1 t2 ;-
  libhmac_sha224_context_transform_unfolded_calculate_hash_value values_32bit (EInt 27) hash_values (EInt 5) (EInt 6) (EInt 7) (EInt 0) (EInt 1) (EInt 2) (EInt 3) (EInt 4) s0 s1 t1 t2 ;-
  libhmac_sha224_context_transform_unfolded_calculate_hash_value values_32bit (EInt 28) hash_values (EInt 4) (EInt 5) (EInt 6) (EInt 7) (EInt 0) (EInt 1) (EInt 2) (EInt 3) s0 s1 t1 t2 ;-
  libhmac_sha224_context_transform_unfolded_calculate_hash_value values_32bit (EInt 29) hash_values (EInt 3) (EInt 4) (EInt 5) (EInt 6) (EInt 7) (EInt 0) (EInt 1) (EInt 2) s0 s1 t1 t2 ;-
  libhmac_sha224_context_transform_unfolded_calculate_hash_value values_32bit (EInt 30) hash_values (EInt 2) (EInt 3) (EInt 4) (EInt 5) (EInt 6) (EInt 7) (EInt 0) (EInt 1) s0 s1 t1 t2 ;-
  libhmac_sha224_context_transform_unfolded_calculate_hash_value values_32bit (EInt 31) hash_values (EInt 1) (EInt 2) (EInt 3) (EInt 4) (EInt 5) (EInt 6) (EInt 7) (EInt 0) s0 s1 t1 t2 ;-
  libhmac_sha224_context_transform_unfolded_calculate_hash_value values_32bit (EInt 32) hash_values (EInt 0) (EInt 1) (EInt 2) (EInt 3) (EInt 4) (EInt 5) (EInt 6) (EInt 7) s0 s1 t1 t2 ;-
  libhmac_sha224_context_transform_unfolded_calculate_hash_value values_32bit (EInt 33) hash_values (EInt 7) (EInt 0) (EInt 1) (EInt 2) (EInt 3) (EInt 4) (EInt 5) (EInt 6) s0 s1 t1 t2 ;-
  libhmac_sha224_context_transform_unfolded_calculate_hash_value values_32bit (EInt 34) hash_values (EInt 6) (EInt 7) (EInt 0) (EInt 1) (EInt 2) (EInt 3) (EInt 4) (EInt 5) s0 s1 t1 t2 ;-
  libhmac_sha224_context_transform_unfolded_calculate_hash_value values_32bit (EInt 35) hash_values (EInt 5) (EInt 6) (EInt 7) (EInt 0) (EInt 1) (EInt 2) (EInt 3) (EInt 4) s0 s1 t1 t2 ;-
  libhmac_sha224_context_transform_unfolded_calculate_hash_value values_32bit (EInt 36) hash_values (EInt 4) (EInt 5) (EInt 6) (EInt 7) (EInt 0) (EInt 1) (EInt 2) (EInt 3) s0 s1 t1 t2 ;-
  libhmac_sha224_context_transform_unfolded_calculate_hash_value values_32bit (EInt 37) hash_values (EInt 3) (EInt 4) (EInt 5) (EInt 6) (EInt 7) (EInt 0) (EInt 1) (EInt 2) s0 s1 t1 t2 ;-
  libhmac_sha224_context_transform_unfolded_calculate_hash_value values_32bit (EInt 38) hash_values (EInt 2) (EInt 3) (EInt 4) (EInt 5) (EInt 6) (EInt 7) (EInt 0) (EInt 1) s0 s1 t1 t2 ;-
  libhmac_sha224_context_transform_unfolded_calculate_hash_value values_32bit (EInt 39) hash_values (EInt 1) (EInt 2) (EInt 3) (EInt 4) (EInt 5) (EInt 6) (EInt 7) (EInt 0) s0 s1 t1 t2 ;-
  libhmac_sha224_context_transform_unfolded_calculate_hash_value values_32bit (EInt 40) hash_values (EInt 0) (EInt 1) (EInt 2) (EInt 3) (EInt 4) (EInt 5) (EInt 6) (EInt 7) s0 s1 t1 t2 ;-
  libhmac_sha224_context_transform_unfolded_calculate_hash_value values_32bit (EInt 41) hash_values (EInt 7) (EInt 0) (EInt 1) (EInt 2) (EInt 3) (EInt 4) (EInt 5) (EInt 6) s0 s1 t1 t2 ;-
  libhmac_sha224_context_transform_unfolded_calculate_hash_value values_32bit (EInt 42) hash_values (EInt 6) (EInt 7) (EInt 0) (EInt 1) (EInt 2) (EInt 3) (EInt 4) (EInt 5) s0 s1 t1 t2 ;-
  libhmac_sha224_context_transform_unfolded_calculate_hash_value values_32bit (EInt 43) hash_values (EInt 5) (EInt 6) (EInt 7) (EInt 0) (EInt 1) (EInt 2) (EInt 3) (EInt 4) s0 s1 t1 t2 ;-
  libhmac_sha224_context_transform_unfolded_calculate_hash_value values_32bit (EInt 44) hash_values (EInt 4) (EInt 5) (EInt 6) (EInt 7) (EInt 0) (EInt 1) (EInt 2) (EInt 3) s0 s1 t1 t2 ;-
  libhmac_sha224_context_transform_unfolded_calculate_hash_value values_32bit (EInt 45) hash_values (EInt 3) (EInt 4) (EInt 5) (EInt 6) (EInt 7) (EInt 0) (EInt 1) (EInt 2) s0 s1 t1 t2 ;-
  libhmac_sha224_context_transform_unfolded_calculate_hash_value values_32bit (EInt 46) hash_values (EInt 2) (EInt 3) (EInt 4) (EInt 5) (EInt 6) (EInt 7) (EInt 0) (EInt 1) s0 s1 t1 t2 ;-
  libhmac_sha224_context_transform_unfolded_calculate_hash_value values_32bit (EInt 47) hash_values (EInt 1) (EInt 2) (EInt 3) (EInt 4) (EInt 5) (EInt 6) (EInt 7) (EInt 0) s0 s1 t1 t2 ;-
  libhmac_sha224_context_transform_unfolded_calculate_hash_value values_32bit (EInt 48) hash_values (EInt 0) (EInt 1) (EInt 2) (EInt 3) (EInt 4) (EInt 5) (EInt 6) (EInt 7) s0 s1 t1 t2 ;-
  libhmac_sha224_context_transform_unfolded_calculate_hash_value values_32bit (EInt 49) hash_values (EInt 7) (EInt 0) (EInt 1) (EInt 2) (EInt 3) (EInt 4) (EInt 5) (EInt 6) s0 s1 t1 t2 ;-
  libhmac_sha224_context_transform_unfolded_calculate_hash_value values_32bit (EInt 50) hash_values (EInt 6) (EInt 7) (EInt 0) (EInt 1) (EInt 2) (EInt 3) (EInt 4) (EInt 5) s0 s1 t1 t2 ;-
  libhmac_sha224_context_transform_unfolded_calculate_hash_value values_32bit (EInt 51) hash_values (EInt 5) (EInt 6) (EInt 7) (EInt 0) (EInt 1) (EInt 2) (EInt 3) (EInt 4) s0 s1 t1 t2 ;-
  libhmac_sha224_context_transform_unfolded_calculate_hash_value values_32bit (EInt 52) hash_values (EInt 4) (EInt 5) (EInt 6) (EInt 7) (EInt 0) (EInt 1) (EInt 2) (EInt 3) s0 s1 t1 t2 ;-
  libhmac_sha224_context_transform_unfolded_calculate_hash_value values_32bit (EInt 53) hash_values (EInt 3) (EInt 4) (EInt 5) (EInt 6) (EInt 7) (EInt 0) (EInt 1) (EInt 2) s0 s1 t1 t2 ;-
  libhmac_sha224_context_transform_unfolded_calculate_hash_value values_32bit (EInt 54) hash_values (EInt 2) (EInt 3) (EInt 4) (EInt 5) (EInt 6) (EInt 7) (EInt 0) (EInt 1) s0 s1 t1 t2 ;-
  libhmac_sha224_context_transform_unfolded_calculate_hash_value values_32bit (EInt 55) hash_values (EInt 1) (EInt 2) (EInt 3) (EInt 4) (EInt 5) (EInt 6) (EInt 7) (EInt 0) s0 s1 t1 t2 ;-
  libhmac_sha224_context_transform_unfolded_calculate_hash_value values_32bit (EInt 56) hash_values (EInt 0) (EInt 1) (EInt 2) (EInt 3) (EInt 4) (EInt 5) (EInt 6) (EInt 7) s0 s1 t1 t2 ;-
  libhmac_sha224_context_transform_unfolded_calculate_hash_value values_32bit (EInt 57) hash_values (EInt 7) (EInt 0) (EInt 1) (EInt 2) (EInt 3) (EInt 4) (EInt 5) (EInt 6) s0 s1 t1 t2 ;-
  libhmac_sha224_context_transform_unfolded_calculate_hash_value values_32bit (EInt 58) hash_values (EInt 6) (EInt 7) (EInt 0) (EInt 1) (EInt 2) (EInt 3) (EInt 4) (EInt 5) s0 s1 t1 t2 ;-
  libhmac_sha224_context_transform_unfolded_calculate_hash_value values_32bit (EInt 59) hash_values (EInt 5) (EInt 6) (EInt 7) (EInt 0) (EInt 1) (EInt 2) (EInt 3) (EInt 4) s0 s1 t1 t2 ;-
  libhmac_sha224_context_transform_unfolded_calculate_hash_value values_32bit (EInt 60) hash_values (EInt 4) (EInt 5) (EInt 6) (EInt 7) (EInt 0) (EInt 1) (EInt 2) (EInt 3) s0 s1 t1 t2 ;-
  libhmac_sha224_context_transform_unfolded_calculate_hash_value values_32bit (EInt 61) hash_values (EInt 3) (EInt 4) (EInt 5) (EInt 6) (EInt 7) (EInt 0) (EInt 1) (EInt 2) s0 s1 t1 t2 ;-
  libhmac_sha224_context_transform_unfolded_calculate_hash_value values_32bit (EInt 62) hash_values (EInt 2) (EInt 3) (EInt 4) (EInt 5) (EInt 6) (EInt 7) (EInt 0) (EInt 1) s0 s1 t1 t2 ;-
  libhmac_sha224_context_transform_unfolded_calculate_hash_value values_32bit (EInt 63) hash_values (EInt 1) (EInt 2) (EInt 3) (EInt 4) (EInt 5) (EInt 6) (EInt 7) (EInt 0) s0 s1 t1 t2.

(* libhmac/libhmac_sha224_context.c:227-448 libhmac_sha224_context_transform *)
Definition text_libhmac_sha224_context_transform (unfolled : bool) : fundef := {|
  f_name := "libhmac_sha224_context_transform";
  f_ret := (true, RSz);
  f_params := [("internal_context", CPtr); ("buffer", CPtr); ("size", CInt false RSz); ("error", CPtr)];
  f_arrays := [("hash_values", R32, 8%nat); ("values_32bit", R32, 64%nat)];
  f_locals :=
     [("s0", (CInt false R32), (EInt 0));
      ("s1", (CInt false R32), (EInt 0));
      ("t1", (CInt false R32), (EInt 0));
      ("t2", (CInt false R32), (EInt 0));
      ("buffer_offset", (CInt false RSz), (EInt 0))] ++
     (if unfolled then [] else
      [("hash_values_index", (CInt false R8), (EInt 0));
       ("value_32bit_index", (CInt false R8), (EInt 0))]);
  f_body :=
    SIf (EBin OEq (EVar "internal_context") ENull) (
      SExpr (ECall "libcerror_error_set" [(EVar "error"); (EName "LIBCERROR_ERROR_DOMAIN_ARGUMENTS"); (EName "LIBCERROR_ARGUMENT_ERROR_INVALID_VALUE")]) ;-
      SReturn (EInt (-1))) SSkip ;-
    SIf (EBin OEq (EVar "buffer") ENull) (
      SExpr (ECall "libcerror_error_set" [(EVar "error"); (EName "LIBCERROR_ERROR_DOMAIN_ARGUMENTS"); (EName "LIBCERROR_ARGUMENT_ERROR_INVALID_VALUE")]) ;-
      SReturn (EInt (-1))) SSkip ;-
    SIf (EBin OGt (EVar "size") (ECast false RSz ESsizeMax)) (
      SExpr (ECall "libcerror_error_set" [(EVar "error"); (EName "LIBCERROR_ERROR_DOMAIN_ARGUMENTS"); (EName "LIBCERROR_ARGUMENT_ERROR_VALUE_EXCEEDS_MAXIMUM")]) ;-
      SReturn (EInt (-1))) SSkip ;-
    SWhile (EBin OGe (EVar "size") (EInt 64)) (
      SIf (EBin OEq (ECall "memory_copy" [(EVar "hash_values"); (EField (EVar "internal_context") "hash_values"); (EBin OMul (ESize 4) (EInt 8))]) ENull) (
        SExpr (ECall "libcerror_error_set" [(EVar "error"); (EName "LIBCERROR_ERROR_DOMAIN_MEMORY"); (EName "LIBCERROR_MEMORY_ERROR_COPY_FAILED")]) ;-
        SGoto) SSkip ;-
      (if unfolled then
        libhmac_byte_stream_copy_to_16x_uint32_big_endian (EAddr (EIndex (EVar "buffer") (EVar "buffer_offset"))) (EVar "values_32bit") ;-
        SOp OAdd (EVar "buffer_offset") (EInt 64) ;-
        libhmac_sha224_context_transform_unfolded_extend_32bit_values (EVar "values_32bit") (EVar "s0") (EVar "s1") ;-
        libhmac_sha224_context_transform_unfolded_calculate_hash_values (EVar "values_32bit") (EVar "hash_values") (EVar "s0") (EVar "s1") (EVar "t1") (EVar "t2") ;-
        SOp OAdd (EIndex (EField (EVar "internal_context") "hash_values") (EInt 0)) (EIndex (EVar "hash_values") (EInt 0)) ;-
        SOp OAdd (EIndex (EField (EVar "internal_context") "hash_values") (EInt 1)) (EIndex (EVar "hash_values") (EInt 1)) ;-
        SOp OAdd (EIndex (EField (EVar "internal_context") "hash_values") (EInt 2)) (EIndex (EVar "hash_values") (EInt 2)) ;-
        SOp OAdd (EIndex (EField (EVar "internal_context") "hash_values") (EInt 3)) (EIndex (EVar "hash_values") (EInt 3)) ;-
        SOp OAdd (EIndex (EField (EVar "internal_context") "hash_values") (EInt 4)) (EIndex (EVar "hash_values") (EInt 4)) ;-
        SOp OAdd (EIndex (EField (EVar "internal_context") "hash_values") (EInt 5)) (EIndex (EVar "hash_values") (EInt 5)) ;-
        SOp OAdd (EIndex (EField (EVar "internal_context") "hash_values") (EInt 6)) (EIndex (EVar "hash_values") (EInt 6)) ;-
        SOp OAdd (EIndex (EField (EVar "internal_context") "hash_values") (EInt 7)) (EIndex (EVar "hash_values") (EInt 7))
      else
        SFor (SAssign (EVar "value_32bit_index") (EInt 0)) (EBin OLt (EVar "value_32bit_index") (EInt 16)) (SOp OAdd (EVar "value_32bit_index") (EInt 1)) (
          byte_stream_copy_to_uint32_big_endian (EAddr (EIndex (EVar "buffer") (EVar "buffer_offset"))) (EIndex (EVar "values_32bit") (EVar "value_32bit_index")) ;-
          SOp OAdd (EVar "buffer_offset") (ESize 4)) ;-
        SFor (SAssign (EVar "value_32bit_index") (EInt 16)) (EBin OLt (EVar "value_32bit_index") (EInt 64)) (SOp OAdd (EVar "value_32bit_index") (EInt 1)) (
          libhmac_sha224_context_transform_extend_32bit_value (EVar "values_32bit") (EVar "value_32bit_index") (EVar "s0") (EVar "s1")) ;-
        SFor (SAssign (EVar "value_32bit_index") (EInt 0)) (EBin OLt (EVar "value_32bit_index") (EInt 64)) (SOp OAdd (EVar "value_32bit_index") (EInt 1)) (
          SAssign (EVar "s0") (EBin OXor (EBin OXor (byte_stream_bit_rotate_right_32bit (EIndex (EVar "hash_values") (EInt 0)) (EInt 2)) (byte_stream_bit_rotate_right_32bit (EIndex (EVar "hash_values") (EInt 0)) (EInt 13))) (byte_stream_bit_rotate_right_32bit (EIndex (EVar "hash_values") (EInt 0)) (EInt 22))) ;-
          SAssign (EVar "s1") (EBin OXor (EBin OXor (byte_stream_bit_rotate_right_32bit (EIndex (EVar "hash_values") (EInt 4)) (EInt 6)) (byte_stream_bit_rotate_right_32bit (EIndex (EVar "hash_values") (EInt 4)) (EInt 11))) (byte_stream_bit_rotate_right_32bit (EIndex (EVar "hash_values") (EInt 4)) (EInt 25))) ;-
          SAssign (EVar "t1") (EIndex (EVar "hash_values") (EInt 7)) ;-
          SOp OAdd (EVar "t1") (EVar "s1") ;-
          SOp OAdd (EVar "t1") (EBin OXor (EBin OAnd (EIndex (EVar "hash_values") (EInt 4)) (EIndex (EVar "hash_values") (EInt 5))) (EBin OAnd (ENot (EIndex (EVar "hash_values") (EInt 4))) (EIndex (EVar "hash_values") (EInt 6)))) ;-
          SOp OAdd (EVar "t1") (EIndex (EVar "libhmac_sha224_context_prime_cube_roots") (EVar "value_32bit_index")) ;-
          SOp OAdd (EVar "t1") (EIndex (EVar "values_32bit") (EVar "value_32bit_index")) ;-
          SAssign (EVar "t2") (EVar "s0") ;-
          SOp OAdd (EVar "t2") (EBin OXor (EBin OXor (EBin OAnd (EIndex (EVar "hash_values") (EInt 0)) (EIndex (EVar "hash_values") (EInt 1))) (EBin OAnd (EIndex (EVar "hash_values") (EInt 0)) (EIndex (EVar "hash_values") (EInt 2)))) (EBin OAnd (EIndex (EVar "hash_values") (EInt 1)) (EIndex (EVar "hash_values") (EInt 2)))) ;-
          SAssign (EIndex (EVar "hash_values") (EInt 7)) (EIndex (EVar "hash_values") (EInt 6)) ;-
          SAssign (EIndex (EVar "hash_values") (EInt 6)) (EIndex (EVar "hash_values") (EInt 5)) ;-
          SAssign (EIndex (EVar "hash_values") (EInt 5)) (EIndex (EVar "hash_values") (EInt 4)) ;-
          SAssign (EIndex (EVar "hash_values") (EInt 4)) (EBin OAdd (EIndex (EVar "hash_values") (EInt 3)) (EVar "t1")) ;-
          SAssign (EIndex (EVar "hash_values") (EInt 3)) (EIndex (EVar "hash_values") (EInt 2)) ;-
          SAssign (EIndex (EVar "hash_values") (EInt 2)) (EIndex (EVar "hash_values") (EInt 1)) ;-
          SAssign (EIndex (EVar "hash_values") (EInt 1)) (EIndex (EVar "hash_values") (EInt 0)) ;-
          SAssign (EIndex (EVar "hash_values") (EInt 0)) (EBin OAdd (EVar "t1") (EVar "t2"))) ;-
        SFor (SAssign (EVar "hash_values_index") (EInt 0)) (EBin OLt (EVar "hash_values_index") (EInt 8)) (SOp OAdd (EVar "hash_values_index") (EInt 1)) (
          SOp OAdd (EIndex (EField (EVar "internal_context") "hash_values") (EVar "hash_values_index")) (EIndex (EVar "hash_values") (EVar "hash_values_index")))) ;-
      SOp OSub (EVar "size") (EInt 64)) ;-
    SIf (EBin OEq (ECall "memory_set" [(EVar "hash_values"); (EInt 0); (EBin OMul (ESize 4) (EInt 8))]) ENull) (
      SExpr (ECall "libcerror_error_set" [(EVar "error"); (EName "LIBCERROR_ERROR_DOMAIN_MEMORY"); (EName "LIBCERROR_MEMORY_ERROR_SET_FAILED")]) ;-
      SGoto) SSkip ;-
    SIf (EBin OEq (ECall "memory_set" [(EVar "values_32bit"); (EInt 0); (EBin OMul (ESize 4) (EInt 64))]) ENull) (
      SExpr (ECall "libcerror_error_set" [(EVar "error"); (EName "LIBCERROR_ERROR_DOMAIN_MEMORY"); (EName "LIBCERROR_MEMORY_ERROR_SET_FAILED")]) ;-
      SGoto) SSkip ;-
    SReturn (ECast true RSz (EVar "buffer_offset"));
  f_error :=
    SExpr (ECall "memory_set" [(EVar "values_32bit"); (EInt 0); (EBin OMul (ESize 4) (EInt 64))]) ;-
    SExpr (ECall "memory_set" [(EVar "hash_values"); (EInt 0); (EBin OMul (ESize 4) (EInt 8))]) ;-
    SReturn (EInt (-1)) |}.

(* libhmac/libhmac_sha224_context.c:456-619 libhmac_sha224_context_initialize *)
Definition text_libhmac_sha224_context_initialize (unfolled : bool) : fundef := {|
  f_name := "libhmac_sha224_context_initialize";
  f_ret := (true, R32);
  f_params := [("context", CPtr); ("error", CPtr)];
  f_arrays := [];
  f_locals :=
     [("internal_context", CPtr, ENull)];
  f_body :=
    SIf (EBin OEq (EVar "context") ENull) (
      SExpr (ECall "libcerror_error_set" [(EVar "error"); (EName "LIBCERROR_ERROR_DOMAIN_ARGUMENTS"); (EName "LIBCERROR_ARGUMENT_ERROR_INVALID_VALUE")]) ;-
      SReturn (EInt (-1))) SSkip ;-
    SIf (EBin ONe (EStar "context") ENull) (
      SExpr (ECall "libcerror_error_set" [(EVar "error"); (EName "LIBCERROR_ERROR_DOMAIN_RUNTIME"); (EName "LIBCERROR_RUNTIME_ERROR_VALUE_ALREADY_SET")]) ;-
      SReturn (EInt (-1))) SSkip ;-
    SAssign (EVar "internal_context") (ECall "memory_allocate_structure" [ESizeof "libhmac_internal_sha224_context_t"]) ;-
    SIf (EBin OEq (EVar "internal_context") ENull) (
      SExpr (ECall "libcerror_error_set" [(EVar "error"); (EName "LIBCERROR_ERROR_DOMAIN_MEMORY"); (EName "LIBCERROR_MEMORY_ERROR_INSUFFICIENT")]) ;-
      SGoto) SSkip ;-
    SIf (EBin OEq (ECall "memory_set" [(EVar "internal_context"); (EInt 0); (ESizeof "libhmac_internal_sha224_context_t")]) ENull) (
      SExpr (ECall "libcerror_error_set" [(EVar "error"); (EName "LIBCERROR_ERROR_DOMAIN_MEMORY"); (EName "LIBCERROR_MEMORY_ERROR_SET_FAILED")]) ;-
      SExpr (ECall "memory_free" [(EVar "internal_context")]) ;-
      SReturn (EInt (-1))) SSkip ;-
    SIf (EBin OEq (ECall "memory_copy" [(EField (EVar "internal_context") "hash_values"); (EVar "libhmac_sha224_context_prime_square_roots"); (EBin OMul (ESize 4) (EInt 8))]) ENull) (
      SExpr (ECall "libcerror_error_set" [(EVar "error"); (EName "LIBCERROR_ERROR_DOMAIN_MEMORY"); (EName "LIBCERROR_MEMORY_ERROR_COPY_FAILED")]) ;-
      SReturn (EInt (-1))) SSkip ;-
    SAssign (EStar "context") (EVar "internal_context") ;-
    SReturn (EInt 1);
  f_error :=
    SIf (EBin ONe (EVar "internal_context") ENull) (
      SExpr (ECall "memory_free" [(EVar "internal_context")])) SSkip ;-
    SReturn (EInt (-1)) |}.

(* libhmac/libhmac_sha224_context.c:624-683 libhmac_sha224_context_free *)
Definition text_libhmac_sha224_context_free (unfolled : bool) : fundef := {|
  f_name := "libhmac_sha224_context_free";
  f_ret := (true, R32);
  f_params := [("context", CPtr); ("error", CPtr)];
  f_arrays := [];
  f_locals :=
     [("internal_context", CPtr, ENull)];
  f_body :=
    SIf (EBin OEq (EVar "context") ENull) (
      SExpr (ECall "libcerror_error_set" [(EVar "error"); (EName "LIBCERROR_ERROR_DOMAIN_ARGUMENTS"); (EName "LIBCERROR_ARGUMENT_ERROR_INVALID_VALUE")]) ;-
      SReturn (EInt (-1))) SSkip ;-
    SIf (EBin ONe (EStar "context") ENull) (
      SAssign (EVar "internal_context") (EStar "context") ;-
      SAssign (EStar "context") ENull ;-
      SExpr (ECall "memory_free" [(EVar "internal_context")])) SSkip ;-
    SReturn (EInt 1);
  f_error :=
    SSkip |}.

(* libhmac/libhmac_sha224_context.c:837-1004 libhmac_sha224_context_update *)
Definition text_libhmac_sha224_context_update (unfolled : bool) : fundef := {|
  f_name := "libhmac_sha224_context_update";
  f_ret := (true, R32);
  f_params := [("context", CPtr); ("buffer", CPtr); ("size", CInt false RSz); ("error", CPtr)];
  f_arrays := [];
  f_locals :=
     [("internal_context", CPtr, ENull);
      ("buffer_offset", (CInt false RSz), (EInt 0));
      ("remaining_block_size", (CInt false RSz), (EInt 0));
      ("process_count", (CInt true RSz), (EInt 0))];
  f_body :=
    SIf (EBin OEq (EVar "context") ENull) (
      SExpr (ECall "libcerror_error_set" [(EVar "error"); (EName "LIBCERROR_ERROR_DOMAIN_ARGUMENTS"); (EName "LIBCERROR_ARGUMENT_ERROR_INVALID_VALUE")]) ;-
      SReturn (EInt (-1))) SSkip ;-
    SAssign (EVar "internal_context") (EVar "context") ;-
    SIf (EBin OEq (EVar "buffer") ENull) (
      SExpr (ECall "libcerror_error_set" [(EVar "error"); (EName "LIBCERROR_ERROR_DOMAIN_ARGUMENTS"); (EName "LIBCERROR_ARGUMENT_ERROR_INVALID_VALUE")]) ;-
      SReturn (EInt (-1))) SSkip ;-
    SIf (EBin OGt (EVar "size") (ECast false RSz ESsizeMax)) (
      SExpr (ECall "libcerror_error_set" [(EVar "error"); (EName "LIBCERROR_ERROR_DOMAIN_ARGUMENTS"); (EName "LIBCERROR_ARGUMENT_ERROR_VALUE_EXCEEDS_MAXIMUM")]) ;-
      SReturn (EInt (-1))) SSkip ;-
    SIf (EBin OEq (EVar "size") (EInt 0)) (
      SReturn (EInt 1)) SSkip ;-
    SIf (EBin OGt (EField (EVar "internal_context") "block_offset") (EInt 0)) (
      SIf (EBin OGe (EField (EVar "internal_context") "block_offset") (EInt 64)) (
        SExpr (ECall "libcerror_error_set" [(EVar "error"); (EName "LIBCERROR_ERROR_DOMAIN_RUNTIME"); (EName "LIBCERROR_RUNTIME_ERROR_VALUE_OUT_OF_BOUNDS")]) ;-
        SReturn (EInt (-1))) SSkip ;-
      SAssign (EVar "remaining_block_size") (EBin OSub (EInt 64) (EField (EVar "internal_context") "block_offset")) ;-
      SIf (EBin OGt (EVar "remaining_block_size") (EVar "size")) (
        SAssign (EVar "remaining_block_size") (EVar "size")) SSkip ;-
      SIf (EBin OEq (ECall "memory_copy" [(EAddr (EIndex (EField (EVar "internal_context") "block") (EField (EVar "internal_context") "block_offset"))); (EVar "buffer"); (EVar "remaining_block_size")]) ENull) (
        SExpr (ECall "libcerror_error_set" [(EVar "error"); (EName "LIBCERROR_ERROR_DOMAIN_MEMORY"); (EName "LIBCERROR_MEMORY_ERROR_COPY_FAILED")]) ;-
        SReturn (EInt (-1))) SSkip ;-
      SOp OAdd (EField (EVar "internal_context") "block_offset") (EVar "remaining_block_size") ;-
      SIf (EBin OLt (EField (EVar "internal_context") "block_offset") (EInt 64)) (
        SReturn (EInt 1)) SSkip ;-
      SOp OAdd (EVar "buffer_offset") (EVar "remaining_block_size") ;-
      SOp OSub (EVar "size") (EVar "remaining_block_size") ;-
      SAssign (EVar "process_count") (ECall "libhmac_sha224_context_transform" [(EVar "internal_context"); (EField (EVar "internal_context") "block"); (EInt 64); (EVar "error")]) ;-
      SIf (EBin OEq (EVar "process_count") (EInt (-1))) (
        SExpr (ECall "libcerror_error_set" [(EVar "error"); (EName "LIBCERROR_ERROR_DOMAIN_RUNTIME"); (EName "LIBCERROR_RUNTIME_ERROR_SET_FAILED")]) ;-
        SReturn (EInt (-1))) SSkip ;-
      SOp OAdd (EField (EVar "internal_context") "hash_count") (EVar "process_count") ;-
      SAssign (EField (EVar "internal_context") "block_offset") (EInt 0)) SSkip ;-
    SIf (EBin OGt (EVar "size") (EInt 0)) (
      SAssign (EVar "process_count") (ECall "libhmac_sha224_context_transform" [(EVar "internal_context"); (EAddr (EIndex (EVar "buffer") (EVar "buffer_offset"))); (EVar "size"); (EVar "error")]) ;-
      SIf (EBin OEq (EVar "process_count") (EInt (-1))) (
        SExpr (ECall "libcerror_error_set" [(EVar "error"); (EName "LIBCERROR_ERROR_DOMAIN_RUNTIME"); (EName "LIBCERROR_RUNTIME_ERROR_SET_FAILED")]) ;-
        SReturn (EInt (-1))) SSkip ;-
      SOp OAdd (EField (EVar "internal_context") "hash_count") (EVar "process_count") ;-
      SOp OAdd (EVar "buffer_offset") (EVar "process_count") ;-
      SOp OSub (EVar "size") (EVar "process_count")) SSkip ;-
    SIf (EBin OGt (EVar "size") (EInt 0)) (
      SIf (EBin OGe (EVar "size") (EInt 64)) (
        SExpr (ECall "libcerror_error_set" [(EVar "error"); (EName "LIBCERROR_ERROR_DOMAIN_RUNTIME"); (EName "LIBCERROR_RUNTIME_ERROR_VALUE_OUT_OF_BOUNDS")]) ;-
        SReturn (EInt (-1))) SSkip ;-
      SIf (EBin OEq (ECall "memory_copy" [(EField (EVar "internal_context") "block"); (EAddr (EIndex (EVar "buffer") (EVar "buffer_offset"))); (EVar "size")]) ENull) (
        SExpr (ECall "libcerror_error_set" [(EVar "error"); (EName "LIBCERROR_ERROR_DOMAIN_MEMORY"); (EName "LIBCERROR_MEMORY_ERROR_COPY_FAILED")]) ;-
        SReturn (EInt (-1))) SSkip ;-
      SAssign (EField (EVar "internal_context") "block_offset") (EVar "size")) SSkip ;-
    SReturn (EInt 1);
  f_error :=
    SSkip |}.

(* common/byte_stream.h:174-178 #define byte_stream_copy_from_uint32_big_endian *)
Definition byte_stream_copy_from_uint32_big_endian (byte_stream value : expr) : stmt :=
  SAssign (EIndex byte_stream (EInt 0)) (ECast false R8 (EBin OAnd (EBin OShr value (EInt 24)) (EInt 255))) ;-
  SAssign (EIndex byte_stream (EInt 1)) (ECast false R8 (EBin OAnd (EBin OShr value (EInt 16)) (EInt 255))) ;-
  SAssign (EIndex byte_stream (EInt 2)) (ECast false R8 (EBin OAnd (EBin OShr value (EInt 8)) (EInt 255))) ;-
  SAssign (EIndex byte_stream (EInt 3)) (ECast false R8 (EBin OAnd value (EInt 255))).

(* common/byte_stream.h:202-210 #define byte_stream_copy_from_uint64_big_endian *)
Definition byte_stream_copy_from_uint64_big_endian (byte_stream value : expr) : stmt :=
  SAssign (EIndex byte_stream (EInt 0)) (ECast false R8 (EBin OAnd (EBin OShr value (EInt 56)) (EInt 255))) ;-
  SAssign (EIndex byte_stream (EInt 1)) (ECast false R8 (EBin OAnd (EBin OShr value (EInt 48)) (EInt 255))) ;-
  SAssign (EIndex byte_stream (EInt 2)) (ECast false R8 (EBin OAnd (EBin OShr value (EInt 40)) (EInt 255))) ;-
  SAssign (EIndex byte_stream (EInt 3)) (ECast false R8 (EBin OAnd (EBin OShr value (EInt 32)) (EInt 255))) ;-
  SAssign (EIndex byte_stream (EInt 4)) (ECast false R8 (EBin OAnd (EBin OShr value (EInt 24)) (EInt 255))) ;-
  SAssign (EIndex byte_stream (EInt 5)) (ECast false R8 (EBin OAnd (EBin OShr value (EInt 16)) (EInt 255))) ;-
  SAssign (EIndex byte_stream (EInt 6)) (ECast false R8 (EBin OAnd (EBin OShr value (EInt 8)) (EInt 255))) ;-
  SAssign (EIndex byte_stream (EInt 7)) (ECast false R8 (EBin OAnd value (EInt 255))).

(* libhmac/libhmac_sha224_context.c:1159-1345 libhmac_sha224_context_finalize *)
Definition text_libhmac_sha224_context_finalize (unfolled : bool) : fundef := {|
  f_name := "libhmac_sha224_context_finalize";
  f_ret := (true, R32);
  f_params := [("context", CPtr); ("hash", CPtr); ("hash_size", CInt false RSz); ("error", CPtr)];
  f_arrays := [];
  f_locals :=
     [("internal_context", CPtr, ENull);
      ("block_size", (CInt false RSz), (EInt 0));
      ("number_of_blocks", (CInt false RSz), (EInt 0));
      ("process_count", (CInt true RSz), (EInt 0));
      ("bit_size", (CInt false R64), (EInt 0))] ++
     (if unfolled then [] else
      [("hash_index", (CInt false RSz), (EInt 0));
       ("hash_values_index", (CInt true R32), (EInt 0))]);
  f_body :=
    SIf (EBin OEq (EVar "context") ENull) (
      SExpr (ECall "libcerror_error_set" [(EVar "error"); (EName "LIBCERROR_ERROR_DOMAIN_ARGUMENTS"); (EName "LIBCERROR_ARGUMENT_ERROR_INVALID_VALUE")]) ;-
      SReturn (EInt (-1))) SSkip ;-
    SAssign (EVar "internal_context") (EVar "context") ;-
    SIf (EBin OEq (EVar "hash") ENull) (
      SExpr (ECall "libcerror_error_set" [(EVar "error"); (EName "LIBCERROR_ERROR_DOMAIN_ARGUMENTS"); (EName "LIBCERROR_ARGUMENT_ERROR_INVALID_VALUE")]) ;-
      SReturn (EInt (-1))) SSkip ;-
    SIf (EBin OLt (EVar "hash_size") (ECast false RSz (EInt 28))) (
      SExpr (ECall "libcerror_error_set" [(EVar "error"); (EName "LIBCERROR_ERROR_DOMAIN_ARGUMENTS"); (EName "LIBCERROR_ARGUMENT_ERROR_VALUE_TOO_SMALL")]) ;-
      SReturn (EInt (-1))) SSkip ;-
    SIf (EBin OGt (EVar "hash_size") (ECast false RSz ESsizeMax)) (
      SExpr (ECall "libcerror_error_set" [(EVar "error"); (EName "LIBCERROR_ERROR_DOMAIN_ARGUMENTS"); (EName "LIBCERROR_ARGUMENT_ERROR_VALUE_EXCEEDS_MAXIMUM")]) ;-
      SReturn (EInt (-1))) SSkip ;-
    SIf (EBin OLt (EVar "hash_size") (ECast false RSz (EInt 28))) (
      SExpr (ECall "libcerror_error_set" [(EVar "error"); (EName "LIBCERROR_ERROR_DOMAIN_ARGUMENTS"); (EName "LIBCERROR_ARGUMENT_ERROR_VALUE_TOO_SMALL")]) ;-
      SReturn (EInt (-1))) SSkip ;-
    SAssign (EVar "number_of_blocks") (EInt 1) ;-
    SIf (EBin OGt (EField (EVar "internal_context") "block_offset") (EInt 55)) (
      SOp OAdd (EVar "number_of_blocks") (EInt 1)) SSkip ;-
    SAssign (EVar "block_size") (EBin OMul (EVar "number_of_blocks") (EInt 64)) ;-
    SIf (EBin OEq (ECall "memory_set" [(EAddr (EIndex (EField (EVar "internal_context") "block") (EField (EVar "internal_context") "block_offset"))); (EInt 0); (EBin OSub (EVar "block_size") (EField (EVar "internal_context") "block_offset"))]) ENull) (
      SExpr (ECall "libcerror_error_set" [(EVar "error"); (EName "LIBCERROR_ERROR_DOMAIN_MEMORY"); (EName "LIBCERROR_MEMORY_ERROR_SET_FAILED")]) ;-
      SReturn (EInt (-1))) SSkip ;-
    SAssign (EIndex (EField (EVar "internal_context") "block") (EField (EVar "internal_context") "block_offset")) (EInt 128) ;-
    SAssign (EVar "bit_size") (EBin OMul (EBin OAdd (EField (EVar "internal_context") "hash_count") (EField (EVar "internal_context") "block_offset")) (EInt 8)) ;-
    byte_stream_copy_from_uint64_big_endian (EAddr (EIndex (EField (EVar "internal_context") "block") (EBin OSub (EVar "block_size") (EInt 8)))) (EVar "bit_size") ;-
    SAssign (EVar "process_count") (ECall "libhmac_sha224_context_transform" [(EVar "internal_context"); (EField (EVar "internal_context") "block"); (EVar "block_size"); (EVar "error")]) ;-
    SIf (EBin OEq (EVar "process_count") (EInt (-1))) (
      SExpr (ECall "libcerror_error_set" [(EVar "error"); (EName "LIBCERROR_ERROR_DOMAIN_RUNTIME"); (EName "LIBCERROR_RUNTIME_ERROR_SET_FAILED")]) ;-
      SReturn (EInt (-1))) SSkip ;-
    (if unfolled then
      byte_stream_copy_from_uint32_big_endian (EAddr (EIndex (EVar "hash") (EInt 0))) (EIndex (EField (EVar "internal_context") "hash_values") (EInt 0)) ;-
      byte_stream_copy_from_uint32_big_endian (EAddr (EIndex (EVar "hash") (EInt 4))) (EIndex (EField (EVar "internal_context") "hash_values") (EInt 1)) ;-
      byte_stream_copy_from_uint32_big_endian (EAddr (EIndex (EVar "hash") (EInt 8))) (EIndex (EField (EVar "internal_context") "hash_values") (EInt 2)) ;-
      byte_stream_copy_from_uint32_big_endian (EAddr (EIndex (EVar "hash") (EInt 12))) (EIndex (EField (EVar "internal_context") "hash_values") (EInt 3)) ;-
      byte_stream_copy_from_uint32_big_endian (EAddr (EIndex (EVar "hash") (EInt 16))) (EIndex (EField (EVar "internal_context") "hash_values") (EInt 4)) ;-
      byte_stream_copy_from_uint32_big_endian (EAddr (EIndex (EVar "hash") (EInt 20))) (EIndex (EField (EVar "internal_context") "hash_values") (EInt 5)) ;-
      byte_stream_copy_from_uint32_big_endian (EAddr (EIndex (EVar "hash") (EInt 24))) (EIndex (EField (EVar "internal_context") "hash_values") (EInt 6))
    else
      SFor (SAssign (EVar "hash_values_index") (EInt 0)) (EBin OLt (EVar "hash_values_index") (EInt 7)) (SOp OAdd (EVar "hash_values_index") (EInt 1)) (
        byte_stream_copy_from_uint32_big_endian (EAddr (EIndex (EVar "hash") (EVar "hash_index"))) (EIndex (EField (EVar "internal_context") "hash_values") (EVar "hash_values_index")) ;-
        SOp OAdd (EVar "hash_index") (ESize 4))) ;-
    SIf (EBin OEq (ECall "memory_set" [(EVar "internal_context"); (EInt 0); (ESizeof "libhmac_internal_sha224_context_t")]) ENull) (
      SExpr (ECall "libcerror_error_set" [(EVar "error"); (EName "LIBCERROR_ERROR_DOMAIN_MEMORY"); (EName "LIBCERROR_MEMORY_ERROR_SET_FAILED")]) ;-
      SReturn (EInt (-1))) SSkip ;-
    SReturn (EInt 1);
  f_error :=
    SSkip |}.

(* libhmac/libhmac_sha224.c:35-55 libhmac_sha224_initialize *)
Definition text_libhmac_sha224_initialize (unfolled : bool) : fundef := {|
  f_name := "libhmac_sha224_initialize";
  f_ret := (true, R32);
  f_params := [("context", CPtr); ("error", CPtr)];
  f_arrays := [];
  f_locals :=
     [];
  f_body :=
    SIf (EBin ONe (ECall "libhmac_sha224_context_initialize" [(EVar "context"); (EVar "error")]) (EInt 1)) (
      SExpr (ECall "libcerror_error_set" [(EVar "error"); (EName "LIBCERROR_ERROR_DOMAIN_RUNTIME"); (EName "LIBCERROR_RUNTIME_ERROR_INITIALIZE_FAILED")]) ;-
      SReturn (EInt (-1))) SSkip ;-
    SReturn (EInt 1);
  f_error :=
    SSkip |}.

(* libhmac/libhmac_sha224.c:60-80 libhmac_sha224_free *)
Definition text_libhmac_sha224_free (unfolled : bool) : fundef := {|
  f_name := "libhmac_sha224_free";
  f_ret := (true, R32);
  f_params := [("context", CPtr); ("error", CPtr)];
  f_arrays := [];
  f_locals :=
     [];
  f_body :=
    SIf (EBin ONe (ECall "libhmac_sha224_context_free" [(EVar "context"); (EVar "error")]) (EInt 1)) (
      SExpr (ECall "libcerror_error_set" [(EVar "error"); (EName "LIBCERROR_ERROR_DOMAIN_RUNTIME"); (EName "LIBCERROR_RUNTIME_ERROR_FINALIZE_FAILED")]) ;-
      SReturn (EInt (-1))) SSkip ;-
    SReturn (EInt 1);
  f_error :=
    SSkip |}.

(* libhmac/libhmac_sha224.c:85-109 libhmac_sha224_update *)
Definition text_libhmac_sha224_update (unfolled : bool) : fundef := {|
  f_name := "libhmac_sha224_update";
  f_ret := (true, R32);
  f_params := [("context", CPtr); ("buffer", CPtr); ("size", CInt false RSz); ("error", CPtr)];
  f_arrays := [];
  f_locals :=
     [];
  f_body :=
    SIf (EBin ONe (ECall "libhmac_sha224_context_update" [(EVar "context"); (EVar "buffer"); (EVar "size"); (EVar "error")]) (EInt 1)) (
      SExpr (ECall "libcerror_error_set" [(EVar "error"); (EName "LIBCERROR_ERROR_DOMAIN_RUNTIME"); (EName "LIBCERROR_RUNTIME_ERROR_SET_FAILED")]) ;-
      SReturn (EInt (-1))) SSkip ;-
    SReturn (EInt 1);
  f_error :=
    SSkip |}.

(* libhmac/libhmac_sha224.c:114-138 libhmac_sha224_finalize *)
Definition text_libhmac_sha224_finalize (unfolled : bool) : fundef := {|
  f_name := "libhmac_sha224_finalize";
  f_ret := (true, R32);
  f_params := [("context", CPtr); ("hash", CPtr); ("hash_size", CInt false RSz); ("error", CPtr)];
  f_arrays := [];
  f_locals :=
     [];
  f_body :=
    SIf (EBin ONe (ECall "libhmac_sha224_context_finalize" [(EVar "context"); (EVar "hash"); (EVar "hash_size"); (EVar "error")]) (EInt 1)) (
      SExpr (ECall "libcerror_error_set" [(EVar "error"); (EName "LIBCERROR_ERROR_DOMAIN_RUNTIME"); (EName "LIBCERROR_RUNTIME_ERROR_FINALIZE_FAILED")]) ;-
      SReturn (EInt (-1))) SSkip ;-
    SReturn (EInt 1);
  f_error :=
    SSkip |}.

(* libhmac/libhmac_sha224.c:143-219 libhmac_sha224_calculate *)
Definition text_libhmac_sha224_calculate (unfolled : bool) : fundef := {|
  f_name := "libhmac_sha224_calculate";
  f_ret := (true, R32);
  f_params := [("buffer", CPtr); ("size", CInt false RSz); ("hash", CPtr); ("hash_size", CInt false RSz); ("error", CPtr)];
  f_arrays := [];
  f_locals :=
     [("context", CPtr, ENull)];
  f_body :=
    SIf (EBin ONe (ECall "libhmac_sha224_context_initialize" [(ERef "context"); (EVar "error")]) (EInt 1)) (
      SExpr (ECall "libcerror_error_set" [(EVar "error"); (EName "LIBCERROR_ERROR_DOMAIN_RUNTIME"); (EName "LIBCERROR_RUNTIME_ERROR_INITIALIZE_FAILED")]) ;-
      SGoto) SSkip ;-
    SIf (EBin ONe (ECall "libhmac_sha224_context_update" [(EVar "context"); (EVar "buffer"); (EVar "size"); (EVar "error")]) (EInt 1)) (
      SExpr (ECall "libcerror_error_set" [(EVar "error"); (EName "LIBCERROR_ERROR_DOMAIN_RUNTIME"); (EName "LIBCERROR_RUNTIME_ERROR_SET_FAILED")]) ;-
      SGoto) SSkip ;-
    SIf (EBin ONe (ECall "libhmac_sha224_context_finalize" [(EVar "context"); (EVar "hash"); (EVar "hash_size"); (EVar "error")]) (EInt 1)) (
      SExpr (ECall "libcerror_error_set" [(EVar "error"); (EName "LIBCERROR_ERROR_DOMAIN_RUNTIME"); (EName "LIBCERROR_RUNTIME_ERROR_FINALIZE_FAILED")]) ;-
      SGoto) SSkip ;-
    SIf (EBin ONe (ECall "libhmac_sha224_context_free" [(ERef "context"); (EVar "error")]) (EInt 1)) (
      SExpr (ECall "libcerror_error_set" [(EVar "error"); (EName "LIBCERROR_ERROR_DOMAIN_RUNTIME"); (EName "LIBCERROR_RUNTIME_ERROR_FINALIZE_FAILED")]) ;-
      SGoto) SSkip ;-
    SReturn (EInt 1);
  f_error :=
    SIf (EBin ONe (EVar "context") ENull) (
      SExpr (ECall "libhmac_sha224_context_free" [(ERef "context"); ENull])) SSkip ;-
    SReturn (EInt (-1)) |}.

(* libhmac/libhmac_sha224.c:225-714 libhmac_sha224_calculate_hmac *)
Definition text_libhmac_sha224_calculate_hmac (unfolled : bool) : fundef := {|
  f_name := "libhmac_sha224_calculate_hmac";
  f_ret := (true, R32);
  f_params := [("key", CPtr); ("key_size", CInt false RSz); ("buffer", CPtr); ("size", CInt false RSz); ("hmac", CPtr); ("hmac_size", CInt false RSz); ("error", CPtr)];
  f_arrays := [("key_hash", R8, 28%nat)];
  f_locals :=
     [("context", CPtr, ENull);
      ("key_data", CPtr, ENull);
      ("inner_padding", CPtr, ENull);
      ("outer_padding", CPtr, ENull);
      ("block_index", (CInt false RSz), (EInt 0));
      ("block_size", (CInt false RSz), (EInt 64))];
  f_body :=
    SIf (EBin OEq (EVar "key") ENull) (
      SExpr (ECall "libcerror_error_set" [(EVar "error"); (EName "LIBCERROR_ERROR_DOMAIN_ARGUMENTS"); (EName "LIBCERROR_ARGUMENT_ERROR_INVALID_VALUE")]) ;-
      SReturn (EInt (-1))) SSkip ;-
    SIf (EBin OGt (EVar "key_size") (ECast false RSz ESsizeMax)) (
      SExpr (ECall "libcerror_error_set" [(EVar "error"); (EName "LIBCERROR_ERROR_DOMAIN_ARGUMENTS"); (EName "LIBCERROR_ARGUMENT_ERROR_VALUE_EXCEEDS_MAXIMUM")]) ;-
      SReturn (EInt (-1))) SSkip ;-
    SIf (EBin OLt (EVar "hmac_size") (ECast false RSz (EInt 28))) (
      SExpr (ECall "libcerror_error_set" [(EVar "error"); (EName "LIBCERROR_ERROR_DOMAIN_ARGUMENTS"); (EName "LIBCERROR_ARGUMENT_ERROR_VALUE_TOO_SMALL")]) ;-
      SReturn (EInt (-1))) SSkip ;-
    SAssign (EVar "key_data") (ECall "memory_allocate" [(EBin OMul (ESize 1) (EVar "block_size"))]) ;-
    SIf (EBin OEq (EVar "key_data") ENull) (
      SExpr (ECall "libcerror_error_set" [(EVar "error"); (EName "LIBCERROR_ERROR_DOMAIN_MEMORY"); (EName "LIBCERROR_MEMORY_ERROR_INSUFFICIENT")]) ;-
      SGoto) SSkip ;-
    SIf (EBin OLe (EVar "key_size") (EVar "block_size")) (
      SIf (EBin OEq (ECall "memory_copy" [(EVar "key_data"); (EVar "key"); (EVar "key_size")]) ENull) (
        SExpr (ECall "libcerror_error_set" [(EVar "error"); (EName "LIBCERROR_ERROR_DOMAIN_MEMORY"); (EName "LIBCERROR_MEMORY_ERROR_COPY_FAILED")]) ;-
        SGoto) SSkip ;-
      SIf (EBin OEq (ECall "memory_set" [(EAddr (EIndex (EVar "key_data") (EVar "key_size"))); (EInt 0); (EBin OSub (EVar "block_size") (EVar "key_size"))]) ENull) (
        SExpr (ECall "libcerror_error_set" [(EVar "error"); (EName "LIBCERROR_ERROR_DOMAIN_MEMORY"); (EName "LIBCERROR_MEMORY_ERROR_SET_FAILED")]) ;-
        SGoto) SSkip)
    (
      SIf (EBin ONe (ECall "libhmac_sha224_context_initialize" [(ERef "context"); (EVar "error")]) (EInt 1)) (
        SExpr (ECall "libcerror_error_set" [(EVar "error"); (EName "LIBCERROR_ERROR_DOMAIN_RUNTIME"); (EName "LIBCERROR_RUNTIME_ERROR_INITIALIZE_FAILED")]) ;-
        SGoto) SSkip ;-
      SIf (EBin ONe (ECall "libhmac_sha224_context_update" [(EVar "context"); (EVar "key"); (EVar "key_size"); (EVar "error")]) (EInt 1)) (
        SExpr (ECall "libcerror_error_set" [(EVar "error"); (EName "LIBCERROR_ERROR_DOMAIN_RUNTIME"); (EName "LIBCERROR_RUNTIME_ERROR_SET_FAILED")]) ;-
        SGoto) SSkip ;-
      SIf (EBin ONe (ECall "libhmac_sha224_context_finalize" [(EVar "context"); (EVar "key_hash"); (EInt 28); (EVar "error")]) (EInt 1)) (
        SExpr (ECall "libcerror_error_set" [(EVar "error"); (EName "LIBCERROR_ERROR_DOMAIN_RUNTIME"); (EName "LIBCERROR_RUNTIME_ERROR_FINALIZE_FAILED")]) ;-
        SGoto) SSkip ;-
      SIf (EBin ONe (ECall "libhmac_sha224_context_free" [(ERef "context"); (EVar "error")]) (EInt 1)) (
        SExpr (ECall "libcerror_error_set" [(EVar "error"); (EName "LIBCERROR_ERROR_DOMAIN_RUNTIME"); (EName "LIBCERROR_RUNTIME_ERROR_FINALIZE_FAILED")]) ;-
        SGoto) SSkip ;-
      SIf (EBin OGt (EVar "block_size") (EInt 28)) (
        SIf (EBin OEq (ECall "memory_set" [(EAddr (EIndex (EVar "key_data") (EInt 28))); (EInt 0); (EBin OSub (EVar "block_size") (EInt 28))]) ENull) (
          SExpr (ECall "libcerror_error_set" [(EVar "error"); (EName "LIBCERROR_ERROR_DOMAIN_MEMORY"); (EName "LIBCERROR_MEMORY_ERROR_SET_FAILED")]) ;-
          SGoto) SSkip) SSkip ;-
      SIf (EBin OEq (ECall "memory_copy" [(EVar "key_data"); (EVar "key_hash"); (EInt 28)]) ENull) (
        SExpr (ECall "libcerror_error_set" [(EVar "error"); (EName "LIBCERROR_ERROR_DOMAIN_MEMORY"); (EName "LIBCERROR_MEMORY_ERROR_COPY_FAILED")]) ;-
        SGoto) SSkip) ;-
    SAssign (EVar "inner_padding") (ECall "memory_allocate" [(EBin OMul (ESize 1) (EVar "block_size"))]) ;-
    SIf (EBin OEq (EVar "inner_padding") ENull) (
      SExpr (ECall "libcerror_error_set" [(EVar "error"); (EName "LIBCERROR_ERROR_DOMAIN_MEMORY"); (EName "LIBCERROR_MEMORY_ERROR_INSUFFICIENT")]) ;-
      SGoto) SSkip ;-
    SIf (EBin OEq (ECall "memory_set" [(EVar "inner_padding"); (EInt 54); (EVar "block_size")]) ENull) (
      SExpr (ECall "libcerror_error_set" [(EVar "error"); (EName "LIBCERROR_ERROR_DOMAIN_MEMORY"); (EName "LIBCERROR_MEMORY_ERROR_SET_FAILED")]) ;-
      SGoto) SSkip ;-
    SAssign (EVar "outer_padding") (ECall "memory_allocate" [(EBin OMul (ESize 1) (EVar "block_size"))]) ;-
    SIf (EBin OEq (EVar "outer_padding") ENull) (
      SExpr (ECall "libcerror_error_set" [(EVar "error"); (EName "LIBCERROR_ERROR_DOMAIN_MEMORY"); (EName "LIBCERROR_MEMORY_ERROR_INSUFFICIENT")]) ;-
      SGoto) SSkip ;-
    SIf (EBin OEq (ECall "memory_set" [(EVar "outer_padding"); (EInt 92); (EVar "block_size")]) ENull) (
      SExpr (ECall "libcerror_error_set" [(EVar "error"); (EName "LIBCERROR_ERROR_DOMAIN_MEMORY"); (EName "LIBCERROR_MEMORY_ERROR_SET_FAILED")]) ;-
      SGoto) SSkip ;-
    SFor (SAssign (EVar "block_index") (EInt 0)) (EBin OLt (EVar "block_index") (EVar "block_size")) (SOp OAdd (EVar "block_index") (EInt 1)) (
      SOp OXor (EIndex (EVar "inner_padding") (EVar "block_index")) (EIndex (EVar "key_data") (EVar "block_index")) ;-
      SOp OXor (EIndex (EVar "outer_padding") (EVar "block_index")) (EIndex (EVar "key_data") (EVar "block_index"))) ;-
    SIf (EBin ONe (ECall "libhmac_sha224_context_initialize" [(ERef "context"); (EVar "error")]) (EInt 1)) (
      SExpr (ECall "libcerror_error_set" [(EVar "error"); (EName "LIBCERROR_ERROR_DOMAIN_RUNTIME"); (EName "LIBCERROR_RUNTIME_ERROR_INITIALIZE_FAILED")]) ;-
      SGoto) SSkip ;-
    SIf (EBin ONe (ECall "libhmac_sha224_context_update" [(EVar "context"); (EVar "inner_padding"); (EVar "block_size"); (EVar "error")]) (EInt 1)) (
      SExpr (ECall "libcerror_error_set" [(EVar "error"); (EName "LIBCERROR_ERROR_DOMAIN_RUNTIME"); (EName "LIBCERROR_RUNTIME_ERROR_SET_FAILED")]) ;-
      SGoto) SSkip ;-
    SIf (EBin ONe (ECall "libhmac_sha224_context_update" [(EVar "context"); (EVar "buffer"); (EVar "size"); (EVar "error")]) (EInt 1)) (
      SExpr (ECall "libcerror_error_set" [(EVar "error"); (EName "LIBCERROR_ERROR_DOMAIN_RUNTIME"); (EName "LIBCERROR_RUNTIME_ERROR_SET_FAILED")]) ;-
      SGoto) SSkip ;-
    SIf (EBin ONe (ECall "libhmac_sha224_context_finalize" [(EVar "context"); (EVar "hmac"); (EVar "hmac_size"); (EVar "error")]) (EInt 1)) (
      SExpr (ECall "libcerror_error_set" [(EVar "error"); (EName "LIBCERROR_ERROR_DOMAIN_RUNTIME"); (EName "LIBCERROR_RUNTIME_ERROR_FINALIZE_FAILED")]) ;-
      SGoto) SSkip ;-
    SIf (EBin ONe (ECall "libhmac_sha224_context_free" [(ERef "context"); (EVar "error")]) (EInt 1)) (
      SExpr (ECall "libcerror_error_set" [(EVar "error"); (EName "LIBCERROR_ERROR_DOMAIN_RUNTIME"); (EName "LIBCERROR_RUNTIME_ERROR_FINALIZE_FAILED")]) ;-
      SGoto) SSkip ;-
    SIf (EBin ONe (ECall "libhmac_sha224_context_initialize" [(ERef "context"); (EVar "error")]) (EInt 1)) (
      SExpr (ECall "libcerror_error_set" [(EVar "error"); (EName "LIBCERROR_ERROR_DOMAIN_RUNTIME"); (EName "LIBCERROR_RUNTIME_ERROR_INITIALIZE_FAILED")]) ;-
      SGoto) SSkip ;-
    SIf (EBin ONe (ECall "libhmac_sha224_context_update" [(EVar "context"); (EVar "outer_padding"); (EVar "block_size"); (EVar "error")]) (EInt 1)) (
      SExpr (ECall "libcerror_error_set" [(EVar "error"); (EName "LIBCERROR_ERROR_DOMAIN_RUNTIME"); (EName "LIBCERROR_RUNTIME_ERROR_SET_FAILED")]) ;-
      SGoto) SSkip ;-
    SIf (EBin ONe (ECall "libhmac_sha224_context_update" [(EVar "context"); (EVar "hmac"); (EInt 28); (EVar "error")]) (EInt 1)) (
      SExpr (ECall "libcerror_error_set" [(EVar "error"); (EName "LIBCERROR_ERROR_DOMAIN_RUNTIME"); (EName "LIBCERROR_RUNTIME_ERROR_SET_FAILED")]) ;-
      SGoto) SSkip ;-
    SIf (EBin ONe (ECall "libhmac_sha224_context_finalize" [(EVar "context"); (EVar "hmac"); (EVar "hmac_size"); (EVar "error")]) (EInt 1)) (
      SExpr (ECall "libcerror_error_set" [(EVar "error"); (EName "LIBCERROR_ERROR_DOMAIN_RUNTIME"); (EName "LIBCERROR_RUNTIME_ERROR_FINALIZE_FAILED")]) ;-
      SGoto) SSkip ;-
    SIf (EBin ONe (ECall "libhmac_sha224_context_free" [(ERef "context"); (EVar "error")]) (EInt 1)) (
      SExpr (ECall "libcerror_error_set" [(EVar "error"); (EName "LIBCERROR_ERROR_DOMAIN_RUNTIME"); (EName "LIBCERROR_RUNTIME_ERROR_FINALIZE_FAILED")]) ;-
      SGoto) SSkip ;-
    SIf (EBin OEq (ECall "memory_set" [(EVar "outer_padding"); (EInt 0); (EVar "block_size")]) ENull) (
      SExpr (ECall "libcerror_error_set" [(EVar "error"); (EName "LIBCERROR_ERROR_DOMAIN_MEMORY"); (EName "LIBCERROR_MEMORY_ERROR_SET_FAILED")]) ;-
      SGoto) SSkip ;-
    SExpr (ECall "memory_free" [(EVar "outer_padding")]) ;-
    SAssign (EVar "outer_padding") ENull ;-
    SIf (EBin OEq (ECall "memory_set" [(EVar "inner_padding"); (EInt 0); (EVar "block_size")]) ENull) (
      SExpr (ECall "libcerror_error_set" [(EVar "error"); (EName "LIBCERROR_ERROR_DOMAIN_MEMORY"); (EName "LIBCERROR_MEMORY_ERROR_SET_FAILED")]) ;-
      SGoto) SSkip ;-
    SExpr (ECall "memory_free" [(EVar "inner_padding")]) ;-
    SAssign (EVar "inner_padding") ENull ;-
    SIf (EBin OEq (ECall "memory_set" [(EVar "key_data"); (EInt 0); (EVar "block_size")]) ENull) (
      SExpr (ECall "libcerror_error_set" [(EVar "error"); (EName "LIBCERROR_ERROR_DOMAIN_MEMORY"); (EName "LIBCERROR_MEMORY_ERROR_SET_FAILED")]) ;-
      SGoto) SSkip ;-
    SExpr (ECall "memory_free" [(EVar "key_data")]) ;-
    SAssign (EVar "key_data") ENull ;-
    SReturn (EInt 1);
  f_error :=
    SIf (EBin ONe (EVar "context") ENull) (
      SExpr (ECall "libhmac_sha224_context_free" [(ERef "context"); ENull])) SSkip ;-
    SIf (EBin ONe (EVar "outer_padding") ENull) (
      SExpr (ECall "memory_set" [(EVar "outer_padding"); (EInt 0); (EVar "block_size")]) ;-
      SExpr (ECall "memory_free" [(EVar "outer_padding")])) SSkip ;-
    SIf (EBin ONe (EVar "inner_padding") ENull) (
      SExpr (ECall "memory_set" [(EVar "inner_padding"); (EInt 0); (EVar "block_size")]) ;-
      SExpr (ECall "memory_free" [(EVar "inner_padding")])) SSkip ;-
    SIf (EBin ONe (EVar "key_data") ENull) (
      SExpr (ECall "memory_set" [(EVar "key_data"); (EInt 0); (EVar "block_size")]) ;-
      SExpr (ECall "memory_free" [(EVar "key_data")])) SSkip ;-
    SReturn (EInt (-1)) |}.

(* the tables and functions of libhmac/libhmac_sha224_context.c and libhmac/libhmac_sha224.c, and the structure *)
Definition sha224_text (unfolled : bool) : program := {|
  p_tables := [("libhmac_sha224_context_prime_square_roots", (R32, tab_libhmac_sha224_context_prime_square_roots));
    ("libhmac_sha224_context_prime_cube_roots", (R32, tab_libhmac_sha224_context_prime_cube_roots))];
  p_functions := [text_libhmac_sha224_context_transform unfolled;
    text_libhmac_sha224_context_initialize unfolled;
    text_libhmac_sha224_context_free unfolled;
    text_libhmac_sha224_context_update unfolled;
    text_libhmac_sha224_context_finalize unfolled;
    text_libhmac_sha224_initialize unfolled;
    text_libhmac_sha224_free unfolled;
    text_libhmac_sha224_update unfolled;
    text_libhmac_sha224_finalize unfolled;
    text_libhmac_sha224_calculate unfolled;
    text_libhmac_sha224_calculate_hmac unfolled];
  p_types := [("libhmac_internal_sha224_context_t", (SHA224, layout_sha224))];
  p_char := true |}.
