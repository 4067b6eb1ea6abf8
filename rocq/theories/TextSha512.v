(* The text of libhmac/libhmac_sha512_context.c and libhmac/libhmac_sha512.c for a build without
   libcrypto, and of the macros they use, as terms of CText.v.  Written by
   tools/ctext.py from the files in /repo; #if on LIBHMAC_UNFOLLED_LOOPS became a Coq if.
   Left out: casts between pointer types, the declaration of the function name for
   messages, and the message arguments of libcerror_error_set. *)
From Coq Require Import NArith ZArith List String.
From Verif Require Import Machine CText.
Import ListNotations.
Open Scope string_scope.
Open Scope list_scope.
Open Scope N_scope.

(* libhmac/libhmac_sha512_context.h:55-89 struct libhmac_internal_sha512_context: uint64_t hash_count; uint64_t hash_values[ 8 ];
   size_t block_offset; uint8_t block[ 256 ] *)
Definition layout_sha512 : layout := mk_layout R64 8 256.

(* libhmac/libhmac_sha512_context.c:47-50 libhmac_sha512_context_prime_square_roots *)
Definition tab_libhmac_sha512_context_prime_square_roots : list N :=
  [0x6a09e667f3bcc908; 0xbb67ae8584caa73b; 0x3c6ef372fe94f82b; 0xa54ff53a5f1d36f1; 0x510e527fade682d1; 0x9b05688c2b3e6c1f; 0x1f83d9abfb41bd6b; 0x5be0cd19137e2179].

(* libhmac/libhmac_sha512_context.c:54-75 libhmac_sha512_context_prime_cube_roots *)
Definition tab_libhmac_sha512_context_prime_cube_roots : list N :=
  [0x428a2f98d728ae22; 0x7137449123ef65cd; 0xb5c0fbcfec4d3b2f; 0xe9b5dba58189dbbc; 0x3956c25bf348b538; 0x59f111f1b605d019; 0x923f82a4af194f9b; 0xab1c5ed5da6d8118;
   0xd807aa98a3030242; 0x12835b0145706fbe; 0x243185be4ee4b28c; 0x550c7dc3d5ffb4e2; 0x72be5d74f27b896f; 0x80deb1fe3b1696b1; 0x9bdc06a725c71235; 0xc19bf174cf692694;
   0xe49b69c19ef14ad2; 0xefbe4786384f25e3; 0x0fc19dc68b8cd5b5; 0x240ca1cc77ac9c65; 0x2de92c6f592b0275; 0x4a7484aa6ea6e483; 0x5cb0a9dcbd41fbd4; 0x76f988da831153b5;
   0x983e5152ee66dfab; 0xa831c66d2db43210; 0xb00327c898fb213f; 0xbf597fc7beef0ee4; 0xc6e00bf33da88fc2; 0xd5a79147930aa725; 0x06ca6351e003826f; 0x142929670a0e6e70;
   0x27b70a8546d22ffc; 0x2e1b21385c26c926; 0x4d2c6dfc5ac42aed; 0x53380d139d95b3df; 0x650a73548baf63de; 0x766a0abb3c77b2a8; 0x81c2c92e47edaee6; 0x92722c851482353b;
   0xa2bfe8a14cf10364; 0xa81a664bbc423001; 0xc24b8b70d0f89791; 0xc76c51a30654be30; 0xd192e819d6ef5218; 0xd69906245565a910; 0xf40e35855771202a; 0x106aa07032bbd1b8;
   0x19a4c116b8d2d0c8; 0x1e376c085141ab53; 0x2748774cdf8eeb99; 0x34b0bcb5e19b48a8; 0x391c0cb3c5c95a63; 0x4ed8aa4ae3418acb; 0x5b9cca4f7763e373; 0x682e6ff3d6b2b8a3;
   0x748f82ee5defb2fc; 0x78a5636f43172f60; 0x84c87814a1f0ab72; 0x8cc702081a6439ec; 0x90befffa23631e28; 0xa4506cebde82bde9; 0xbef9a3f7b2c67915; 0xc67178f2e372532b;
   0xca273eceea26619c; 0xd186b8c721c0c207; 0xeada7dd6cde0eb1e; 0xf57d4f7fee6ed178; 0x06f067aa72176fba; 0x0a637dc5a2c898a6; 0x113f9804bef90dae; 0x1b710b35131c471b;
   0x28db77f523047d84; 0x32caab7b40c72493; 0x3c9ebe0a15c9bebc; 0x431d67c49c100d4c; 0x4cc5d4becb3e42b6; 0x597f299cfc657e2a; 0x5fcb6fab3ad6faec; 0x6c44198c4a475817].

(* common/byte_stream.h:122-137 #define byte_stream_copy_to_uint64_big_endian *)
Definition byte_stream_copy_to_uint64_big_endian (byte_stream value : expr) : stmt :=
  SAssign value (EIndex byte_stream (EInt 0)) ;-
  SOp OShl value (EInt 8) ;-
  SOp OOr value (EIndex byte_stream (EInt 1)) ;-
  SOp OShl value (EInt 8) ;-
  SOp OOr value (EIndex byte_stream (EInt 2)) ;-
  SOp OShl value (EInt 8) ;-
  SOp OOr value (EIndex byte_stream (EInt 3)) ;-
  SOp OShl value (EInt 8) ;-
  SOp OOr value (EIndex byte_stream (EInt 4)) ;-
  SOp OShl value (EInt 8) ;-
  SOp OOr value (EIndex byte_stream (EInt 5)) ;-
  SOp OShl value (EInt 8) ;-
  SOp OOr value (EIndex byte_stream (EInt 6)) ;-
  SOp OShl value (EInt 8) ;-
  SOp OOr value (EIndex byte_stream (EInt 7)).

(* common/byte_stream.h:243-244 #define byte_stream_bit_rotate_right_64bit *)
Definition byte_stream_bit_rotate_right_64bit (byte_stream number_of_bits : expr) : expr :=
  (EBin OOr (EBin OShr byte_stream number_of_bits) (EBin OShl byte_stream (EBin OSub (EInt 64) number_of_bits))).

(* libhmac/libhmac_byte_stream.h:86-101 #define libhmac_byte_stream_copy_to_1x_uint64_big_endian *)
Definition libhmac_byte_stream_copy_to_1x_uint64_big_endian (byte_stream values values_index : expr) : stmt :=
  SAssign (EIndex values values_index) (EIndex byte_stream (EBin OShl values_index (EInt 3))) ;-
  SOp OShl (EIndex values values_index) (EInt 8) ;-
  SOp OOr (EIndex values values_index) (EIndex byte_stream (EBin OAdd (EBin OShl values_index (EInt 3)) (EInt 1))) ;-
  SOp OShl (EIndex values values_index) (EInt 8) ;-
  SOp OOr (EIndex values values_index) (EIndex byte_stream (EBin OAdd (EBin OShl values_index (EInt 3)) (EInt 2))) ;-
  SOp OShl (EIndex values values_index) (EInt 8) ;-
  SOp OOr (EIndex values values_index) (EIndex byte_stream (EBin OAdd (EBin OShl values_index (EInt 3)) (EInt 3))) ;-
  SOp OShl (EIndex values values_index) (EInt 8) ;-
  SOp OOr (EIndex values values_index) (EIndex byte_stream (EBin OAdd (EBin OShl values_index (EInt 3)) (EInt 4))) ;-
  SOp OShl (EIndex values values_index) (EInt 8) ;-
  SOp OOr (EIndex values values_index) (EIndex byte_stream (EBin OAdd (EBin OShl values_index (EInt 3)) (EInt 5))) ;-
  SOp OShl (EIndex values values_index) (EInt 8) ;-
  SOp OOr (EIndex values values_index) (EIndex byte_stream (EBin OAdd (EBin OShl values_index (EInt 3)) (EInt 6))) ;-
  SOp OShl (EIndex values values_index) (EInt 8) ;-
  SOp OOr (EIndex values values_index) (EIndex byte_stream (EBin OAdd (EBin OShl values_index (EInt 3)) (EInt 7))).

(* libhmac/libhmac_byte_stream.h:120-136 #define libhmac_byte_stream_copy_to_16x_uint64_big_endian *)
Definition libhmac_byte_stream_copy_to_16x_uint64_big_endian (byte_stream values : expr) : stmt :=
  libhmac_byte_stream_copy_to_1x_uint64_big_endian byte_stream values (EInt 0) ;-
  libhmac_byte_stream_copy_to_1x_uint64_big_endian byte_stream values (EInt 1) ;-
  libhmac_byte_stream_copy_to_1x_uint64_big_endian byte_stream values (EInt 2) ;-
  libhmac_byte_stream_copy_to_1x_uint64_big_endian byte_stream values (EInt 3) ;-
  libhmac_byte_stream_copy_to_1x_uint64_big_endian byte_stream values (EInt 4) ;-
  libhmac_byte_stream_copy_to_1x_uint64_big_endian byte_stream values (EInt 5) ;-
  libhmac_byte_stream_copy_to_1x_uint64_big_endian byte_stream values (EInt 6) ;-
  libhmac_byte_stream_copy_to_1x_uint64_big_endian byte_stream values (EInt 7) ;-
  libhmac_byte_stream_copy_to_1x_uint64_big_endian byte_stream values (EInt 8) ;-
  libhmac_byte_stream_copy_to_1x_uint64_big_endian byte_stream values (EInt 9) ;-
  libhmac_byte_stream_copy_to_1x_uint64_big_endian byte_stream values (EInt 10) ;-
  libhmac_byte_stream_copy_to_1x_uint64_big_endian byte_stream values (EInt 11) ;-
  libhmac_byte_stream_copy_to_1x_uint64_big_endian byte_stream values (EInt 12) ;-
  libhmac_byte_stream_copy_to_1x_uint64_big_endian byte_stream values (EInt 13) ;-
  libhmac_byte_stream_copy_to_1x_uint64_big_endian byte_stream values (EInt 14) ;-
  libhmac_byte_stream_copy_to_1x_uint64_big_endian byte_stream values (EInt 15).

(* libhmac/libhmac_sha512_context.c:77-88 #define libhmac_sha512_context_transform_extend_64bit_value *)
Definition libhmac_sha512_context_transform_extend_64bit_value (values_64bit value_64bit_index s0 s1 : expr) : stmt :=
  SAssign s0 (EBin OXor (EBin OXor (byte_stream_bit_rotate_right_64bit (EIndex values_64bit (EBin OSub value_64bit_index (EInt 15))) (EInt 1)) (byte_stream_bit_rotate_right_64bit (EIndex values_64bit (EBin OSub value_64bit_index (EInt 15))) (EInt 8))) (EBin OShr (EIndex values_64bit (EBin OSub value_64bit_index (EInt 15))) (EInt 7))) ;-
  SAssign s1 (EBin OXor (EBin OXor (byte_stream_bit_rotate_right_64bit (EIndex values_64bit (EBin OSub value_64bit_index (EInt 2))) (EInt 19)) (byte_stream_bit_rotate_right_64bit (EIndex values_64bit (EBin OSub value_64bit_index (EInt 2))) (EInt 61))) (EBin OShr (EIndex values_64bit (EBin OSub value_64bit_index (EInt 2))) (EInt 6))) ;-
  SAssign (EIndex values_64bit value_64bit_index) (EBin OAdd (EBin OAdd (EBin OAdd (EIndex values_64bit (EBin OSub value_64bit_index (EInt 16))) s0) (EIndex values_64bit (EBin OSub value_64bit_index (EInt 7)))) s1).

(* libhmac/libhmac_sha512_context.c:90-154 #define libhmac_sha512_context_transform_unfolded_extend_64bit_values *)
Definition libhmac_sha512_context_transform_unfolded_extend_64bit_values (values_64bit s0 s1 : expr) : stmt :=
  libhmac_sha512_context_transform_extend_64bit_value values_64bit (EInt 16) s0 s1 ;-
  libhmac_sha512_context_transform_extend_64bit_value values_64bit (EInt 17) s0 s1 ;-
  libhmac_sha512_context_transform_extend_64bit_value values_64bit (EInt 18) s0 s1 ;-
  libhmac_sha512_context_transform_extend_64bit_value values_64bit (EInt 19) s0 s1 ;-
  libhmac_sha512_context_transform_extend_64bit_value values_64bit (EInt 20) s0 s1 ;-
  libhmac_sha512_context_transform_extend_64bit_value values_64bit (EInt 21) s0 s1 ;-
  libhmac_sha512_context_transform_extend_64bit_value values_64bit (EInt 22) s0 s1 ;-
  libhmac_sha512_context_transform_extend_64bit_value values_64bit (EInt 23) s0 s1 ;-
  libhmac_sha512_context_transform_extend_64bit_value values_64bit (EInt 24) s0 s1 ;-
  libhmac_sha512_context_transform_extend_64bit_value values_64bit (EInt 25) s0 s1 ;-
  libhmac_sha512_context_transform_extend_64bit_value values_64bit (EInt 26) s0 s1 ;-
  libhmac_sha512_context_transform_extend_64bit_value values_64bit (EInt 27) s0 s1 ;-
  libhmac_sha512_context_transform_extend_64bit_value values_64bit (EInt 28) s0 s1 ;-
  libhmac_sha512_context_transform_extend_64bit_value values_64bit (EInt 29) s0 s1 ;-
  libhmac_sha512_context_transform_extend_64bit_value values_64bit (EInt 30) s0 s1 ;-
  libhmac_sha512_context_transform_extend_64bit_value values_64bit (EInt 31) s0 s1 ;-
  libhmac_sha512_context_transform_extend_64bit_value values_64bit (EInt 32) s0 s1 ;-
  libhmac_sha512_context_transform_extend_64bit_value values_64bit (EInt 33) s0 s1 ;-
  libhmac_sha512_context_transform_extend_64bit_value values_64bit (EInt 34) s0 s1 ;-
  libhmac_sha512_context_transform_extend_64bit_value values_64bit (EInt 35) s0 s1 ;-
  libhmac_sha512_context_transform_extend_64bit_value values_64bit (EInt 36) s0 s1 ;-
  libhmac_sha512_context_transform_extend_64bit_value values_64bit (EInt 37) s0 s1 ;-
  libhmac_sha512_context_transform_extend_64bit_value values_64bit (EInt 38) s0 s1 ;-
  libhmac_sha512_context_transform_extend_64bit_value values_64bit (EInt 39) s0 s1 ;-
  libhmac_sha512_context_transform_extend_64bit_value values_64bit (EInt 40) s0 s1 ;-
  libhmac_sha512_context_transform_extend_64bit_value values_64bit (EInt 41) s0 s1 ;-
  libhmac_sha512_context_transform_extend_64bit_value values_64bit (EInt 42) s0 s1 ;-
  libhmac_sha512_context_transform_extend_64bit_value values_64bit (EInt 43) s0 s1 ;-
  libhmac_sha512_context_transform_extend_64bit_value values_64bit (EInt 44) s0 s1 ;-
  libhmac_sha512_context_transform_extend_64bit_value values_64bit (EInt 45) s0 s1 ;-
  libhmac_sha512_context_transform_extend_64bit_value values_64bit (EInt 46) s0 s1 ;-
  libhmac_sha512_context_transform_extend_64bit_value values_64bit (EInt 47) s0 s1 ;-
  libhmac_sha512_context_transform_extend_64bit_value values_64bit (EInt 48) s0 s1 ;-
  libhmac_sha512_context_transform_extend_64bit_value values_64bit (EInt 49) s0 s1 ;-
  libhmac_sha512_context_transform_extend_64bit_value values_64bit (EInt 50) s0 s1 ;-
  libhmac_sha512_context_transform_extend_64bit_value values_64bit (EInt 51) s0 s1 ;-
  libhmac_sha512_context_transform_extend_64bit_value values_64bit (EInt 52) s0 s1 ;-
  libhmac_sha512_context_transform_extend_64bit_value values_64bit (EInt 53) s0 s1 ;-
  libhmac_sha512_context_transform_extend_64bit_value values_64bit (EInt 54) s0 s1 ;-
  libhmac_sha512_context_transform_extend_64bit_value values_64bit (EInt 55) s0 s1 ;-
  libhmac_sha512_context_transform_extend_64bit_value values_64bit (EInt 56) s0 s1 ;-
  libhmac_sha512_context_transform_extend_64bit_value values_64bit (EInt 57) s0 s1 ;-
  libhmac_sha512_context_transform_extend_64bit_value values_64bit (EInt 58) s0 s1 ;-
  libhmac_sha512_context_transform_extend_64bit_value values_64bit (EInt 59) s0 s1 ;-
  libhmac_sha512_context_transform_extend_64bit_value values_64bit (EInt 60) s0 s1 ;-
  libhmac_sha512_context_transform_extend_64bit_value values_64bit (EInt 61) s0 s1 ;-
  libhmac_sha512_context_transform_extend_64bit_value values_64bit (EInt 62) s0 s1 ;-
  libhmac_sha512_context_transform_extend_64bit_value values_64bit (EInt 63) s0 s1 ;-
  libhmac_sha512_context_transform_extend_64bit_value values_64bit (EInt 64) s0 s1 ;-
  libhmac_sha512_context_transform_extend_64bit_value values_64bit (EInt 65) s0 s1 ;-
  libhmac_sha512_context_transform_extend_64bit_value values_64bit (EInt 66) s0 s1 ;-
  libhmac_sha512_context_transform_extend_64bit_value values_64bit (EInt 67) s0 s1 ;-
  libhmac_sha512_context_transform_extend_64bit_value values_64bit (EInt 68) s0 s1 ;-
  libhmac_sha512_context_transform_extend_64bit_value values_64bit (EInt 69) s0 s1 ;-
  libhmac_sha512_context_transform_extend_64bit_value values_64bit (EInt 70) s0 s1 ;-
  libhmac_sha512_context_transform_extend_64bit_value values_64bit (EInt 71) s0 s1 ;-
  libhmac_sha512_context_transform_extend_64bit_value values_64bit (EInt 72) s0 s1 ;-
  libhmac_sha512_context_transform_extend_64bit_value values_64bit (EInt 73) s0 s1 ;-
  libhmac_sha512_context_transform_extend_64bit_value values_64bit (EInt 74) s0 s1 ;-
  libhmac_sha512_context_transform_extend_64bit_value values_64bit (EInt 75) s0 s1 ;-
  libhmac_sha512_context_transform_extend_64bit_value values_64bit (EInt 76) s0 s1 ;-
  libhmac_sha512_context_transform_extend_64bit_value values_64bit (EInt 77) s0 s1 ;-
  libhmac_sha512_context_transform_extend_64bit_value values_64bit (EInt 78) s0 s1 ;-
  libhmac_sha512_context_transform_extend_64bit_value values_64bit (EInt 79) s0 s1.

(* libhmac/libhmac_sha512_context.c:156-176 #define libhmac_sha512_context_transform_unfolded_calculate_hash_value *)
Definition libhmac_sha512_context_transform_unfolded_calculate_hash_value (values_64bit value_64bit_index hash_values hash_value_index0 hash_value_index1 hash_value_index2 hash_value_index3 hash_value_index4 hash_value_index5 hash_value_index6 hash_value_index7 s0 s1 t1 t2 : expr) : stmt :=
  SAssign s0 (EBin OXor (EBin OXor (byte_stream_bit_rotate_right_64bit (EIndex hash_values hash_value_index0) (EInt 28)) (byte_stream_bit_rotate_right_64bit (EIndex hash_values hash_value_index0) (EInt 34))) (byte_stream_bit_rotate_right_64bit (EIndex hash_values hash_value_index0) (EInt 39))) ;-
  SAssign s1 (EBin OXor (EBin OXor (byte_stream_bit_rotate_right_64bit (EIndex hash_values hash_value_index4) (EInt 14)) (byte_stream_bit_rotate_right_64bit (EIndex hash_values hash_value_index4) (EInt 18))) (byte_stream_bit_rotate_right_64bit (EIndex hash_values hash_value_index4) (EInt 41))) ;-
  SAssign t1 (EIndex hash_values hash_value_index7) ;-
  SOp OAdd t1 s1 ;-
  SOp OAdd t1 (EBin OXor (EBin OAnd (EIndex hash_values hash_value_index4) (EIndex hash_values hash_value_index5)) (EBin OAnd (ENot (EIndex hash_values hash_value_index4)) (EIndex hash_values hash_value_index6))) ;-
  SOp OAdd t1 (EIndex (EVar "libhmac_sha512_context_prime_cube_roots") value_64bit_index) ;-
  SOp OAdd t1 (EIndex values_64bit value_64bit_index) ;-
  SAssign t2 s0 ;-
  SOp OAdd t2 (EBin OXor (EBin OXor (EBin OAnd (EIndex hash_values hash_value_index0) (EIndex hash_values hash_value_index1)) (EBin OAnd (EIndex hash_values hash_value_index0) (EIndex hash_values hash_value_index2))) (EBin OAnd (EIndex hash_values hash_value_index1) (EIndex hash_values hash_value_index2))) ;-
  SOp OAdd (EIndex hash_values hash_value_index3) t1 ;-
  SAssign (EIndex hash_values hash_value_index7) (EBin OAdd t1 t2).

(* libhmac/libhmac_sha512_context.c:178-258 #define libhmac_sha512_context_transform_unfolded_calculate_hash_values *)
Definition libhmac_sha512_context_transform_unfolded_calculate_hash_values (values_64bit hash_values s0 s1 t1 t2 : expr) : stmt :=
  libhmac_sha512_context_transform_unfolded_calculate_hash_value values_64bit (EInt 0) hash_values (EInt 0) (EInt 1) (EInt 2) (EInt 3) (EInt 4) (EInt 5) (EInt 6) (EInt 7) s0 s1 t1 t2 ;-
  libhmac_sha512_context_transform_unfolded_calculate_hash_value values_64bit (EInt 1) hash_values (EInt 7) (EInt 0) (EInt 1) (EInt 2) (EInt 3) (EInt 4) (EInt 5) (EInt 6) s0 s1 t1 t2 ;-
  libhmac_sha512_context_transform_unfolded_calculate_hash_value values_64bit (EInt 2) hash_values (EInt 6) (EInt 7) (EInt 0) (EInt 1) (EInt 2) (EInt 3) (EInt 4) (EInt 5) s0 s1 t1 t2 ;-
  libhmac_sha512_context_transform_unfolded_calculate_hash_value values_64bit (EInt 3) hash_values (EInt 5) (EInt 6) (EInt 7) (EInt 0) (EInt 1) (EInt 2) (EInt 3) (EInt 4) s0 s1 t1 t2 ;-
  libhmac_sha512_context_transform_unfolded_calculate_hash_value values_64bit (EInt 4) hash_values (EInt 4) (EInt 5) (EInt 6) (EInt 7) (EInt 0) (EInt 1) (EInt 2) (EInt 3) s0 s1 t1 t2 ;-
  libhmac_sha512_context_transform_unfolded_calculate_hash_value values_64bit (EInt 5) hash_values (EInt 3) (EInt 4) (EInt 5) (EInt 6) (EInt 7) (EInt 0) (EInt 1) (EInt 2) s0 s1 t1 t2 ;-
  libhmac_sha512_context_transform_unfolded_calculate_hash_value values_64bit (EInt 6) hash_values (EInt 2) (EInt 3) (EInt 4) (EInt 5) (EInt 6) (EInt 7) (EInt 0) (EInt 1) s0 s1 t1 t2 ;-
  libhmac_sha512_context_transform_unfolded_calculate_hash_value values_64bit (EInt 7) hash_values (EInt 1) (EInt 2) (EInt 3) (EInt 4) (EInt 5) (EInt 6) (EInt 7) (EInt 0) s0 s1 t1 t2 ;-
  libhmac_sha512_context_transform_unfolded_calculate_hash_value values_64bit (EInt 8) hash_values (EInt 0) (EInt 1) (EInt 2) (EInt 3) (EInt 4) (EInt 5) (EInt 6) (EInt 7) s0 s1 t1 t2 ;-
  libhmac_sha512_context_transform_unfolded_calculate_hash_value values_64bit (EInt 9) hash_values (EInt 7) (EInt 0) (EInt 1) (EInt 2) (EInt 3) (EInt 4) (EInt 5) (EInt 6) s0 s1 t1 t2 ;-
  libhmac_sha512_context_transform_unfolded_calculate_hash_value values_64bit (EInt 10) hash_values (EInt 6) (EInt 7) (EInt 0) (EInt 1) (EInt 2) (EInt 3) (EInt 4) (EInt 5) s0 s1 t1 t2 ;-
  libhmac_sha512_context_transform_unfolded_calculate_hash_value values_64bit (EInt 11) hash_values (EInt 5) (EInt 6) (EInt 7) (EInt 0) (EInt 1) (EInt 2) (EInt 3) (EInt 4) s0 s1 t1 t2 ;-
  libhmac_sha512_context_transform_unfolded_calculate_hash_value values_64bit (EInt 12) hash_values (EInt 4) (EInt 5) (EInt 6) (EInt 7) (EInt 0) (EInt 1) (EInt 2) (EInt 3) s0 s1 t1 t2 ;-
  libhmac_sha512_context_transform_unfolded_calculate_hash_value values_64bit (EInt 13) hash_values (EInt 3) (EInt 4) (EInt 5) (EInt 6) (EInt 7) (EInt 0) (EInt 1) (EInt 2) s0 s1 t1 t2 ;-
  libhmac_sha512_context_transform_unfolded_calculate_hash_value values_64bit (EInt 14) hash_values (EInt 2) (EInt 3) (EInt 4) (EInt 5) (EInt 6) (EInt 7) (EInt 0) (EInt 1) s0 s1 t1 t2 ;-
  libhmac_sha512_context_transform_unfolded_calculate_hash_value values_64bit (EInt 15) hash_values (EInt 1) (EInt 2) (EInt 3) (EInt 4) (EInt 5) (EInt 6) (EInt 7) (EInt 0) s0 s1 t1 t2 ;-
  libhmac_sha512_context_transform_unfolded_calculate_hash_value values_64bit (EInt 16) hash_values (EInt 0) (EInt 1) (EInt 2) (EInt 3) (EInt 4) (EInt 5) (EInt 6) (EInt 7) s0 s1 t1 t2 ;-
  libhmac_sha512_context_transform_unfolded_calculate_hash_value values_64bit (EInt 17) hash_values (EInt 7) (EInt 0) (EInt 1) (EInt 2) (EInt 3) (EInt 4) (EInt 5) (EInt 6) s0 s1 t1 t2 ;-
  libhmac_sha512_context_transform_unfolded_calculate_hash_value values_64bit (EInt 18) hash_values (EInt 6) (EInt 7) (EInt 0) (EInt 1) (EInt 2) (EInt 3) (EInt 4) (EInt 5) s0 s1 t1 t2 ;-
  libhmac_sha512_context_transform_unfolded_calculate_hash_value values_64bit (EInt 19) hash_values (EInt 5) (EInt 6) (EInt 7) (EInt 0) (EInt 1) (EInt 2) (EInt 3) (EInt 4) s0 s1 t1 t2 ;-
  libhmac_sha512_context_transform_unfolded_calculate_hash_value values_64bit (EInt 20) hash_values (EInt 4) (EInt 5) (EInt 6) (EInt 7) (EInt 0) (EInt 1) (EInt 2) (EInt 3) s0 s1 t1 t2 ;-
  libhmac_sha512_context_transform_unfolded_calculate_hash_value values_64bit (EInt 21) hash_values (EInt 3) (EInt 4) (EInt 5) (EInt 6) (EInt 7) (EInt 0) (EInt 1) (EInt 2) s0 s1 t1 t2 ;-
  libhmac_sha512_context_transform_unfolded_calculate_hash_value values_64bit (EInt 22) hash_values (EInt 2) (EInt 3) (EInt 4) (EInt 5) (EInt 6) (EInt 7) (EInt 0) (EInt 1) s0 s1 t1 t2 ;-
  libhmac_sha512_context_transform_unfolded_calculate_hash_value values_64bit (EInt 23) hash_values (EInt 1) (EInt 2) (EInt 3) (EInt 4) (EInt 5) (EInt 6) (EInt 7) (EInt 0) s0 s1 t1 t2 ;-
  libhmac_sha512_context_transform_unfolded_calculate_hash_value values_64bit (EInt 24) hash_values (EInt 0) (EInt 1) (EInt 2) (EInt 3) (EInt 4) (EInt 5) (EInt 6) (EInt 7) s0 s1 t1 t2 ;-
  libhmac_sha512_context_transform_unfolded_calculate_hash_value values_64bit (EInt 25) hash_values (EInt 7) (EInt 0) (EInt 1) (EInt 2) (EInt 3) (EInt 4) (EInt 5) (EInt 6) s0 s1 t1 t2 ;-
  libhmac_sha512_context_transform_unfolded_calculate_hash_value values_64bit (EInt 26) hash_values (EInt 6) (EInt 7) (EInt 0) (EInt 1) (EInt 2) (EInt 3) (EInt 4) (EInt 5) s0 s1 t1 t2 ;-
  libhmac_sha512_context_transform_unfolded_calculate_hash_value values_64bit (EInt 27) hash_values (EInt 5) (EInt 6) (EInt 7) (EInt 0) (EInt 1) (EInt 2) (EInt 3) (EInt 4) s0 s1 t1 t2 ;-
  libhmac_sha512_context_transform_unfolded_calculate_hash_value values_64bit (EInt 28) hash_values (EInt 4) (EInt 5) (EInt 6) (EInt 7) (EInt 0) (EInt 1) (EInt 2) (EInt 3) s0 s1 t1 t2 ;-
  libhmac_sha512_context_transform_unfolded_calculate_hash_value values_64bit (EInt 29) hash_values (EInt 3) (EInt 4) (EInt 5) (EInt 6) (EInt 7) (EInt 0) (EInt 1) (EInt 2) s0 s1 t1 t2 ;-
  libhmac_sha512_context_transform_unfolded_calculate_hash_value values_64bit (EInt 30) hash_values (EInt 2) (EInt 3) (EInt 4) (EInt 5) (EInt 6) (EInt 7) (EInt 0) (EInt 1) s0 s1 t1 t2 ;-
  libhmac_sha512_context_transform_unfolded_calculate_hash_value values_64bit (EInt 31) hash_values (EInt 1) (EInt 2) (EInt 3) (EInt 4) (EInt 5) (EInt 6) (EInt 7) (EInt 0) s0 s1 t1 t2 ;-
  libhmac_sha512_context_transform_unfolded_calculate_hash_value values_64bit (EInt 32) hash_values (EInt 0) (EInt 1) (EInt 2) (EInt 3) (EInt 4) (EInt 5) (EInt 6) (EInt 7) s0 s1 t1 t2 ;-
  libhmac_sha512_context_transform_unfolded_calculate_hash_value values_64bit (EInt 33) hash_values (EInt 7) (EInt 0) (EInt 1) (EInt 2) (EInt 3) (EInt 4) (EInt 5) (EInt 6) s0 s1 t1 t2 ;-
  libhmac_sha512_context_transform_unfolded_calculate_hash_value values_64bit (EInt 34) hash_values (EInt 6) (EInt 7) (EInt 0) (EInt 1) (EInt 2) (EInt 3) (EInt 4) (EInt 5) s0 s1 t1 t2 ;-
  libhmac_sha512_context_transform_unfolded_calculate_hash_value values_64bit (EInt 35) hash_values (EInt 5) (EInt 6) (EInt 7) (EInt 0) (EInt 1) (EInt 2) (EInt 3) (EInt 4) s0 s1 t1 t2 ;-
  libhmac_sha512_context_transform_unfolded_calculate_hash_value values_64bit (EInt 36) hash_values (EInt 4) (EInt 5) (EInt 6) (EInt 7) (EInt 0) (EInt 1) (EInt 2) (EInt 3) s0 s1 t1 t2 ;-
  libhmac_sha512_context_transform_unfolded_calculate_hash_value values_64bit (EInt 37) hash_values (EInt 3) (EInt 4) (EInt 5) (EInt 6) (EInt 7) (EInt 0) (EInt 1) (EInt 2) s0 s1 t1 t2 ;-
  libhmac_sha512_context_transform_unfolded_calculate_hash_value values_64bit (EInt 38) hash_values (EInt 2) (EInt 3) (EInt 4) (EInt 5) (EInt 6) (EInt 7) (EInt 0) (EInt 1) s0 s1 t1 t2 ;-
  libhmac_sha512_context_transform_unfolded_calculate_hash_value values_64bit (EInt 39) hash_values (EInt 1) (EInt 2) (EInt 3) (EInt 4) (EInt 5) (EInt 6) (EInt 7) (EInt 0) s0 s1 t1 t2 ;-
  libhmac_sha512_context_transform_unfolded_calculate_hash_value values_64bit (EInt 40) hash_values (EInt 0) (EInt 1) (EInt 2) (EInt 3) (EInt 4) (EInt 5) (EInt 6) (EInt 7) s0 s1 t1 t2 ;-
  libhmac_sha512_context_transform_unfolded_calculate_hash_value values_64bit (EInt 41) hash_values (EInt 7) (EInt 0) (EInt 1) (EInt 2) (EInt 3) (EInt 4) (EInt 5) (EInt 6) s0 s1 t1 t2 ;-
  libhmac_sha512_context_transform_unfolded_calculate_hash_value values_64bit (EInt 42) hash_values (EInt 6) (EInt 7) (EInt 0) (EInt 1) (EInt 2) (EInt 3) (EInt 4) (EInt 5) s0 s1 t1 t2 ;-
  libhmac_sha512_context_transform_unfolded_calculate_hash_value values_64bit (EInt 43) hash_values (EInt 5) (EInt 6) (EInt 7) (EInt 0) (EInt 1) (EInt 2) (EInt 3) (EInt 4) s0 s1 t1 t2 ;-
  libhmac_sha512_context_transform_unfolded_calculate_hash_value values_64bit (EInt 44) hash_values (EInt 4) (EInt 5) (EInt 6) (EInt 7) (EInt 0) (EInt 1) (EInt 2) (EInt 3) s0 s1 t1 t2 ;-
  libhmac_sha512_context_transform_unfolded_calculate_hash_value values_64bit (EInt 45) hash_values (EInt 3) (EInt 4) (EInt 5) (EInt 6) (EInt 7) (EInt 0) (EInt 1) (EInt 2) s0 s1 t1 t2 ;-
  libhmac_sha512_context_transform_unfolded_calculate_hash_value values_64bit (EInt 46) hash_values (EInt 2) (EInt 3) (EInt 4) (EInt 5) (EInt 6) (EInt 7) (EInt 0) (EInt 1) s0 s1 t1 t2 ;-
  libhmac_sha512_context_transform_unfolded_calculate_hash_value values_64bit (EInt 47) hash_values (EInt 1) (EInt 2) (EInt 3) (EInt 4) (EInt 5) (EInt 6) (EInt 7) (EInt 0) s0 s1 t1 t2 ;-
  libhmac_sha512_context_transform_unfolded_calculate_hash_value values_64bit (EInt 48) hash_values (EInt 0) (EInt 1) (EInt 2) (EInt 3) (EInt 4) (EInt 5) (EInt 6) (EInt 7) s0 s1 t1 t2 ;-
  libhmac_sha512_context_transform_unfolded_calculate_hash_value values_64bit (EInt 49) hash_values (EInt 7) (EInt 0) (EInt 1) (EInt 2) (EInt 3) (EInt 4) (EInt 5) (EInt 6) s0 s1 t1 t2 ;-
  libhmac_sha512_context_transform_unfolded_calculate_hash_value values_64bit (EInt 50) hash_values (EInt 6) (EInt 7) (EInt 0) (EInt 1) (EInt 2) (EInt 3) (EInt 4) (EInt 5) s0 s1 t1 t2 ;-
  libhmac_sha512_context_transform_unfolded_calculate_hash_value values_64bit (EInt 51) hash_values (EInt 5) (EInt 6) (EInt 7) (EInt 0) (EInt 1) (EInt 2) (EInt 3) (EInt 4) s0 s1 t1 t2 ;-
  libhmac_sha512_context_transform_unfolded_calculate_hash_value values_64bit (EInt 52) hash_values (EInt 4) (EInt 5) (EInt 6) (EInt 7) (EInt 0) (EInt 1) (EInt 2) (EInt 3) s0 s1 t1 t2 ;-
  libhmac_sha512_context_transform_unfolded_calculate_hash_value values_64bit (EInt 53) hash_values (EInt 3) (EInt 4) (EInt 5) (EInt 6) (EInt 7) (EInt 0) (EInt 1) (EInt 2) s0 s1 t1 t2 ;-
  libhmac_sha512_context_transform_unfolded_calculate_hash_value values_64bit (EInt 54) hash_values (EInt 2) (EInt 3) (EInt 4) (EInt 5) (EInt 6) (EInt 7) (EInt 0) (EInt 1) s0 s1 t1 t2 ;-
  libhmac_sha512_context_transform_unfolded_calculate_hash_value values_64bit (EInt 55) hash_values (EInt 1) (EInt 2) (EInt 3) (EInt 4) (EInt 5) (EInt 6) (EInt 7) (EInt 0) s0 s1 t1 t2 ;-
  libhmac_sha512_context_transform_unfolded_calculate_hash_value values_64bit (EInt 56) hash_values (EInt 0) (EInt 1) (EInt 2) (EInt 3) (EInt 4) (EInt 5) (EInt 6) (EInt 7) s0 s1 t1 t2 ;-
  libhmac_sha512_context_transform_unfolded_calculate_hash_value values_64bit (EInt 57) hash_values (EInt 7) (EInt 0) (EInt 1) (EInt 2) (EInt 3) (EInt 4) (EInt 5) (EInt 6) s0 s1 t1 t2 ;-
  libhmac_sha512_context_transform_unfolded_calculate_hash_value values_64bit (EInt 58) hash_values (EInt 6) (EInt 7) (EInt 0) (EInt 1) (EInt 2) (EInt 3) (EInt 4) (EInt 5) s0 s1 t1 t2 ;-
  libhmac_sha512_context_transform_unfolded_calculate_hash_value values_64bit (EInt 59) hash_values (EInt 5) (EInt 6) (EInt 7) (EInt 0) (EInt 1) (EInt 2) (EInt 3) (EInt 4) s0 s1 t1 t2 ;-
  libhmac_sha512_context_transform_unfolded_calculate_hash_value values_64bit (EInt 60) hash_values (EInt 4) (EInt 5) (EInt 6) (EInt 7) (EInt 0) (EInt 1) (EInt 2) (EInt 3) s0 s1 t1 t2 ;-
  libhmac_sha512_context_transform_unfolded_calculate_hash_value values_64bit (EInt 61) hash_values (EInt 3) (EInt 4) (EInt 5) (EInt 6) (EInt 7) (EInt 0) (EInt 1) (EInt 2) s0 s1 t1 t2 ;-
  libhmac_sha512_context_transform_unfolded_calculate_hash_value values_64bit (EInt 62) hash_values (EInt 2) (EInt 3) (EInt 4) (EInt 5) (EInt 6) (EInt 7) (EInt 0) (EInt 1) s0 s1 t1 t2 ;-
  libhmac_sha512_context_transform_unfolded_calculate_hash_value values_64bit (EInt 63) hash_values (EInt 1) (EInt 2) (EInt 3) (EInt 4) (EInt 5) (EInt 6) (EInt 7) (EInt 0) s0 s1 t1 t2 ;-
  libhmac_sha512_context_transform_unfolded_calculate_hash_value values_64bit (EInt 64) hash_values (EInt 0) (EInt 1) (EInt 2) (EInt 3) (EInt 4) (EInt 5) (EInt 6) (EInt 7) s0 s1 t1 t2 ;-
  libhmac_sha512_context_transform_unfolded_calculate_hash_value values_64bit (EInt 65) hash_values (EInt 7) (EInt 0) (EInt 1) (EInt 2) (EInt 3) (EInt 4) (EInt 5) (EInt 6) s0 s1 t1 t2 ;-
  libhmac_sha512_context_transform_unfolded_calculate_hash_value values_64bit (EInt 66) hash_values (EInt 6) (EInt 7) (EInt 0) (EInt 1) (EInt 2) (EInt 3) (EInt 4) (EInt 5) s0 s1 t1 t2 ;-
  libhmac_sha512_context_transform_unfolded_calculate_hash_value values_64bit (EInt 67) hash_values (EInt 5) (EInt 6) (EInt 7) (EInt 0) (EInt 1) (EInt 2) (EInt 3) (EInt 4) s0 s1 t1 t2 ;-
  libhmac_sha512_context_transform_unfolded_calculate_hash_value values_64bit (EInt 68) hash_values (EInt 4) (EInt 5) (EInt 6) (EInt 7) (EInt 0) (EInt 1) (EInt 2) (EInt 3) s0 s1 t1 t2 ;-
  libhmac_sha512_context_transform_unfolded_calculate_hash_value values_64bit (EInt 69) hash_values (EInt 3) (EInt 4) (EInt 5) (EInt 6) (EInt 7) (EInt 0) (EInt 1) (EInt 2) s0 s1 t1 t2 ;-
  libhmac_sha512_context_transform_unfolded_calculate_hash_value values_64bit (EInt 70) hash_values (EInt 2) (EInt 3) (EInt 4) (EInt 5) (EInt 6) (EInt 7) (EInt 0) (EInt 1) s0 s1 t1 t2 ;-
  libhmac_sha512_context_transform_unfolded_calculate_hash_value values_64bit (EInt 71) hash_values (EInt 1) (EInt 2) (EInt 3) (EInt 4) (EInt 5) (EInt 6) (EInt 7) (EInt 0) s0 s1 t1 t2 ;-
  libhmac_sha512_context_transform_unfolded_calculate_hash_value values_64bit (EInt 72) hash_values (EInt 0) (EInt 1) (EInt 2) (EInt 3) (EInt 4) (EInt 5) (EInt 6) (EInt 7) s0 s1 t1 t2 ;-
  libhmac_sha512_context_transform_unfolded_calculate_hash_value values_64bit (EInt 73) hash_values (EInt 7) (EInt 0) (EInt 1) (EInt 2) (EInt 3) (EInt 4) (EInt 5) (EInt 6) s0 s1 t1 t2 ;-
  libhmac_sha512_context_transform_unfolded_calculate_hash_value values_64bit (EInt 74) hash_values (EInt 6) (EInt 7) (EInt 0) (EInt 1) (EInt 2) (EInt 3) (EInt 4) (EInt 5) s0 s1 t1 t2 ;-
  libhmac_sha512_context_transform_unfolded_calculate_hash_value values_64bit (EInt 75) hash_values (EInt 5) (EInt 6) (EInt 7) (EInt 0) (EInt 1) (EInt 2) (EInt 3) (EInt 4) s0 s1 t1 t2 ;-
  libhmac_sha512_context_transform_unfolded_calculate_hash_value values_64bit (EInt 76) hash_values (EInt 4) (EInt 5) (EInt 6) (EInt 7) (EInt 0) (EInt 1) (EInt 2) (EInt 3) s0 s1 t1 t2 ;-
  libhmac_sha512_context_transform_unfolded_calculate_hash_value values_64bit (EInt 77) hash_values (EInt 3) (EInt 4) (EInt 5) (EInt 6) (EInt 7) (EInt 0) (EInt 1) (EInt 2) s0 s1 t1 t2 ;-
  libhmac_sha512_context_transform_unfolded_calculate_hash_value values_64bit (EInt 78) hash_values (EInt 2) (EInt 3) (EInt 4) (EInt 5) (EInt 6) (EInt 7) (EInt 0) (EInt 1) s0 s1 t1 t2 ;-
  libhmac_sha512_context_transform_unfolded_calculate_hash_value values_64bit (EInt 79) hash_values (EInt 1) (EInt 2) (EInt 3) (EInt 4) (EInt 5) (EInt 6) (EInt 7) (EInt 0) s0 s1 t1 t2.

(* libhmac/libhmac_sha512_context.c:263-484 libhmac_sha512_context_transform *)
Definition text_libhmac_sha512_context_transform (unfolled : bool) : fundef := {|
  f_name := "libhmac_sha512_context_transform";
  f_ret := (true, RSz);
  f_params := [("internal_context", CPtr); ("buffer", CPtr); ("size", CInt false RSz); ("error", CPtr)];
  f_arrays := [("hash_values", R64, 8%nat); ("values_64bit", R64, 80%nat)];
  f_locals :=
     [("s0", (CInt false R64), (EInt 0));
      ("s1", (CInt false R64), (EInt 0));
      ("t1", (CInt false R64), (EInt 0));
      ("t2", (CInt false R64), (EInt 0));
      ("buffer_offset", (CInt false RSz), (EInt 0))] ++
     (if unfolled then [] else
      [("hash_values_index", (CInt false R8), (EInt 0));
       ("value_64bit_index", (CInt false R8), (EInt 0))]);
  f_body :=
    SIf (EBin OEq (EVar "internal_context") ENull) (
      SExpr (ECall "libcerror_error_set" [(EVar "error"); (EName "LIBCERROR_ERROR_DOMAIN_ARGUMENTS"); (EName "LIBCERROR_ARGUMENT_ERROR_INVALID_VALUE")]) ;-
      SReturn (EInt (-1))) SSkip ;-
    SIf (EBin OEq (EVar "buffer") ENull) (
      SExpr (ECall "libcerror_error_set" [(EVar "error"); (EName "LIBCERROR_ERROR_DOMAIN_ARGUMENTS"); (EName "LIBCERROR_ARGUMENT_ERROR_INVALID_VALUE")]) ;-
      SReturn (EInt (-1))) SSkip ;-
    SIf (EBin OGt (EVar "size") (ECast false RSz ESsizeMax)) (
      SExpr (ECall "libcerror_error_set" [(EVar "error"); (EName "LIBCERROR_ERROR_DOMAIN_ARGUMENTS"); (EName "LIBCERROR_ARGUMENT_ERROR_VALUE_EXCEEDS_MAXIMUM")]) ;-
      SReturn (EInt (-1))) SSkip ;-
    SWhile (EBin OGe (EVar "size") (EInt 128)) (
      SIf (EBin OEq (ECall "memory_copy" [(EVar "hash_values"); (EField (EVar "internal_context") "hash_values"); (EBin OMul (ESize 8) (EInt 8))]) ENull) (
        SExpr (ECall "libcerror_error_set" [(EVar "error"); (EName "LIBCERROR_ERROR_DOMAIN_MEMORY"); (EName "LIBCERROR_MEMORY_ERROR_COPY_FAILED")]) ;-
        SGoto) SSkip ;-
      (if unfolled then
        libhmac_byte_stream_copy_to_16x_uint64_big_endian (EAddr (EIndex (EVar "buffer") (EVar "buffer_offset"))) (EVar "values_64bit") ;-
        SOp OAdd (EVar "buffer_offset") (EInt 128) ;-
        libhmac_sha512_context_transform_unfolded_extend_64bit_values (EVar "values_64bit") (EVar "s0") (EVar "s1") ;-
        libhmac_sha512_context_transform_unfolded_calculate_hash_values (EVar "values_64bit") (EVar "hash_values") (EVar "s0") (EVar "s1") (EVar "t1") (EVar "t2") ;-
        SOp OAdd (EIndex (EField (EVar "internal_context") "hash_values") (EInt 0)) (EIndex (EVar "hash_values") (EInt 0)) ;-
        SOp OAdd (EIndex (EField (EVar "internal_context") "hash_values") (EInt 1)) (EIndex (EVar "hash_values") (EInt 1)) ;-
        SOp OAdd (EIndex (EField (EVar "internal_context") "hash_values") (EInt 2)) (EIndex (EVar "hash_values") (EInt 2)) ;-
        SOp OAdd (EIndex (EField (EVar "internal_context") "hash_values") (EInt 3)) (EIndex (EVar "hash_values") (EInt 3)) ;-
        SOp OAdd (EIndex (EField (EVar "internal_context") "hash_values") (EInt 4)) (EIndex (EVar "hash_values") (EInt 4)) ;-
        SOp OAdd (EIndex (EField (EVar "internal_context") "hash_values") (EInt 5)) (EIndex (EVar "hash_values") (EInt 5)) ;-
        SOp OAdd (EIndex (EField (EVar "internal_context") "hash_values") (EInt 6)) (EIndex (EVar "hash_values") (EInt 6)) ;-
        SOp OAdd (EIndex (EField (EVar "internal_context") "hash_values") (EInt 7)) (EIndex (EVar "hash_values") (EInt 7))
      else
        SFor (SAssign (EVar "value_64bit_index") (EInt 0)) (EBin OLt (EVar "value_64bit_index") (EInt 16)) (SOp OAdd (EVar "value_64bit_index") (EInt 1)) (
          byte_stream_copy_to_uint64_big_endian (EAddr (EIndex (EVar "buffer") (EVar "buffer_offset"))) (EIndex (EVar "values_64bit") (EVar "value_64bit_index")) ;-
          SOp OAdd (EVar "buffer_offset") (ESize 8)) ;-
        SFor (SAssign (EVar "value_64bit_index") (EInt 16)) (EBin OLt (EVar "value_64bit_index") (EInt 80)) (SOp OAdd (EVar "value_64bit_index") (EInt 1)) (
          libhmac_sha512_context_transform_extend_64bit_value (EVar "values_64bit") (EVar "value_64bit_index") (EVar "s0") (EVar "s1")) ;-
        SFor (SAssign (EVar "value_64bit_index") (EInt 0)) (EBin OLt (EVar "value_64bit_index") (EInt 80)) (SOp OAdd (EVar "value_64bit_index") (EInt 1)) (
          SAssign (EVar "s0") (EBin OXor (EBin OXor (byte_stream_bit_rotate_right_64bit (EIndex (EVar "hash_values") (EInt 0)) (EInt 28)) (byte_stream_bit_rotate_right_64bit (EIndex (EVar "hash_values") (EInt 0)) (EInt 34))) (byte_stream_bit_rotate_right_64bit (EIndex (EVar "hash_values") (EInt 0)) (EInt 39))) ;-
          SAssign (EVar "s1") (EBin OXor (EBin OXor (byte_stream_bit_rotate_right_64bit (EIndex (EVar "hash_values") (EInt 4)) (EInt 14)) (byte_stream_bit_rotate_right_64bit (EIndex (EVar "hash_values") (EInt 4)) (EInt 18))) (byte_stream_bit_rotate_right_64bit (EIndex (EVar "hash_values") (EInt 4)) (EInt 41))) ;-
          SAssign (EVar "t1") (EIndex (EVar "hash_values") (EInt 7)) ;-
          SOp OAdd (EVar "t1") (EVar "s1") ;-
          SOp OAdd (EVar "t1") (EBin OXor (EBin OAnd (EIndex (EVar "hash_values") (EInt 4)) (EIndex (EVar "hash_values") (EInt 5))) (EBin OAnd (ENot (EIndex (EVar "hash_values") (EInt 4))) (EIndex (EVar "hash_values") (EInt 6)))) ;-
          SOp OAdd (EVar "t1") (EIndex (EVar "libhmac_sha512_context_prime_cube_roots") (EVar "value_64bit_index")) ;-
          SOp OAdd (EVar "t1") (EIndex (EVar "values_64bit") (EVar "value_64bit_index")) ;-
          SAssign (EVar "t2") (EVar "s0") ;-
          SOp OAdd (EVar "t2") (EBin OXor (EBin OXor (EBin OAnd (EIndex (EVar "hash_values") (EInt 0)) (EIndex (EVar "hash_values") (EInt 1))) (EBin OAnd (EIndex (EVar "hash_values") (EInt 0)) (EIndex (EVar "hash_values") (EInt 2)))) (EBin OAnd (EIndex (EVar "hash_values") (EInt 1)) (EIndex (EVar "hash_values") (EInt 2)))) ;-
          SAssign (EIndex (EVar "hash_values") (EInt 7)) (EIndex (EVar "hash_values") (EInt 6)) ;-
          SAssign (EIndex (EVar "hash_values") (EInt 6)) (EIndex (EVar "hash_values") (EInt 5)) ;-
          SAssign (EIndex (EVar "hash_values") (EInt 5)) (EIndex (EVar "hash_values") (EInt 4)) ;-
          SAssign (EIndex (EVar "hash_values") (EInt 4)) (EBin OAdd (EIndex (EVar "hash_values") (EInt 3)) (EVar "t1")) ;-
          SAssign (EIndex (EVar "hash_values") (EInt 3)) (EIndex (EVar "hash_values") (EInt 2)) ;-
          SAssign (EIndex (EVar "hash_values") (EInt 2)) (EIndex (EVar "hash_values") (EInt 1)) ;-
          SAssign (EIndex (EVar "hash_values") (EInt 1)) (EIndex (EVar "hash_values") (EInt 0)) ;-
          SAssign (EIndex (EVar "hash_values") (EInt 0)) (EBin OAdd (EVar "t1") (EVar "t2"))) ;-
        SFor (SAssign (EVar "hash_values_index") (EInt 0)) (EBin OLt (EVar "hash_values_index") (EInt 8)) (SOp OAdd (EVar "hash_values_index") (EInt 1)) (
          SOp OAdd (EIndex (EField (EVar "internal_context") "hash_values") (EVar "hash_values_index")) (EIndex (EVar "hash_values") (EVar "hash_values_index")))) ;-
      SOp OSub (EVar "size") (EInt 128)) ;-
    SIf (EBin OEq (ECall "memory_set" [(EVar "hash_values"); (EInt 0); (EBin OMul (ESize 8) (EInt 8))]) ENull) (
      SExpr (ECall "libcerror_error_set" [(EVar "error"); (EName "LIBCERROR_ERROR_DOMAIN_MEMORY"); (EName "LIBCERROR_MEMORY_ERROR_SET_FAILED")]) ;-
      SGoto) SSkip ;-
    SIf (EBin OEq (ECall "memory_set" [(EVar "values_64bit"); (EInt 0); (EBin OMul (ESize 8) (EInt 80))]) ENull) (
      SExpr (ECall "libcerror_error_set" [(EVar "error"); (EName "LIBCERROR_ERROR_DOMAIN_MEMORY"); (EName "LIBCERROR_MEMORY_ERROR_SET_FAILED")]) ;-
      SGoto) SSkip ;-
    SReturn (ECast true RSz (EVar "buffer_offset"));
  f_error :=
    SExpr (ECall "memory_set" [(EVar "values_64bit"); (EInt 0); (EBin OMul (ESize 8) (EInt 80))]) ;-
    SExpr (ECall "memory_set" [(EVar "hash_values"); (EInt 0); (EBin OMul (ESize 8) (EInt 8))]) ;-
    SReturn (EInt (-1)) |}.

(* libhmac/libhmac_sha512_context.c:492-655 libhmac_sha512_context_initialize *)
Definition text_libhmac_sha512_context_initialize (unfolled : bool) : fundef := {|
  f_name := "libhmac_sha512_context_initialize";
  f_ret := (true, R32);
  f_params := [("context", CPtr); ("error", CPtr)];
  f_arrays := [];
  f_locals :=
     [("internal_context", CPtr, ENull)];
  f_body :=
    SIf (EBin OEq (EVar "context") ENull) (
      SExpr (ECall "libcerror_error_set" [(EVar "error"); (EName "LIBCERROR_ERROR_DOMAIN_ARGUMENTS"); (EName "LIBCERROR_ARGUMENT_ERROR_INVALID_VALUE")]) ;-
      SReturn (EInt (-1))) SSkip ;-
    SIf (EBin ONe (EStar "context") ENull) (
      SExpr (ECall "libcerror_error_set" [(EVar "error"); (EName "LIBCERROR_ERROR_DOMAIN_RUNTIME"); (EName "LIBCERROR_RUNTIME_ERROR_VALUE_ALREADY_SET")]) ;-
      SReturn (EInt (-1))) SSkip ;-
    SAssign (EVar "internal_context") (ECall "memory_allocate_structure" [ESizeof "libhmac_internal_sha512_context_t"]) ;-
    SIf (EBin OEq (EVar "internal_context") ENull) (
      SExpr (ECall "libcerror_error_set" [(EVar "error"); (EName "LIBCERROR_ERROR_DOMAIN_MEMORY"); (EName "LIBCERROR_MEMORY_ERROR_INSUFFICIENT")]) ;-
      SGoto) SSkip ;-
    SIf (EBin OEq (ECall "memory_set" [(EVar "internal_context"); (EInt 0); (ESizeof "libhmac_internal_sha512_context_t")]) ENull) (
      SExpr (ECall "libcerror_error_set" [(EVar "error"); (EName "LIBCERROR_ERROR_DOMAIN_MEMORY"); (EName "LIBCERROR_MEMORY_ERROR_SET_FAILED")]) ;-
      SExpr (ECall "memory_free" [(EVar "internal_context")]) ;-
      SReturn (EInt (-1))) SSkip ;-
    SIf (EBin OEq (ECall "memory_copy" [(EField (EVar "internal_context") "hash_values"); (EVar "libhmac_sha512_context_prime_square_roots"); (EBin OMul (ESize 8) (EInt 8))]) ENull) (
      SExpr (ECall "libcerror_error_set" [(EVar "error"); (EName "LIBCERROR_ERROR_DOMAIN_MEMORY"); (EName "LIBCERROR_MEMORY_ERROR_COPY_FAILED")]) ;-
      SReturn (EInt (-1))) SSkip ;-
    SAssign (EStar "context") (EVar "internal_context") ;-
    SReturn (EInt 1);
  f_error :=
    SIf (EBin ONe (EVar "internal_context") ENull) (
      SExpr (ECall "memory_free" [(EVar "internal_context")])) SSkip ;-
    SReturn (EInt (-1)) |}.

(* libhmac/libhmac_sha512_context.c:660-719 libhmac_sha512_context_free *)
Definition text_libhmac_sha512_context_free (unfolled : bool) : fundef := {|
  f_name := "libhmac_sha512_context_free";
  f_ret := (true, R32);
  f_params := [("context", CPtr); ("error", CPtr)];
  f_arrays := [];
  f_locals :=
     [("internal_context", CPtr, ENull)];
  f_body :=
    SIf (EBin OEq (EVar "context") ENull) (
      SExpr (ECall "libcerror_error_set" [(EVar "error"); (EName "LIBCERROR_ERROR_DOMAIN_ARGUMENTS"); (EName "LIBCERROR_ARGUMENT_ERROR_INVALID_VALUE")]) ;-
      SReturn (EInt (-1))) SSkip ;-
    SIf (EBin ONe (EStar "context") ENull) (
      SAssign (EVar "internal_context") (EStar "context") ;-
      SAssign (EStar "context") ENull ;-
      SExpr (ECall "memory_free" [(EVar "internal_context")])) SSkip ;-
    SReturn (EInt 1);
  f_error :=
    SSkip |}.

(* libhmac/libhmac_sha512_context.c:873-1040 libhmac_sha512_context_update *)
Definition text_libhmac_sha512_context_update (unfolled : bool) : fundef := {|
  f_name := "libhmac_sha512_context_update";
  f_ret := (true, R32);
  f_params := [("context", CPtr); ("buffer", CPtr); ("size", CInt false RSz); ("error", CPtr)];
  f_arrays := [];
  f_locals :=
     [("internal_context", CPtr, ENull);
      ("buffer_offset", (CInt false RSz), (EInt 0));
      ("remaining_block_size", (CInt false RSz), (EInt 0));
      ("process_count", (CInt true RSz), (EInt 0))];
  f_body :=
    SIf (EBin OEq (EVar "context") ENull) (
      SExpr (ECall "libcerror_error_set" [(EVar "error"); (EName "LIBCERROR_ERROR_DOMAIN_ARGUMENTS"); (EName "LIBCERROR_ARGUMENT_ERROR_INVALID_VALUE")]) ;-
      SReturn (EInt (-1))) SSkip ;-
    SAssign (EVar "internal_context") (EVar "context") ;-
    SIf (EBin OEq (EVar "buffer") ENull) (
      SExpr (ECall "libcerror_error_set" [(EVar "error"); (EName "LIBCERROR_ERROR_DOMAIN_ARGUMENTS"); (EName "LIBCERROR_ARGUMENT_ERROR_INVALID_VALUE")]) ;-
      SReturn (EInt (-1))) SSkip ;-
    SIf (EBin OGt (EVar "size") (ECast false RSz ESsizeMax)) (
      SExpr (ECall "libcerror_error_set" [(EVar "error"); (EName "LIBCERROR_ERROR_DOMAIN_ARGUMENTS"); (EName "LIBCERROR_ARGUMENT_ERROR_VALUE_EXCEEDS_MAXIMUM")]) ;-
      SReturn (EInt (-1))) SSkip ;-
    SIf (EBin OEq (EVar "size") (EInt 0)) (
      SReturn (EInt 1)) SSkip ;-
    SIf (EBin OGt (EField (EVar "internal_context") "block_offset") (EInt 0)) (
      SIf (EBin OGe (EField (EVar "internal_context") "block_offset") (EInt 128)) (
        SExpr (ECall "libcerror_error_set" [(EVar "error"); (EName "LIBCERROR_ERROR_DOMAIN_RUNTIME"); (EName "LIBCERROR_RUNTIME_ERROR_VALUE_OUT_OF_BOUNDS")]) ;-
        SReturn (EInt (-1))) SSkip ;-
      SAssign (EVar "remaining_block_size") (EBin OSub (EInt 128) (EField (EVar "internal_context") "block_offset")) ;-
      SIf (EBin OGt (EVar "remaining_block_size") (EVar "size")) (
        SAssign (EVar "remaining_block_size") (EVar "size")) SSkip ;-
      SIf (EBin OEq (ECall "memory_copy" [(EAddr (EIndex (EField (EVar "internal_context") "block") (EField (EVar "internal_context") "block_offset"))); (EVar "buffer"); (EVar "remaining_block_size")]) ENull) (
        SExpr (ECall "libcerror_error_set" [(EVar "error"); (EName "LIBCERROR_ERROR_DOMAIN_MEMORY"); (EName "LIBCERROR_MEMORY_ERROR_COPY_FAILED")]) ;-
        SReturn (EInt (-1))) SSkip ;-
      SOp OAdd (EField (EVar "internal_context") "block_offset") (EVar "remaining_block_size") ;-
      SIf (EBin OLt (EField (EVar "internal_context") "block_offset") (EInt 128)) (
        SReturn (EInt 1)) SSkip ;-
      SOp OAdd (EVar "buffer_offset") (EVar "remaining_block_size") ;-
      SOp OSub (EVar "size") (EVar "remaining_block_size") ;-
      SAssign (EVar "process_count") (ECall "libhmac_sha512_context_transform" [(EVar "internal_context"); (EField (EVar "internal_context") "block"); (EInt 128); (EVar "error")]) ;-
      SIf (EBin OEq (EVar "process_count") (EInt (-1))) (
        SExpr (ECall "libcerror_error_set" [(EVar "error"); (EName "LIBCERROR_ERROR_DOMAIN_RUNTIME"); (EName "LIBCERROR_RUNTIME_ERROR_SET_FAILED")]) ;-
        SReturn (EInt (-1))) SSkip ;-
      SOp OAdd (EField (EVar "internal_context") "hash_count") (EVar "process_count") ;-
      SAssign (EField (EVar "internal_context") "block_offset") (EInt 0)) SSkip ;-
    SIf (EBin OGt (EVar "size") (EInt 0)) (
      SAssign (EVar "process_count") (ECall "libhmac_sha512_context_transform" [(EVar "internal_context"); (EAddr (EIndex (EVar "buffer") (EVar "buffer_offset"))); (EVar "size"); (EVar "error")]) ;-
      SIf (EBin OEq (EVar "process_count") (EInt (-1))) (
        SExpr (ECall "libcerror_error_set" [(EVar "error"); (EName "LIBCERROR_ERROR_DOMAIN_RUNTIME"); (EName "LIBCERROR_RUNTIME_ERROR_SET_FAILED")]) ;-
        SReturn (EInt (-1))) SSkip ;-
      SOp OAdd (EField (EVar "internal_context") "hash_count") (EVar "process_count") ;-
      SOp OAdd (EVar "buffer_offset") (EVar "process_count") ;-
      SOp OSub (EVar "size") (EVar "process_count")) SSkip ;-
    SIf (EBin OGt (EVar "size") (EInt 0)) (
      SIf (EBin OGe (EVar "size") (EInt 128)) (
        SExpr (ECall "libcerror_error_set" [(EVar "error"); (EName "LIBCERROR_ERROR_DOMAIN_RUNTIME"); (EName "LIBCERROR_RUNTIME_ERROR_VALUE_OUT_OF_BOUNDS")]) ;-
        SReturn (EInt (-1))) SSkip ;-
      SIf (EBin OEq (ECall "memory_copy" [(EField (EVar "internal_context") "block"); (EAddr (EIndex (EVar "buffer") (EVar "buffer_offset"))); (EVar "size")]) ENull) (
        SExpr (ECall "libcerror_error_set" [(EVar "error"); (EName "LIBCERROR_ERROR_DOMAIN_MEMORY"); (EName "LIBCERROR_MEMORY_ERROR_COPY_FAILED")]) ;-
        SReturn (EInt (-1))) SSkip ;-
      SAssign (EField (EVar "internal_context") "block_offset") (EVar "size")) SSkip ;-
    SReturn (EInt 1);
  f_error :=
    SSkip |}.

(* common/byte_stream.h:202-210 #define byte_stream_copy_from_uint64_big_endian *)
Definition byte_stream_copy_from_uint64_big_endian (byte_stream value : expr) : stmt :=
  SAssign (EIndex byte_stream (EInt 0)) (ECast false R8 (EBin OAnd (EBin OShr value (EInt 56)) (EInt 255))) ;-
  SAssign (EIndex byte_stream (EInt 1)) (ECast false R8 (EBin OAnd (EBin OShr value (EInt 48)) (EInt 255))) ;-
  SAssign (EIndex byte_stream (EInt 2)) (ECast false R8 (EBin OAnd (EBin OShr value (EInt 40)) (EInt 255))) ;-
  SAssign (EIndex byte_stream (EInt 3)) (ECast false R8 (EBin OAnd (EBin OShr value (EInt 32)) (EInt 255))) ;-
  SAssign (EIndex byte_stream (EInt 4)) (ECast false R8 (EBin OAnd (EBin OShr value (EInt 24)) (EInt 255))) ;-
  SAssign (EIndex byte_stream (EInt 5)) (ECast false R8 (EBin OAnd (EBin OShr value (EInt 16)) (EInt 255))) ;-
  SAssign (EIndex byte_stream (EInt 6)) (ECast false R8 (EBin OAnd (EBin OShr value (EInt 8)) (EInt 255))) ;-
  SAssign (EIndex byte_stream (EInt 7)) (ECast false R8 (EBin OAnd value (EInt 255))).

(* libhmac/libhmac_sha512_context.c:1195-1384 libhmac_sha512_context_finalize *)
Definition text_libhmac_sha512_context_finalize (unfolled : bool) : fundef := {|
  f_name := "libhmac_sha512_context_finalize";
  f_ret := (true, R32);
  f_params := [("context", CPtr); ("hash", CPtr); ("hash_size", CInt false RSz); ("error", CPtr)];
  f_arrays := [];
  f_locals :=
     [("internal_context", CPtr, ENull);
      ("block_size", (CInt false RSz), (EInt 0));
      ("number_of_blocks", (CInt false RSz), (EInt 0));
      ("process_count", (CInt true RSz), (EInt 0));
      ("bit_size", (CInt false R64), (EInt 0))] ++
     (if unfolled then [] else
      [("hash_index", (CInt false RSz), (EInt 0));
       ("hash_values_index", (CInt true R32), (EInt 0))]);
  f_body :=
    SIf (EBin OEq (EVar "context") ENull) (
      SExpr (ECall "libcerror_error_set" [(EVar "error"); (EName "LIBCERROR_ERROR_DOMAIN_ARGUMENTS"); (EName "LIBCERROR_ARGUMENT_ERROR_INVALID_VALUE")]) ;-
      SReturn (EInt (-1))) SSkip ;-
    SAssign (EVar "internal_context") (EVar "context") ;-
    SIf (EBin OEq (EVar "hash") ENull) (
      SExpr (ECall "libcerror_error_set" [(EVar "error"); (EName "LIBCERROR_ERROR_DOMAIN_ARGUMENTS"); (EName "LIBCERROR_ARGUMENT_ERROR_INVALID_VALUE")]) ;-
      SReturn (EInt (-1))) SSkip ;-
    SIf (EBin OLt (EVar "hash_size") (ECast false RSz (EInt 64))) (
      SExpr (ECall "libcerror_error_set" [(EVar "error"); (EName "LIBCERROR_ERROR_DOMAIN_ARGUMENTS"); (EName "LIBCERROR_ARGUMENT_ERROR_VALUE_TOO_SMALL")]) ;-
      SReturn (EInt (-1))) SSkip ;-
    SIf (EBin OGt (EVar "hash_size") (ECast false RSz ESsizeMax)) (
      SExpr (ECall "libcerror_error_set" [(EVar "error"); (EName "LIBCERROR_ERROR_DOMAIN_ARGUMENTS"); (EName "LIBCERROR_ARGUMENT_ERROR_VALUE_EXCEEDS_MAXIMUM")]) ;-
      SReturn (EInt (-1))) SSkip ;-
    SIf (EBin OLt (EVar "hash_size") (ECast false RSz (EInt 64))) (
      SExpr (ECall "libcerror_error_set" [(EVar "error"); (EName "LIBCERROR_ERROR_DOMAIN_ARGUMENTS"); (EName "LIBCERROR_ARGUMENT_ERROR_VALUE_TOO_SMALL")]) ;-
      SReturn (EInt (-1))) SSkip ;-
    SAssign (EVar "number_of_blocks") (EInt 1) ;-
    SIf (EBin OGt (EField (EVar "internal_context") "block_offset") (EInt 111)) (
      SOp OAdd (EVar "number_of_blocks") (EInt 1)) SSkip ;-
    SAssign (EVar "block_size") (EBin OMul (EVar "number_of_blocks") (EInt 128)) ;-
    SIf (EBin OEq (ECall "memory_set" [(EAddr (EIndex (EField (EVar "internal_context") "block") (EField (EVar "internal_context") "block_offset"))); (EInt 0); (EBin OSub (EVar "block_size") (EField (EVar "internal_context") "block_offset"))]) ENull) (
      SExpr (ECall "libcerror_error_set" [(EVar "error"); (EName "LIBCERROR_ERROR_DOMAIN_MEMORY"); (EName "LIBCERROR_MEMORY_ERROR_SET_FAILED")]) ;-
      SReturn (EInt (-1))) SSkip ;-
    SAssign (EIndex (EField (EVar "internal_context") "block") (EField (EVar "internal_context") "block_offset")) (EInt 128) ;-
    SAssign (EVar "bit_size") (EBin OMul (EBin OAdd (EField (EVar "internal_context") "hash_count") (EField (EVar "internal_context") "block_offset")) (EInt 8)) ;-
    byte_stream_copy_from_uint64_big_endian (EAddr (EIndex (EField (EVar "internal_context") "block") (EBin OSub (EVar "block_size") (EInt 8)))) (EVar "bit_size") ;-
    SAssign (EVar "process_count") (ECall "libhmac_sha512_context_transform" [(EVar "internal_context"); (EField (EVar "internal_context") "block"); (EVar "block_size"); (EVar "error")]) ;-
    SIf (EBin OEq (EVar "process_count") (EInt (-1))) (
      SExpr (ECall "libcerror_error_set" [(EVar "error"); (EName "LIBCERROR_ERROR_DOMAIN_RUNTIME"); (EName "LIBCERROR_RUNTIME_ERROR_SET_FAILED")]) ;-
      SReturn (EInt (-1))) SSkip ;-
    (if unfolled then
      byte_stream_copy_from_uint64_big_endian (EAddr (EIndex (EVar "hash") (EInt 0))) (EIndex (EField (EVar "internal_context") "hash_values") (EInt 0)) ;-
      byte_stream_copy_from_uint64_big_endian (EAddr (EIndex (EVar "hash") (EInt 8))) (EIndex (EField (EVar "internal_context") "hash_values") (EInt 1)) ;-
      byte_stream_copy_from_uint64_big_endian (EAddr (EIndex (EVar "hash") (EInt 16))) (EIndex (EField (EVar "internal_context") "hash_values") (EInt 2)) ;-
      byte_stream_copy_from_uint64_big_endian (EAddr (EIndex (EVar "hash") (EInt 24))) (EIndex (EField (EVar "internal_context") "hash_values") (EInt 3)) ;-
      byte_stream_copy_from_uint64_big_endian (EAddr (EIndex (EVar "hash") (EInt 32))) (EIndex (EField (EVar "internal_context") "hash_values") (EInt 4)) ;-
      byte_stream_copy_from_uint64_big_endian (EAddr (EIndex (EVar "hash") (EInt 40))) (EIndex (EField (EVar "internal_context") "hash_values") (EInt 5)) ;-
      byte_stream_copy_from_uint64_big_endian (EAddr (EIndex (EVar "hash") (EInt 48))) (EIndex (EField (EVar "internal_context") "hash_values") (EInt 6)) ;-
      byte_stream_copy_from_uint64_big_endian (EAddr (EIndex (EVar "hash") (EInt 56))) (EIndex (EField (EVar "internal_context") "hash_values") (EInt 7))
    else
      SFor (SAssign (EVar "hash_values_index") (EInt 0)) (EBin OLt (EVar "hash_values_index") (EInt 8)) (SOp OAdd (EVar "hash_values_index") (EInt 1)) (
        byte_stream_copy_from_uint64_big_endian (EAddr (EIndex (EVar "hash") (EVar "hash_index"))) (EIndex (EField (EVar "internal_context") "hash_values") (EVar "hash_values_index")) ;-
        SOp OAdd (EVar "hash_index") (ESize 8))) ;-
    SIf (EBin OEq (ECall "memory_set" [(EVar "internal_context"); (EInt 0); (ESizeof "libhmac_internal_sha512_context_t")]) ENull) (
      SExpr (ECall "libcerror_error_set" [(EVar "error"); (EName "LIBCERROR_ERROR_DOMAIN_MEMORY"); (EName "LIBCERROR_MEMORY_ERROR_SET_FAILED")]) ;-
      SReturn (EInt (-1))) SSkip ;-
    SReturn (EInt 1);
  f_error :=
    SSkip |}.

(* libhmac/libhmac_sha512.c:35-55 libhmac_sha512_initialize *)
Definition text_libhmac_sha512_initialize (unfolled : bool) : fundef := {|
  f_name := "libhmac_sha512_initialize";
  f_ret := (true, R32);
  f_params := [("context", CPtr); ("error", CPtr)];
  f_arrays := [];
  f_locals :=
     [];
  f_body :=
    SIf (EBin ONe (ECall "libhmac_sha512_context_initialize" [(EVar "context"); (EVar "error")]) (EInt 1)) (
      SExpr (ECall "libcerror_error_set" [(EVar "error"); (EName "LIBCERROR_ERROR_DOMAIN_RUNTIME"); (EName "LIBCERROR_RUNTIME_ERROR_INITIALIZE_FAILED")]) ;-
      SReturn (EInt (-1))) SSkip ;-
    SReturn (EInt 1);
  f_error :=
    SSkip |}.

(* libhmac/libhmac_sha512.c:60-80 libhmac_sha512_free *)
Definition text_libhmac_sha512_free (unfolled : bool) : fundef := {|
  f_name := "libhmac_sha512_free";
  f_ret := (true, R32);
  f_params := [("context", CPtr); ("error", CPtr)];
  f_arrays := [];
  f_locals :=
     [];
  f_body :=
    SIf (EBin ONe (ECall "libhmac_sha512_context_free" [(EVar "context"); (EVar "error")]) (EInt 1)) (
      SExpr (ECall "libcerror_error_set" [(EVar "error"); (EName "LIBCERROR_ERROR_DOMAIN_RUNTIME"); (EName "LIBCERROR_RUNTIME_ERROR_FINALIZE_FAILED")]) ;-
      SReturn (EInt (-1))) SSkip ;-
    SReturn (EInt 1);
  f_error :=
    SSkip |}.

(* libhmac/libhmac_sha512.c:85-109 libhmac_sha512_update *)
Definition text_libhmac_sha512_update (unfolled : bool) : fundef := {|
  f_name := "libhmac_sha512_update";
  f_ret := (true, R32);
  f_params := [("context", CPtr); ("buffer", CPtr); ("size", CInt false RSz); ("error", CPtr)];
  f_arrays := [];
  f_locals :=
     [];
  f_body :=
    SIf (EBin ONe (ECall "libhmac_sha512_context_update" [(EVar "context"); (EVar "buffer"); (EVar "size"); (EVar "error")]) (EInt 1)) (
      SExpr (ECall "libcerror_error_set" [(EVar "error"); (EName "LIBCERROR_ERROR_DOMAIN_RUNTIME"); (EName "LIBCERROR_RUNTIME_ERROR_SET_FAILED")]) ;-
      SReturn (EInt (-1))) SSkip ;-
    SReturn (EInt 1);
  f_error :=
    SSkip |}.

(* libhmac/libhmac_sha512.c:114-138 libhmac_sha512_finalize *)
Definition text_libhmac_sha512_finalize (unfolled : bool) : fundef := {|
  f_name := "libhmac_sha512_finalize";
  f_ret := (true, R32);
  f_params := [("context", CPtr); ("hash", CPtr); ("hash_size", CInt false RSz); ("error", CPtr)];
  f_arrays := [];
  f_locals :=
     [];
  f_body :=
    SIf (EBin ONe (ECall "libhmac_sha512_context_finalize" [(EVar "context"); (EVar "hash"); (EVar "hash_size"); (EVar "error")]) (EInt 1)) (
      SExpr (ECall "libcerror_error_set" [(EVar "error"); (EName "LIBCERROR_ERROR_DOMAIN_RUNTIME"); (EName "LIBCERROR_RUNTIME_ERROR_FINALIZE_FAILED")]) ;-
      SReturn (EInt (-1))) SSkip ;-
    SReturn (EInt 1);
  f_error :=
    SSkip |}.

(* libhmac/libhmac_sha512.c:143-219 libhmac_sha512_calculate *)
Definition text_libhmac_sha512_calculate (unfolled : bool) : fundef := {|
  f_name := "libhmac_sha512_calculate";
  f_ret := (true, R32);
  f_params := [("buffer", CPtr); ("size", CInt false RSz); ("hash", CPtr); ("hash_size", CInt false RSz); ("error", CPtr)];
  f_arrays := [];
  f_locals :=
     [("context", CPtr, ENull)];
  f_body :=
    SIf (EBin ONe (ECall "libhmac_sha512_context_initialize" [(ERef "context"); (EVar "error")]) (EInt 1)) (
      SExpr (ECall "libcerror_error_set" [(EVar "error"); (EName "LIBCERROR_ERROR_DOMAIN_RUNTIME"); (EName "LIBCERROR_RUNTIME_ERROR_INITIALIZE_FAILED")]) ;-
      SGoto) SSkip ;-
    SIf (EBin ONe (ECall "libhmac_sha512_context_update" [(EVar "context"); (EVar "buffer"); (EVar "size"); (EVar "error")]) (EInt 1)) (
      SExpr (ECall "libcerror_error_set" [(EVar "error"); (EName "LIBCERROR_ERROR_DOMAIN_RUNTIME"); (EName "LIBCERROR_RUNTIME_ERROR_SET_FAILED")]) ;-
      SGoto) SSkip ;-
    SIf (EBin ONe (ECall "libhmac_sha512_context_finalize" [(EVar "context"); (EVar "hash"); (EVar "hash_size"); (EVar "error")]) (EInt 1)) (
      SExpr (ECall "libcerror_error_set" [(EVar "error"); (EName "LIBCERROR_ERROR_DOMAIN_RUNTIME"); (EName "LIBCERROR_RUNTIME_ERROR_FINALIZE_FAILED")]) ;-
      SGoto) SSkip ;-
    SIf (EBin ONe (ECall "libhmac_sha512_context_free" [(ERef "context"); (EVar "error")]) (EInt 1)) (
      SExpr (ECall "libcerror_error_set" [(EVar "error"); (EName "LIBCERROR_ERROR_DOMAIN_RUNTIME"); (EName "LIBCERROR_RUNTIME_ERROR_FINALIZE_FAILED")]) ;-
      SGoto) SSkip ;-
    SReturn (EInt 1);
  f_error :=
    SIf (EBin ONe (EVar "context") ENull) (
      SExpr (ECall "libhmac_sha512_context_free" [(ERef "context"); ENull])) SSkip ;-
    SReturn (EInt (-1)) |}.

(* libhmac/libhmac_sha512.c:225-714 libhmac_sha512_calculate_hmac *)
Definition text_libhmac_sha512_calculate_hmac (unfolled : bool) : fundef := {|
  f_name := "libhmac_sha512_calculate_hmac";
  f_ret := (true, R32);
  f_params := [("key", CPtr); ("key_size", CInt false RSz); ("buffer", CPtr); ("size", CInt false RSz); ("hmac", CPtr); ("hmac_size", CInt false RSz); ("error", CPtr)];
  f_arrays := [("key_hash", R8, 64%nat)];
  f_locals :=
     [("context", CPtr, ENull);
      ("key_data", CPtr, ENull);
      ("inner_padding", CPtr, ENull);
      ("outer_padding", CPtr, ENull);
      ("block_index", (CInt false RSz), (EInt 0));
      ("block_size", (CInt false RSz), (EInt 128))];
  f_body :=
    SIf (EBin OEq (EVar "key") ENull) (
      SExpr (ECall "libcerror_error_set" [(EVar "error"); (EName "LIBCERROR_ERROR_DOMAIN_ARGUMENTS"); (EName "LIBCERROR_ARGUMENT_ERROR_INVALID_VALUE")]) ;-
      SReturn (EInt (-1))) SSkip ;-
    SIf (EBin OGt (EVar "key_size") (ECast false RSz ESsizeMax)) (
      SExpr (ECall "libcerror_error_set" [(EVar "error"); (EName "LIBCERROR_ERROR_DOMAIN_ARGUMENTS"); (EName "LIBCERROR_ARGUMENT_ERROR_VALUE_EXCEEDS_MAXIMUM")]) ;-
      SReturn (EInt (-1))) SSkip ;-
    SIf (EBin OLt (EVar "hmac_size") (ECast false RSz (EInt 64))) (
      SExpr (ECall "libcerror_error_set" [(EVar "error"); (EName "LIBCERROR_ERROR_DOMAIN_ARGUMENTS"); (EName "LIBCERROR_ARGUMENT_ERROR_VALUE_TOO_SMALL")]) ;-
      SReturn (EInt (-1))) SSkip ;-
    SAssign (EVar "key_data") (ECall "memory_allocate" [(EBin OMul (ESize 1) (EVar "block_size"))]) ;-
    SIf (EBin OEq (EVar "key_data") ENull) (
      SExpr (ECall "libcerror_error_set" [(EVar "error"); (EName "LIBCERROR_ERROR_DOMAIN_MEMORY"); (EName "LIBCERROR_MEMORY_ERROR_INSUFFICIENT")]) ;-
      SGoto) SSkip ;-
    SIf (EBin OLe (EVar "key_size") (EVar "block_size")) (
      SIf (EBin OEq (ECall "memory_copy" [(EVar "key_data"); (EVar "key"); (EVar "key_size")]) ENull) (
        SExpr (ECall "libcerror_error_set" [(EVar "error"); (EName "LIBCERROR_ERROR_DOMAIN_MEMORY"); (EName "LIBCERROR_MEMORY_ERROR_COPY_FAILED")]) ;-
        SGoto) SSkip ;-
      SIf (EBin OEq (ECall "memory_set" [(EAddr (EIndex (EVar "key_data") (EVar "key_size"))); (EInt 0); (EBin OSub (EVar "block_size") (EVar "key_size"))]) ENull) (
        SExpr (ECall "libcerror_error_set" [(EVar "error"); (EName "LIBCERROR_ERROR_DOMAIN_MEMORY"); (EName "LIBCERROR_MEMORY_ERROR_SET_FAILED")]) ;-
        SGoto) SSkip)
    (
      SIf (EBin ONe (ECall "libhmac_sha512_context_initialize" [(ERef "context"); (EVar "error")]) (EInt 1)) (
        SExpr (ECall "libcerror_error_set" [(EVar "error"); (EName "LIBCERROR_ERROR_DOMAIN_RUNTIME"); (EName "LIBCERROR_RUNTIME_ERROR_INITIALIZE_FAILED")]) ;-
        SGoto) SSkip ;-
      SIf (EBin ONe (ECall "libhmac_sha512_context_update" [(EVar "context"); (EVar "key"); (EVar "key_size"); (EVar "error")]) (EInt 1)) (
        SExpr (ECall "libcerror_error_set" [(EVar "error"); (EName "LIBCERROR_ERROR_DOMAIN_RUNTIME"); (EName "LIBCERROR_RUNTIME_ERROR_SET_FAILED")]) ;-
        SGoto) SSkip ;-
      SIf (EBin ONe (ECall "libhmac_sha512_context_finalize" [(EVar "context"); (EVar "key_hash"); (EInt 64); (EVar "error")]) (EInt 1)) (
        SExpr (ECall "libcerror_error_set" [(EVar "error"); (EName "LIBCERROR_ERROR_DOMAIN_RUNTIME"); (EName "LIBCERROR_RUNTIME_ERROR_FINALIZE_FAILED")]) ;-
        SGoto) SSkip ;-
      SIf (EBin ONe (ECall "libhmac_sha512_context_free" [(ERef "context"); (EVar "error")]) (EInt 1)) (
        SExpr (ECall "libcerror_error_set" [(EVar "error"); (EName "LIBCERROR_ERROR_DOMAIN_RUNTIME"); (EName "LIBCERROR_RUNTIME_ERROR_FINALIZE_FAILED")]) ;-
        SGoto) SSkip ;-
      SIf (EBin OGt (EVar "block_size") (EInt 64)) (
        SIf (EBin OEq (ECall "memory_set" [(EAddr (EIndex (EVar "key_data") (EInt 64))); (EInt 0); (EBin OSub (EVar "block_size") (EInt 64))]) ENull) (
          SExpr (ECall "libcerror_error_set" [(EVar "error"); (EName "LIBCERROR_ERROR_DOMAIN_MEMORY"); (EName "LIBCERROR_MEMORY_ERROR_SET_FAILED")]) ;-
          SGoto) SSkip) SSkip ;-
      SIf (EBin OEq (ECall "memory_copy" [(EVar "key_data"); (EVar "key_hash"); (EInt 64)]) ENull) (
        SExpr (ECall "libcerror_error_set" [(EVar "error"); (EName "LIBCERROR_ERROR_DOMAIN_MEMORY"); (EName "LIBCERROR_MEMORY_ERROR_COPY_FAILED")]) ;-
        SGoto) SSkip) ;-
    SAssign (EVar "inner_padding") (ECall "memory_allocate" [(EBin OMul (ESize 1) (EVar "block_size"))]) ;-
    SIf (EBin OEq (EVar "inner_padding") ENull) (
      SExpr (ECall "libcerror_error_set" [(EVar "error"); (EName "LIBCERROR_ERROR_DOMAIN_MEMORY"); (EName "LIBCERROR_MEMORY_ERROR_INSUFFICIENT")]) ;-
      SGoto) SSkip ;-
    SIf (EBin OEq (ECall "memory_set" [(EVar "inner_padding"); (EInt 54); (EVar "block_size")]) ENull) (
      SExpr (ECall "libcerror_error_set" [(EVar "error"); (EName "LIBCERROR_ERROR_DOMAIN_MEMORY"); (EName "LIBCERROR_MEMORY_ERROR_SET_FAILED")]) ;-
      SGoto) SSkip ;-
    SAssign (EVar "outer_padding") (ECall "memory_allocate" [(EBin OMul (ESize 1) (EVar "block_size"))]) ;-
    SIf (EBin OEq (EVar "outer_padding") ENull) (
      SExpr (ECall "libcerror_error_set" [(EVar "error"); (EName "LIBCERROR_ERROR_DOMAIN_MEMORY"); (EName "LIBCERROR_MEMORY_ERROR_INSUFFICIENT")]) ;-
      SGoto) SSkip ;-
    SIf (EBin OEq (ECall "memory_set" [(EVar "outer_padding"); (EInt 92); (EVar "block_size")]) ENull) (
      SExpr (ECall "libcerror_error_set" [(EVar "error"); (EName "LIBCERROR_ERROR_DOMAIN_MEMORY"); (EName "LIBCERROR_MEMORY_ERROR_SET_FAILED")]) ;-
      SGoto) SSkip ;-
    SFor (SAssign (EVar "block_index") (EInt 0)) (EBin OLt (EVar "block_index") (EVar "block_size")) (SOp OAdd (EVar "block_index") (EInt 1)) (
      SOp OXor (EIndex (EVar "inner_padding") (EVar "block_index")) (EIndex (EVar "key_data") (EVar "block_index")) ;-
      SOp OXor (EIndex (EVar "outer_padding") (EVar "block_index")) (EIndex (EVar "key_data") (EVar "block_index"))) ;-
    SIf (EBin ONe (ECall "libhmac_sha512_context_initialize" [(ERef "context"); (EVar "error")]) (EInt 1)) (
      SExpr (ECall "libcerror_error_set" [(EVar "error"); (EName "LIBCERROR_ERROR_DOMAIN_RUNTIME"); (EName "LIBCERROR_RUNTIME_ERROR_INITIALIZE_FAILED")]) ;-
      SGoto) SSkip ;-
    SIf (EBin ONe (ECall "libhmac_sha512_context_update" [(EVar "context"); (EVar "inner_padding"); (EVar "block_size"); (EVar "error")]) (EInt 1)) (
      SExpr (ECall "libcerror_error_set" [(EVar "error"); (EName "LIBCERROR_ERROR_DOMAIN_RUNTIME"); (EName "LIBCERROR_RUNTIME_ERROR_SET_FAILED")]) ;-
      SGoto) SSkip ;-
    SIf (EBin ONe (ECall "libhmac_sha512_context_update" [(EVar "context"); (EVar "buffer"); (EVar "size"); (EVar "error")]) (EInt 1)) (
      SExpr (ECall "libcerror_error_set" [(EVar "error"); (EName "LIBCERROR_ERROR_DOMAIN_RUNTIME"); (EName "LIBCERROR_RUNTIME_ERROR_SET_FAILED")]) ;-
      SGoto) SSkip ;-
    SIf (EBin ONe (ECall "libhmac_sha512_context_finalize" [(EVar "context"); (EVar "hmac"); (EVar "hmac_size"); (EVar "error")]) (EInt 1)) (
      SExpr (ECall "libcerror_error_set" [(EVar "error"); (EName "LIBCERROR_ERROR_DOMAIN_RUNTIME"); (EName "LIBCERROR_RUNTIME_ERROR_FINALIZE_FAILED")]) ;-
      SGoto) SSkip ;-
    SIf (EBin ONe (ECall "libhmac_sha512_context_free" [(ERef "context"); (EVar "error")]) (EInt 1)) (
      SExpr (ECall "libcerror_error_set" [(EVar "error"); (EName "LIBCERROR_ERROR_DOMAIN_RUNTIME"); (EName "LIBCERROR_RUNTIME_ERROR_FINALIZE_FAILED")]) ;-
      SGoto) SSkip ;-
    SIf (EBin ONe (ECall "libhmac_sha512_context_initialize" [(ERef "context"); (EVar "error")]) (EInt 1)) (
      SExpr (ECall "libcerror_error_set" [(EVar "error"); (EName "LIBCERROR_ERROR_DOMAIN_RUNTIME"); (EName "LIBCERROR_RUNTIME_ERROR_INITIALIZE_FAILED")]) ;-
      SGoto) SSkip ;-
    SIf (EBin ONe (ECall "libhmac_sha512_context_update" [(EVar "context"); (EVar "outer_padding"); (EVar "block_size"); (EVar "error")]) (EInt 1)) (
      SExpr (ECall "libcerror_error_set" [(EVar "error"); (EName "LIBCERROR_ERROR_DOMAIN_RUNTIME"); (EName "LIBCERROR_RUNTIME_ERROR_SET_FAILED")]) ;-
      SGoto) SSkip ;-
    SIf (EBin ONe (ECall "libhmac_sha512_context_update" [(EVar "context"); (EVar "hmac"); (EInt 64); (EVar "error")]) (EInt 1)) (
      SExpr (ECall "libcerror_error_set" [(EVar "error"); (EName "LIBCERROR_ERROR_DOMAIN_RUNTIME"); (EName "LIBCERROR_RUNTIME_ERROR_SET_FAILED")]) ;-
      SGoto) SSkip ;-
    SIf (EBin ONe (ECall "libhmac_sha512_context_finalize" [(EVar "context"); (EVar "hmac"); (EVar "hmac_size"); (EVar "error")]) (EInt 1)) (
      SExpr (ECall "libcerror_error_set" [(EVar "error"); (EName "LIBCERROR_ERROR_DOMAIN_RUNTIME"); (EName "LIBCERROR_RUNTIME_ERROR_FINALIZE_FAILED")]) ;-
      SGoto) SSkip ;-
    SIf (EBin ONe (ECall "libhmac_sha512_context_free" [(ERef "context"); (EVar "error")]) (EInt 1)) (
      SExpr (ECall "libcerror_error_set" [(EVar "error"); (EName "LIBCERROR_ERROR_DOMAIN_RUNTIME"); (EName "LIBCERROR_RUNTIME_ERROR_FINALIZE_FAILED")]) ;-
      SGoto) SSkip ;-
    SIf (EBin OEq (ECall "memory_set" [(EVar "outer_padding"); (EInt 0); (EVar "block_size")]) ENull) (
      SExpr (ECall "libcerror_error_set" [(EVar "error"); (EName "LIBCERROR_ERROR_DOMAIN_MEMORY"); (EName "LIBCERROR_MEMORY_ERROR_SET_FAILED")]) ;-
      SGoto) SSkip ;-
    SExpr (ECall "memory_free" [(EVar "outer_padding")]) ;-
    SAssign (EVar "outer_padding") ENull ;-
    SIf (EBin OEq (ECall "memory_set" [(EVar "inner_padding"); (EInt 0); (EVar "block_size")]) ENull) (
      SExpr (ECall "libcerror_error_set" [(EVar "error"); (EName "LIBCERROR_ERROR_DOMAIN_MEMORY"); (EName "LIBCERROR_MEMORY_ERROR_SET_FAILED")]) ;-
      SGoto) SSkip ;-
    SExpr (ECall "memory_free" [(EVar "inner_padding")]) ;-
    SAssign (EVar "inner_padding") ENull ;-
    SIf (EBin OEq (ECall "memory_set" [(EVar "key_data"); (EInt 0); (EVar "block_size")]) ENull) (
      SExpr (ECall "libcerror_error_set" [(EVar "error"); (EName "LIBCERROR_ERROR_DOMAIN_MEMORY"); (EName "LIBCERROR_MEMORY_ERROR_SET_FAILED")]) ;-
      SGoto) SSkip ;-
    SExpr (ECall "memory_free" [(EVar "key_data")]) ;-
    SAssign (EVar "key_data") ENull ;-
    SReturn (EInt 1);
  f_error :=
    SIf (EBin ONe (EVar "context") ENull) (
      SExpr (ECall "libhmac_sha512_context_free" [(ERef "context"); ENull])) SSkip ;-
    SIf (EBin ONe (EVar "outer_padding") ENull) (
      SExpr (ECall "memory_set" [(EVar "outer_padding"); (EInt 0); (EVar "block_size")]) ;-
      SExpr (ECall "memory_free" [(EVar "outer_padding")])) SSkip ;-
    SIf (EBin ONe (EVar "inner_padding") ENull) (
      SExpr (ECall "memory_set" [(EVar "inner_padding"); (EInt 0); (EVar "block_size")]) ;-
      SExpr (ECall "memory_free" [(EVar "inner_padding")])) SSkip ;-
    SIf (EBin ONe (EVar "key_data") ENull) (
      SExpr (ECall "memory_set" [(EVar "key_data"); (EInt 0); (EVar "block_size")]) ;-
      SExpr (ECall "memory_free" [(EVar "key_data")])) SSkip ;-
    SReturn (EInt (-1)) |}.

(* the tables and functions of libhmac/libhmac_sha512_context.c and libhmac/libhmac_sha512.c, and the structure *)
Definition sha512_text (unfolled : bool) : program := {|
  p_tables := [("libhmac_sha512_context_prime_square_roots", (R64, tab_libhmac_sha512_context_prime_square_roots));
    ("libhmac_sha512_context_prime_cube_roots", (R64, tab_libhmac_sha512_context_prime_cube_roots))];
  p_functions := [text_libhmac_sha512_context_transform unfolled;
    text_libhmac_sha512_context_initialize unfolled;
    text_libhmac_sha512_context_free unfolled;
    text_libhmac_sha512_context_update unfolled;
    text_libhmac_sha512_context_finalize unfolled;
    text_libhmac_sha512_initialize unfolled;
    text_libhmac_sha512_free unfolled;
    text_libhmac_sha512_update unfolled;
    text_libhmac_sha512_finalize unfolled;
    text_libhmac_sha512_calculate unfolled;
    text_libhmac_sha512_calculate_hmac unfolled];
  p_types := [("libhmac_internal_sha512_context_t", (SHA512, layout_sha512))];
  p_char := true |}.
