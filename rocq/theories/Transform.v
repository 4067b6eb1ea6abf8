(* Block processing of the five algorithms: the bodies of the while loops of
   libhmac_X_context_transform, in the unrolled (LIBHMAC_UNFOLLED_LOOPS defined,
   libhmac_definitions.h.in:53) and the looped build variant.

   C local arrays are lists; an access outside an array yields None.
   uint8_t loop counters stay below 256 and are nat here. *)
From Coq Require Import Arith NArith List Bool.
From Verif Require Import Words Tables.
Import ListNotations.
Open Scope N_scope.

(* byte_stream[ off ] for a buffer of which [buf] are the accessible bytes *)
Definition bget (buf : list N) (off : N) : option N := nth_error buf (N.to_nat off).

(* common/byte_stream.h:78-94, 122-154 byte_stream_copy_to_uint{32,64}_{big,little}_endian
   and libhmac_byte_stream.h:32-48, 86-101 copy_to_1x: the first byte is assigned,
   then for each following byte the value is shifted left by 8 and the byte or-ed in.
   [order] lists the byte indexes in the order of the statements. *)
Definition copy_to_uint (w : N) (order : list N) (buf : list N) (off : N) : option N :=
  match order with
  | [] => None
  | k :: rest =>
      v <-? bget buf (off + k);
      ofold (fun v k => b <-? bget buf (off + k); Some (N.lor (ushl w v 8) b)) rest v
  end.

(* byte index orders of the copy_to_uint macros, common/byte_stream.h:78-94 and 122-137 *)
Definition order_be32 : list N := [0; 1; 2; 3].
Definition order_le32 : list N := [3; 2; 1; 0].
Definition order_be64 : list N := [0; 1; 2; 3; 4; 5; 6; 7].

(* libhmac_byte_stream.h:50-84, 120-136 copy_to_16x: value i is read at byte i << 2 (i << 3) *)
Definition copy_16x (w : N) (order : list N) (table : list nat) (buf : list N) (off : N) (values : list N)
  : option (list N) :=
  ofold (fun vals i =>
           v <-? copy_to_uint w order buf (off + (w / 8) * N.of_nat i); aset vals i v)
        table values.

(* md5 309-318, sha1 366-375, sha224/sha256 337-346, sha512 373-382:
   for( i = 0; i < 16; i++ ) { copy_to( &buffer[ buffer_offset ], values[ i ] ); buffer_offset += sizeof } *)
Definition copy_loop (w : N) (order : list N) (buf : list N) (off : N) (values : list N)
  : option (N * list N) :=
  ofold (fun st i =>
           let '(off, vals) := st in
           v <-? copy_to_uint w order buf off;
           vals' <-? aset vals i v;
           Some (off + w / 8, vals'))
        (seq 0 16) (off, values).

(* a[ i ] = f( a[ i ] ) *)
Definition amod {A} (l : list A) (i : nat) (f : A -> A) : option (list A) :=
  x <-? aget l i; aset l i (f x).

(* md5 301-304 / 362-367, sha1 358-362 / 435-440, sha224/256 325-332 / 394-399,
   sha512 361-368 / 430-435: internal_context->hash_values[ i ] += hash_values[ i ]
   for i = 0 .. n-1; the unrolled text is the same statements in the same order *)
Definition add_hash_values (w : N) (n : nat) (ctx_hash hv : list N) : option (list N) :=
  ofold (fun ch i => x <-? aget hv i; amod ch i (fun y => uadd w y x)) (seq 0 n) ctx_hash.

(* Result of one iteration of the while loop: buffer_offset, internal_context->hash_values,
   local hash_values, local values_32bit / values_64bit *)
Definition block_result : Type := (N * list N * list N * list N)%type.

(* ------------------------------------------------------------------ MD5 *)

(* libhmac_md5_context.c:96-97, 108-109, 120-122, 133-134 (round macros 1-4)
   and 325-345 (looped) *)
Definition md5_round_fun (round : nat) (h1 h2 h3 : N) : option N :=
  match round with
  | 1%nat => Some (N.lor (N.land h1 h2) (N.land (unot 32 h1) h3))
  | 2%nat => Some (N.lor (N.land h1 h3) (N.land h2 (unot 32 h3)))
  | 3%nat => Some (N.lxor (N.lxor h1 h2) h3)
  | 4%nat => Some (N.lxor h2 (N.lor h1 (unot 32 h3)))
  | _ => None
  end.

(* libhmac_md5_context.c:95-142, macro transform_unfolded_calculate_hash_value_round<round> *)
Definition md5_macro (values hv : list N) (inv : nat * nat * (nat * nat * nat * nat) * nat) : option (list N) :=
  let '(round, vi, (i0, i1, i2, i3), bi) := inv in
  h1 <-? aget hv i1; h2 <-? aget hv i2; h3 <-? aget hv i3;
  f <-? md5_round_fun round h1 h2 h3;
  hv <-? amod hv i0 (fun x => uadd 32 x f);
  v <-? aget values vi;
  hv <-? amod hv i0 (fun x => uadd 32 x v);
  t <-? aget md5_sines bi;
  hv <-? amod hv i0 (fun x => uadd 32 x t);
  s <-? aget md5_bit_shifts bi;
  hv <-? amod hv i0 (fun x => rotl 32 x (N.of_nat s));
  h1 <-? aget hv i1;
  amod hv i0 (fun x => uadd 32 x h1).

(* libhmac_md5_context.c:321-359, one iteration of the block_index loop *)
Definition md5_loop_step (values hv : list N) (bi : nat) : option (list N) :=
  h1 <-? aget hv 1; h2 <-? aget hv 2; h3 <-? aget hv 3;
  f <-? md5_round_fun (if Nat.ltb bi 16 then 1 else if Nat.ltb bi 32 then 2
                       else if Nat.ltb bi 48 then 3 else 4)%nat h1 h2 h3;
  hv <-? amod hv 0 (fun x => uadd 32 x f);
  vi <-? aget md5_values_32bit_index bi;
  v <-? aget values vi;
  hv <-? amod hv 0 (fun x => uadd 32 x v);
  t <-? aget md5_sines bi;
  hv <-? amod hv 0 (fun x => uadd 32 x t);
  s <-? aget md5_bit_shifts bi;
  hv <-? amod hv 0 (fun x => rotl 32 x (N.of_nat s));
  hash_value <-? aget hv 3;
  x <-? aget hv 2; hv <-? aset hv 3 x;
  x <-? aget hv 1; hv <-? aset hv 2 x;
  x <-? aget hv 0; hv <-? amod hv 1 (fun y => uadd 32 y x);
  aset hv 0 hash_value.

(* libhmac_md5_context.c:270-368, body of the while loop *)
Definition md5_block (unrolled : bool) (buf : list N) (off : N) (ctx_hash values : list N) : option block_result :=
  let hv := ctx_hash in  (* memory_copy of all 4 values, 270-272 *)
  if unrolled then
    values <-? copy_16x 32 order_le32 copy_16x_uint32_little buf off values;
    hv <-? ofold (md5_macro values) md5_unfolded hv;
    ctx_hash <-? add_hash_values 32 4 ctx_hash hv;
    Some (off + 64, ctx_hash, hv, values)
  else
    st <-? copy_loop 32 order_le32 buf off values;
    let '(off, values) := st in
    hv <-? ofold (md5_loop_step values) (seq 0 64) hv;
    ctx_hash <-? add_hash_values 32 4 ctx_hash hv;
    Some (off, ctx_hash, hv, values).

(* ---------------------------------------------------------------- SHA-1 *)

(* libhmac_sha1_context.c:51-58 transform_extend_32bit_value *)
Definition sha1_extend (values : list N) (i : nat) : option (list N) :=
  if Nat.ltb i 16 then None else
  a <-? aget values (i - 3); b <-? aget values (i - 8); c <-? aget values (i - 14); d <-? aget values (i - 16);
  values <-? aset values i (N.lxor (N.lxor (N.lxor a b) c) d);
  amod values i (fun x => rotl 32 x 1).

(* libhmac_sha1_context.c:127-129, 140-143, 154-157, 168-171 and 392-418 *)
Definition sha1_round_fun (round : nat) (h1 h2 h3 : N) : option (N * N) :=
  match round with
  | 1%nat => Some (N.lor (N.land h1 h2) (N.land (unot 32 h1) h3), 0x5a827999)
  | 2%nat => Some (N.lxor (N.lxor h1 h2) h3, 0x6ed9eba1)
  | 3%nat => Some (N.lor (N.lor (N.land h1 h2) (N.land h1 h3)) (N.land h2 h3), 0x8f1bbcdc)
  | 4%nat => Some (N.lxor (N.lxor h1 h2) h3, 0xca62c1d6)
  | _ => None
  end.

(* libhmac_sha1_context.c:126-179, macro transform_unfolded_calculate_hash_value_round<round> *)
Definition sha1_macro (values hv : list N) (inv : nat * nat * (nat * nat * nat * nat * nat)) : option (list N) :=
  let '(round, vi, (i0, i1, i2, i3, i4)) := inv in
  h1 <-? aget hv i1; h2 <-? aget hv i2; h3 <-? aget hv i3;
  fk <-? sha1_round_fun round h1 h2 h3;
  hv <-? amod hv i4 (fun x => uadd 32 x (fst fk));
  hv <-? amod hv i4 (fun x => uadd 32 x (snd fk));
  h0 <-? aget hv i0;
  hv <-? amod hv i4 (fun x => uadd 32 x (rotl 32 h0 5));
  v <-? aget values vi;
  hv <-? amod hv i4 (fun x => uadd 32 x v);
  amod hv i1 (fun x => rotl 32 x 30).

(* libhmac_sha1_context.c:388-432, one iteration of the value_32bit_index loop *)
Definition sha1_loop_step (values hv : list N) (vi : nat) : option (list N) :=
  h1 <-? aget hv 1; h2 <-? aget hv 2; h3 <-? aget hv 3;
  fk <-? sha1_round_fun (if Nat.ltb vi 20 then 1 else if Nat.ltb vi 40 then 2
                         else if Nat.ltb vi 60 then 3 else 4)%nat h1 h2 h3;
  hv <-? amod hv 4 (fun x => uadd 32 x (fst fk));
  hv <-? amod hv 4 (fun x => uadd 32 x (snd fk));
  h0 <-? aget hv 0;
  hv <-? amod hv 4 (fun x => uadd 32 x (rotl 32 h0 5));
  v <-? aget values vi;
  hv <-? amod hv 4 (fun x => uadd 32 x v);
  hash_value <-? aget hv 4;
  x <-? aget hv 3; hv <-? aset hv 4 x;
  x <-? aget hv 2; hv <-? aset hv 3 x;
  x <-? aget hv 1; hv <-? aset hv 2 (rotl 32 x 30);
  x <-? aget hv 0; hv <-? aset hv 1 x;
  aset hv 0 hash_value.

(* libhmac_sha1_context.c:322-441 *)
Definition sha1_block (unrolled : bool) (buf : list N) (off : N) (ctx_hash values : list N) : option block_result :=
  let hv := ctx_hash in
  if unrolled then
    values <-? copy_16x 32 order_be32 copy_16x_uint32_big buf off values;
    values <-? ofold sha1_extend sha1_unfolded_extend values;
    hv <-? ofold (sha1_macro values) sha1_unfolded hv;
    ctx_hash <-? add_hash_values 32 5 ctx_hash hv;
    Some (off + 64, ctx_hash, hv, values)
  else
    st <-? copy_loop 32 order_be32 buf off values;
    let '(off, values) := st in
    values <-? ofold sha1_extend (seq 16 64) values;
    hv <-? ofold (sha1_loop_step values) (seq 0 80) hv;
    ctx_hash <-? add_hash_values 32 5 ctx_hash hv;
    Some (off, ctx_hash, hv, values).

(* --------------------------------------------------- SHA-224/256 and SHA-512 *)

(* The SHA-2 files contain the same macros with different widths, rotation
   amounts and tables; those are the fields of this record. *)
Record sha2_code : Type := {
  k_w : N;                              (* 32 or 64 *)
  k_ext0 : N * N * N;                   (* rotate, rotate, shift of s0 in the extension macro *)
  k_ext1 : N * N * N;                   (* the same for s1 *)
  k_s0 : N * N * N;                     (* rotations of s0 in the hash value macro *)
  k_s1 : N * N * N;                     (* rotations of s1 in the hash value macro *)
  k_roots : list N;                     (* prime_cube_roots *)
  k_order : list N;                     (* byte order of the copy macro *)
  k_copy16 : list nat;                  (* copy_to_16x table *)
  k_extend : list nat;                  (* unrolled extension *)
  k_unfolded : list (nat * (nat * nat * nat * nat * nat * nat * nat * nat));
  k_rounds : nat;                       (* looped: upper bound of the loops *)
}.

(* libhmac_sha224_context.c:73-84,136-156 (rotation amounts), 349-351 and 361-363 (loop bounds) *)
Definition sha224_code : sha2_code := {|
  k_w := 32; k_ext0 := (7, 18, 3); k_ext1 := (17, 19, 10); k_s0 := (2, 13, 22); k_s1 := (6, 11, 25);
  k_roots := sha224_cube_roots; k_order := order_be32; k_copy16 := copy_16x_uint32_big;
  k_extend := sha224_unfolded_extend; k_unfolded := sha224_unfolded; k_rounds := 64 |}.

(* libhmac_sha256_context.c:73-84,136-156 (rotation amounts), 349-351 and 361-363 (loop bounds) *)
Definition sha256_code : sha2_code := {|
  k_w := 32; k_ext0 := (7, 18, 3); k_ext1 := (17, 19, 10); k_s0 := (2, 13, 22); k_s1 := (6, 11, 25);
  k_roots := sha256_cube_roots; k_order := order_be32; k_copy16 := copy_16x_uint32_big;
  k_extend := sha256_unfolded_extend; k_unfolded := sha256_unfolded; k_rounds := 64 |}.

(* libhmac_sha512_context.c:77-88,156-176 (rotation amounts), 385-387 and 397-399 (loop bounds) *)
Definition sha512_code : sha2_code := {|
  k_w := 64; k_ext0 := (1, 8, 7); k_ext1 := (19, 61, 6); k_s0 := (28, 34, 39); k_s1 := (14, 18, 41);
  k_roots := sha512_cube_roots; k_order := order_be64; k_copy16 := copy_16x_uint64_big;
  k_extend := sha512_unfolded_extend; k_unfolded := sha512_unfolded; k_rounds := 80 |}.

Section SHA2.
  Variable K : sha2_code.
  Let w := k_w K.

  (* rotr( x, a ) ^ rotr( x, b ) ^ ( x >> c ): sha256 74-79, sha512 78-83 *)
  Definition sha2_small (r : N * N * N) (x : N) : N :=
    let '(a, b, c) := r in N.lxor (N.lxor (rotr w x a) (rotr w x b)) (ushr x c).

  (* rotr( x, a ) ^ rotr( x, b ) ^ rotr( x, c ): sha256 137-142, sha512 157-162 *)
  Definition sha2_big (r : N * N * N) (x : N) : N :=
    let '(a, b, c) := r in N.lxor (N.lxor (rotr w x a) (rotr w x b)) (rotr w x c).

  (* libhmac_sha{224,256}_context.c:73-84, libhmac_sha512_context.c:77-88 transform_extend_*bit_value *)
  Definition sha2_extend (values : list N) (i : nat) : option (list N) :=
    if Nat.ltb i 16 then None else
    x15 <-? aget values (i - 15);
    x2 <-? aget values (i - 2);
    let s0 := sha2_small (k_ext0 K) x15 in
    let s1 := sha2_small (k_ext1 K) x2 in
    x16 <-? aget values (i - 16);
    x7 <-? aget values (i - 7);
    aset values i (uadd w (uadd w (uadd w x16 s0) x7) s1).

  (* sha224/sha256 144-153, 372-381; sha512 164-173, 408-417: (t1, t2) *)
  Definition sha2_t (values : list N) (vi : nat) (h0 h1 h2 h4 h5 h6 h7 : N) : option (N * N) :=
    let s0 := sha2_big (k_s0 K) h0 in
    let s1 := sha2_big (k_s1 K) h4 in
    let t1 := h7 in
    let t1 := uadd w t1 s1 in
    let t1 := uadd w t1 (N.lxor (N.land h4 h5) (N.land (unot w h4) h6)) in
    r <-? aget (k_roots K) vi;
    let t1 := uadd w t1 r in
    v <-? aget values vi;
    let t1 := uadd w t1 v in
    let t2 := s0 in
    let t2 := uadd w t2 (N.lxor (N.lxor (N.land h0 h1) (N.land h0 h2)) (N.land h1 h2)) in
    Some (t1, t2).

  (* libhmac_sha{224,256}_context.c:136-156, libhmac_sha512_context.c:156-176
     transform_unfolded_calculate_hash_value *)
  Definition sha2_macro (values hv : list N)
             (inv : nat * (nat * nat * nat * nat * nat * nat * nat * nat)) : option (list N) :=
    let '(vi, (i0, i1, i2, i3, i4, i5, i6, i7)) := inv in
    h0 <-? aget hv i0; h1 <-? aget hv i1; h2 <-? aget hv i2;
    h4 <-? aget hv i4; h5 <-? aget hv i5; h6 <-? aget hv i6; h7 <-? aget hv i7;
    t <-? sha2_t values vi h0 h1 h2 h4 h5 h6 h7;
    hv <-? amod hv i3 (fun x => uadd w x (fst t));
    aset hv i7 (uadd w (fst t) (snd t)).

  (* libhmac_sha{224,256}_context.c:361-391, libhmac_sha512_context.c:397-427, one iteration *)
  Definition sha2_loop_step (values hv : list N) (vi : nat) : option (list N) :=
    h0 <-? aget hv 0; h1 <-? aget hv 1; h2 <-? aget hv 2;
    h4 <-? aget hv 4; h5 <-? aget hv 5; h6 <-? aget hv 6; h7 <-? aget hv 7;
    t <-? sha2_t values vi h0 h1 h2 h4 h5 h6 h7;
    x <-? aget hv 6; hv <-? aset hv 7 x;
    x <-? aget hv 5; hv <-? aset hv 6 x;
    x <-? aget hv 4; hv <-? aset hv 5 x;
    x <-? aget hv 3; hv <-? aset hv 4 (uadd w x (fst t));
    x <-? aget hv 2; hv <-? aset hv 3 x;
    x <-? aget hv 1; hv <-? aset hv 2 x;
    x <-? aget hv 0; hv <-? aset hv 1 x;
    aset hv 0 (uadd w (fst t) (snd t)).

  (* libhmac_sha{224,256}_context.c:283-400, libhmac_sha512_context.c:319-436 *)
  Definition sha2_block (unrolled : bool) (buf : list N) (off : N) (ctx_hash values : list N) : option block_result :=
    let hv := ctx_hash in
    if unrolled then
      values <-? copy_16x w (k_order K) (k_copy16 K) buf off values;
      values <-? ofold sha2_extend (k_extend K) values;
      hv <-? ofold (sha2_macro values) (k_unfolded K) hv;
      ctx_hash <-? add_hash_values w 8 ctx_hash hv;
      Some (off + 2 * w, ctx_hash, hv, values)
    else
      st <-? copy_loop w (k_order K) buf off values;
      let '(off, values) := st in
      values <-? ofold sha2_extend (seq 16 (k_rounds K - 16)) values;
      hv <-? ofold (sha2_loop_step values) (seq 0 (k_rounds K)) hv;
      ctx_hash <-? add_hash_values w 8 ctx_hash hv;
      Some (off, ctx_hash, hv, values).
End SHA2.
