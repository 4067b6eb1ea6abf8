(* common/byte_stream.h and libhmac_byte_stream.h: the byte order macros, statement by statement.
   The lists below are generated by gen/gen_bytestream.py from the C text.

   A reading macro works on the variable given as its second argument: [RSet k] is
   value = byte_stream[ k ], [ROr k] is value |= byte_stream[ k ] and [RShl] is value <<= 8.
   A writing macro is the list of its stores: [(k, n)] is
   byte_stream[ k ] = (uint8_t) ( ( value >> n ) & 0x0ff ). *)
From Coq Require Import Arith NArith List.
From Verif Require Import Words.
Import ListNotations.
Open Scope N_scope.

Inductive rstmt : Type := RSet (k : nat) | RShl | ROr (k : nat).

(* common/byte_stream.h:54-154: execution on a w-bit variable holding v; None is a read outside the bytes *)
Fixpoint read_macro (w : N) (bytes : list N) (l : list rstmt) (v : N) : option N :=
  match l with
  | [] => Some v
  | RSet k :: t => b <-? aget bytes k; read_macro w bytes t b
  | RShl :: t => read_macro w bytes t (ushl w v 8)
  | ROr k :: t => b <-? aget bytes k; read_macro w bytes t (N.lor v b)
  end.

(* common/byte_stream.h:156-220: execution on the bytes; None is a write outside them *)
Fixpoint write_macro (v : N) (l : list (nat * N)) (bytes : list N) : option (list N) :=
  match l with
  | [] => Some bytes
  | (k, n) :: t => bytes' <-? aset bytes k (N.land (ushr v n) 0xff); write_macro v t bytes'
  end.

(* common/byte_stream.h:222-250 byte_stream_bit_rotate_{left,right}_{8,16,32,64}bit, stored into a variable of
   w bits; for 8 and 16 bits the operand is promoted to int (32 bits) before shifting *)
Definition promoted (w : N) : N := if w <? 32 then 32 else w.
Definition rotate_left_macro (w x n : N) : N := N.lor (ushl (promoted w) x n) (ushr x (w - n)) mod 2 ^ w.
Definition rotate_right_macro (w x n : N) : N := N.lor (ushr x n) (ushl (promoted w) x (w - n)) mod 2 ^ w.

(* common/byte_stream.h:54-57 byte_stream_copy_to_uint16_big_endian *)
Definition copy_to_uint16_big_endian : list rstmt :=
  [RSet 0; RShl; ROr 1].

(* common/byte_stream.h:59-62 byte_stream_copy_to_uint16_little_endian *)
Definition copy_to_uint16_little_endian : list rstmt :=
  [RSet 1; RShl; ROr 0].

(* common/byte_stream.h:64-69 byte_stream_copy_to_uint24_big_endian *)
Definition copy_to_uint24_big_endian : list rstmt :=
  [RSet 0; RShl; ROr 1; RShl; ROr 2].

(* common/byte_stream.h:71-76 byte_stream_copy_to_uint24_little_endian *)
Definition copy_to_uint24_little_endian : list rstmt :=
  [RSet 2; RShl; ROr 1; RShl; ROr 0].

(* common/byte_stream.h:78-85 byte_stream_copy_to_uint32_big_endian *)
Definition copy_to_uint32_big_endian : list rstmt :=
  [RSet 0; RShl; ROr 1; RShl; ROr 2; RShl; ROr 3].

(* common/byte_stream.h:87-94 byte_stream_copy_to_uint32_little_endian *)
Definition copy_to_uint32_little_endian : list rstmt :=
  [RSet 3; RShl; ROr 2; RShl; ROr 1; RShl; ROr 0].

(* common/byte_stream.h:96-107 byte_stream_copy_to_uint48_big_endian *)
Definition copy_to_uint48_big_endian : list rstmt :=
  [RSet 0; RShl; ROr 1; RShl; ROr 2; RShl; ROr 3; RShl; ROr 4; RShl; ROr 5].

(* common/byte_stream.h:109-120 byte_stream_copy_to_uint48_little_endian *)
Definition copy_to_uint48_little_endian : list rstmt :=
  [ROr 5; RShl; ROr 4; RShl; ROr 3; RShl; ROr 2; RShl; ROr 1; RShl; ROr 0].

(* common/byte_stream.h:122-137 byte_stream_copy_to_uint64_big_endian *)
Definition copy_to_uint64_big_endian : list rstmt :=
  [RSet 0; RShl; ROr 1; RShl; ROr 2; RShl; ROr 3; RShl; ROr 4; RShl; ROr 5; RShl; ROr 6; RShl; ROr 7].

(* common/byte_stream.h:139-154 byte_stream_copy_to_uint64_little_endian *)
Definition copy_to_uint64_little_endian : list rstmt :=
  [RSet 7; RShl; ROr 6; RShl; ROr 5; RShl; ROr 4; RShl; ROr 3; RShl; ROr 2; RShl; ROr 1; RShl; ROr 0].

(* common/byte_stream.h:156-158 byte_stream_copy_from_uint16_big_endian *)
Definition copy_from_uint16_big_endian : list (nat * N) :=
  [(0%nat, 8); (1%nat, 0)].

(* common/byte_stream.h:160-162 byte_stream_copy_from_uint16_little_endian *)
Definition copy_from_uint16_little_endian : list (nat * N) :=
  [(1%nat, 8); (0%nat, 0)].

(* common/byte_stream.h:164-167 byte_stream_copy_from_uint24_big_endian *)
Definition copy_from_uint24_big_endian : list (nat * N) :=
  [(0%nat, 16); (1%nat, 8); (2%nat, 0)].

(* common/byte_stream.h:169-172 byte_stream_copy_from_uint24_little_endian *)
Definition copy_from_uint24_little_endian : list (nat * N) :=
  [(2%nat, 16); (1%nat, 8); (0%nat, 0)].

(* common/byte_stream.h:174-178 byte_stream_copy_from_uint32_big_endian *)
Definition copy_from_uint32_big_endian : list (nat * N) :=
  [(0%nat, 24); (1%nat, 16); (2%nat, 8); (3%nat, 0)].

(* common/byte_stream.h:180-184 byte_stream_copy_from_uint32_little_endian *)
Definition copy_from_uint32_little_endian : list (nat * N) :=
  [(3%nat, 24); (2%nat, 16); (1%nat, 8); (0%nat, 0)].

(* common/byte_stream.h:186-192 byte_stream_copy_from_uint48_big_endian *)
Definition copy_from_uint48_big_endian : list (nat * N) :=
  [(0%nat, 40); (1%nat, 32); (2%nat, 24); (3%nat, 16); (4%nat, 8); (5%nat, 0)].

(* common/byte_stream.h:194-200 byte_stream_copy_from_uint48_little_endian *)
Definition copy_from_uint48_little_endian : list (nat * N) :=
  [(5%nat, 40); (4%nat, 32); (3%nat, 24); (2%nat, 16); (1%nat, 8); (0%nat, 0)].

(* common/byte_stream.h:202-210 byte_stream_copy_from_uint64_big_endian *)
Definition copy_from_uint64_big_endian : list (nat * N) :=
  [(0%nat, 56); (1%nat, 48); (2%nat, 40); (3%nat, 32); (4%nat, 24); (5%nat, 16); (6%nat, 8); (7%nat, 0)].

(* common/byte_stream.h:212-220 byte_stream_copy_from_uint64_little_endian *)
Definition copy_from_uint64_little_endian : list (nat * N) :=
  [(7%nat, 56); (6%nat, 48); (5%nat, 40); (4%nat, 32); (3%nat, 24); (2%nat, 16); (1%nat, 8); (0%nat, 0)].

(* libhmac_byte_stream.h:32-39 libhmac_byte_stream_copy_to_1x_uint32_big_endian, offsets relative to values_index << 2 *)
Definition copy_to_1x_uint32_big_endian : list rstmt :=
  [RSet 0; RShl; ROr 1; RShl; ROr 2; RShl; ROr 3].

(* libhmac_byte_stream.h:41-48 libhmac_byte_stream_copy_to_1x_uint32_little_endian, offsets relative to values_index << 2 *)
Definition copy_to_1x_uint32_little_endian : list rstmt :=
  [RSet 3; RShl; ROr 2; RShl; ROr 1; RShl; ROr 0].

(* libhmac_byte_stream.h:86-101 libhmac_byte_stream_copy_to_1x_uint64_big_endian, offsets relative to values_index << 3 *)
Definition copy_to_1x_uint64_big_endian : list rstmt :=
  [RSet 0; RShl; ROr 1; RShl; ROr 2; RShl; ROr 3; RShl; ROr 4; RShl; ROr 5; RShl; ROr 6; RShl; ROr 7].

(* libhmac_byte_stream.h:103-118 libhmac_byte_stream_copy_to_1x_uint64_little_endian, offsets relative to values_index << 3 *)
Definition copy_to_1x_uint64_little_endian : list rstmt :=
  [RSet 7; RShl; ROr 6; RShl; ROr 5; RShl; ROr 4; RShl; RSet 3; RShl; ROr 2; RShl; ROr 1; RShl; ROr 0].
