(* libhmac_X_context.c: initialize, free, update, finalize and transform, the
   fallback code (no libcrypto).  The five files have the same text up to names
   and the values collected in [alg]; line numbers are given for md5, sha1,
   sha224/sha256 (same lines unless said) and sha512 in this order. *)
From Coq Require Import Arith NArith ZArith List Bool.
From Verif Require Import Words Tables Transform Machine.
Import ListNotations.
Open Scope N_scope.

Inductive final_check : Type := CheckMax | CheckMin.

Record alg : Type := mk_alg {
  a_bs : N;                   (* LIBHMAC_X_BLOCK_SIZE, libhmac_X_context.h:51 *)
  a_hs : N;                   (* LIBHMAC_X_HASH_SIZE, libhmac_definitions.h.in:45-49 *)
  a_thr : N;                  (* 55 or 111 in finalize *)
  a_w : N;                    (* bits in a hash word *)
  a_big : bool;               (* big-endian words and length *)
  a_iv : list N;              (* table copied by initialize *)
  a_nv : nat;                 (* size of values_32bit / values_64bit *)
  a_ncl : nat;                (* number of them cleared at the end of transform *)
  a_outw : nat;               (* words of the digest in the looped build *)
  a_stores : list (N * nat);  (* stores of the digest in the unrolled build *)
  a_checks : list final_check;(* order of the size checks in finalize *)
  a_block : bool -> list N -> N -> list N -> list N -> option block_result;
}.

(* md5: .h:51, .c:222-223 (arrays), 388-391 (16 words cleared), 1169-1190 (checks), 1195 (55), 1243-1252 (4 words) *)
Definition md5_alg : alg :=
  mk_alg 64 16 55 32 false md5_fixed_constants 16 16 4 md5_unfolded_stores [CheckMax; CheckMin] md5_block.
(* sha1: .h:51, .c:275-276, 461-464 (16 of 80 words cleared), 1242-1264, 1279 (55), 1327-1336 (5 words) *)
Definition sha1_alg : alg :=
  mk_alg 64 20 55 32 true sha1_fixed_constants 80 16 5 sha1_unfolded_stores [CheckMin; CheckMax; CheckMin] sha1_block.
(* sha224: .h:51, .c:233-234, 420-423, 1201-1223, 1238 (55), 1287-1296 (7 words) *)
Definition sha224_alg : alg :=
  mk_alg 64 28 55 32 true sha224_square_roots 64 64 7 sha224_unfolded_stores [CheckMin; CheckMax; CheckMin]
         (sha2_block sha224_code).
(* sha256: .h:51, .c:233-234, 420-423, 1201-1223, 1238 (55), 1286-1295 (8 words) *)
Definition sha256_alg : alg :=
  mk_alg 64 32 55 32 true sha256_square_roots 64 64 8 sha256_unfolded_stores [CheckMin; CheckMax; CheckMin]
         (sha2_block sha256_code).
(* sha512: .h:51, .c:269-270, 456-459, 1237-1259, 1274 (111), 1322-1331 (8 words) *)
Definition sha512_alg : alg :=
  mk_alg 128 64 111 64 true sha512_square_roots 80 80 8 sha512_unfolded_stores [CheckMin; CheckMax; CheckMin]
         (sha2_block sha512_code).

Definition alg_of (a : algid) : alg :=
  match a with
  | MD5 => md5_alg | SHA1 => sha1_alg | SHA224 => sha224_alg
  | SHA256 => sha256_alg | SHA512 => sha512_alg
  end.

Definition a_nh (A : alg) : nat := length (a_iv A).

(* memset( internal_context, 0, sizeof ) *)
Definition zero_ctx (A : alg) : ctx :=
  mk_ctx 0 (repeat 0 (a_nh A)) 0 (repeat 0 (N.to_nat (2 * a_bs A))).

(* contents of a freshly allocated structure *)
Definition junk_ctx (E : env) (A : alg) (id : nat) : ctx :=
  mk_ctx (junk E id 0) (map (fun i => junk E id (S i)) (seq 0 (a_nh A)))
         (junk E id 10) (map (fun i => junk E id (11 + i)) (seq 0 (N.to_nat (2 * a_bs A)))).

(* overwrite the first k elements of a local array with zero (memory_set) *)
Definition clear_first (k : nat) (l : list N) : option (list N) :=
  if Nat.leb k (length l) then Some (repeat 0 k ++ skipn k l) else None.

Section WithEnv.
  Variable E : env.

  (* the while loop of transform: md5 268-371, sha1 320-444, sha224/256 281-403, sha512 317-439.
     buffer_offset stays at most size <= SSIZE_MAX, so its additions do not wrap.
     Running out of fuel is Undef; the fuel is the number of blocks. *)
  Fixpoint transform_loop (A : alg) (fuel : nat) (buf : list N) (off size : N)
           (ctx_hash hv values : list N) : option block_result :=
    if size <? a_bs A then Some (off, ctx_hash, hv, values)
    else match fuel with
         | O => None
         | S f =>
             r <-? a_block A (unrolled E) buf off ctx_hash values;
             let '(off', ctx_hash', hv', values') := r in
             transform_loop A f buf off' (size - a_bs A) ctx_hash' hv' values'
         end.

  (* conversion of a size_t to ssize_t *)
  Definition to_ssize (n : N) : Z :=
    if n <=? ssize_max E then Z.of_N n else (Z.of_N n - Z.of_N (size_mod E))%Z.

  (* md5 216-416, sha1 269-489, sha224/256 227-448, sha512 263-484 libhmac_X_context_transform.
     [buffer] is None for NULL, otherwise the bytes accessible from the pointer.
     memory_copy and memory_set do not return NULL here, so the on_error labels
     are unreachable and not modelled. *)
  Definition transform (a : algid) (context : option nat) (buffer : option (list N)) (size : N) (e : bool) : M Z :=
    let A := alg_of a in
    match context with
    | None => fail e E_ARGUMENT_INVALID_VALUE
    | Some p =>
        match buffer with
        | None => fail e E_ARGUMENT_INVALID_VALUE
        | Some buf =>
            if ssize_max E <? size then fail e E_ARGUMENT_VALUE_EXCEEDS_MAXIMUM
            else
              c <- load_ctx a p ;;
              call <- (fun s => Done (length (resid s)) s) ;;
              let hv := map (stack_junk E call) (seq 0 (a_nh A)) in
              let values := map (stack_junk E call) (seq (a_nh A) (a_nv A)) in
              r <- lift (transform_loop A (N.to_nat (size / a_bs A)) buf 0 size (c_hash c) hv values) ;;
              let '(off, ctx_hash, hv, values) := r in
              store_ctx a p (mk_ctx (c_count c) ctx_hash (c_boff c) (c_block c)) ;;;
              hv <- lift (clear_first (a_nh A) hv) ;;
              values <- lift (clear_first (a_ncl A) values) ;;
              log_frame (mk_frame hv values) ;;;
              ret (to_ssize off)
        end
    end.

  (* md5 424-587, sha1 497-660, sha224/256 456-619, sha512 492-655 libhmac_X_context_initialize.
     [context] is None for NULL, otherwise Some of the value of *context;
     the result is the return value and the value of *context afterwards. *)
  Definition context_initialize (a : algid) (context : option (option nat)) (e : bool) : M (Z * option nat) :=
    let A := alg_of a in
    match context with
    | None => r <- fail e E_ARGUMENT_INVALID_VALUE ;; ret (r, None)
    | Some (Some q) => r <- fail e E_RUNTIME_VALUE_ALREADY_SET ;; ret (r, Some q)
    | Some None =>
        internal_context <- (fun s => allocate (OCtx a (junk_ctx E A (length (mem s)))) E s) ;;
        match internal_context with
        | None => r <- fail e E_MEMORY_INSUFFICIENT ;; ret (r, None)
        | Some p =>
            store_ctx a p (zero_ctx A) ;;;
            c <- load_ctx a p ;;
            store_ctx a p (mk_ctx (c_count c) (a_iv A) (c_boff c) (c_block c)) ;;;
            ret (1%Z, Some p)
        end
    end.

  (* md5 592-651, sha1 665-724, sha224/256 624-683, sha512 660-719 libhmac_X_context_free *)
  Definition context_free (a : algid) (context : option (option nat)) (e : bool) : M (Z * option nat) :=
    match context with
    | None => r <- fail e E_ARGUMENT_INVALID_VALUE ;; ret (r, None)
    | Some None => ret (1%Z, None)
    | Some (Some p) => mfree p ;;; ret (1%Z, None)
    end.

  (* update, the part from "if( size > 0 )" before the second transform to the end:
     md5 918-971, sha1 991-1044, sha224/256 950-1003, sha512 986-1039.  [buf] is &buffer[ 0 ]. *)
  Definition update_tail (a : algid) (p : nat) (buf : list N) (buffer_offset size : N) (e : bool) : M Z :=
    let A := alg_of a in
    step <- (if 0 <? size then
               process_count <- transform a (Some p) (Some (skipn (N.to_nat buffer_offset) buf)) size e ;;
               if (process_count =? -1)%Z then r <- fail e E_RUNTIME_SET_FAILED ;; ret None
               else
                 c <- load_ctx a p ;;
                 let n := Z.to_N (process_count mod 2 ^ 64) in
                 store_ctx a p (mk_ctx (uadd 64 (c_count c) n) (c_hash c) (c_boff c) (c_block c)) ;;;
                 ret (Some ((buffer_offset + n) mod size_mod E, usub (size_mod E) size (n mod size_mod E)))
             else ret (Some (buffer_offset, size))) ;;
    match step with
    | None => ret (-1)%Z
    | Some (buffer_offset, size) =>
        if 0 <? size then
          if a_bs A <=? size then fail e E_RUNTIME_VALUE_OUT_OF_BOUNDS
          else
            c <- load_ctx a p ;;
            d <- lift (take size (skipn (N.to_nat buffer_offset) buf)) ;;
            block <- lift (splice (c_block c) 0 d) ;;
            store_ctx a p (mk_ctx (c_count c) (c_hash c) size block) ;;;
            ret 1%Z
        else ret 1%Z
    end.

  (* md5 805-972, sha1 878-1045, sha224/256 837-1004, sha512 873-1040 libhmac_X_context_update.
     The buffer and the context are different objects, so memory_copy operands do not overlap. *)
  Definition context_update (a : algid) (context : option nat) (buffer : option ptr) (size : N) (e : bool) : M Z :=
    let A := alg_of a in
    match context with
    | None => fail e E_ARGUMENT_INVALID_VALUE
    | Some p =>
        match buffer with
        | None => fail e E_ARGUMENT_INVALID_VALUE
        | Some bp =>
            if ssize_max E <? size then fail e E_ARGUMENT_VALUE_EXCEEDS_MAXIMUM
            else if size =? 0 then ret 1%Z
            else
              c <- load_ctx a p ;;
              buf <- view bp ;;
              if 0 <? c_boff c then
                if a_bs A <=? c_boff c then fail e E_RUNTIME_VALUE_OUT_OF_BOUNDS
                else
                  let remaining := a_bs A - c_boff c in
                  let remaining := if size <? remaining then size else remaining in
                  d <- lift (take remaining buf) ;;
                  block <- lift (splice (c_block c) (c_boff c) d) ;;
                  let boff := c_boff c + remaining in
                  store_ctx a p (mk_ctx (c_count c) (c_hash c) boff block) ;;;
                  if boff <? a_bs A then ret 1%Z
                  else
                    let size := size - remaining in
                    process_count <- transform a (Some p) (Some block) (a_bs A) e ;;
                    if (process_count =? -1)%Z then fail e E_RUNTIME_SET_FAILED
                    else
                      c <- load_ctx a p ;;
                      let n := Z.to_N (process_count mod 2 ^ 64) in
                      store_ctx a p (mk_ctx (uadd 64 (c_count c) n) (c_hash c) 0 (c_block c)) ;;;
                      update_tail a p buf remaining size e
              else update_tail a p buf 0 size e
        end
    end.

  (* common/byte_stream.h:176-220 byte_stream_copy_from_uint{32,64}_{big,little}_endian:
     the bytes written, in memory order *)
  Definition copy_from_uint (n : nat) (big : bool) (v : N) : list N :=
    let le := map (fun i => N.land (ushr v (8 * N.of_nat i)) 0xff) (seq 0 n) in
    if big then rev le else le.

  (* the order of the size checks in finalize: md5 1169-1190, sha1 1242-1273,
     sha224/256 1201-1232, sha512 1237-1268 *)
  Fixpoint final_checks (A : alg) (l : list final_check) (hash_size : N) : option err :=
    match l with
    | [] => None
    | CheckMax :: t => if ssize_max E <? hash_size then Some E_ARGUMENT_VALUE_EXCEEDS_MAXIMUM
                       else final_checks A t hash_size
    | CheckMin :: t => if hash_size <? a_hs A then Some E_ARGUMENT_VALUE_TOO_SMALL
                       else final_checks A t hash_size
    end.

  (* digest stores: md5 1240-1268, sha1 1324-1356, sha224 1284-1324, sha256 1283-1327, sha512 1319-1363 *)
  Definition store_digest (a : algid) (p : nat) (hash : ptr) : M unit :=
    let A := alg_of a in
    let wb := N.to_nat (a_w A / 8) in
    if unrolled E then
      mfold (fun (_ : unit) st =>
               c <- load_ctx a p ;;
               v <- lift (aget (c_hash c) (snd st)) ;;
               write (ptr_add hash (fst st)) (copy_from_uint wb (a_big A) v))
            (a_stores A) tt
    else
      mfold (fun hash_index i =>
               c <- load_ctx a p ;;
               v <- lift (aget (c_hash c) i) ;;
               write (ptr_add hash hash_index) (copy_from_uint wb (a_big A) v) ;;;
               ret (hash_index + a_w A / 8))
            (seq 0 (a_outw A)) 0 ;;;
      ret tt.

  (* md5 1127-1289, sha1 1200-1377, sha224 1159-1345, sha256 1159-1348, sha512 1195-1384
     libhmac_X_context_finalize *)
  Definition context_finalize (a : algid) (context : option nat) (hash : option ptr) (hash_size : N) (e : bool) : M Z :=
    let A := alg_of a in
    match context with
    | None => fail e E_ARGUMENT_INVALID_VALUE
    | Some p =>
        match hash with
        | None => fail e E_ARGUMENT_INVALID_VALUE
        | Some hp =>
            match final_checks A (a_checks A) hash_size with
            | Some k => fail e k
            | None =>
                c <- load_ctx a p ;;
                let number_of_blocks := if a_thr A <? c_boff c then 2 else 1 in
                let block_size := number_of_blocks * a_bs A in
                let n := usub (size_mod E) block_size (c_boff c) in
                block <- lift (splice (c_block c) (c_boff c) (repeat 0 (N.to_nat n))) ;;
                block <- lift (splice block (c_boff c) [0x80]) ;;
                let bit_size := (uadd 64 (c_count c) (c_boff c) * 8) mod 2 ^ 64 in
                block <- lift (splice block (block_size - 8) (copy_from_uint 8 (a_big A) bit_size)) ;;
                store_ctx a p (mk_ctx (c_count c) (c_hash c) (c_boff c) block) ;;;
                process_count <- transform a (Some p) (Some block) block_size e ;;
                if (process_count =? -1)%Z then fail e E_RUNTIME_SET_FAILED
                else
                  store_digest a p hp ;;;
                  store_ctx a p (zero_ctx A) ;;;
                  ret 1%Z
            end
        end
    end.
End WithEnv.
