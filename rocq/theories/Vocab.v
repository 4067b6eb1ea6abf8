(* Vocabulary for the statements of the theorems: what a caller can see.
   No proofs, and nothing about how the code works. *)
From Coq Require Import Arith NArith ZArith List Bool.
From Verif Require Import Words Spec Machine.
Import ListNotations.
Open Scope N_scope.

(* ---------------------------------------------------------------- standards *)

(* digest length in bytes: RFC 1321, FIPS 180-4 figure 1 *)
Definition digest_size (a : algid) : N :=
  match a with MD5 => 16 | SHA1 => 20 | SHA224 => 28 | SHA256 => 32 | SHA512 => 64 end.
(* block length in bytes: RFC 1321, FIPS 180-4 figure 1 *)
Definition block_size (a : algid) : N :=
  match a with MD5 | SHA1 | SHA224 | SHA256 => 64 | SHA512 => 128 end.
(* the hash functions of the standards *)
Definition spec_hash (a : algid) : list N -> list N :=
  match a with MD5 => md5 | SHA1 => sha1 | SHA224 => sha224 | SHA256 => sha256 | SHA512 => sha512 end.
(* HMAC with these hash functions *)
Definition spec_hmac (a : algid) (key text : list N) : list N :=
  hmac (spec_hash a) (N.to_nat (block_size a)) key text.
(* what the library computes for every message; it differs from the standard only in the
   SHA-512 length field of messages of 2^61 bytes and more *)
Definition lib_hash (a : algid) : list N -> list N :=
  match a with SHA512 => sha512_len64 | _ => spec_hash a end.
Definition lib_hmac (a : algid) (key text : list N) : list N :=
  hmac (lib_hash a) (N.to_nat (block_size a)) key text.
(* messages for which they agree *)
Definition in_domain (a : algid) (m : list N) : Prop := a = SHA512 -> N.of_nat (length m) < 2 ^ 61.

(* what the library computes with a context that was finalized and not initialized again:
   the hash function started from a chaining value of zeros *)
Definition zero_iv_hash (a : algid) (m : list N) : list N :=
  match a with
  | MD5 => let '(a, b, c, d) := iterate md5_compress (0, 0, 0, 0) 64 (md5_padded m) in
           le_bytes 4 a ++ le_bytes 4 b ++ le_bytes 4 c ++ le_bytes 4 d
  | SHA1 => let '(h0, h1, h2, h3, h4) := iterate sha1_compress (0, 0, 0, 0, 0) 64 (sha1_padded m) in
            concat (map (be_bytes 4) [h0; h1; h2; h3; h4])
  | SHA224 => concat (map (be_bytes 4) (firstn 7 (list_of_q8
                (iterate (sha2_compress sha2_32) (0, 0, 0, 0, 0, 0, 0, 0) 64 (sha256_padded m)))))
  | SHA256 => concat (map (be_bytes 4) (list_of_q8
                (iterate (sha2_compress sha2_32) (0, 0, 0, 0, 0, 0, 0, 0) 64 (sha256_padded m))))
  | SHA512 => concat (map (be_bytes 8) (list_of_q8
                (iterate (sha2_compress sha2_64) (0, 0, 0, 0, 0, 0, 0, 0) 128 (sha512_len64_padded m))))
  end.

(* number and width of the words of a chaining value *)
Definition state_words (a : algid) : nat :=
  match a with MD5 => 4 | SHA1 => 5 | SHA224 | SHA256 | SHA512 => 8 end.
Definition word_bits (a : algid) : N := match a with SHA512 => 64 | _ => 32 end.

(* ------------------------------------------------------------------- memory *)

(* n bytes of a live array are accessible at a pointer *)
Definition accessible (s : state) (p : ptr) (n : N) : Prop :=
  exists l, get_obj s (fst p) = Some (OBytes l) /\ snd p + n <= N.of_nat (length l).

(* the n bytes at a pointer *)
Definition bytes_at (s : state) (p : ptr) (n : N) : list N :=
  match get_obj s (fst p) with
  | Some (OBytes l) => firstn (N.to_nat n) (skipn (N.to_nat (snd p)) l)
  | _ => []
  end.

(* a pointer argument: NULL, or n bytes are accessible there *)
Definition arg (s : state) (p : option ptr) (n : N) : Prop :=
  match p with None => True | Some q => accessible s q n end.

(* what C types guarantee (array elements are bytes, members are in the range of
   their types) plus what every context keeps (the offset is inside a block) *)
Definition good_ctx (a : algid) (c : ctx) : Prop :=
  c_count c < 2 ^ 64 /\
  length (c_hash c) = state_words a /\ Forall (fun x => x < 2 ^ word_bits a) (c_hash c) /\
  c_boff c < block_size a /\
  length (c_block c) = (2 * N.to_nat (block_size a))%nat /\ Forall is_byte (c_block c).
Definition good_obj (o : obj) : Prop :=
  match o with OBytes l => Forall is_byte l | OCtx a c => good_ctx a c | OPtr _ => True end.
Definition good_state (s : state) : Prop := forall p o, get_obj s p = Some o -> good_obj o.

(* every cell of s is the same in s' *)
Definition unchanged (s s' : state) : Prop :=
  forall p c, nth_error (mem s) p = Some c -> nth_error (mem s') p = Some c.

(* every cell of s is the same in s', but for the n bytes at q *)
Definition unchanged_but (s s' : state) (q : ptr) (n : N) : Prop :=
  forall p c, nth_error (mem s) p = Some c ->
  (p <> fst q -> nth_error (mem s') p = Some c) /\
  (p = fst q -> exists l l', content c = OBytes l /\
     nth_error (mem s') p = Some (mk_cell (live c) (knd c) (OBytes l')) /\
     length l' = length l /\
     forall i, (N.of_nat i < snd q \/ snd q + n <= N.of_nat i) -> nth_error l' i = nth_error l i).

(* nothing allocated since s is still live in s' *)
Definition no_leak (s s' : state) : Prop :=
  forall p c, (length (mem s) <= p)%nat -> nth_error (mem s') p = Some c -> live c = false.

(* error entries were added to the error object: none, or at least one if there is an error object *)
Definition errors_same (s s' : state) : Prop := errs s' = errs s.
Definition errors_added (e : bool) (s s' : state) : Prop :=
  if e then exists k ks, errs s' = errs s ++ k :: ks else errs s' = errs s.

(* every allocation attempted between s and s' succeeded; some one failed *)
Definition all_allocs_ok (E : env) (s s' : state) : Prop :=
  forall i, (tries s <= i < tries s')%nat -> alloc_ok E i = true.
Definition some_alloc_failed (E : env) (s s' : state) : Prop :=
  exists i, (tries s <= i < tries s')%nat /\ alloc_ok E i = false.

(* arguments of the one-shot functions that the documentation allows *)
Definition hash_args (E : env) (a : algid) (buffer : option ptr) (size : N) (hash : option ptr) (hash_size : N) : Prop :=
  buffer <> None /\ hash <> None /\ size <= ssize_max E /\ digest_size a <= hash_size <= ssize_max E.
Definition hmac_args (E : env) (a : algid) (key : option ptr) (key_size : N) (buffer : option ptr) (size : N)
  (hmac : option ptr) (hmac_size : N) : Prop :=
  key <> None /\ key_size <= ssize_max E /\ hash_args E a buffer size hmac hmac_size.

(* a context argument: NULL, or a live context of algorithm a *)
Definition ctx_arg (s : state) (a : algid) (p : option nat) : Prop :=
  match p with None => True | Some q => exists c, get_obj s q = Some (OCtx a c) end.

(* every field of a context is zero *)
Definition blank (c : ctx) : Prop :=
  c_count c = 0 /\ c_boff c = 0 /\ Forall (eq 0) (c_hash c) /\ Forall (eq 0) (c_block c).
(* the contents of a cell are zero *)
Definition zero_cell (c : cell) : Prop :=
  match content c with OBytes l => Forall (eq 0) l | OCtx _ x => blank x | OPtr p => p = None end.
(* a live context that malloc gave *)
Definition heap_ctx (s : state) (a : algid) (q : nat) : Prop :=
  exists c, nth_error (mem s) q = Some (mk_cell true Heap (OCtx a c)).
(* the caller's objects: still there, arrays as long as before, other objects the same *)
Definition kept_sizes (s s' : state) : Prop :=
  forall p c, nth_error (mem s) p = Some c ->
  exists c', nth_error (mem s') p = Some c' /\ live c' = live c /\ knd c' = knd c /\
  match content c with
  | OBytes l => exists l', content c' = OBytes l' /\ length l' = length l
  | OCtx _ _ | OPtr _ => content c' = content c
  end.
(* the local arrays of a transform call hold only zeros when it returns *)
Definition frame_zero (f : frame) : Prop := Forall (eq 0) (f_hash_values f) /\ Forall (eq 0) (f_values f).
(* the transform calls made between s and s' *)
Definition new_frames (s s' : state) : list frame := skipn (length (resid s)) (resid s').

(* s with one more error entry k if the call failed (r is not 1) and there is an error object *)
Definition more_errors (e : bool) (r : Z) (k : err) (s : state) : state :=
  mk_state (mem s) (tries s) (if e && negb (r =? 1)%Z then errs s ++ [k] else errs s) (resid s).
