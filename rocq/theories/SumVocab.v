(* Vocabulary for the statements about the sum handle.  No proofs. *)
From Coq Require Import String Ascii Arith NArith ZArith List Bool.
From Verif Require Import Words Spec Machine Vocab SumHandle ToolVocab.
Import ListNotations.
Open Scope N_scope.

(* a live array that malloc gave *)
Definition heap_bytes (s : state) (q : nat) (l : list N) : Prop := nth_error (mem s) q = Some (mk_cell true Heap (OBytes l)).

(* the memory that belongs to a handle is there: the structure, the input handle, contexts of the right type, and for
   the selected digests, and only these, a string of two characters for each byte of the digest and the end of string *)
Definition handle_ok (s : state) (h : handle) : Prop :=
  heap_bytes s (h_self h) [0] /\ heap_bytes s (h_input h) [] /\
  forall a,
    (forall p, context (slots h a) = Some p -> heap_ctx s a p) /\
    (forall q, hash_string (slots h a) = Some q -> exists l, heap_bytes s q l /\ length l = N.to_nat (2 * digest_size a + 1)) /\
    (calculate (slots h a) = true <-> hash_string (slots h a) <> None).

(* the cells that belong to a handle *)
Definition owned (h : handle) (p : nat) : Prop :=
  p = h_self h \/ p = h_input h \/ exists a, context (slots h a) = Some p \/ hash_string (slots h a) = Some p.

Definition live_at (s : state) (p : nat) : Prop := exists c, nth_error (mem s) p = Some c /\ live c = true.

(* everything allocated since s0 and not freed belongs to the handle *)
Definition accounted (s0 s : state) (h : handle) : Prop :=
  forall p, (length (mem s0) <= p)%nat -> live_at s p -> owned h p.

(* the same digests are selected and the strings are at the same place *)
Definition same_selection (h h' : handle) : Prop :=
  h_self h' = h_self h /\ h_input h' = h_input h /\
  forall a, calculate (slots h' a) = calculate (slots h a) /\ hash_string (slots h' a) = hash_string (slots h a).

(* no context is left from before *)
Definition no_contexts (h : handle) : Prop := forall a, context (slots h a) = None.

(* the string of each selected digest is the hexadecimal digest of m *)
Definition has_digests (s : state) (h : handle) (m : list N) : Prop :=
  forall a q, calculate (slots h a) = true -> hash_string (slots h a) = Some q ->
  heap_bytes s q (hex (lib_hash a m) ++ [0]).

(* the strings are as they were *)
Definition same_strings (s s' : state) (h : handle) : Prop :=
  forall a q, hash_string (slots h a) = Some q -> nth_error (mem s') q = nth_error (mem s) q.

(* the bytes of the file are bytes and its size is a 64-bit number *)
Definition input_ok (W : input) : Prop := Forall is_byte (in_data W) /\ forall n, in_size W = Some n -> n < 2 ^ 64.

(* how many bytes the first j reads of a file of which n bytes are asked for give in all, with a process buffer of size b *)
Fixpoint position (W : input) (b n : N) (j : nat) : N :=
  match j with
  | O => 0
  | S i => let x := position W b n i in
           x + match in_read W i with
               | None => 0
               | Some most => N.min most (N.min (N.min b (n - x)) (N.of_nat (length (in_data W)) - x))
               end
  end.

(* the names of a digest *)
Definition digest_names (a : algid) : list string :=
  match a with
  | MD5 => ["md5"; "MD5"]
  | SHA1 => ["sha1"; "SHA1"; "sha-1"; "SHA-1"; "sha_1"; "SHA_1"]
  | SHA224 => ["sha224"; "SHA224"; "sha-224"; "SHA-224"; "sha_224"; "SHA_224"]
  | SHA256 => ["sha256"; "SHA256"; "sha-256"; "SHA-256"; "sha_256"; "SHA_256"]
  | SHA512 => ["sha512"; "SHA512"; "sha-512"; "SHA-512"; "sha_512"; "SHA_512"]
  end%string.
Definition is_name (a : algid) (x : list N) : Prop := exists t, In t (digest_names a) /\ x = chars t.

(* one line of output for each selected digest, in this order *)
Definition digest_line (a : algid) (m : list N) : list N :=
  match a with
  | MD5 => chars "MD5 hash calculated over data:" ++ [9; 9]
  | SHA1 => chars "SHA1 hash calculated over data:" ++ [9; 9]
  | SHA224 => chars "SHA224 hash calculated over data:" ++ [9]
  | SHA256 => chars "SHA256 hash calculated over data:" ++ [9]
  | SHA512 => chars "SHA512 hash calculated over data:" ++ [9]
  end ++ hex (lib_hash a m) ++ [10].
Definition digest_lines (selected : algid -> bool) (m : list N) : list N :=
  flat_map (fun a => if selected a then digest_line a m else []) [MD5; SHA1; SHA224; SHA256; SHA512].

(* ------------------------------------------------------------- hmacsum *)

Definition aborted_text : list N := chars "hmacsum: ABORTED" ++ [10].

(* what the digest types option asks for *)
Definition asked (split : list N -> option (list (option (list N)))) (types : option (list N)) (a : algid) : Prop :=
  a = MD5 \/ exists str xs x, types = Some str /\ split str = Some (map Some xs) /\ In x xs /\ is_name a x.

(* the value of the -p option: a string *)
Definition size_argument (size : option (list N * N)) : Prop :=
  forall str len, size = Some (str, len) -> exists t rest, str = t ++ 0 :: rest /\ len = N.of_nat (length t) /\ Forall (fun c => c <> 0) t.
(* the decimal point that libclocale gives *)
Definition point_or_none (d : option N) : Prop := forall x, d = Some x -> point x.

(* a -p option that is of use: a number, a letter other than K, a unit and whatever follows it (C33), not of value 0.  What
   is too large for a buffer is replaced by the default. *)
Definition usable_size (d : option N) (size : option (list N * N)) : Prop :=
  size = None \/
  exists x ds fr r sp l f ut u tail rest, d = Some x /\ text_ok x ds fr r sp /\ In (l, f) letters /\
  (In (ut, u) units_texts \/ (ut = EmptyString /\ tail = [] /\ u = 1024)) /\ Forall (fun c => c <> 0) tail /\
  parsed_value (value_of ds) r f u <> 0 /\
  let t := ds ++ fr ++ sp ++ chars l ++ chars ut ++ tail in size = Some (t ++ 0 :: rest, N.of_nat (length t)).

(* why there can be no digests *)
Definition refusal (E : env) (split : list N -> option (list (option (list N)))) (d : option N) (W : input) (signal : option nat)
  (size : option (list N * N)) (types : option (list N)) (s0 s' : state) : Prop :=
  signal <> None \/ some_alloc_failed E s0 s' \/ ~ usable_size d size \/
  (exists str, types = Some str /\ (split str = None \/ exists segs, split str = Some segs /\ In None segs)) \/
  in_open W = false \/ in_size W = None \/ (exists j, in_read W j = None \/ in_read W j = Some 0) \/
  (exists n, in_size W = Some n /\ N.of_nat (length (in_data W)) < n).
