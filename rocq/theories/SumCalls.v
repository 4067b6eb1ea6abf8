(* What the functions of TextSum.v call outside hmactools/sum_handle.c, how they are run, and a handle of SumHandle.v as the
   parameters that stand for the members of the structure.
   The functions of libhmac, digest_hash_copy_to_string and byte_size_string_convert are those of Context.v and ToolStrings.v;
   that their texts do the same is in PropText.v and PropToolText.v.  libcfile, libcsplit and the C library are contracts, with
   the parameters that SumHandle.v has.  The entries that libcfile and libcsplit add to the error object are not modelled. *)
From Coq Require Import Arith NArith ZArith List Bool String Ascii.
From Verif Require Import Words Machine Context Hash ToolStrings SumHandle CText TextAll TextTools ToolCalls TextSum.
Import ListNotations.
Open Scope string_scope.
Open Scope list_scope.
Open Scope N_scope.

(* ------------------------------------------------------------------ arguments read back *)

Definition ctx_of (a : algid) (v : val) : option (option nat) :=
  match v with VNull => Some None | VCtx b p => if algid_eqb a b then Some (Some p) else None | _ => None end.
Definition bytes_of (v : val) : option (option ptr) :=
  match v with VNull => Some None | VBytes p => Some (Some p) | _ => None end.
Definition chars_of (v : val) : option (option ptr) :=
  match v with VNull => Some None | VChars p => Some (Some p) | _ => None end.
Definition given_of (v : val) : option bool := option_map negb (is_null v).

(* ------------------------------------------------------------------ the functions of libhmac *)

Inductive digest_op : Type := DInitialize | DFree | DUpdate | DFinalize.

(* include/libhmac.h.in: the functions that sum_handle.c calls *)
Definition digest_function (f : string) : option (algid * digest_op) :=
  find_assoc
    [("libhmac_md5_context_initialize", (MD5, DInitialize)); ("libhmac_md5_context_free", (MD5, DFree));
     ("libhmac_md5_context_update", (MD5, DUpdate)); ("libhmac_md5_context_finalize", (MD5, DFinalize));
     ("libhmac_sha1_context_initialize", (SHA1, DInitialize)); ("libhmac_sha1_context_free", (SHA1, DFree));
     ("libhmac_sha1_context_update", (SHA1, DUpdate)); ("libhmac_sha1_context_finalize", (SHA1, DFinalize));
     ("libhmac_sha224_context_initialize", (SHA224, DInitialize)); ("libhmac_sha224_context_free", (SHA224, DFree));
     ("libhmac_sha224_context_update", (SHA224, DUpdate)); ("libhmac_sha224_context_finalize", (SHA224, DFinalize));
     ("libhmac_sha256_context_initialize", (SHA256, DInitialize)); ("libhmac_sha256_context_free", (SHA256, DFree));
     ("libhmac_sha256_context_update", (SHA256, DUpdate)); ("libhmac_sha256_context_finalize", (SHA256, DFinalize));
     ("libhmac_sha512_context_initialize", (SHA512, DInitialize)); ("libhmac_sha512_context_free", (SHA512, DFree));
     ("libhmac_sha512_context_update", (SHA512, DUpdate)); ("libhmac_sha512_context_finalize", (SHA512, DFinalize))] f.

(* Context.v on C values.  Of the fourth parameter of libhmac_X_context_update and .._finalize the conversion to size_t is done
   here (C11 6.5.2.2p7). *)
Definition digest_call (E : env) (a : algid) (o : digest_op) (args : list val) : M (val * list (option val)) :=
  match o, args with
  | DInitialize, [VRef v; error] =>
      p <- lift (ctx_of a v) ;; e <- lift (given_of error) ;;
      r <- context_initialize E a (Some p) e ;; ret (VS R32 (fst r), [Some (v_ctx a (snd r)); None])
  | DFree, [VRef v; error] =>
      p <- lift (ctx_of a v) ;; e <- lift (given_of error) ;;
      r <- context_free a (Some p) e ;; ret (VS R32 (fst r), [Some (v_ctx a (snd r)); None])
  | DUpdate, [v; buffer; size; error] =>
      p <- lift (ctx_of a v) ;; b <- lift (bytes_of buffer) ;; n <- lift (to_unsigned E RSz size) ;; e <- lift (given_of error) ;;
      r <- context_update E a p b n e ;; ret (VS R32 r, [None; None; None; None])
  | DFinalize, [v; hash; size; error] =>
      p <- lift (ctx_of a v) ;; b <- lift (bytes_of hash) ;; n <- lift (to_unsigned E RSz size) ;; e <- lift (given_of error) ;;
      r <- context_finalize E a p b n e ;; ret (VS R32 r, [None; None; None; None])
  | _, _ => undef
  end.

(* ------------------------------------------------------------------ the others *)

(* all bits of a member cleared *)
Definition cleared (v : val) : option val :=
  match v with
  | VRef (VU r _) => Some (VU r 0)
  | VRef (VS r _) => Some (VS r 0%Z)
  | VRef _ => Some VNull
  | _ => None
  end.

(* C11 7.21.6.1: a format with one conversion, of a string *)
Definition print_string (format : string) (t : list N) : option (list N) :=
  match String.index 0 "%{PRIs_SYSTEM}" format with
  | Some i => Some (codes (String.substring 0 i format) ++ t ++
                    codes (String.substring (i + 14) (String.length format) format))
  | None => None
  end.

(* the characters behind a segment of a split string *)
Fixpoint segment_codes (l : list val) : option (list N) :=
  match l with
  | [] => Some []
  | VU R8 n :: t => option_map (cons n) (segment_codes t)
  | _ => None
  end.
(* hmactools_system_split_string.h:35-64: a segment is a pointer to characters that end with 0; it may be NULL *)
Definition v_segment (x : option (list N)) : val :=
  match x with Some t => VPtrs (map (VU R8) (t ++ [0])) | None => VNull end.

(* What the program is given: the input file, the moment a signal arrives and the number of looks at the abort flag before the
   first read (SumHandle.v), what libcsplit makes of a string, and for byte_size_string_convert whether messages are built in and
   what libclocale says *)
Record outside : Type := mk_outside {
  o_input : input;
  o_signal : option nat;
  o_looks : nat;
  o_split : list N -> option (list (option (list N)));
  o_verbose : bool;
  o_point : option N;
}.

Definition sum_call (E : env) (O : outside) (f : string) (args : list val) : M (val * list (option val)) :=
  let W := o_input O in
  match digest_function f with
  | Some (a, o) => digest_call E a o args
  | None =>
  if String.eqb f "digest_hash_copy_to_string" then
    match args with
    | [hash; size; str; n; error] =>
        h <- lift (bytes_of hash) ;; k <- lift (to_unsigned E RSz size) ;;
        t <- lift (chars_of str) ;; m <- lift (to_unsigned E RSz n) ;; e <- lift (given_of error) ;;
        r <- digest_hash_copy_to_string E h k t m e ;; ret (VS R32 r, [None; None; None; None; None])
    | _ => undef
    end
  else if String.eqb f "byte_size_string_convert" then
    match args with
    | [VChars p; VU RSz len; VRef (VU R64 old); error] =>
        e <- lift (given_of error) ;; str <- view p ;;
        x <- byte_size_string_convert (o_verbose O) (o_point O) (Some str) len true e ;;
        ret (VS R32 (fst x), [None; None; Some (VU R64 (match snd x with Some n => n | None => old end)); None])
    | _ => undef
    end
  (* libcfile: one allocation; freed also when libcfile_file_free returns -1 *)
  else if String.eqb f "libcfile_file_initialize" then
    match args with
    | [VRef VNull; _] =>
        p <- allocate (OBytes []) E ;;
        ret match p with
            | Some q => (VS R32 1%Z, [Some (VBytes (q, 0)); None])
            | None => (VS R32 (-1)%Z, [Some VNull; None])
            end
    | _ => undef
    end
  else if String.eqb f "libcfile_file_free" then
    match args with
    | [VRef (VBytes (p, 0)); _] => mfree p ;;; ret (VS R32 (if in_free W then 1 else -1)%Z, [Some VNull; None])
    | _ => undef
    end
  else if String.eqb f "libcfile_file_open" then
    match args with
    | [VBytes (_, 0); VChars _; VName access; _] =>
        if String.eqb access "LIBCFILE_OPEN_READ"
        then ret (VS R32 (if in_open W then 1 else -1)%Z, [None; None; None; None]) else undef
    | _ => undef
    end
  else if String.eqb f "libcfile_file_close" then
    match args with
    | [VBytes (_, 0); _] => ret (VS R32 (if in_close W then 0 else -1)%Z, [None; None])
    | _ => undef
    end
  else if String.eqb f "libcfile_file_get_size" then
    match args with
    | [VBytes (_, 0); VRef (VU R64 old); _] =>
        ret match in_size W with
            | Some n => (VS R32 1%Z, [None; Some (VU R64 n); None])
            | None => (VS R32 (-1)%Z, [None; Some (VU R64 old); None])
            end
    | _ => undef
    end
  (* the last three are the number of reads so far, the offset in the file, and abort, which is set when the signal arrives *)
  else if String.eqb f "libcfile_file_read_buffer" then
    match args with
    | [VBytes (_, 0); VBytes buffer; VU RSz size; _; VRef (VU R64 reads); VRef (VU R64 offset); VRef (VS R32 abort)] =>
        let k := N.to_nat reads in
        let after := VS R32 (if arrived (o_signal O) (o_looks O + k) then 1%Z else abort) in
        match in_read W k with
        | None => ret (VS RSz (-1)%Z, [None; None; None; None; Some (VU R64 (reads + 1)); Some (VU R64 offset); Some after])
        | Some most =>
            let data := firstn (N.to_nat (N.min most size)) (skipn (N.to_nat offset) (in_data W)) in
            write buffer data ;;;
            ret (VS RSz (Z.of_nat (List.length data)),
                 [None; None; None; None; Some (VU R64 (reads + 1)); Some (VU R64 (offset + N.of_nat (List.length data))); Some after])
        end
    | _ => undef
    end
  (* common/memory.h on sum_handle_t; the structure is one cell *)
  else if String.eqb f "sum_handle_t:allocate" then
    match args with
    | [] => p <- allocate (OBytes [0]) E ;; ret (match p with Some q => VBytes (q, 0) | None => VNull end, [])
    | _ => undef
    end
  else if String.eqb f "sum_handle_t:clear" then
    match args with
    | VBytes p :: VS R32 0%Z :: members => ret (VBytes p, None :: None :: map cleared members)
    | _ => undef
    end
  (* common/narrow_string.h:47-48, 58-59, 64-66 *)
  else if String.eqb f "system_string_allocate" then
    match args with
    | [size] =>
        n <- lift (to_unsigned E RSz size) ;; p <- allocate_bytes E n ;;
        ret (match p with Some q => VChars (q, 0) | None => VNull end, [None])
    | _ => undef
    end
  else if String.eqb f "system_string_length" then
    match args with
    | [VChars p] => v <- view p ;; t <- lift (until_zero v) ;; ret (VU RSz (N.of_nat (List.length t)), [None])
    | _ => undef
    end
  (* 1 stands for any result of memcmp that is not 0 *)
  else if String.eqb f "system_string_compare" then
    match args with
    | [VPtrs x; VText t; VS R32 n] =>
        c <- lift (segment_codes x) ;; same <- lift (compare (Z.to_nat n) c (codes t ++ [0])) ;;
        ret (VS R32 (if same : bool then 0 else 1)%Z, [None; None; None])
    | _ => undef
    end
  (* libcsplit: one allocation; asked for the segments between commas of the whole string *)
  else if String.eqb f "system_string_split" then
    match args with
    | [VChars p; VU RSz size; VS R32 44%Z; VRef VNull; _] =>
        v <- view p ;; t <- lift (until_zero v) ;;
        if size =? N.of_nat (List.length t) + 1 then
          match o_split O t with
          | None => ret (VS R32 (-1)%Z, [None; None; None; Some VNull; None])
          | Some segments =>
              q <- allocate (OBytes []) E ;;
              ret match q with
                  | Some q => (VS R32 1%Z, [None; None; None; Some (VPtrs (VBytes (q, 0) :: map v_segment segments)); None])
                  | None => (VS R32 (-1)%Z, [None; None; None; Some VNull; None])
                  end
          end
        else undef
    | _ => undef
    end
  else if String.eqb f "system_split_string_get_number_of_segments" then
    match args with
    | [VPtrs (VBytes _ :: segments); VRef (VS R32 _); _] =>
        ret (VS R32 1%Z, [None; Some (VS R32 (Z.of_nat (List.length segments))); None])
    | _ => undef
    end
  else if String.eqb f "system_split_string_get_segment_by_index" then
    match args with
    | [VPtrs (VBytes _ :: segments); VS R32 i; VRef _; VRef (VU RSz _); _] =>
        x <- lift (nth_error segments (Z.to_nat i)) ;;
        ret (VS R32 1%Z, [None; None; Some x; Some (VU RSz (match x with VPtrs c => N.of_nat (List.length c) | _ => 0 end)); None])
    | _ => undef
    end
  else if String.eqb f "system_split_string_free" then
    match args with
    | [VRef (VPtrs (VBytes (q, 0) :: _)); _] => mfree q ;;; ret (VS R32 1%Z, [Some VNull; None])
    | _ => undef
    end
  (* the stream is the text printed to it so far *)
  else if String.eqb f "fprintf" then
    match args with
    | [VRef (VArr R8 out w); VText format; VChars p] =>
        v <- view p ;; t <- lift (until_zero v) ;; x <- lift (print_string format t) ;;
        ret (VS R32 (Z.of_nat (List.length x)), [Some (VArr R8 (out ++ x) w); None; None])
    | _ => undef
    end
  else undef
  end.

(* run a function of sum_handle.c; it may call others of this file to a depth of at most [depth] *)
Fixpoint call_sum (E : env) (O : outside) (signed : bool) (fuel depth : nat) (f : string) (args : list val)
  : M (val * list (option val)) :=
  match depth with
  | 0%nat => sum_call E O f args
  | S d =>
      match find_fun (p_functions (sum_text signed)) f with
      | Some def => run_fun E (sum_text signed) (call_sum E O signed fuel d) fuel def args
      | None => sum_call E O f args
      end
  end.
Definition run_sum (E : env) (O : outside) (signed : bool) (fuel : nat) (f : string) (args : list val)
  : M (val * list (option val)) := call_sum E O signed fuel 2 f args.

(* ------------------------------------------------------------------ a handle as parameters *)

Definition v_string (q : option nat) : val := match q with Some p => VChars (p, 0) | None => VNull end.
Definition v_flag (b : bool) : val := VU R8 (if b then 1 else 0).
Definition v_abort (b : bool) : val := VS R32 (if b then 1 else 0)%Z.

(* the members, sum_handle.h:38-131, in the order of the parameters of TextSum.v; then the number of reads from the file behind
   input_handle and the offset in it *)
Definition members (h : handle) (reads : nat) (offset : N) : list val :=
  VBytes (h_input h, 0) ::
  flat_map (fun a => [v_flag (calculate (slots h a)); v_ctx a (context (slots h a)); v_string (hash_string (slots h a))]) all_algs ++
  [VU RSz (process_buffer_size h); v_abort (h_abort h); VU R64 (N.of_nat reads); VU R64 offset].

(* as arguments: their addresses.  Behind NULL there are none. *)
Definition v_members (h : option handle) (reads : nat) (offset : N) : list val :=
  match h with Some h => map VRef (members h reads offset) | None => repeat VNull 20 end.
(* what is left there *)
Definition left_members (h : option handle) (reads : nat) (offset : N) : list (option val) :=
  match h with Some h => map Some (members h reads offset) | None => repeat None 20 end.
(* the pointer *)
Definition v_handle (h : option handle) : val := match h with Some h => VBytes (h_self h, 0) | None => VNull end.
(* a place for the pointer *)
Definition v_handle_place (h : option (option handle)) : val := match h with Some h => VRef (v_handle h) | None => VNull end.
(* of what a call left: the pointer to the structure, and the values of its members only when it is not NULL *)
Definition no_value (v : option val) : option val := option_map (fun _ => VNull) v.
Definition seen (outs : list (option val)) : list (option val) :=
  match outs with Some VNull :: x :: m => Some VNull :: x :: map no_value m | _ => outs end.
(* the same, but the number of reads and the offset in the file are not members *)
Definition seen_freed (outs : list (option val)) : list (option val) :=
  match outs with Some VNull :: x :: m => Some VNull :: x :: map no_value (firstn 18 m) ++ skipn 18 m | _ => outs end.
(* what sum_handle_free leaves, when only that is seen *)
Definition freed_outs (hp : option (option handle)) (reads : nat) (offset : N) : list (option val) :=
  match hp with
  | Some (Some _) => Some VNull :: None :: repeat (Some VNull) 18 ++ [Some (VU R64 (N.of_nat reads)); Some (VU R64 offset)]
  | Some None => Some VNull :: repeat None 21
  | None => repeat None 22
  end.
(* a stream: the text printed to it so far *)
Definition v_stream (out : option (list N)) : val := match out with Some t => VRef (VArr R8 t true) | None => VNull end.
(* libcfile_file_read_buffer is reached by sum_handle_read_buffer with these, sum_handle.c:428-449 *)
Definition is_read (E : env) (bp : option ptr) (n : N) : bool := match bp with Some _ => n <=? ssize_max E | None => false end.
(* the handle after read number k: the signal may have set abort *)
Definition after_read (O : outside) (h : handle) (k : nat) : handle :=
  set_abort (h_abort h || arrived (o_signal O) (o_looks O + k)) h.
(* of what sum_handle_process_input left: all but the offset in the file, which SumHandle.v does not return *)
Definition but_offset (outs : list (option val)) : list (option val) :=
  removelast outs ++ [match last outs None with Some (VU R64 _) => Some (VU R64 0) | x => x end].
