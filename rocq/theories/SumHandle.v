(* hmactools/sum_handle.c and the part of hmactools/hmacsum.c that uses it.
   The handle structure (sum_handle.h:38-131) is a record passed along, with a cell that stands for its
   allocation.  Blocks of code that are repeated for MD5, SHA1, SHA224, SHA256 and SHA512 in this order are written
   once, with the algorithm as a parameter.  Not represented: the members X_context_initialized, which are
   set (505, 522, 539, 556, 573) and never read; error entries that libcfile, libcsplit and libclocale add. *)
From Coq Require Import String Ascii Arith NArith ZArith List Bool.
From Verif Require Import Words Machine Context Hash ToolStrings.
Import ListNotations.
Open Scope N_scope.

(* sum_handle.h:44-58, 60-74, 76-90, 92-106, 108-122: calculate_X, X_context, calculated_X_hash_string *)
Record slot : Type := mk_slot { calculate : bool; context : option nat; hash_string : option nat }.

(* sum_handle.h:38-131.  h_self is the cell of the structure, h_input the one behind input_handle *)
Record handle : Type := mk_handle {
  h_self : nat;
  h_input : nat;
  slots : algid -> slot;
  process_buffer_size : N;
  h_abort : bool;
}.

(* assignment to the members of one algorithm *)
Definition set_slot (a : algid) (x : slot) (h : handle) : handle :=
  mk_handle (h_self h) (h_input h) (fun b => if algid_eqb a b then x else slots h b) (process_buffer_size h) (h_abort h).
(* sum_handle.c:316, 1619 and hmacsum.c:263, assignments to the members *)
Definition set_abort (b : bool) (h : handle) : handle :=
  mk_handle (h_self h) (h_input h) (slots h) (process_buffer_size h) b.
Definition set_buffer_size (n : N) (h : handle) : handle :=
  mk_handle (h_self h) (h_input h) (slots h) n (h_abort h).

(* sum_handle.c:39-43 *)
Definition string_size (a : algid) : N :=
  match a with MD5 => 33 | SHA1 => 41 | SHA224 => 57 | SHA256 => 65 | SHA512 => 129 end.

Definition all_algs : list algid := [MD5; SHA1; SHA224; SHA256; SHA512].

(* What libcfile and the system do with the input file. *)
Record input : Type := mk_input {
  in_open : bool;                (* libcfile_file_open returns 1 *)
  in_size : option N;            (* libcfile_file_get_size: the size, None when it fails *)
  in_data : list N;              (* the bytes of the file *)
  in_read : nat -> option N;     (* the k-th libcfile_file_read_buffer: None when it returns -1, otherwise the
                                    most bytes that it gives *)
  in_close : bool;               (* libcfile_file_close returns 0 *)
  in_free : bool;                (* libcfile_file_free returns 1 *)
}.

(* The moment a signal arrives: hmacsum_signal_handler (hmacsum.c:85-123) sets hmacsum_abort and the abort member of
   the handle.  The program looks at them at hmacsum.c:304, sum_handle.c:1116 after each read, hmacsum.c:320 and
   hmacsum.c:376.  Some t: the signal arrives before look number t.  None: no signal. *)
Definition arrived (signal : option nat) (t : nat) : bool :=
  match signal with None => false | Some u => Nat.leb u t end.

(* a sequence of steps on the handle that stops at the first one that does not return 1 *)
Fixpoint steps (f : algid -> handle -> M (Z * handle)) (l : list algid) (h : handle) : M (Z * handle) :=
  match l with
  | [] => ret (1%Z, h)
  | a :: t =>
      x <- f a h ;;
      if (fst x =? 1)%Z then steps f t (snd x) else ret x
  end.

Section WithEnv.
  Variable E : env.

  (* sum_handle.c:49-146 sum_handle_initialize.  [sum_handle] is None for NULL, otherwise Some of the value of
     *sum_handle; the result has the value of *sum_handle afterwards.  libcfile_file_initialize is one allocation. *)
  Definition sum_handle_initialize (sum_handle : option (option handle)) (e : bool) : M (Z * option handle) :=
    match sum_handle with
    | None => r <- fail e E_ARGUMENT_INVALID_VALUE ;; ret (r, None)
    | Some (Some h) => r <- fail e E_RUNTIME_VALUE_ALREADY_SET ;; ret (r, Some h)
    | Some None =>
        self <- allocate (OBytes [0]) E ;;
        match self with
        | None => r <- fail e E_MEMORY_INSUFFICIENT ;; ret (r, None)
        | Some self =>
            input <- allocate (OBytes []) E ;;
            match input with
            | None => r <- fail e E_RUNTIME_INITIALIZE_FAILED ;; mfree self ;;; ret (r, None)
            | Some input =>
                string <- allocate_bytes E (string_size MD5) ;;
                match string with
                | None => r <- fail e E_MEMORY_INSUFFICIENT ;; mfree self ;;; ret (r, None)
                | Some q =>
                    ret (1%Z, Some (mk_handle self input
                           (fun a => if algid_eqb MD5 a then mk_slot true None (Some q) else mk_slot false None None)
                           32768 false))
                end
            end
        end
    end.

  (* sum_handle.c:168-187, 188-207, 208-227, 228-247, 248-267: the members of one algorithm.  result is carried. *)
  Definition free_slot (e : bool) (h : handle) (result : Z) (a : algid) : M Z :=
    result <- (match context (slots h a) with
               | None => ret result
               | Some p =>
                   r <- context_free a (Some (Some p)) e ;;
                   if (fst r =? 1)%Z then ret result else error_set e E_RUNTIME_FINALIZE_FAILED ;;; ret (-1)%Z
               end) ;;
    match hash_string (slots h a) with
    | None => ret result
    | Some q => mfree q ;;; ret result
    end.

  (* sum_handle.c:151-295 sum_handle_free.  libcfile_file_free frees the input handle also when it returns -1. *)
  Definition sum_handle_free (W : input) (sum_handle : option (option handle)) (e : bool) : M (Z * option handle) :=
    match sum_handle with
    | None => r <- fail e E_ARGUMENT_INVALID_VALUE ;; ret (r, None)
    | Some None => ret (1%Z, None)
    | Some (Some h) =>
        result <- mfold (free_slot e h) all_algs 1%Z ;;
        mfree (h_input h) ;;;
        result <- (if in_free W then ret result else error_set e E_RUNTIME_FINALIZE_FAILED ;;; ret (-1)%Z) ;;
        mfree (h_self h) ;;;
        ret (result, None)
    end.

  (* sum_handle.c:300-320 sum_handle_signal_abort *)
  Definition sum_handle_signal_abort (sum_handle : option handle) (e : bool) : M (Z * option handle) :=
    match sum_handle with
    | None => r <- fail e E_ARGUMENT_INVALID_VALUE ;; ret (r, None)
    | Some h => ret (1%Z, Some (set_abort true h))
    end.

  (* sum_handle.c:325-367 sum_handle_open_input *)
  Definition sum_handle_open_input (W : input) (sum_handle : option handle) (e : bool) : M Z :=
    match sum_handle with
    | None => fail e E_ARGUMENT_INVALID_VALUE
    | Some h => if in_open W then ret 1%Z else fail e E_IO_OPEN_FAILED
    end.

  (* sum_handle.c:372-403 sum_handle_close *)
  Definition sum_handle_close (W : input) (sum_handle : option handle) (e : bool) : M Z :=
    match sum_handle with
    | None => fail e E_ARGUMENT_INVALID_VALUE
    | Some h => if in_close W then ret 0%Z else fail e E_IO_CLOSE_FAILED
    end.

  (* sum_handle.c:408-468 sum_handle_read_buffer.  k is the number of reads before, pos the offset in the file.
     A read that fails leaves the buffer as it was. *)
  Definition sum_handle_read_buffer (W : input) (k : nat) (pos : N) (sum_handle : option handle) (buffer : option ptr)
             (buffer_size : N) (e : bool) : M Z :=
    match sum_handle with
    | None => fail e E_ARGUMENT_INVALID_VALUE
    | Some h =>
        match buffer with
        | None => fail e E_ARGUMENT_INVALID_VALUE
        | Some bp =>
            if ssize_max E <? buffer_size then fail e E_ARGUMENT_VALUE_OUT_OF_BOUNDS
            else match in_read W k with
                 | None => fail e E_IO_READ_FAILED
                 | Some most =>
                     let data := firstn (N.to_nat (N.min most buffer_size)) (skipn (N.to_nat pos) (in_data W)) in
                     write bp data ;;;
                     ret (Z.of_nat (length data))
                 end
        end
    end.

  (* sum_handle.c:490-506, 507-523, 524-540, 541-557, 558-574 *)
  Definition initialize_slot (e : bool) (a : algid) (h : handle) : M (Z * handle) :=
    let x := slots h a in
    if calculate x then
      r <- context_initialize E a (Some (context x)) e ;;
      let h := set_slot a (mk_slot (calculate x) (snd r) (hash_string x)) h in
      if (fst r =? 1)%Z then ret (1%Z, h)
      else error_set e E_RUNTIME_INITIALIZE_FAILED ;;; ret ((-1)%Z, h)
    else ret (1%Z, h).

  (* sum_handle.c:578-583 and 584-589 *)
  Definition drop_context (a : algid) (h : handle) : M handle :=
    let x := slots h a in
    match context x with
    | None => ret h
    | Some p =>
        r <- context_free a (Some (Some p)) false ;;
        ret (set_slot a (mk_slot (calculate x) (snd r) (hash_string x)) h)
    end.

  (* sum_handle.c:473-591 sum_handle_initialize_integrity_hash *)
  Definition sum_handle_initialize_integrity_hash (h : handle) (e : bool) : M (Z * handle) :=
    x <- steps (initialize_slot e) all_algs h ;;
    if (fst x =? 1)%Z then ret x
    else
      h <- drop_context SHA1 (snd x) ;;
      h <- drop_context MD5 h ;;
      ret ((-1)%Z, h).

  (* sum_handle.c:638-655, 656-673, 674-691, 692-709, 710-727 *)
  Definition update_slot (buffer : ptr) (buffer_size : N) (e : bool) (a : algid) (h : handle) : M (Z * handle) :=
    let x := slots h a in
    if calculate x then
      r <- context_update E a (context x) (Some buffer) buffer_size e ;;
      if (r =? 1)%Z then ret (1%Z, h)
      else error_set e E_RUNTIME_SET_FAILED ;;; ret ((-1)%Z, h)
    else ret (1%Z, h).

  (* sum_handle.c:596-729 sum_handle_update_integrity_hash *)
  Definition sum_handle_update_integrity_hash (h : handle) (buffer : option ptr) (buffer_size : N) (e : bool) : M Z :=
    match buffer with
    | None => fail e E_ARGUMENT_INVALID_VALUE
    | Some bp =>
        if (buffer_size =? 0) || (ssize_max E <? buffer_size) then fail e E_ARGUMENT_VALUE_OUT_OF_BOUNDS
        else x <- steps (update_slot bp buffer_size e) all_algs h ;; ret (fst x)
    end.

  (* sum_handle.c:738-742: the local arrays calculated_X_hash, in the order of their declarations, around what the function
     does.  Their sizes are LIBHMAC_X_HASH_SIZE, include/libhmac/definitions.h.in. *)
  Definition hash_array (a : algid) : M nat :=
    fun s => push_local (OBytes (junk_bytes E (length (mem s)) (a_hs (alg_of a)))) s.
  Definition with_hashes (body : (algid -> nat) -> M Z) : M Z :=
    md5 <- hash_array MD5 ;;
    sha1 <- hash_array SHA1 ;;
    sha224 <- hash_array SHA224 ;;
    sha256 <- hash_array SHA256 ;;
    sha512 <- hash_array SHA512 ;;
    r <- body (fun a => match a with MD5 => md5 | SHA1 => sha1 | SHA224 => sha224 | SHA256 => sha256 | SHA512 => sha512 end) ;;
    pop_local md5 ;;; pop_local sha1 ;;; pop_local sha224 ;;; pop_local sha256 ;;; pop_local sha512 ;;;
    ret r.

  (* sum_handle.c:757-801, 802-846, 847-891, 892-936, 937-981.  [hash a] is the cell of calculated_X_hash. *)
  Definition finalize_slot (e : bool) (hash : algid -> nat) (a : algid) (h : handle) : M (Z * handle) :=
    let x := slots h a in
    if calculate x then
      match hash_string x with
      | None => r <- fail e E_RUNTIME_VALUE_MISSING ;; ret (r, h)
      | Some q =>
          r <- context_finalize E a (context x) (Some (hash a, 0)) (a_hs (alg_of a)) e ;;
          r <- (if (r =? 1)%Z then
                  r <- digest_hash_copy_to_string E (Some (hash a, 0)) (a_hs (alg_of a)) (Some (q, 0)) (string_size a) e ;;
                  if (r =? 1)%Z then ret 1%Z
                  else fail e (match a with MD5 => E_RUNTIME_SET_FAILED | _ => E_RUNTIME_INITIALIZE_FAILED end)
                else fail e E_RUNTIME_FINALIZE_FAILED) ;;
          ret (r, h)
      end
    else ret (1%Z, h).

  (* sum_handle.c:734-983 sum_handle_finalize_integrity_hash *)
  Definition sum_handle_finalize_integrity_hash (h : handle) (e : bool) : M Z :=
    with_hashes (fun hash => x <- steps (finalize_slot e hash) all_algs h ;; ret (fst x)).

  (* sum_handle.c:1063-1120: the loop.  k is the number of reads so far, t0 the number of looks at the abort flag
     before the first read.  The result is 1 at the end of the loop or -1 for goto on_error, and the number of
     reads.  More turns than the fuel would be an endless loop. *)
  Fixpoint process_loop (fuel : nat) (W : input) (signal : option nat) (t0 : nat) (h : handle) (buffer : ptr)
           (media_size process_count : N) (k : nat) (e : bool) : M (Z * nat) :=
    if process_count <? media_size then
      match fuel with
      | O => undef
      | S fuel =>
          let read_size := process_buffer_size h in
          let read_size := if media_size - process_count <? read_size
                           then (media_size - process_count) mod size_mod E else read_size in
          read_count <- sum_handle_read_buffer W k process_count (Some h) (Some buffer) read_size e ;;
          if (read_count <? 0)%Z then r <- fail e E_IO_READ_FAILED ;; ret (r, S k)
          else if (read_count =? 0)%Z then r <- fail e E_IO_READ_FAILED ;; ret (r, S k)
          else
            r <- sum_handle_update_integrity_hash h (Some buffer) (Z.to_N read_count) e ;;
            if (r =? 1)%Z then
              let process_count := (process_count + Z.to_N read_count) mod 2 ^ 64 in
              if h_abort h || arrived signal (t0 + k) then ret (1%Z, S k)
              else process_loop fuel W signal t0 h buffer media_size process_count (S k) e
            else r <- fail e E_RUNTIME_GENERIC ;; ret (r, S k)
      end
    else ret (1%Z, k).

  (* sum_handle.c:988-1148 sum_handle_process_input.  The result has the handle afterwards and the number of reads. *)
  Definition sum_handle_process_input (W : input) (signal : option nat) (t0 : nat) (sum_handle : option handle) (e : bool)
    : M (Z * option handle * nat) :=
    match sum_handle with
    | None => r <- fail e E_ARGUMENT_INVALID_VALUE ;; ret (r, None, 0%nat)
    | Some h =>
        if (process_buffer_size h =? 0) || (ssize_max E <? process_buffer_size h)
        then r <- fail e E_ARGUMENT_VALUE_OUT_OF_BOUNDS ;; ret (r, Some h, 0%nat)
        else match in_size W with
        | None => r <- fail e E_RUNTIME_GET_FAILED ;; ret (r, Some h, 0%nat)
        | Some media_size =>
            buffer <- allocate_bytes E (process_buffer_size h) ;;
            match buffer with
            | None => r <- fail e E_MEMORY_INSUFFICIENT ;; ret (r, Some h, 0%nat)
            | Some b =>
                x <- sum_handle_initialize_integrity_hash h e ;;
                let h := snd x in
                if (fst x =? 1)%Z then
                  x <- process_loop (S (N.to_nat media_size)) W signal t0 h (b, 0) media_size 0 0 e ;;
                  let k := snd x in
                  let h' := set_abort (h_abort h || Nat.ltb 0 k && arrived signal (t0 + k - 1)) h in
                  mfree b ;;;
                  if (fst x =? 1)%Z then
                    r <- sum_handle_finalize_integrity_hash h e ;;
                    if (r =? 1)%Z then ret (1%Z, Some h', k)
                    else r <- fail e E_RUNTIME_FINALIZE_FAILED ;; ret (r, Some h', k)
                  else ret ((-1)%Z, Some h', k)
                else
                  error_set e E_RUNTIME_INITIALIZE_FAILED ;;;
                  mfree b ;;;
                  ret ((-1)%Z, Some h, 0%nat)
            end
        end
    end.

  (* characters of a literal, sum_handle.c:1253-1440 *)
  Definition literal (t : string) : list N := map N_of_ascii (list_ascii_of_string t).

  (* common/narrow_string.h:64-71 narrow_string_compare( a, b, n ) == 0, memcmp *)
  Fixpoint compare (n : nat) (a b : list N) : option bool :=
    match n with
    | O => Some true
    | S m => x <-? aget a 0; y <-? aget b 0; if x =? y then compare m (tl a) (tl b) else Some false
    end.

  (* sum_handle.c:1249-1445: string_segment_size, the name, the number of characters compared, the flag that is set *)
  Definition names : list (N * string * nat * algid) :=
    [(4, "md5", 4%nat, MD5); (4, "MD5", 4%nat, MD5);
     (5, "sha1", 4%nat, SHA1); (5, "SHA1", 4%nat, SHA1);
     (6, "sha-1", 5%nat, SHA1); (6, "sha_1", 5%nat, SHA1); (6, "SHA-1", 5%nat, SHA1); (6, "SHA_1", 5%nat, SHA1);
     (7, "sha224", 6%nat, SHA224); (7, "SHA224", 6%nat, SHA224);
     (7, "sha256", 6%nat, SHA256); (7, "SHA256", 6%nat, SHA256);
     (7, "sha512", 6%nat, SHA512); (7, "SHA512", 6%nat, SHA512);
     (8, "sha-224", 7%nat, SHA224); (8, "sha_224", 7%nat, SHA224); (8, "SHA-224", 7%nat, SHA224); (8, "SHA_224", 7%nat, SHA224);
     (8, "sha-256", 7%nat, SHA256); (8, "sha_256", 7%nat, SHA256); (8, "SHA-256", 7%nat, SHA256); (8, "SHA_256", 7%nat, SHA256);
     (8, "sha-512", 7%nat, SHA512); (8, "sha_512", 7%nat, SHA512); (8, "SHA-512", 7%nat, SHA512); (8, "SHA_512", 7%nat, SHA512)]%string.

  (* sum_handle.c:1249-1445: the flag for one segment.  [segment] has the end of string character. *)
  Fixpoint lookup (l : list (N * string * nat * algid)) (segment : list N) : option (option algid) :=
    match l with
    | [] => Some None
    | (size, name, n, a) :: t =>
        if N.of_nat (length segment) =? size then
          same <-? compare n segment (literal name ++ [0]);
          if same : bool then Some (Some a) else lookup t segment
        else lookup t segment
    end.

  (* sum_handle.c:1216-1446: the loop; None in a segment is a NULL string_segment and the first result false is the
     return at 1247 *)
  Fixpoint scan_segments (segments : list (option (list N))) (flags : algid -> bool) : option (bool * (algid -> bool)) :=
    match segments with
    | [] => Some (true, flags)
    | None :: t => Some (false, flags)
    | Some x :: t =>
        a <-? lookup names (x ++ [0]);
        scan_segments t (match a with Some a => fun b => algid_eqb a b || flags b | None => flags end)
    end.

  (* sum_handle.c:1447-1465, 1466-1484, 1485-1503, 1504-1522, 1523-1541 *)
  Definition enable_slot (flags : algid -> bool) (e : bool) (a : algid) (h : handle) : M (Z * handle) :=
    let x := slots h a in
    if flags a && negb (calculate x) then
      string <- allocate_bytes E (string_size a) ;;
      let h := set_slot a (mk_slot (calculate x) (context x) string) h in
      match string with
      | None => r <- fail e E_MEMORY_INSUFFICIENT ;; ret (r, h)
      | Some q => ret (1%Z, set_slot a (mk_slot true (context x) string) h)
      end
    else ret (1%Z, h).

  (* sum_handle.c:1153-1565 sum_handle_set_digest_types.  [split] is what system_string_split (libcsplit) makes of the
     string: None when it fails, otherwise the segments, with None for a NULL segment.  The object it returns is a
     cell that system_split_string_free frees; both succeed unless split fails.
     system_split_string_get_number_of_segments and .._get_segment_by_index are assumed to succeed. *)
  Definition sum_handle_set_digest_types (split : list N -> option (list (option (list N)))) (sum_handle : option handle)
             (str : list N) (e : bool) : M (Z * option handle) :=
    match sum_handle with
    | None => r <- fail e E_ARGUMENT_INVALID_VALUE ;; ret (r, None)
    | Some h =>
        match split str with
        | None => r <- fail e E_RUNTIME_INITIALIZE_FAILED ;; ret (r, Some h)
        | Some segments =>
            elements <- allocate (OBytes []) E ;;
            match elements with
            | None => r <- fail e E_RUNTIME_INITIALIZE_FAILED ;; ret (r, Some h)
            | Some p =>
                x <- lift (scan_segments segments (fun _ => false)) ;;
                if fst x : bool then
                  x <- steps (enable_slot (snd x) e) all_algs h ;;
                  mfree p ;;;
                  ret ((if (fst x =? 1)%Z then 0%Z else (-1)%Z), Some (snd x))
                else r <- fail e E_RUNTIME_VALUE_MISSING ;; ret (r, Some h)
            end
        end
    end.

  (* sum_handle.c:1570-1623 sum_handle_set_process_buffer_size.  [str] are the characters accessible from string,
     len what system_string_length gives; byte_size_string_convert does not return 0 *)
  Definition sum_handle_set_process_buffer_size (verbose : bool) (decimal_point : option N) (sum_handle : option handle)
             (str : list N) (len : N) (e : bool) : M (Z * option handle) :=
    match sum_handle with
    | None => r <- fail e E_ARGUMENT_INVALID_VALUE ;; ret (r, None)
    | Some h =>
        x <- byte_size_string_convert verbose decimal_point (Some str) len true e ;;
        let result := fst x in
        let size_variable := match snd x with Some n => n | None => 0 end in
        if (result =? -1)%Z then r <- fail e E_RUNTIME_GET_FAILED ;; ret (r, Some h)
        else if negb (result =? 0)%Z then
          if ssize_max E <? size_variable then ret (0%Z, Some h)
          else ret (result, Some (set_buffer_size (size_variable mod size_mod E) h))
        else ret (result, Some h)
    end.

  (* the characters of a string up to its end, as printf's %s reads them *)
  Fixpoint until_zero (l : list N) : option (list N) :=
    match l with
    | [] => None
    | c :: t => if c =? 0 then Some [] else option_map (cons c) (until_zero t)
    end.

  (* sum_handle.c:1661, 1668, 1675, 1682, 1689 *)
  Definition line_start (a : algid) : list N :=
    literal (match a with
             | MD5 => "MD5" | SHA1 => "SHA1" | SHA224 => "SHA224" | SHA256 => "SHA256" | SHA512 => "SHA512"
             end ++ " hash calculated over data:")%string
    ++ (match a with MD5 | SHA1 => [9; 9] | _ => [9] end).

  (* sum_handle.c:1657-1663, 1664-1670, 1671-1677, 1678-1684, 1685-1691: out is the text printed so far *)
  Definition print_slot (h : handle) (out : list N) (a : algid) : M (list N) :=
    let x := slots h a in
    if calculate x then
      q <- lift (hash_string x) ;;
      l <- view (q, 0) ;;
      t <- lift (until_zero l) ;;
      ret (out ++ line_start a ++ t ++ [10])
    else ret out.

  (* sum_handle.c:1628-1693 sum_handle_hash_values_fprint.  stream says whether stream is not NULL; the result has
     the text printed *)
  Definition sum_handle_hash_values_fprint (sum_handle : option handle) (stream : bool) (e : bool) : M (Z * list N) :=
    match sum_handle with
    | None => r <- fail e E_ARGUMENT_INVALID_VALUE ;; ret (r, [])
    | Some h =>
        if stream then out <- mfold (print_slot h) all_algs [] ;; ret (1%Z, out)
        else r <- fail e E_ARGUMENT_INVALID_VALUE ;; ret (r, [])
    end.

  (* hmacsum.c:387-401: on_error; EXIT_FAILURE is 1 *)
  Definition main_error (W : input) (h : option handle) (out : list N) : M (Z * list N) :=
    match h with
    | None => ret (1%Z, out)
    | Some h => r <- sum_handle_free W (Some (Some h)) false ;; ret (1%Z, out)
    end.

  (* hmacsum.c:343-385: from on_abort; t is the number of looks at the abort flag so far *)
  Definition main_end (W : input) (signal : option nat) (t : nat) (h : handle) (out : list N) : M (Z * list N) :=
    r <- sum_handle_close W (Some h) true ;;
    if (r =? 0)%Z then
      r <- sum_handle_free W (Some (Some h)) true ;;
      if (fst r =? 1)%Z then
        if arrived signal t then ret (1%Z, out ++ literal "hmacsum: ABORTED" ++ [10])
        else ret (0%Z, out)
      else main_error W (snd r) out
    else main_error W (Some h) out.

  (* hmacsum.c:235-402: the program after the options were read.  option_process_buffer_size and
     option_digest_types are the values of -p and -d if given.  The result is the exit code and what is printed on
     stdout after the version line.  Not modelled: what is printed on stderr, attaching and detaching the signal
     handler (286-298, 354-365, which only print a message when they fail). *)
  Definition hmacsum (split : list N -> option (list (option (list N)))) (verbose : bool) (decimal_point : option N)
             (W : input) (signal : option nat) (option_process_buffer_size : option (list N * N))
             (option_digest_types : option (list N)) : M (Z * list N) :=
    x <- sum_handle_initialize (Some None) true ;;
    match snd x with
    | None => main_error W None []
    | Some h =>
        if negb (fst x =? 1)%Z then main_error W (Some h) [] else
        x <- (match option_process_buffer_size with
              | None => ret (0%Z, h)
              | Some (str, len) =>
                  x <- sum_handle_set_process_buffer_size verbose decimal_point (Some h) str len true ;;
                  h <- lift (snd x) ;;
                  if (fst x =? -1)%Z then ret ((-1)%Z, h)
                  else if (fst x =? 0)%Z || (ssize_max E <? process_buffer_size h) then ret (0%Z, set_buffer_size 32768 h)
                  else ret (0%Z, h)
              end) ;;
        let h := snd x in
        if (fst x =? -1)%Z then main_error W (Some h) [] else
        x <- (match option_digest_types with
              | None => ret (0%Z, Some h)
              | Some str => sum_handle_set_digest_types split (Some h) str true
              end) ;;
        h <- lift (snd x) ;;
        if (fst x =? -1)%Z then main_error W (Some h) [] else
        r <- sum_handle_open_input W (Some h) true ;;
        if arrived signal 0 then main_end W signal 1 h []
        else if negb (r =? 1)%Z then main_error W (Some h) []
        else
          x <- sum_handle_process_input W signal 1 (Some h) true ;;
          let '(r, h, k) := x in
          h <- lift h ;;
          if arrived signal (1 + k) then main_end W signal (2 + k) h []
          else if negb (r =? 1)%Z then main_error W (Some h) []
          else
            x <- sum_handle_hash_values_fprint (Some h) true true ;;
            if negb (fst x =? 1)%Z then main_error W (Some h) (snd x)
            else main_end W signal (2 + k) h (snd x)
    end.
End WithEnv.
