(* libhmac_X.c: the public wrappers, calculate and calculate_hmac.  The five files
   have the same text up to names, LIBHMAC_X_HASH_SIZE and block_size (line 242),
   so one set of line numbers holds for all. *)
From Coq Require Import Arith NArith ZArith List Bool.
From Verif Require Import Words Tables Transform Machine Context.
Import ListNotations.
Open Scope N_scope.

Section WithEnv.
  Variable E : env.

  (* libhmac_X.c:35-55 libhmac_X_initialize *)
  Definition hash_initialize (a : algid) (context : option (option nat)) (e : bool) : M (Z * option nat) :=
    r <- context_initialize E a context e ;;
    if (fst r =? 1)%Z then ret r
    else z <- fail e E_RUNTIME_INITIALIZE_FAILED ;; ret (z, snd r).

  (* libhmac_X.c:60-80 libhmac_X_free *)
  Definition hash_free (a : algid) (context : option (option nat)) (e : bool) : M (Z * option nat) :=
    r <- context_free a context e ;;
    if (fst r =? 1)%Z then ret r
    else z <- fail e E_RUNTIME_FINALIZE_FAILED ;; ret (z, snd r).

  (* libhmac_X.c:85-109 libhmac_X_update *)
  Definition hash_update (a : algid) (context : option nat) (buffer : option ptr) (size : N) (e : bool) : M Z :=
    r <- context_update E a context buffer size e ;;
    if (r =? 1)%Z then ret 1%Z else fail e E_RUNTIME_SET_FAILED.

  (* libhmac_X.c:114-138 libhmac_X_finalize *)
  Definition hash_finalize (a : algid) (context : option nat) (hash : option ptr) (hash_size : N) (e : bool) : M Z :=
    r <- context_finalize E a context hash hash_size e ;;
    if (r =? 1)%Z then ret 1%Z else fail e E_RUNTIME_FINALIZE_FAILED.

  (* libhmac_X.c:211-218, on_error of calculate: free the context, error pointer NULL *)
  Definition calculate_on_error (a : algid) (context : option nat) : M Z :=
    match context with
    | Some p => context_free a (Some (Some p)) false ;;; ret (-1)%Z
    | None => ret (-1)%Z
    end.

  (* libhmac_X.c:143-219 libhmac_X_calculate *)
  Definition calculate (a : algid) (buffer : option ptr) (size : N) (hash : option ptr) (hash_size : N) (e : bool)
    : M Z :=
    r <- context_initialize E a (Some None) e ;;
    let context := snd r in
    if negb (fst r =? 1)%Z then error_set e E_RUNTIME_INITIALIZE_FAILED ;;; calculate_on_error a context
    else
      r <- context_update E a context buffer size e ;;
      if negb (r =? 1)%Z then error_set e E_RUNTIME_SET_FAILED ;;; calculate_on_error a context
      else
        r <- context_finalize E a context hash hash_size e ;;
        if negb (r =? 1)%Z then error_set e E_RUNTIME_FINALIZE_FAILED ;;; calculate_on_error a context
        else
          r <- context_free a (Some context) e ;;
          let context := snd r in
          if negb (fst r =? 1)%Z then error_set e E_RUNTIME_FINALIZE_FAILED ;;; calculate_on_error a context
          else ret 1%Z.

  (* libhmac_X.c:242 size_t block_size *)
  Definition hmac_block_size (a : algid) : N :=
    match a with MD5 | SHA1 | SHA224 | SHA256 => 64 | SHA512 => 128 end.

  (* libhmac_X.c:683-712: clear and free one of the buffers when it was allocated *)
  Definition clear_and_free (a : algid) (p : option nat) : M unit :=
    match p with
    | None => ret tt
    | Some q => mset (q, 0) 0 (hmac_block_size a) ;;; mfree q
    end.

  (* libhmac_X.c:676-713, on_error of calculate_hmac *)
  Definition hmac_on_error (a : algid) (context outer_padding inner_padding key_data : option nat) : M Z :=
    (match context with
     | Some p => context_free a (Some (Some p)) false ;;; ret tt
     | None => ret tt
     end) ;;;
    clear_and_free a outer_padding ;;;
    clear_and_free a inner_padding ;;;
    clear_and_free a key_data ;;;
    ret (-1)%Z.

  (* arbitrary contents of a new array of n bytes *)
  Definition junk_bytes (id : nat) (n : N) : list N := map (fun j => junk E id j mod 256) (seq 0 (N.to_nat n)).

  (* libhmac_X.c:277-278, 412-413, 440-441: memory_allocate( sizeof( uint8_t ) * block_size ) *)
  Definition allocate_bytes (n : N) : M (option nat) :=
    fun s => allocate (OBytes (junk_bytes (length (mem s)) n)) E s.

  (* libhmac_X.c:291-411: fill key_data from the key.  The result is None on success,
     or the value of the variable context at the goto on_error. *)
  Definition hmac_key_data (a : algid) (key_hash key_data : nat) (key : ptr) (key_size : N) (e : bool)
    : M (option (option nat)) :=
    let block_size := hmac_block_size a in
    let hash_size := a_hs (alg_of a) in
    if key_size <=? block_size then
      mcopy (key_data, 0) key key_size ;;;
      mset (key_data, key_size) 0 (block_size - key_size) ;;;
      ret None
    else
      r <- context_initialize E a (Some None) e ;;
      let context := snd r in
      if negb (fst r =? 1)%Z then error_set e E_RUNTIME_INITIALIZE_FAILED ;;; ret (Some context)
      else
        r <- context_update E a context (Some key) key_size e ;;
        if negb (r =? 1)%Z then error_set e E_RUNTIME_SET_FAILED ;;; ret (Some context)
        else
          r <- context_finalize E a context (Some (key_hash, 0)) hash_size e ;;
          if negb (r =? 1)%Z then error_set e E_RUNTIME_FINALIZE_FAILED ;;; ret (Some context)
          else
            r <- context_free a (Some context) e ;;
            let context := snd r in
            if negb (fst r =? 1)%Z then error_set e E_RUNTIME_FINALIZE_FAILED ;;; ret (Some context)
            else
              (if hash_size <? block_size then mset (key_data, hash_size) 0 (block_size - hash_size)
               else ret tt) ;;;
              mcopy (key_data, 0) (key_hash, 0) hash_size ;;;
              ret None.

  (* libhmac_X.c:468-474: inner_padding[ i ] ^= key_data[ i ]; outer_padding[ i ] ^= key_data[ i ] *)
  Definition hmac_xor_step (inner_padding outer_padding key_data : nat) (_ : unit) (i : nat) : M unit :=
    x <- read_byte (inner_padding, N.of_nat i) ;;
    k <- read_byte (key_data, N.of_nat i) ;;
    write_byte (inner_padding, N.of_nat i) (N.lxor x k) ;;;
    x <- read_byte (outer_padding, N.of_nat i) ;;
    k <- read_byte (key_data, N.of_nat i) ;;
    write_byte (outer_padding, N.of_nat i) (N.lxor x k).
  Definition hmac_xor (inner_padding outer_padding key_data : nat) (n : nat) : M unit :=
    mfold (hmac_xor_step inner_padding outer_padding key_data) (seq 0 n) tt.

  (* libhmac_X.c:475-545 and 546-616: initialize, update twice, finalize into hmac, free.
     None on success, or the value of context at the goto on_error. *)
  Definition hmac_pass (a : algid) (padding : nat) (buffer : option ptr) (size : N)
             (hmac : option ptr) (hmac_size : N) (e : bool) : M (option (option nat)) :=
    let block_size := hmac_block_size a in
    r <- context_initialize E a (Some None) e ;;
    let context := snd r in
    if negb (fst r =? 1)%Z then error_set e E_RUNTIME_INITIALIZE_FAILED ;;; ret (Some context)
    else
      r <- context_update E a context (Some (padding, 0)) block_size e ;;
      if negb (r =? 1)%Z then error_set e E_RUNTIME_SET_FAILED ;;; ret (Some context)
      else
        r <- context_update E a context buffer size e ;;
        if negb (r =? 1)%Z then error_set e E_RUNTIME_SET_FAILED ;;; ret (Some context)
        else
          r <- context_finalize E a context hmac hmac_size e ;;
          if negb (r =? 1)%Z then error_set e E_RUNTIME_FINALIZE_FAILED ;;; ret (Some context)
          else
            r <- context_free a (Some context) e ;;
            let context := snd r in
            if negb (fst r =? 1)%Z then error_set e E_RUNTIME_FINALIZE_FAILED ;;; ret (Some context)
            else ret None.

  (* libhmac_X.c:244-713, the function body after the declaration of key_hash *)
  Definition calculate_hmac_body (a : algid) (key_hash : nat) (key : option ptr) (key_size : N)
             (buffer : option ptr) (size : N) (hmac : option ptr) (hmac_size : N) (e : bool) : M Z :=
    let block_size := hmac_block_size a in
    let hash_size := a_hs (alg_of a) in
    match key with
    | None => fail e E_ARGUMENT_INVALID_VALUE
    | Some kp =>
        if ssize_max E <? key_size then fail e E_ARGUMENT_VALUE_EXCEEDS_MAXIMUM
        else if hmac_size <? hash_size then fail e E_ARGUMENT_VALUE_TOO_SMALL
        else
          key_data <- allocate_bytes block_size ;;
          match key_data with
          | None => error_set e E_MEMORY_INSUFFICIENT ;;; hmac_on_error a None None None None
          | Some kd =>
              r <- hmac_key_data a key_hash kd kp key_size e ;;
              match r with
              | Some context => hmac_on_error a context None None key_data
              | None =>
                  inner_padding <- allocate_bytes block_size ;;
                  match inner_padding with
                  | None => error_set e E_MEMORY_INSUFFICIENT ;;; hmac_on_error a None None None key_data
                  | Some ip =>
                      mset (ip, 0) 0x36 block_size ;;;
                      outer_padding <- allocate_bytes block_size ;;
                      match outer_padding with
                      | None => error_set e E_MEMORY_INSUFFICIENT ;;; hmac_on_error a None None inner_padding key_data
                      | Some op =>
                          mset (op, 0) 0x5c block_size ;;;
                          hmac_xor ip op kd (N.to_nat block_size) ;;;
                          r <- hmac_pass a ip buffer size hmac hmac_size e ;;
                          match r with
                          | Some context => hmac_on_error a context outer_padding inner_padding key_data
                          | None =>
                              r <- hmac_pass a op hmac hash_size hmac hmac_size e ;;
                              match r with
                              | Some context => hmac_on_error a context outer_padding inner_padding key_data
                              | None =>
                                  mset (op, 0) 0 block_size ;;;
                                  mfree op ;;;
                                  mset (ip, 0) 0 block_size ;;;
                                  mfree ip ;;;
                                  mset (kd, 0) 0 block_size ;;;
                                  mfree kd ;;;
                                  ret 1%Z
                              end
                          end
                      end
                  end
              end
          end
    end.

  (* libhmac_X.c:225-714 libhmac_X_calculate_hmac; key_hash (line 234) is a local array *)
  Definition calculate_hmac (a : algid) (key : option ptr) (key_size : N) (buffer : option ptr) (size : N)
             (hmac : option ptr) (hmac_size : N) (e : bool) : M Z :=
    key_hash <- (fun s => push_local (OBytes (junk_bytes (length (mem s)) (a_hs (alg_of a)))) s) ;;
    r <- calculate_hmac_body a key_hash key key_size buffer size hmac hmac_size e ;;
    pop_local key_hash ;;;
    ret r.
End WithEnv.
