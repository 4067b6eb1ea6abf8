(* The builds of libhmac_X_context.c that take the hash from a message digest provider (OpenSSL), and
   libhmac_X.c above them.  Line numbers are those of libhmac_md5_context.c; the other four files have the same text up to
   names.  SHA-224 with the functions of sha.h uses SHA256_Update and SHA256_Final on a context that SHA224_Init made.

   What the provider keeps for one message digest context, here or in memory of its own, is a list of bytes. *)
From Coq Require Import Arith NArith ZArith List Bool.
From Verif Require Import Words Tables Transform Machine Context Hash.
Import ListNotations.
Open Scope N_scope.

(* the functions of a provider; each returns 1 or something else, and may depend on the whole state *)
Record provider : Type := mk_provider {
  (* MD5_Init, EVP_DigestInit_ex, EVP_DigestInit_ex2: the result and the contents of the context *)
  p_init : algid -> state -> Z * list N;
  (* MD5_Update, EVP_DigestUpdate: from the contents of the context and the data *)
  p_update : algid -> state -> list N -> list N -> Z * list N;
  (* MD5_Final, EVP_DigestFinal_ex: the result, the bytes written, the contents of the context *)
  p_final : algid -> state -> list N -> Z * list N * list N;
  (* EVP_MD_CTX_cleanup *)
  p_cleanup : algid -> state -> Z;
}.

(* libhmac_md5_context.h:57-72: which members the structure has.
   Legacy: MD5_CTX; its argument says whether long is smaller than size_t.
   Inside: EVP_MD_CTX in the structure, with EVP_MD_CTX_init and EVP_MD_CTX_cleanup.
   Outside: a pointer to an EVP_MD_CTX from EVP_MD_CTX_new, freed with EVP_MD_CTX_free. *)
Inductive variant : Type := Legacy (long_smaller : bool) | Inside | Outside.

Section WithEnv.
  Variable E : env.
  Variable P : provider.
  Variable v : variant.

  (* contents of the cell of a context of the provider *)
  Definition load_provider (q : nat) : M (list N) :=
    fun s => match get_obj s q with Some (OBytes c) => Done c s | _ => Undef end.
  Definition store_provider (q : nat) (c : list N) : M unit :=
    fun s => match get_obj s q with
             | Some (OBytes _) => match put_obj q (OBytes c) s with Some s' => Done tt s' | None => Undef end
             | _ => Undef
             end.
  Definition ask {A} (f : state -> A) : M A := fun s => Done (f s) s.

  (* internal_context->evp_md_context, or &( internal_context->md5_context ) *)
  Definition provider_context (p : nat) : M nat :=
    match v with
    | Outside => fun s => match get_obj s p with Some (OPtr (Some q)) => Done q s | _ => Undef end
    | _ => ret p
    end.
  (* internal_context->evp_md_context = q *)
  Definition set_provider_context (p : nat) (q : option nat) : M unit :=
    fun s => match get_obj s p with
             | Some (OPtr _) => match put_obj p (OPtr q) s with Some s' => Done tt s' | None => Undef end
             | _ => Undef
             end.

  (* libhmac_md5_context.c:488-540: the provider's initialization of the context at q *)
  Definition provider_init (a : algid) (q : nat) : M Z :=
    r <- ask (p_init P a) ;; store_provider q (snd r) ;;; ret (fst r).

  (* libhmac_md5_context.c:424-587 libhmac_md5_context_initialize.  What the structure holds between the memory_set and
     the provider's initialization is not given to the provider, so it is left out. *)
  Definition evp_initialize (a : algid) (context : option (option nat)) (e : bool) : M (Z * option nat) :=
    match context with
    | None => r <- fail e E_ARGUMENT_INVALID_VALUE ;; ret (r, None)
    | Some (Some q) => r <- fail e E_RUNTIME_VALUE_ALREADY_SET ;; ret (r, Some q)
    | Some None =>
        internal_context <- allocate (match v with Outside => OPtr None | _ => OBytes [] end) E ;;
        match internal_context with
        | None => r <- fail e E_MEMORY_INSUFFICIENT ;; ret (r, None)
        | Some p =>
            match v with
            | Outside =>
                evp_md_context <- allocate (OBytes []) E ;;
                match evp_md_context with
                | None => r <- fail e E_RUNTIME_INITIALIZE_FAILED ;; mfree p ;;; ret (r, None)
                | Some q =>
                    set_provider_context p (Some q) ;;;
                    r <- provider_init a q ;;
                    if (r =? 1)%Z then ret (1%Z, Some p)
                    else
                      r <- fail e E_RUNTIME_INITIALIZE_FAILED ;;
                      mfree q ;;;
                      set_provider_context p None ;;;
                      mfree p ;;;
                      ret (r, None)
                end
            | _ =>
                r <- provider_init a p ;;
                if (r =? 1)%Z then ret (1%Z, Some p)
                else r <- fail e E_RUNTIME_INITIALIZE_FAILED ;; mfree p ;;; ret (r, None)
            end
        end
    end.

  (* libhmac_md5_context.c:592-651 libhmac_md5_context_free *)
  Definition evp_free (a : algid) (context : option (option nat)) (e : bool) : M (Z * option nat) :=
    match context with
    | None => r <- fail e E_ARGUMENT_INVALID_VALUE ;; ret (r, None)
    | Some None => ret (1%Z, None)
    | Some (Some p) =>
        (match v with
         | Legacy _ => ret tt
         | Inside => r <- ask (p_cleanup P a) ;; if (r =? 1)%Z then ret tt else error_set e E_RUNTIME_FINALIZE_FAILED
         | Outside => q <- provider_context p ;; mfree q ;;; set_provider_context p None
         end) ;;;
        mfree p ;;;
        ret (1%Z, None)
    end.

  (* libhmac_md5_context.c:692-696, 766: the largest size of an update *)
  Definition evp_size_max : N :=
    match v with Legacy true => if plat64 E then 2 ^ 32 - 1 else ssize_max E | _ => ssize_max E end.

  (* libhmac_md5_context.c:658-728 and 735-798 libhmac_md5_context_update *)
  Definition evp_update (a : algid) (context : option nat) (buffer : option ptr) (size : N) (e : bool) : M Z :=
    match context, buffer with
    | None, _ => fail e E_ARGUMENT_INVALID_VALUE
    | _, None => fail e E_ARGUMENT_INVALID_VALUE
    | Some p, Some b =>
        if evp_size_max <? size then fail e E_ARGUMENT_VALUE_EXCEEDS_MAXIMUM
        else if size =? 0 then ret 1%Z
        else
          q <- provider_context p ;;
          c <- load_provider q ;;
          l <- view b ;;
          d <- lift (take size l) ;;
          r <- ask (fun s => p_update P a s c d) ;;
          store_provider q (snd r) ;;;
          if (fst r =? 1)%Z then ret 1%Z else fail e E_RUNTIME_SET_FAILED
    end.

  (* libhmac_md5_context.c:981-1050 and 1057-1120 libhmac_md5_context_finalize.  unsigned int has 32 bits. *)
  Definition evp_finalize (a : algid) (context : option nat) (hash : option ptr) (hash_size : N) (e : bool) : M Z :=
    match context, hash with
    | None, _ => fail e E_ARGUMENT_INVALID_VALUE
    | _, None => fail e E_ARGUMENT_INVALID_VALUE
    | Some p, Some h =>
        let reject :=
          match v with
          | Legacy _ => if ssize_max E <? hash_size then Some E_ARGUMENT_VALUE_EXCEEDS_MAXIMUM
                        else if hash_size <? a_hs (alg_of a) then Some E_ARGUMENT_VALUE_TOO_SMALL else None
          | _ => if (hash_size <? a_hs (alg_of a)) || (2 ^ 32 - 1 <? hash_size) then Some E_ARGUMENT_VALUE_OUT_OF_BOUNDS else None
          end in
        match reject with
        | Some k => fail e k
        | None =>
            q <- provider_context p ;;
            c <- load_provider q ;;
            r <- ask (fun s => p_final P a s c) ;;
            write h (snd (fst r)) ;;;
            store_provider q (snd r) ;;;
            if (fst (fst r) =? 1)%Z then ret 1%Z else fail e E_RUNTIME_FINALIZE_FAILED
        end
    end.
End WithEnv.

(* libhmac_X.c does not depend on the build: it is the text of Hash.v with the four functions as parameters
   (EvpFacts.v shows that with the functions of Context.v it is Hash.v) *)
Record functions : Type := mk_functions {
  f_initialize : option (option nat) -> bool -> M (Z * option nat);
  f_free : option (option nat) -> bool -> M (Z * option nat);
  f_update : option nat -> option ptr -> N -> bool -> M Z;
  f_finalize : option nat -> option ptr -> N -> bool -> M Z;
}.
Definition fallback (E : env) (a : algid) : functions :=
  mk_functions (context_initialize E a) (context_free a) (context_update E a) (context_finalize E a).
Definition evp (E : env) (P : provider) (v : variant) (a : algid) : functions :=
  mk_functions (evp_initialize E P v a) (evp_free P v a) (evp_update E P v a) (evp_finalize E P v a).

Section Above.
  Variable E : env.
  Variable F : functions.

  (* libhmac_X.c:211-218, on_error of calculate: free the context, error pointer NULL *)
  Definition calculate_on_error_with (context : option nat) : M Z :=
    match context with
    | Some p => f_free F (Some (Some p)) false ;;; ret (-1)%Z
    | None => ret (-1)%Z
    end.

  (* libhmac_X.c:143-219 libhmac_X_calculate *)
  Definition calculate_with (a : algid) (buffer : option ptr) (size : N) (hash : option ptr) (hash_size : N) (e : bool)
    : M Z :=
    r <- f_initialize F (Some None) e ;;
    let context := snd r in
    if negb (fst r =? 1)%Z then error_set e E_RUNTIME_INITIALIZE_FAILED ;;; calculate_on_error_with context
    else
      r <- f_update F context buffer size e ;;
      if negb (r =? 1)%Z then error_set e E_RUNTIME_SET_FAILED ;;; calculate_on_error_with context
      else
        r <- f_finalize F context hash hash_size e ;;
        if negb (r =? 1)%Z then error_set e E_RUNTIME_FINALIZE_FAILED ;;; calculate_on_error_with context
        else
          r <- f_free F (Some context) e ;;
          let context := snd r in
          if negb (fst r =? 1)%Z then error_set e E_RUNTIME_FINALIZE_FAILED ;;; calculate_on_error_with context
          else ret 1%Z.

  (* libhmac_X.c:676-713, on_error of calculate_hmac *)
  Definition hmac_on_error_with (a : algid) (context outer_padding inner_padding key_data : option nat) : M Z :=
    (match context with
     | Some p => f_free F (Some (Some p)) false ;;; ret tt
     | None => ret tt
     end) ;;;
    clear_and_free a outer_padding ;;;
    clear_and_free a inner_padding ;;;
    clear_and_free a key_data ;;;
    ret (-1)%Z.

  (* libhmac_X.c:291-411: fill key_data from the key *)
  Definition hmac_key_data_with (a : algid) (key_hash key_data : nat) (key : ptr) (key_size : N) (e : bool)
    : M (option (option nat)) :=
    let block_size := hmac_block_size a in
    let hash_size := a_hs (alg_of a) in
    if key_size <=? block_size then
      mcopy (key_data, 0) key key_size ;;;
      mset (key_data, key_size) 0 (block_size - key_size) ;;;
      ret None
    else
      r <- f_initialize F (Some None) e ;;
      let context := snd r in
      if negb (fst r =? 1)%Z then error_set e E_RUNTIME_INITIALIZE_FAILED ;;; ret (Some context)
      else
        r <- f_update F context (Some key) key_size e ;;
        if negb (r =? 1)%Z then error_set e E_RUNTIME_SET_FAILED ;;; ret (Some context)
        else
          r <- f_finalize F context (Some (key_hash, 0)) hash_size e ;;
          if negb (r =? 1)%Z then error_set e E_RUNTIME_FINALIZE_FAILED ;;; ret (Some context)
          else
            r <- f_free F (Some context) e ;;
            let context := snd r in
            if negb (fst r =? 1)%Z then error_set e E_RUNTIME_FINALIZE_FAILED ;;; ret (Some context)
            else
              (if hash_size <? block_size then mset (key_data, hash_size) 0 (block_size - hash_size)
               else ret tt) ;;;
              mcopy (key_data, 0) (key_hash, 0) hash_size ;;;
              ret None.

  (* libhmac_X.c:475-545 and 546-616: initialize, update twice, finalize into hmac, free *)
  Definition hmac_pass_with (a : algid) (padding : nat) (buffer : option ptr) (size : N)
             (hmac : option ptr) (hmac_size : N) (e : bool) : M (option (option nat)) :=
    let block_size := hmac_block_size a in
    r <- f_initialize F (Some None) e ;;
    let context := snd r in
    if negb (fst r =? 1)%Z then error_set e E_RUNTIME_INITIALIZE_FAILED ;;; ret (Some context)
    else
      r <- f_update F context (Some (padding, 0)) block_size e ;;
      if negb (r =? 1)%Z then error_set e E_RUNTIME_SET_FAILED ;;; ret (Some context)
      else
        r <- f_update F context buffer size e ;;
        if negb (r =? 1)%Z then error_set e E_RUNTIME_SET_FAILED ;;; ret (Some context)
        else
          r <- f_finalize F context hmac hmac_size e ;;
          if negb (r =? 1)%Z then error_set e E_RUNTIME_FINALIZE_FAILED ;;; ret (Some context)
          else
            r <- f_free F (Some context) e ;;
            let context := snd r in
            if negb (fst r =? 1)%Z then error_set e E_RUNTIME_FINALIZE_FAILED ;;; ret (Some context)
            else ret None.

  (* libhmac_X.c:244-713, the function body after the declaration of key_hash *)
  Definition calculate_hmac_body_with (a : algid) (key_hash : nat) (key : option ptr) (key_size : N)
             (buffer : option ptr) (size : N) (hmac : option ptr) (hmac_size : N) (e : bool) : M Z :=
    let block_size := hmac_block_size a in
    let hash_size := a_hs (alg_of a) in
    match key with
    | None => fail e E_ARGUMENT_INVALID_VALUE
    | Some kp =>
        if ssize_max E <? key_size then fail e E_ARGUMENT_VALUE_EXCEEDS_MAXIMUM
        else if hmac_size <? hash_size then fail e E_ARGUMENT_VALUE_TOO_SMALL
        else
          key_data <- allocate_bytes E block_size ;;
          match key_data with
          | None => error_set e E_MEMORY_INSUFFICIENT ;;; hmac_on_error_with a None None None None
          | Some kd =>
              r <- hmac_key_data_with a key_hash kd kp key_size e ;;
              match r with
              | Some context => hmac_on_error_with a context None None key_data
              | None =>
                  inner_padding <- allocate_bytes E block_size ;;
                  match inner_padding with
                  | None => error_set e E_MEMORY_INSUFFICIENT ;;; hmac_on_error_with a None None None key_data
                  | Some ip =>
                      mset (ip, 0) 0x36 block_size ;;;
                      outer_padding <- allocate_bytes E block_size ;;
                      match outer_padding with
                      | None => error_set e E_MEMORY_INSUFFICIENT ;;; hmac_on_error_with a None None inner_padding key_data
                      | Some op =>
                          mset (op, 0) 0x5c block_size ;;;
                          hmac_xor ip op kd (N.to_nat block_size) ;;;
                          r <- hmac_pass_with a ip buffer size hmac hmac_size e ;;
                          match r with
                          | Some context => hmac_on_error_with a context outer_padding inner_padding key_data
                          | None =>
                              r <- hmac_pass_with a op hmac hash_size hmac hmac_size e ;;
                              match r with
                              | Some context => hmac_on_error_with a context outer_padding inner_padding key_data
                              | None =>
                                  mset (op, 0) 0 block_size ;;;
                                  mfree op ;;;
                                  mset (ip, 0) 0 block_size ;;;
                                  mfree ip ;;;
                                  mset (kd, 0) 0 block_size ;;;
                                  mfree kd ;;;
                                  ret 1%Z
                              end
                          end
                      end
                  end
              end
          end
    end.

  (* libhmac_X.c:225-714 libhmac_X_calculate_hmac; key_hash (line 234) is a local array *)
  Definition calculate_hmac_with (a : algid) (key : option ptr) (key_size : N) (buffer : option ptr) (size : N)
             (hmac : option ptr) (hmac_size : N) (e : bool) : M Z :=
    key_hash <- (fun s => push_local (OBytes (junk_bytes E (length (mem s)) (a_hs (alg_of a)))) s) ;;
    r <- calculate_hmac_body_with a key_hash key key_size buffer size hmac hmac_size e ;;
    pop_local key_hash ;;;
    ret r.
End Above.
