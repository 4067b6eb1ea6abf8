(* What the text of libhmac_X_context.c in the builds with libcrypto (TextEvp.v) calls, and how it is run.  A pointer to the structure is
   VCtx; a pointer to a message digest context, of the structure or from EVP_MD_CTX_new, is a pointer to the first byte of the cell where
   Evp.v keeps what the provider holds. *)
From Coq Require Import Arith NArith ZArith List Bool String.
From Verif Require Import Words Machine Evp CText TextAll TextEvp.
Import ListNotations.
Open Scope string_scope.
Open Scope list_scope.
Open Scope N_scope.

(* libhmac_md5_context.h:53-72: the name of the structure, and of its member in the builds with md5.h and sha.h *)
Definition structure_name (a : algid) : string :=
  match a with
  | MD5 => "libhmac_internal_md5_context_t" | SHA1 => "libhmac_internal_sha1_context_t" | SHA224 => "libhmac_internal_sha224_context_t"
  | SHA256 => "libhmac_internal_sha256_context_t" | SHA512 => "libhmac_internal_sha512_context_t"
  end.
Definition member_name (a : algid) : string :=
  match a with
  | MD5 => "md5_context" | SHA1 => "sha1_context" | SHA224 => "sha224_context" | SHA256 => "sha256_context" | SHA512 => "sha512_context"
  end.

(* openssl/md5.h and openssl/sha.h.  SHA224_Update and SHA224_Final are those of SHA-256 there, and libhmac_sha224_context.c:745 and 1068
   use those on what SHA224_Init made. *)
Definition init_names : list (string * algid) :=
  [("MD5_Init", MD5); ("SHA1_Init", SHA1); ("SHA224_Init", SHA224); ("SHA256_Init", SHA256); ("SHA512_Init", SHA512)].
Definition update_name (a : algid) : string :=
  match a with MD5 => "MD5_Update" | SHA1 => "SHA1_Update" | SHA224 | SHA256 => "SHA256_Update" | SHA512 => "SHA512_Update" end.
Definition final_name (a : algid) : string :=
  match a with MD5 => "MD5_Final" | SHA1 => "SHA1_Final" | SHA224 | SHA256 => "SHA256_Final" | SHA512 => "SHA512_Final" end.
(* openssl/evp.h: the message digest that these functions name *)
Definition digest_names : list (string * algid) :=
  [("EVP_md5", MD5); ("EVP_sha1", SHA1); ("EVP_sha224", SHA224); ("EVP_sha256", SHA256); ("EVP_sha512", SHA512)].

Section Calls.
  Variable E : env.
  Variable P : provider.
  Variable v : variant.
  Variable a : algid.

  (* what a structure holds after memory_set, libhmac_md5_context.c:471-474; before it nothing can be read from it *)
  Definition cleared : obj := match v with Outside => OPtr None | _ => OBytes [] end.
  Definition clear (p : nat) : M unit :=
    fun s => match get_obj s p with
             | Some (OBytes _) => match put_obj p cleared s with Some s' => Done tt s' | None => Undef end
             | _ => Undef
             end.

  (* the value of internal_context->evp_md_context *)
  Definition get_provider_context (p : nat) : M (option nat) :=
    fun s => match get_obj s p with Some (OPtr q) => Done q s | _ => Undef end.

  (* The provider's update and final, as evp_update and evp_finalize have them: size bytes are read, the digest is written.  The context
     knows its digest itself: it is only used by the functions of one file. *)
  Definition provider_update (q : nat) (b : ptr) (n : N) : M Z :=
    c <- load_provider q ;; l <- view b ;; d <- lift (take n l) ;;
    r <- ask (fun s => p_update P a s c d) ;; store_provider q (snd r) ;;; ret (fst r).
  Definition provider_final (q : nat) (h : ptr) : M (Z * N) :=
    c <- load_provider q ;;
    r <- ask (fun s => p_final P a s c) ;; write h (snd (fst r)) ;;; store_provider q (snd r) ;;;
    ret (fst (fst r), N.of_nat (List.length (snd (fst r)))).

  (* In the build Inside evp_md_context is only ever the address of internal_evp_md_context or NULL (libhmac_md5_context.c:507, 555 and
     641).  The structure holds what was done to it since it was cleared: 1 for EVP_MD_CTX_init, 2 for the address of
     internal_evp_md_context in evp_md_context.  The provider's initialization needs both and takes them away; behind it only free
     assigns to evp_md_context, and that is checked but not kept. *)
  Definition done_to (p : nat) (x : N) : M unit := c <- load_provider p ;; store_provider p (x :: c).
  Definition prepared (q : nat) : M unit :=
    match v with
    | Inside => c <- load_provider q ;; if existsb (N.eqb 1) c && existsb (N.eqb 2) c then store_provider q [] else undef
    | _ => ret tt
    end.

  (* ERR_remove_thread_state does nothing that the model has.  EVP_MD_CTX_free is not called with NULL. *)
  Definition evp_call (f : string) (args : list val) : M (val * list (option val)) :=
    if String.eqb f "structure:allocate" then
      match args with
      | [VSizeof t] =>
          if String.eqb t (structure_name a)
          then p <- allocate (OBytes []) E ;; ret (match p with Some q => VCtx a q | None => VNull end, [None]) else undef
      | _ => undef
      end
    else if String.eqb f "structure:clear" then
      match args with
      | [VCtx b p; VS R32 z; VSizeof t] =>
          if algid_eqb a b && (z =? 0)%Z && String.eqb t (structure_name a) then clear p ;;; ret (VCtx b p, [None; None; None]) else undef
      | _ => undef
      end
    else if String.eqb f "&->" then
      match args with
      | [VCtx b p; VName m] =>
          if algid_eqb a b && (match v with
                               | Legacy _ => String.eqb m (member_name a)
                               | Inside => String.eqb m "internal_evp_md_context"
                               | Outside => false
                               end)
          then ret (VBytes (p, 0), [None; None]) else undef
      | _ => undef
      end
    else if String.eqb f "->" then
      match args with
      | [VCtx b p; VName m] =>
          if algid_eqb a b && String.eqb m "evp_md_context" then
            match v with
            | Legacy _ => undef
            | Inside => ret (VBytes (p, 0), [None; None])
            | Outside => q <- get_provider_context p ;; ret (match q with Some r => VBytes (r, 0) | None => VNull end, [None; None])
            end
          else undef
      | _ => undef
      end
    else if String.eqb f "->=" then
      match args with
      | [VCtx b p; VName m; x] =>
          if algid_eqb a b && String.eqb m "evp_md_context" then
            match v, x with
            | Inside, VNull => ret (VNull, [None; None; None])
            | Inside, VBytes (q, o) => if Nat.eqb p q && (o =? 0) then done_to p 2 ;;; ret (VNull, [None; None; None]) else undef
            | Outside, VNull => set_provider_context p None ;;; ret (VNull, [None; None; None])
            | Outside, VBytes (q, o) => if o =? 0 then set_provider_context p (Some q) ;;; ret (VNull, [None; None; None]) else undef
            | _, _ => undef
            end
          else undef
      | _ => undef
      end
    else if String.eqb f "EVP_MD_CTX_new" then
      match args with
      | [] => q <- allocate (OBytes []) E ;; ret (match q with Some r => VBytes (r, 0) | None => VNull end, [])
      | _ => undef
      end
    else if String.eqb f "EVP_MD_CTX_free" then
      match args with
      | [VBytes (q, o)] => if o =? 0 then mfree q ;;; ret (VNull, [None]) else undef
      | _ => undef
      end
    else if String.eqb f "EVP_MD_CTX_init" then
      match args with [VBytes (q, o)] => if o =? 0 then done_to q 1 ;;; ret (VNull, [None]) else undef | _ => undef end
    else if String.eqb f "ERR_remove_thread_state" then
      match args with [VNull] => ret (VNull, [None]) | _ => undef end
    else if String.eqb f "EVP_MD_CTX_cleanup" then
      match args with [VBytes _] => r <- ask (p_cleanup P a) ;; ret (VS R32 r, [None]) | _ => undef end
    else if String.eqb f "EVP_DigestInit_ex" || String.eqb f "EVP_DigestInit_ex2" then
      match args with
      | [VBytes (q, o); VText t; VNull] =>
          b <- lift (find_assoc digest_names t) ;;
          if o =? 0 then prepared q ;;; r <- provider_init P b q ;; ret (VS R32 r, [None; None; None]) else undef
      | _ => undef
      end
    else if String.eqb f "EVP_DigestUpdate" || String.eqb f (update_name a) then
      match args with
      | [VBytes (q, o); VBytes b; VU RSz n] =>
          if o =? 0 then r <- provider_update q b n ;; ret (VS R32 r, [None; None; None]) else undef
      | _ => undef
      end
    else if String.eqb f (final_name a) then
      match args with
      | [VBytes h; VBytes (q, o)] => if o =? 0 then r <- provider_final q h ;; ret (VS R32 (fst r), [None; None]) else undef
      | _ => undef
      end
    (* the size of what was written is left in the variable; its value before is not used *)
    else if String.eqb f "EVP_DigestFinal_ex" then
      match args with
      | [VBytes (q, o); VBytes h; VRef (VU R32 _)] =>
          if o =? 0 then r <- provider_final q h ;; ret (VS R32 (fst r), [None; None; Some (VU R32 (snd r))]) else undef
      | _ => undef
      end
    else
      match find_assoc init_names f, find_assoc digest_names f, args with
      | Some b, _, [VBytes (q, o)] => if o =? 0 then r <- provider_init P b q ;; ret (VS R32 r, [None]) else undef
      | _, Some _, [] => ret (VText f, [])
      | _, _, _ => undef
      end.
End Calls.

(* the files declare no tables and no members that the text names otherwise *)
Definition evp_text : program := {| p_tables := []; p_functions := []; p_types := []; p_char := true |}.

(* run a function of libhmac_X_context.c in the build [v], with EVP_DigestInit_ex2 or not *)
Definition run_evp (E : env) (P : provider) (v : variant) (ex2 : bool) (fuel : nat) (a : algid) (f : string) (args : list val)
  : M (val * list (option val)) :=
  match find_fun (evp_functions v ex2 a) (name_of a f) with
  | Some def => run_fun E evp_text (evp_call E P v a) fuel def args
  | None => undef
  end.

(* the result of a function, and what is left in the place for the pointer to the context *)
Definition int_of (x : val) : option Z := match x with VS R32 z => Some z | _ => None end.
Definition context_of (outs : list (option val)) : option (option nat) :=
  match outs with
  | Some (VCtx _ p) :: _ => Some (Some p)
  | Some VNull :: _ | None :: _ => Some None
  | _ => None
  end.
(* the four functions of libhmac_X_context.c by their text, for those that call them (Evp.v, EvpVocab.v) *)
Definition evp_by_text (E : env) (P : provider) (v : variant) (ex2 : bool) (fuel : nat) (a : algid) : functions :=
  mk_functions
    (fun c e => r <- run_evp E P v ex2 fuel a "context_initialize" [v_place a c; v_error e] ;;
                z <- lift (int_of (fst r)) ;; p <- lift (context_of (snd r)) ;; ret (z, p))
    (fun c e => r <- run_evp E P v ex2 fuel a "context_free" [v_place a c; v_error e] ;;
                z <- lift (int_of (fst r)) ;; p <- lift (context_of (snd r)) ;; ret (z, p))
    (fun c b n e => r <- run_evp E P v ex2 fuel a "context_update" [v_ctx a c; v_bytes b; VU RSz n; v_error e] ;; lift (int_of (fst r)))
    (fun c h n e => r <- run_evp E P v ex2 fuel a "context_finalize" [v_ctx a c; v_bytes h; VU RSz n; v_error e] ;; lift (int_of (fst r))).
