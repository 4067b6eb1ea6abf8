(* The text of the five files libhmac/libhmac_X_context.c in the builds with libcrypto, as terms of CText.v.  Written by
   tools/ctext.py from the files in /repo.  The builds are those of variant in Evp.v: legacy and legacy_long (where long is
   smaller than size_t), inside and outside, the last two with EVP_DigestInit_ex or _ex2.  A function whose text is the same as in an
   earlier build is there once.
   Left out: casts between pointer types, the declaration of the function name for messages, and the message arguments of
   libcerror_error_set.  Rewritten: p->m, &( p->m ) and p->m = e; for the members of these builds are calls of ->, &-> and ->=;
   allocating and clearing the structure are calls of structure:allocate and structure:clear; UINT_MAX, and ULONG_MAX where
   long has 32 bits, is ( uint32_t ) -1. *)
From Coq Require Import NArith ZArith List String.
From Verif Require Import Machine Evp CText.
Import ListNotations.
Open Scope string_scope.
Open Scope list_scope.
Open Scope N_scope.

(* libhmac/libhmac_md5_context.c:424-587 libhmac_md5_context_initialize, legacy *)
Definition text_libhmac_md5_context_initialize_legacy : fundef := {|
  f_name := "libhmac_md5_context_initialize";
  f_ret := (true, R32);
  f_params := [("context", CPtr); ("error", CPtr)];
  f_arrays := [];
  f_locals :=
     [("internal_context", CPtr, ENull)];
  f_body :=
    SIf (EBin OEq (EVar "context") ENull) (
      SExpr (ECall "libcerror_error_set" [(EVar "error"); (EName "LIBCERROR_ERROR_DOMAIN_ARGUMENTS"); (EName "LIBCERROR_ARGUMENT_ERROR_INVALID_VALUE")]) ;-
      SReturn (EInt (-1))) SSkip ;-
    SIf (EBin ONe (EStar "context") ENull) (
      SExpr (ECall "libcerror_error_set" [(EVar "error"); (EName "LIBCERROR_ERROR_DOMAIN_RUNTIME"); (EName "LIBCERROR_RUNTIME_ERROR_VALUE_ALREADY_SET")]) ;-
      SReturn (EInt (-1))) SSkip ;-
    SAssign (EVar "internal_context") (ECall "structure:allocate" [ESizeof "libhmac_internal_md5_context_t"]) ;-
    SIf (EBin OEq (EVar "internal_context") ENull) (
      SExpr (ECall "libcerror_error_set" [(EVar "error"); (EName "LIBCERROR_ERROR_DOMAIN_MEMORY"); (EName "LIBCERROR_MEMORY_ERROR_INSUFFICIENT")]) ;-
      SGoto) SSkip ;-
    SIf (EBin OEq (ECall "structure:clear" [(EVar "internal_context"); (EInt 0); (ESizeof "libhmac_internal_md5_context_t")]) ENull) (
      SExpr (ECall "libcerror_error_set" [(EVar "error"); (EName "LIBCERROR_ERROR_DOMAIN_MEMORY"); (EName "LIBCERROR_MEMORY_ERROR_SET_FAILED")]) ;-
      SExpr (ECall "memory_free" [(EVar "internal_context")]) ;-
      SReturn (EInt (-1))) SSkip ;-
    SIf (EBin ONe (ECall "MD5_Init" [(ECall "&->" [(EVar "internal_context"); (EName "md5_context")])]) (EInt 1)) (
      SExpr (ECall "libcerror_error_set" [(EVar "error"); (EName "LIBCERROR_ERROR_DOMAIN_RUNTIME"); (EName "LIBCERROR_RUNTIME_ERROR_INITIALIZE_FAILED")]) ;-
      SGoto) SSkip ;-
    SAssign (EStar "context") (EVar "internal_context") ;-
    SReturn (EInt 1);
  f_error :=
    SIf (EBin ONe (EVar "internal_context") ENull) (
      SExpr (ECall "memory_free" [(EVar "internal_context")])) SSkip ;-
    SReturn (EInt (-1)) |}.

(* libhmac/libhmac_md5_context.c:592-651 libhmac_md5_context_free, legacy *)
Definition text_libhmac_md5_context_free_legacy : fundef := {|
  f_name := "libhmac_md5_context_free";
  f_ret := (true, R32);
  f_params := [("context", CPtr); ("error", CPtr)];
  f_arrays := [];
  f_locals :=
     [("internal_context", CPtr, ENull)];
  f_body :=
    SIf (EBin OEq (EVar "context") ENull) (
      SExpr (ECall "libcerror_error_set" [(EVar "error"); (EName "LIBCERROR_ERROR_DOMAIN_ARGUMENTS"); (EName "LIBCERROR_ARGUMENT_ERROR_INVALID_VALUE")]) ;-
      SReturn (EInt (-1))) SSkip ;-
    SIf (EBin ONe (EStar "context") ENull) (
      SAssign (EVar "internal_context") (EStar "context") ;-
      SAssign (EStar "context") ENull ;-
      SExpr (ECall "memory_free" [(EVar "internal_context")])) SSkip ;-
    SReturn (EInt 1);
  f_error :=
    SSkip |}.

(* libhmac/libhmac_md5_context.c:658-728 libhmac_md5_context_update, legacy *)
Definition text_libhmac_md5_context_update_legacy : fundef := {|
  f_name := "libhmac_md5_context_update";
  f_ret := (true, R32);
  f_params := [("context", CPtr); ("buffer", CPtr); ("size", CInt false RSz); ("error", CPtr)];
  f_arrays := [];
  f_locals :=
     [("internal_context", CPtr, ENull);
      ("safe_hash_size", (CInt false RSz), (EInt 0))];
  f_body :=
    SIf (EBin OEq (EVar "context") ENull) (
      SExpr (ECall "libcerror_error_set" [(EVar "error"); (EName "LIBCERROR_ERROR_DOMAIN_ARGUMENTS"); (EName "LIBCERROR_ARGUMENT_ERROR_INVALID_VALUE")]) ;-
      SReturn (EInt (-1))) SSkip ;-
    SAssign (EVar "internal_context") (EVar "context") ;-
    SIf (EBin OEq (EVar "buffer") ENull) (
      SExpr (ECall "libcerror_error_set" [(EVar "error"); (EName "LIBCERROR_ERROR_DOMAIN_ARGUMENTS"); (EName "LIBCERROR_ARGUMENT_ERROR_INVALID_VALUE")]) ;-
      SReturn (EInt (-1))) SSkip ;-
    SIf (EBin OGt (EVar "size") (ECast false RSz ESsizeMax)) (
      SExpr (ECall "libcerror_error_set" [(EVar "error"); (EName "LIBCERROR_ERROR_DOMAIN_ARGUMENTS"); (EName "LIBCERROR_ARGUMENT_ERROR_VALUE_EXCEEDS_MAXIMUM")]) ;-
      SReturn (EInt (-1))) SSkip ;-
    SIf (EBin OEq (EVar "size") (EInt 0)) (
      SReturn (EInt 1)) SSkip ;-
    SAssign (EVar "safe_hash_size") (ECast false RSz (EVar "size")) ;-
    SIf (EBin ONe (ECall "MD5_Update" [(ECall "&->" [(EVar "internal_context"); (EName "md5_context")]); (EVar "buffer"); (EVar "size")]) (EInt 1)) (
      SExpr (ECall "libcerror_error_set" [(EVar "error"); (EName "LIBCERROR_ERROR_DOMAIN_RUNTIME"); (EName "LIBCERROR_RUNTIME_ERROR_SET_FAILED")]) ;-
      SReturn (EInt (-1))) SSkip ;-
    SReturn (EInt 1);
  f_error :=
    SSkip |}.

(* libhmac/libhmac_md5_context.c:981-1050 libhmac_md5_context_finalize, legacy *)
Definition text_libhmac_md5_context_finalize_legacy : fundef := {|
  f_name := "libhmac_md5_context_finalize";
  f_ret := (true, R32);
  f_params := [("context", CPtr); ("hash", CPtr); ("hash_size", CInt false RSz); ("error", CPtr)];
  f_arrays := [];
  f_locals :=
     [("internal_context", CPtr, ENull)];
  f_body :=
    SIf (EBin OEq (EVar "context") ENull) (
      SExpr (ECall "libcerror_error_set" [(EVar "error"); (EName "LIBCERROR_ERROR_DOMAIN_ARGUMENTS"); (EName "LIBCERROR_ARGUMENT_ERROR_INVALID_VALUE")]) ;-
      SReturn (EInt (-1))) SSkip ;-
    SAssign (EVar "internal_context") (EVar "context") ;-
    SIf (EBin OEq (EVar "hash") ENull) (
      SExpr (ECall "libcerror_error_set" [(EVar "error"); (EName "LIBCERROR_ERROR_DOMAIN_ARGUMENTS"); (EName "LIBCERROR_ARGUMENT_ERROR_INVALID_VALUE")]) ;-
      SReturn (EInt (-1))) SSkip ;-
    SIf (EBin OGt (EVar "hash_size") (ECast false RSz ESsizeMax)) (
      SExpr (ECall "libcerror_error_set" [(EVar "error"); (EName "LIBCERROR_ERROR_DOMAIN_ARGUMENTS"); (EName "LIBCERROR_ARGUMENT_ERROR_VALUE_EXCEEDS_MAXIMUM")]) ;-
      SReturn (EInt (-1))) SSkip ;-
    SIf (EBin OLt (EVar "hash_size") (ECast false RSz (EInt 16))) (
      SExpr (ECall "libcerror_error_set" [(EVar "error"); (EName "LIBCERROR_ERROR_DOMAIN_ARGUMENTS"); (EName "LIBCERROR_ARGUMENT_ERROR_VALUE_TOO_SMALL")]) ;-
      SReturn (EInt (-1))) SSkip ;-
    SIf (EBin ONe (ECall "MD5_Final" [(EVar "hash"); (ECall "&->" [(EVar "internal_context"); (EName "md5_context")])]) (EInt 1)) (
      SExpr (ECall "libcerror_error_set" [(EVar "error"); (EName "LIBCERROR_ERROR_DOMAIN_RUNTIME"); (EName "LIBCERROR_RUNTIME_ERROR_FINALIZE_FAILED")]) ;-
      SReturn (EInt (-1))) SSkip ;-
    SReturn (EInt 1);
  f_error :=
    SSkip |}.

(* libhmac/libhmac_md5_context.c:658-728 libhmac_md5_context_update, legacy_long *)
Definition text_libhmac_md5_context_update_legacy_long : fundef := {|
  f_name := "libhmac_md5_context_update";
  f_ret := (true, R32);
  f_params := [("context", CPtr); ("buffer", CPtr); ("size", CInt false RSz); ("error", CPtr)];
  f_arrays := [];
  f_locals :=
     [("internal_context", CPtr, ENull);
      ("safe_hash_size", (CInt false R32), (EInt 0))];
  f_body :=
    SIf (EBin OEq (EVar "context") ENull) (
      SExpr (ECall "libcerror_error_set" [(EVar "error"); (EName "LIBCERROR_ERROR_DOMAIN_ARGUMENTS"); (EName "LIBCERROR_ARGUMENT_ERROR_INVALID_VALUE")]) ;-
      SReturn (EInt (-1))) SSkip ;-
    SAssign (EVar "internal_context") (EVar "context") ;-
    SIf (EBin OEq (EVar "buffer") ENull) (
      SExpr (ECall "libcerror_error_set" [(EVar "error"); (EName "LIBCERROR_ERROR_DOMAIN_ARGUMENTS"); (EName "LIBCERROR_ARGUMENT_ERROR_INVALID_VALUE")]) ;-
      SReturn (EInt (-1))) SSkip ;-
    SIf (EBin OGt (EVar "size") (ECast false RSz (ECast false R32 (EInt (-1))))) (
      SExpr (ECall "libcerror_error_set" [(EVar "error"); (EName "LIBCERROR_ERROR_DOMAIN_ARGUMENTS"); (EName "LIBCERROR_ARGUMENT_ERROR_VALUE_EXCEEDS_MAXIMUM")]) ;-
      SReturn (EInt (-1))) SSkip ;-
    SIf (EBin OEq (EVar "size") (EInt 0)) (
      SReturn (EInt 1)) SSkip ;-
    SAssign (EVar "safe_hash_size") (ECast false R32 (EVar "size")) ;-
    SIf (EBin ONe (ECall "MD5_Update" [(ECall "&->" [(EVar "internal_context"); (EName "md5_context")]); (EVar "buffer"); (EVar "size")]) (EInt 1)) (
      SExpr (ECall "libcerror_error_set" [(EVar "error"); (EName "LIBCERROR_ERROR_DOMAIN_RUNTIME"); (EName "LIBCERROR_RUNTIME_ERROR_SET_FAILED")]) ;-
      SReturn (EInt (-1))) SSkip ;-
    SReturn (EInt 1);
  f_error :=
    SSkip |}.

(* libhmac/libhmac_md5_context.c:424-587 libhmac_md5_context_initialize, inside *)
Definition text_libhmac_md5_context_initialize_inside : fundef := {|
  f_name := "libhmac_md5_context_initialize";
  f_ret := (true, R32);
  f_params := [("context", CPtr); ("error", CPtr)];
  f_arrays := [];
  f_locals :=
     [("internal_context", CPtr, ENull);
      ("evp_md_type", CPtr, ENull)];
  f_body :=
    SIf (EBin OEq (EVar "context") ENull) (
      SExpr (ECall "libcerror_error_set" [(EVar "error"); (EName "LIBCERROR_ERROR_DOMAIN_ARGUMENTS"); (EName "LIBCERROR_ARGUMENT_ERROR_INVALID_VALUE")]) ;-
      SReturn (EInt (-1))) SSkip ;-
    SIf (EBin ONe (EStar "context") ENull) (
      SExpr (ECall "libcerror_error_set" [(EVar "error"); (EName "LIBCERROR_ERROR_DOMAIN_RUNTIME"); (EName "LIBCERROR_RUNTIME_ERROR_VALUE_ALREADY_SET")]) ;-
      SReturn (EInt (-1))) SSkip ;-
    SAssign (EVar "internal_context") (ECall "structure:allocate" [ESizeof "libhmac_internal_md5_context_t"]) ;-
    SIf (EBin OEq (EVar "internal_context") ENull) (
      SExpr (ECall "libcerror_error_set" [(EVar "error"); (EName "LIBCERROR_ERROR_DOMAIN_MEMORY"); (EName "LIBCERROR_MEMORY_ERROR_INSUFFICIENT")]) ;-
      SGoto) SSkip ;-
    SIf (EBin OEq (ECall "structure:clear" [(EVar "internal_context"); (EInt 0); (ESizeof "libhmac_internal_md5_context_t")]) ENull) (
      SExpr (ECall "libcerror_error_set" [(EVar "error"); (EName "LIBCERROR_ERROR_DOMAIN_MEMORY"); (EName "LIBCERROR_MEMORY_ERROR_SET_FAILED")]) ;-
      SExpr (ECall "memory_free" [(EVar "internal_context")]) ;-
      SReturn (EInt (-1))) SSkip ;-
    SExpr (ECall "EVP_MD_CTX_init" [(ECall "&->" [(EVar "internal_context"); (EName "internal_evp_md_context")])]) ;-
    SExpr (ECall "->=" [(EVar "internal_context"); (EName "evp_md_context"); (ECall "&->" [(EVar "internal_context"); (EName "internal_evp_md_context")])]) ;-
    SAssign (EVar "evp_md_type") (ECall "EVP_md5" []) ;-
    SIf (EBin ONe (ECall "EVP_DigestInit_ex" [(ECall "->" [(EVar "internal_context"); (EName "evp_md_context")]); (EVar "evp_md_type"); ENull]) (EInt 1)) (
      SExpr (ECall "libcerror_error_set" [(EVar "error"); (EName "LIBCERROR_ERROR_DOMAIN_RUNTIME"); (EName "LIBCERROR_RUNTIME_ERROR_INITIALIZE_FAILED")]) ;-
      SExpr (ECall "EVP_MD_CTX_cleanup" [(ECall "&->" [(EVar "internal_context"); (EName "internal_evp_md_context")])]) ;-
      SExpr (ECall "ERR_remove_thread_state" [ENull]) ;-
      SExpr (ECall "->=" [(EVar "internal_context"); (EName "evp_md_context"); ENull]) ;-
      SGoto) SSkip ;-
    SAssign (EStar "context") (EVar "internal_context") ;-
    SReturn (EInt 1);
  f_error :=
    SIf (EBin ONe (EVar "internal_context") ENull) (
      SExpr (ECall "memory_free" [(EVar "internal_context")])) SSkip ;-
    SReturn (EInt (-1)) |}.

(* libhmac/libhmac_md5_context.c:592-651 libhmac_md5_context_free, inside *)
Definition text_libhmac_md5_context_free_inside : fundef := {|
  f_name := "libhmac_md5_context_free";
  f_ret := (true, R32);
  f_params := [("context", CPtr); ("error", CPtr)];
  f_arrays := [];
  f_locals :=
     [("internal_context", CPtr, ENull)];
  f_body :=
    SIf (EBin OEq (EVar "context") ENull) (
      SExpr (ECall "libcerror_error_set" [(EVar "error"); (EName "LIBCERROR_ERROR_DOMAIN_ARGUMENTS"); (EName "LIBCERROR_ARGUMENT_ERROR_INVALID_VALUE")]) ;-
      SReturn (EInt (-1))) SSkip ;-
    SIf (EBin ONe (EStar "context") ENull) (
      SAssign (EVar "internal_context") (EStar "context") ;-
      SAssign (EStar "context") ENull ;-
      SIf (EBin ONe (ECall "EVP_MD_CTX_cleanup" [(ECall "&->" [(EVar "internal_context"); (EName "internal_evp_md_context")])]) (EInt 1)) (
        SExpr (ECall "libcerror_error_set" [(EVar "error"); (EName "LIBCERROR_ERROR_DOMAIN_RUNTIME"); (EName "LIBCERROR_RUNTIME_ERROR_FINALIZE_FAILED")])) SSkip ;-
      SExpr (ECall "ERR_remove_thread_state" [ENull]) ;-
      SExpr (ECall "->=" [(EVar "internal_context"); (EName "evp_md_context"); ENull]) ;-
      SExpr (ECall "memory_free" [(EVar "internal_context")])) SSkip ;-
    SReturn (EInt 1);
  f_error :=
    SSkip |}.

(* libhmac/libhmac_md5_context.c:735-798 libhmac_md5_context_update, inside *)
Definition text_libhmac_md5_context_update_inside : fundef := {|
  f_name := "libhmac_md5_context_update";
  f_ret := (true, R32);
  f_params := [("context", CPtr); ("buffer", CPtr); ("size", CInt false RSz); ("error", CPtr)];
  f_arrays := [];
  f_locals :=
     [("internal_context", CPtr, ENull)];
  f_body :=
    SIf (EBin OEq (EVar "context") ENull) (
      SExpr (ECall "libcerror_error_set" [(EVar "error"); (EName "LIBCERROR_ERROR_DOMAIN_ARGUMENTS"); (EName "LIBCERROR_ARGUMENT_ERROR_INVALID_VALUE")]) ;-
      SReturn (EInt (-1))) SSkip ;-
    SAssign (EVar "internal_context") (EVar "context") ;-
    SIf (EBin OEq (EVar "buffer") ENull) (
      SExpr (ECall "libcerror_error_set" [(EVar "error"); (EName "LIBCERROR_ERROR_DOMAIN_ARGUMENTS"); (EName "LIBCERROR_ARGUMENT_ERROR_INVALID_VALUE")]) ;-
      SReturn (EInt (-1))) SSkip ;-
    SIf (EBin OGt (EVar "size") (ECast false RSz ESsizeMax)) (
      SExpr (ECall "libcerror_error_set" [(EVar "error"); (EName "LIBCERROR_ERROR_DOMAIN_ARGUMENTS"); (EName "LIBCERROR_ARGUMENT_ERROR_VALUE_EXCEEDS_MAXIMUM")]) ;-
      SReturn (EInt (-1))) SSkip ;-
    SIf (EBin OEq (EVar "size") (EInt 0)) (
      SReturn (EInt 1)) SSkip ;-
    SIf (EBin ONe (ECall "EVP_DigestUpdate" [(ECall "->" [(EVar "internal_context"); (EName "evp_md_context")]); (EVar "buffer"); (EVar "size")]) (EInt 1)) (
      SExpr (ECall "libcerror_error_set" [(EVar "error"); (EName "LIBCERROR_ERROR_DOMAIN_RUNTIME"); (EName "LIBCERROR_RUNTIME_ERROR_SET_FAILED")]) ;-
      SReturn (EInt (-1))) SSkip ;-
    SReturn (EInt 1);
  f_error :=
    SSkip |}.

(* libhmac/libhmac_md5_context.c:1057-1120 libhmac_md5_context_finalize, inside *)
Definition text_libhmac_md5_context_finalize_inside : fundef := {|
  f_name := "libhmac_md5_context_finalize";
  f_ret := (true, R32);
  f_params := [("context", CPtr); ("hash", CPtr); ("hash_size", CInt false RSz); ("error", CPtr)];
  f_arrays := [];
  f_locals :=
     [("internal_context", CPtr, ENull);
      ("safe_hash_size", (CInt false R32), (EInt 0))];
  f_body :=
    SIf (EBin OEq (EVar "context") ENull) (
      SExpr (ECall "libcerror_error_set" [(EVar "error"); (EName "LIBCERROR_ERROR_DOMAIN_ARGUMENTS"); (EName "LIBCERROR_ARGUMENT_ERROR_INVALID_VALUE")]) ;-
      SReturn (EInt (-1))) SSkip ;-
    SAssign (EVar "internal_context") (EVar "context") ;-
    SIf (EBin OEq (EVar "hash") ENull) (
      SExpr (ECall "libcerror_error_set" [(EVar "error"); (EName "LIBCERROR_ERROR_DOMAIN_ARGUMENTS"); (EName "LIBCERROR_ARGUMENT_ERROR_INVALID_VALUE")]) ;-
      SReturn (EInt (-1))) SSkip ;-
    SIf (ELogOr (EBin OLt (EVar "hash_size") (ECast false RSz (EInt 16))) (EBin OGt (EVar "hash_size") (ECast false RSz (ECast false R32 (EInt (-1)))))) (
      SExpr (ECall "libcerror_error_set" [(EVar "error"); (EName "LIBCERROR_ERROR_DOMAIN_ARGUMENTS"); (EName "LIBCERROR_ARGUMENT_ERROR_VALUE_OUT_OF_BOUNDS")]) ;-
      SReturn (EInt (-1))) SSkip ;-
    SAssign (EVar "safe_hash_size") (ECast false R32 (EVar "hash_size")) ;-
    SIf (EBin ONe (ECall "EVP_DigestFinal_ex" [(ECall "->" [(EVar "internal_context"); (EName "evp_md_context")]); (EVar "hash"); (ERef "safe_hash_size")]) (EInt 1)) (
      SExpr (ECall "libcerror_error_set" [(EVar "error"); (EName "LIBCERROR_ERROR_DOMAIN_RUNTIME"); (EName "LIBCERROR_RUNTIME_ERROR_FINALIZE_FAILED")]) ;-
      SReturn (EInt (-1))) SSkip ;-
    SReturn (EInt 1);
  f_error :=
    SSkip |}.

(* libhmac/libhmac_md5_context.c:424-587 libhmac_md5_context_initialize, inside_ex2 *)
Definition text_libhmac_md5_context_initialize_inside_ex2 : fundef := {|
  f_name := "libhmac_md5_context_initialize";
  f_ret := (true, R32);
  f_params := [("context", CPtr); ("error", CPtr)];
  f_arrays := [];
  f_locals :=
     [("internal_context", CPtr, ENull);
      ("evp_md_type", CPtr, ENull)];
  f_body :=
    SIf (EBin OEq (EVar "context") ENull) (
      SExpr (ECall "libcerror_error_set" [(EVar "error"); (EName "LIBCERROR_ERROR_DOMAIN_ARGUMENTS"); (EName "LIBCERROR_ARGUMENT_ERROR_INVALID_VALUE")]) ;-
      SReturn (EInt (-1))) SSkip ;-
    SIf (EBin ONe (EStar "context") ENull) (
      SExpr (ECall "libcerror_error_set" [(EVar "error"); (EName "LIBCERROR_ERROR_DOMAIN_RUNTIME"); (EName "LIBCERROR_RUNTIME_ERROR_VALUE_ALREADY_SET")]) ;-
      SReturn (EInt (-1))) SSkip ;-
    SAssign (EVar "internal_context") (ECall "structure:allocate" [ESizeof "libhmac_internal_md5_context_t"]) ;-
    SIf (EBin OEq (EVar "internal_context") ENull) (
      SExpr (ECall "libcerror_error_set" [(EVar "error"); (EName "LIBCERROR_ERROR_DOMAIN_MEMORY"); (EName "LIBCERROR_MEMORY_ERROR_INSUFFICIENT")]) ;-
      SGoto) SSkip ;-
    SIf (EBin OEq (ECall "structure:clear" [(EVar "internal_context"); (EInt 0); (ESizeof "libhmac_internal_md5_context_t")]) ENull) (
      SExpr (ECall "libcerror_error_set" [(EVar "error"); (EName "LIBCERROR_ERROR_DOMAIN_MEMORY"); (EName "LIBCERROR_MEMORY_ERROR_SET_FAILED")]) ;-
      SExpr (ECall "memory_free" [(EVar "internal_context")]) ;-
      SReturn (EInt (-1))) SSkip ;-
    SExpr (ECall "EVP_MD_CTX_init" [(ECall "&->" [(EVar "internal_context"); (EName "internal_evp_md_context")])]) ;-
    SExpr (ECall "->=" [(EVar "internal_context"); (EName "evp_md_context"); (ECall "&->" [(EVar "internal_context"); (EName "internal_evp_md_context")])]) ;-
    SAssign (EVar "evp_md_type") (ECall "EVP_md5" []) ;-
    SIf (EBin ONe (ECall "EVP_DigestInit_ex2" [(ECall "->" [(EVar "internal_context"); (EName "evp_md_context")]); (EVar "evp_md_type"); ENull]) (EInt 1)) (
      SExpr (ECall "libcerror_error_set" [(EVar "error"); (EName "LIBCERROR_ERROR_DOMAIN_RUNTIME"); (EName "LIBCERROR_RUNTIME_ERROR_INITIALIZE_FAILED")]) ;-
      SExpr (ECall "EVP_MD_CTX_cleanup" [(ECall "&->" [(EVar "internal_context"); (EName "internal_evp_md_context")])]) ;-
      SExpr (ECall "ERR_remove_thread_state" [ENull]) ;-
      SExpr (ECall "->=" [(EVar "internal_context"); (EName "evp_md_context"); ENull]) ;-
      SGoto) SSkip ;-
    SAssign (EStar "context") (EVar "internal_context") ;-
    SReturn (EInt 1);
  f_error :=
    SIf (EBin ONe (EVar "internal_context") ENull) (
      SExpr (ECall "memory_free" [(EVar "internal_context")])) SSkip ;-
    SReturn (EInt (-1)) |}.

(* libhmac/libhmac_md5_context.c:424-587 libhmac_md5_context_initialize, outside *)
Definition text_libhmac_md5_context_initialize_outside : fundef := {|
  f_name := "libhmac_md5_context_initialize";
  f_ret := (true, R32);
  f_params := [("context", CPtr); ("error", CPtr)];
  f_arrays := [];
  f_locals :=
     [("internal_context", CPtr, ENull);
      ("evp_md_type", CPtr, ENull)];
  f_body :=
    SIf (EBin OEq (EVar "context") ENull) (
      SExpr (ECall "libcerror_error_set" [(EVar "error"); (EName "LIBCERROR_ERROR_DOMAIN_ARGUMENTS"); (EName "LIBCERROR_ARGUMENT_ERROR_INVALID_VALUE")]) ;-
      SReturn (EInt (-1))) SSkip ;-
    SIf (EBin ONe (EStar "context") ENull) (
      SExpr (ECall "libcerror_error_set" [(EVar "error"); (EName "LIBCERROR_ERROR_DOMAIN_RUNTIME"); (EName "LIBCERROR_RUNTIME_ERROR_VALUE_ALREADY_SET")]) ;-
      SReturn (EInt (-1))) SSkip ;-
    SAssign (EVar "internal_context") (ECall "structure:allocate" [ESizeof "libhmac_internal_md5_context_t"]) ;-
    SIf (EBin OEq (EVar "internal_context") ENull) (
      SExpr (ECall "libcerror_error_set" [(EVar "error"); (EName "LIBCERROR_ERROR_DOMAIN_MEMORY"); (EName "LIBCERROR_MEMORY_ERROR_INSUFFICIENT")]) ;-
      SGoto) SSkip ;-
    SIf (EBin OEq (ECall "structure:clear" [(EVar "internal_context"); (EInt 0); (ESizeof "libhmac_internal_md5_context_t")]) ENull) (
      SExpr (ECall "libcerror_error_set" [(EVar "error"); (EName "LIBCERROR_ERROR_DOMAIN_MEMORY"); (EName "LIBCERROR_MEMORY_ERROR_SET_FAILED")]) ;-
      SExpr (ECall "memory_free" [(EVar "internal_context")]) ;-
      SReturn (EInt (-1))) SSkip ;-
    SExpr (ECall "->=" [(EVar "internal_context"); (EName "evp_md_context"); (ECall "EVP_MD_CTX_new" [])]) ;-
    SIf (EBin OEq (ECall "->" [(EVar "internal_context"); (EName "evp_md_context")]) ENull) (
      SExpr (ECall "libcerror_error_set" [(EVar "error"); (EName "LIBCERROR_ERROR_DOMAIN_RUNTIME"); (EName "LIBCERROR_RUNTIME_ERROR_INITIALIZE_FAILED")]) ;-
      SGoto) SSkip ;-
    SAssign (EVar "evp_md_type") (ECall "EVP_md5" []) ;-
    SIf (EBin ONe (ECall "EVP_DigestInit_ex" [(ECall "->" [(EVar "internal_context"); (EName "evp_md_context")]); (EVar "evp_md_type"); ENull]) (EInt 1)) (
      SExpr (ECall "libcerror_error_set" [(EVar "error"); (EName "LIBCERROR_ERROR_DOMAIN_RUNTIME"); (EName "LIBCERROR_RUNTIME_ERROR_INITIALIZE_FAILED")]) ;-
      SExpr (ECall "EVP_MD_CTX_free" [(ECall "->" [(EVar "internal_context"); (EName "evp_md_context")])]) ;-
      SExpr (ECall "->=" [(EVar "internal_context"); (EName "evp_md_context"); ENull]) ;-
      SGoto) SSkip ;-
    SAssign (EStar "context") (EVar "internal_context") ;-
    SReturn (EInt 1);
  f_error :=
    SIf (EBin ONe (EVar "internal_context") ENull) (
      SExpr (ECall "memory_free" [(EVar "internal_context")])) SSkip ;-
    SReturn (EInt (-1)) |}.

(* libhmac/libhmac_md5_context.c:592-651 libhmac_md5_context_free, outside *)
Definition text_libhmac_md5_context_free_outside : fundef := {|
  f_name := "libhmac_md5_context_free";
  f_ret := (true, R32);
  f_params := [("context", CPtr); ("error", CPtr)];
  f_arrays := [];
  f_locals :=
     [("internal_context", CPtr, ENull)];
  f_body :=
    SIf (EBin OEq (EVar "context") ENull) (
      SExpr (ECall "libcerror_error_set" [(EVar "error"); (EName "LIBCERROR_ERROR_DOMAIN_ARGUMENTS"); (EName "LIBCERROR_ARGUMENT_ERROR_INVALID_VALUE")]) ;-
      SReturn (EInt (-1))) SSkip ;-
    SIf (EBin ONe (EStar "context") ENull) (
      SAssign (EVar "internal_context") (EStar "context") ;-
      SAssign (EStar "context") ENull ;-
      SExpr (ECall "EVP_MD_CTX_free" [(ECall "->" [(EVar "internal_context"); (EName "evp_md_context")])]) ;-
      SExpr (ECall "->=" [(EVar "internal_context"); (EName "evp_md_context"); ENull]) ;-
      SExpr (ECall "memory_free" [(EVar "internal_context")])) SSkip ;-
    SReturn (EInt 1);
  f_error :=
    SSkip |}.

(* libhmac/libhmac_md5_context.c:424-587 libhmac_md5_context_initialize, outside_ex2 *)
Definition text_libhmac_md5_context_initialize_outside_ex2 : fundef := {|
  f_name := "libhmac_md5_context_initialize";
  f_ret := (true, R32);
  f_params := [("context", CPtr); ("error", CPtr)];
  f_arrays := [];
  f_locals :=
     [("internal_context", CPtr, ENull);
      ("evp_md_type", CPtr, ENull)];
  f_body :=
    SIf (EBin OEq (EVar "context") ENull) (
      SExpr (ECall "libcerror_error_set" [(EVar "error"); (EName "LIBCERROR_ERROR_DOMAIN_ARGUMENTS"); (EName "LIBCERROR_ARGUMENT_ERROR_INVALID_VALUE")]) ;-
      SReturn (EInt (-1))) SSkip ;-
    SIf (EBin ONe (EStar "context") ENull) (
      SExpr (ECall "libcerror_error_set" [(EVar "error"); (EName "LIBCERROR_ERROR_DOMAIN_RUNTIME"); (EName "LIBCERROR_RUNTIME_ERROR_VALUE_ALREADY_SET")]) ;-
      SReturn (EInt (-1))) SSkip ;-
    SAssign (EVar "internal_context") (ECall "structure:allocate" [ESizeof "libhmac_internal_md5_context_t"]) ;-
    SIf (EBin OEq (EVar "internal_context") ENull) (
      SExpr (ECall "libcerror_error_set" [(EVar "error"); (EName "LIBCERROR_ERROR_DOMAIN_MEMORY"); (EName "LIBCERROR_MEMORY_ERROR_INSUFFICIENT")]) ;-
      SGoto) SSkip ;-
    SIf (EBin OEq (ECall "structure:clear" [(EVar "internal_context"); (EInt 0); (ESizeof "libhmac_internal_md5_context_t")]) ENull) (
      SExpr (ECall "libcerror_error_set" [(EVar "error"); (EName "LIBCERROR_ERROR_DOMAIN_MEMORY"); (EName "LIBCERROR_MEMORY_ERROR_SET_FAILED")]) ;-
      SExpr (ECall "memory_free" [(EVar "internal_context")]) ;-
      SReturn (EInt (-1))) SSkip ;-
    SExpr (ECall "->=" [(EVar "internal_context"); (EName "evp_md_context"); (ECall "EVP_MD_CTX_new" [])]) ;-
    SIf (EBin OEq (ECall "->" [(EVar "internal_context"); (EName "evp_md_context")]) ENull) (
      SExpr (ECall "libcerror_error_set" [(EVar "error"); (EName "LIBCERROR_ERROR_DOMAIN_RUNTIME"); (EName "LIBCERROR_RUNTIME_ERROR_INITIALIZE_FAILED")]) ;-
      SGoto) SSkip ;-
    SAssign (EVar "evp_md_type") (ECall "EVP_md5" []) ;-
    SIf (EBin ONe (ECall "EVP_DigestInit_ex2" [(ECall "->" [(EVar "internal_context"); (EName "evp_md_context")]); (EVar "evp_md_type"); ENull]) (EInt 1)) (
      SExpr (ECall "libcerror_error_set" [(EVar "error"); (EName "LIBCERROR_ERROR_DOMAIN_RUNTIME"); (EName "LIBCERROR_RUNTIME_ERROR_INITIALIZE_FAILED")]) ;-
      SExpr (ECall "EVP_MD_CTX_free" [(ECall "->" [(EVar "internal_context"); (EName "evp_md_context")])]) ;-
      SExpr (ECall "->=" [(EVar "internal_context"); (EName "evp_md_context"); ENull]) ;-
      SGoto) SSkip ;-
    SAssign (EStar "context") (EVar "internal_context") ;-
    SReturn (EInt 1);
  f_error :=
    SIf (EBin ONe (EVar "internal_context") ENull) (
      SExpr (ECall "memory_free" [(EVar "internal_context")])) SSkip ;-
    SReturn (EInt (-1)) |}.

(* libhmac/libhmac_sha1_context.c:497-660 libhmac_sha1_context_initialize, legacy *)
Definition text_libhmac_sha1_context_initialize_legacy : fundef := {|
  f_name := "libhmac_sha1_context_initialize";
  f_ret := (true, R32);
  f_params := [("context", CPtr); ("error", CPtr)];
  f_arrays := [];
  f_locals :=
     [("internal_context", CPtr, ENull)];
  f_body :=
    SIf (EBin OEq (EVar "context") ENull) (
      SExpr (ECall "libcerror_error_set" [(EVar "error"); (EName "LIBCERROR_ERROR_DOMAIN_ARGUMENTS"); (EName "LIBCERROR_ARGUMENT_ERROR_INVALID_VALUE")]) ;-
      SReturn (EInt (-1))) SSkip ;-
    SIf (EBin ONe (EStar "context") ENull) (
      SExpr (ECall "libcerror_error_set" [(EVar "error"); (EName "LIBCERROR_ERROR_DOMAIN_RUNTIME"); (EName "LIBCERROR_RUNTIME_ERROR_VALUE_ALREADY_SET")]) ;-
      SReturn (EInt (-1))) SSkip ;-
    SAssign (EVar "internal_context") (ECall "structure:allocate" [ESizeof "libhmac_internal_sha1_context_t"]) ;-
    SIf (EBin OEq (EVar "internal_context") ENull) (
      SExpr (ECall "libcerror_error_set" [(EVar "error"); (EName "LIBCERROR_ERROR_DOMAIN_MEMORY"); (EName "LIBCERROR_MEMORY_ERROR_INSUFFICIENT")]) ;-
      SGoto) SSkip ;-
    SIf (EBin OEq (ECall "structure:clear" [(EVar "internal_context"); (EInt 0); (ESizeof "libhmac_internal_sha1_context_t")]) ENull) (
      SExpr (ECall "libcerror_error_set" [(EVar "error"); (EName "LIBCERROR_ERROR_DOMAIN_MEMORY"); (EName "LIBCERROR_MEMORY_ERROR_SET_FAILED")]) ;-
      SExpr (ECall "memory_free" [(EVar "internal_context")]) ;-
      SReturn (EInt (-1))) SSkip ;-
    SIf (EBin ONe (ECall "SHA1_Init" [(ECall "&->" [(EVar "internal_context"); (EName "sha1_context")])]) (EInt 1)) (
      SExpr (ECall "libcerror_error_set" [(EVar "error"); (EName "LIBCERROR_ERROR_DOMAIN_RUNTIME"); (EName "LIBCERROR_RUNTIME_ERROR_INITIALIZE_FAILED")]) ;-
      SGoto) SSkip ;-
    SAssign (EStar "context") (EVar "internal_context") ;-
    SReturn (EInt 1);
  f_error :=
    SIf (EBin ONe (EVar "internal_context") ENull) (
      SExpr (ECall "memory_free" [(EVar "internal_context")])) SSkip ;-
    SReturn (EInt (-1)) |}.

(* libhmac/libhmac_sha1_context.c:665-724 libhmac_sha1_context_free, legacy *)
Definition text_libhmac_sha1_context_free_legacy : fundef := {|
  f_name := "libhmac_sha1_context_free";
  f_ret := (true, R32);
  f_params := [("context", CPtr); ("error", CPtr)];
  f_arrays := [];
  f_locals :=
     [("internal_context", CPtr, ENull)];
  f_body :=
    SIf (EBin OEq (EVar "context") ENull) (
      SExpr (ECall "libcerror_error_set" [(EVar "error"); (EName "LIBCERROR_ERROR_DOMAIN_ARGUMENTS"); (EName "LIBCERROR_ARGUMENT_ERROR_INVALID_VALUE")]) ;-
      SReturn (EInt (-1))) SSkip ;-
    SIf (EBin ONe (EStar "context") ENull) (
      SAssign (EVar "internal_context") (EStar "context") ;-
      SAssign (EStar "context") ENull ;-
      SExpr (ECall "memory_free" [(EVar "internal_context")])) SSkip ;-
    SReturn (EInt 1);
  f_error :=
    SSkip |}.

(* libhmac/libhmac_sha1_context.c:731-801 libhmac_sha1_context_update, legacy *)
Definition text_libhmac_sha1_context_update_legacy : fundef := {|
  f_name := "libhmac_sha1_context_update";
  f_ret := (true, R32);
  f_params := [("context", CPtr); ("buffer", CPtr); ("size", CInt false RSz); ("error", CPtr)];
  f_arrays := [];
  f_locals :=
     [("internal_context", CPtr, ENull);
      ("safe_hash_size", (CInt false RSz), (EInt 0))];
  f_body :=
    SIf (EBin OEq (EVar "context") ENull) (
      SExpr (ECall "libcerror_error_set" [(EVar "error"); (EName "LIBCERROR_ERROR_DOMAIN_ARGUMENTS"); (EName "LIBCERROR_ARGUMENT_ERROR_INVALID_VALUE")]) ;-
      SReturn (EInt (-1))) SSkip ;-
    SAssign (EVar "internal_context") (EVar "context") ;-
    SIf (EBin OEq (EVar "buffer") ENull) (
      SExpr (ECall "libcerror_error_set" [(EVar "error"); (EName "LIBCERROR_ERROR_DOMAIN_ARGUMENTS"); (EName "LIBCERROR_ARGUMENT_ERROR_INVALID_VALUE")]) ;-
      SReturn (EInt (-1))) SSkip ;-
    SIf (EBin OGt (EVar "size") (ECast false RSz ESsizeMax)) (
      SExpr (ECall "libcerror_error_set" [(EVar "error"); (EName "LIBCERROR_ERROR_DOMAIN_ARGUMENTS"); (EName "LIBCERROR_ARGUMENT_ERROR_VALUE_EXCEEDS_MAXIMUM")]) ;-
      SReturn (EInt (-1))) SSkip ;-
    SIf (EBin OEq (EVar "size") (EInt 0)) (
      SReturn (EInt 1)) SSkip ;-
    SAssign (EVar "safe_hash_size") (ECast false RSz (EVar "size")) ;-
    SIf (EBin ONe (ECall "SHA1_Update" [(ECall "&->" [(EVar "internal_context"); (EName "sha1_context")]); (EVar "buffer"); (EVar "size")]) (EInt 1)) (
      SExpr (ECall "libcerror_error_set" [(EVar "error"); (EName "LIBCERROR_ERROR_DOMAIN_RUNTIME"); (EName "LIBCERROR_RUNTIME_ERROR_SET_FAILED")]) ;-
      SReturn (EInt (-1))) SSkip ;-
    SReturn (EInt 1);
  f_error :=
    SSkip |}.

(* libhmac/libhmac_sha1_context.c:1054-1123 libhmac_sha1_context_finalize, legacy *)
Definition text_libhmac_sha1_context_finalize_legacy : fundef := {|
  f_name := "libhmac_sha1_context_finalize";
  f_ret := (true, R32);
  f_params := [("context", CPtr); ("hash", CPtr); ("hash_size", CInt false RSz); ("error", CPtr)];
  f_arrays := [];
  f_locals :=
     [("internal_context", CPtr, ENull)];
  f_body :=
    SIf (EBin OEq (EVar "context") ENull) (
      SExpr (ECall "libcerror_error_set" [(EVar "error"); (EName "LIBCERROR_ERROR_DOMAIN_ARGUMENTS"); (EName "LIBCERROR_ARGUMENT_ERROR_INVALID_VALUE")]) ;-
      SReturn (EInt (-1))) SSkip ;-
    SAssign (EVar "internal_context") (EVar "context") ;-
    SIf (EBin OEq (EVar "hash") ENull) (
      SExpr (ECall "libcerror_error_set" [(EVar "error"); (EName "LIBCERROR_ERROR_DOMAIN_ARGUMENTS"); (EName "LIBCERROR_ARGUMENT_ERROR_INVALID_VALUE")]) ;-
      SReturn (EInt (-1))) SSkip ;-
    SIf (EBin OGt (EVar "hash_size") (ECast false RSz ESsizeMax)) (
      SExpr (ECall "libcerror_error_set" [(EVar "error"); (EName "LIBCERROR_ERROR_DOMAIN_ARGUMENTS"); (EName "LIBCERROR_ARGUMENT_ERROR_VALUE_EXCEEDS_MAXIMUM")]) ;-
      SReturn (EInt (-1))) SSkip ;-
    SIf (EBin OLt (EVar "hash_size") (ECast false RSz (EInt 20))) (
      SExpr (ECall "libcerror_error_set" [(EVar "error"); (EName "LIBCERROR_ERROR_DOMAIN_ARGUMENTS"); (EName "LIBCERROR_ARGUMENT_ERROR_VALUE_TOO_SMALL")]) ;-
      SReturn (EInt (-1))) SSkip ;-
    SIf (EBin ONe (ECall "SHA1_Final" [(EVar "hash"); (ECall "&->" [(EVar "internal_context"); (EName "sha1_context")])]) (EInt 1)) (
      SExpr (ECall "libcerror_error_set" [(EVar "error"); (EName "LIBCERROR_ERROR_DOMAIN_RUNTIME"); (EName "LIBCERROR_RUNTIME_ERROR_FINALIZE_FAILED")]) ;-
      SReturn (EInt (-1))) SSkip ;-
    SReturn (EInt 1);
  f_error :=
    SSkip |}.

(* libhmac/libhmac_sha1_context.c:731-801 libhmac_sha1_context_update, legacy_long *)
Definition text_libhmac_sha1_context_update_legacy_long : fundef := {|
  f_name := "libhmac_sha1_context_update";
  f_ret := (true, R32);
  f_params := [("context", CPtr); ("buffer", CPtr); ("size", CInt false RSz); ("error", CPtr)];
  f_arrays := [];
  f_locals :=
     [("internal_context", CPtr, ENull);
      ("safe_hash_size", (CInt false R32), (EInt 0))];
  f_body :=
    SIf (EBin OEq (EVar "context") ENull) (
      SExpr (ECall "libcerror_error_set" [(EVar "error"); (EName "LIBCERROR_ERROR_DOMAIN_ARGUMENTS"); (EName "LIBCERROR_ARGUMENT_ERROR_INVALID_VALUE")]) ;-
      SReturn (EInt (-1))) SSkip ;-
    SAssign (EVar "internal_context") (EVar "context") ;-
    SIf (EBin OEq (EVar "buffer") ENull) (
      SExpr (ECall "libcerror_error_set" [(EVar "error"); (EName "LIBCERROR_ERROR_DOMAIN_ARGUMENTS"); (EName "LIBCERROR_ARGUMENT_ERROR_INVALID_VALUE")]) ;-
      SReturn (EInt (-1))) SSkip ;-
    SIf (EBin OGt (EVar "size") (ECast false RSz (ECast false R32 (EInt (-1))))) (
      SExpr (ECall "libcerror_error_set" [(EVar "error"); (EName "LIBCERROR_ERROR_DOMAIN_ARGUMENTS"); (EName "LIBCERROR_ARGUMENT_ERROR_VALUE_EXCEEDS_MAXIMUM")]) ;-
      SReturn (EInt (-1))) SSkip ;-
    SIf (EBin OEq (EVar "size") (EInt 0)) (
      SReturn (EInt 1)) SSkip ;-
    SAssign (EVar "safe_hash_size") (ECast false R32 (EVar "size")) ;-
    SIf (EBin ONe (ECall "SHA1_Update" [(ECall "&->" [(EVar "internal_context"); (EName "sha1_context")]); (EVar "buffer"); (EVar "size")]) (EInt 1)) (
      SExpr (ECall "libcerror_error_set" [(EVar "error"); (EName "LIBCERROR_ERROR_DOMAIN_RUNTIME"); (EName "LIBCERROR_RUNTIME_ERROR_SET_FAILED")]) ;-
      SReturn (EInt (-1))) SSkip ;-
    SReturn (EInt 1);
  f_error :=
    SSkip |}.

(* libhmac/libhmac_sha1_context.c:497-660 libhmac_sha1_context_initialize, inside *)
Definition text_libhmac_sha1_context_initialize_inside : fundef := {|
  f_name := "libhmac_sha1_context_initialize";
  f_ret := (true, R32);
  f_params := [("context", CPtr); ("error", CPtr)];
  f_arrays := [];
  f_locals :=
     [("internal_context", CPtr, ENull);
      ("evp_md_type", CPtr, ENull)];
  f_body :=
    SIf (EBin OEq (EVar "context") ENull) (
      SExpr (ECall "libcerror_error_set" [(EVar "error"); (EName "LIBCERROR_ERROR_DOMAIN_ARGUMENTS"); (EName "LIBCERROR_ARGUMENT_ERROR_INVALID_VALUE")]) ;-
      SReturn (EInt (-1))) SSkip ;-
    SIf (EBin ONe (EStar "context") ENull) (
      SExpr (ECall "libcerror_error_set" [(EVar "error"); (EName "LIBCERROR_ERROR_DOMAIN_RUNTIME"); (EName "LIBCERROR_RUNTIME_ERROR_VALUE_ALREADY_SET")]) ;-
      SReturn (EInt (-1))) SSkip ;-
    SAssign (EVar "internal_context") (ECall "structure:allocate" [ESizeof "libhmac_internal_sha1_context_t"]) ;-
    SIf (EBin OEq (EVar "internal_context") ENull) (
      SExpr (ECall "libcerror_error_set" [(EVar "error"); (EName "LIBCERROR_ERROR_DOMAIN_MEMORY"); (EName "LIBCERROR_MEMORY_ERROR_INSUFFICIENT")]) ;-
      SGoto) SSkip ;-
    SIf (EBin OEq (ECall "structure:clear" [(EVar "internal_context"); (EInt 0); (ESizeof "libhmac_internal_sha1_context_t")]) ENull) (
      SExpr (ECall "libcerror_error_set" [(EVar "error"); (EName "LIBCERROR_ERROR_DOMAIN_MEMORY"); (EName "LIBCERROR_MEMORY_ERROR_SET_FAILED")]) ;-
      SExpr (ECall "memory_free" [(EVar "internal_context")]) ;-
      SReturn (EInt (-1))) SSkip ;-
    SExpr (ECall "EVP_MD_CTX_init" [(ECall "&->" [(EVar "internal_context"); (EName "internal_evp_md_context")])]) ;-
    SExpr (ECall "->=" [(EVar "internal_context"); (EName "evp_md_context"); (ECall "&->" [(EVar "internal_context"); (EName "internal_evp_md_context")])]) ;-
    SAssign (EVar "evp_md_type") (ECall "EVP_sha1" []) ;-
    SIf (EBin ONe (ECall "EVP_DigestInit_ex" [(ECall "->" [(EVar "internal_context"); (EName "evp_md_context")]); (EVar "evp_md_type"); ENull]) (EInt 1)) (
      SExpr (ECall "libcerror_error_set" [(EVar "error"); (EName "LIBCERROR_ERROR_DOMAIN_RUNTIME"); (EName "LIBCERROR_RUNTIME_ERROR_INITIALIZE_FAILED")]) ;-
      SExpr (ECall "EVP_MD_CTX_cleanup" [(ECall "&->" [(EVar "internal_context"); (EName "internal_evp_md_context")])]) ;-
      SExpr (ECall "ERR_remove_thread_state" [ENull]) ;-
      SExpr (ECall "->=" [(EVar "internal_context"); (EName "evp_md_context"); ENull]) ;-
      SGoto) SSkip ;-
    SAssign (EStar "context") (EVar "internal_context") ;-
    SReturn (EInt 1);
  f_error :=
    SIf (EBin ONe (EVar "internal_context") ENull) (
      SExpr (ECall "memory_free" [(EVar "internal_context")])) SSkip ;-
    SReturn (EInt (-1)) |}.

(* libhmac/libhmac_sha1_context.c:665-724 libhmac_sha1_context_free, inside *)
Definition text_libhmac_sha1_context_free_inside : fundef := {|
  f_name := "libhmac_sha1_context_free";
  f_ret := (true, R32);
  f_params := [("context", CPtr); ("error", CPtr)];
  f_arrays := [];
  f_locals :=
     [("internal_context", CPtr, ENull)];
  f_body :=
    SIf (EBin OEq (EVar "context") ENull) (
      SExpr (ECall "libcerror_error_set" [(EVar "error"); (EName "LIBCERROR_ERROR_DOMAIN_ARGUMENTS"); (EName "LIBCERROR_ARGUMENT_ERROR_INVALID_VALUE")]) ;-
      SReturn (EInt (-1))) SSkip ;-
    SIf (EBin ONe (EStar "context") ENull) (
      SAssign (EVar "internal_context") (EStar "context") ;-
      SAssign (EStar "context") ENull ;-
      SIf (EBin ONe (ECall "EVP_MD_CTX_cleanup" [(ECall "&->" [(EVar "internal_context"); (EName "internal_evp_md_context")])]) (EInt 1)) (
        SExpr (ECall "libcerror_error_set" [(EVar "error"); (EName "LIBCERROR_ERROR_DOMAIN_RUNTIME"); (EName "LIBCERROR_RUNTIME_ERROR_FINALIZE_FAILED")])) SSkip ;-
      SExpr (ECall "ERR_remove_thread_state" [ENull]) ;-
      SExpr (ECall "->=" [(EVar "internal_context"); (EName "evp_md_context"); ENull]) ;-
      SExpr (ECall "memory_free" [(EVar "internal_context")])) SSkip ;-
    SReturn (EInt 1);
  f_error :=
    SSkip |}.

(* libhmac/libhmac_sha1_context.c:808-871 libhmac_sha1_context_update, inside *)
Definition text_libhmac_sha1_context_update_inside : fundef := {|
  f_name := "libhmac_sha1_context_update";
  f_ret := (true, R32);
  f_params := [("context", CPtr); ("buffer", CPtr); ("size", CInt false RSz); ("error", CPtr)];
  f_arrays := [];
  f_locals :=
     [("internal_context", CPtr, ENull)];
  f_body :=
    SIf (EBin OEq (EVar "context") ENull) (
      SExpr (ECall "libcerror_error_set" [(EVar "error"); (EName "LIBCERROR_ERROR_DOMAIN_ARGUMENTS"); (EName "LIBCERROR_ARGUMENT_ERROR_INVALID_VALUE")]) ;-
      SReturn (EInt (-1))) SSkip ;-
    SAssign (EVar "internal_context") (EVar "context") ;-
    SIf (EBin OEq (EVar "buffer") ENull) (
      SExpr (ECall "libcerror_error_set" [(EVar "error"); (EName "LIBCERROR_ERROR_DOMAIN_ARGUMENTS"); (EName "LIBCERROR_ARGUMENT_ERROR_INVALID_VALUE")]) ;-
      SReturn (EInt (-1))) SSkip ;-
    SIf (EBin OGt (EVar "size") (ECast false RSz ESsizeMax)) (
      SExpr (ECall "libcerror_error_set" [(EVar "error"); (EName "LIBCERROR_ERROR_DOMAIN_ARGUMENTS"); (EName "LIBCERROR_ARGUMENT_ERROR_VALUE_EXCEEDS_MAXIMUM")]) ;-
      SReturn (EInt (-1))) SSkip ;-
    SIf (EBin OEq (EVar "size") (EInt 0)) (
      SReturn (EInt 1)) SSkip ;-
    SIf (EBin ONe (ECall "EVP_DigestUpdate" [(ECall "->" [(EVar "internal_context"); (EName "evp_md_context")]); (EVar "buffer"); (EVar "size")]) (EInt 1)) (
      SExpr (ECall "libcerror_error_set" [(EVar "error"); (EName "LIBCERROR_ERROR_DOMAIN_RUNTIME"); (EName "LIBCERROR_RUNTIME_ERROR_SET_FAILED")]) ;-
      SReturn (EInt (-1))) SSkip ;-
    SReturn (EInt 1);
  f_error :=
    SSkip |}.

(* libhmac/libhmac_sha1_context.c:1130-1193 libhmac_sha1_context_finalize, inside *)
Definition text_libhmac_sha1_context_finalize_inside : fundef := {|
  f_name := "libhmac_sha1_context_finalize";
  f_ret := (true, R32);
  f_params := [("context", CPtr); ("hash", CPtr); ("hash_size", CInt false RSz); ("error", CPtr)];
  f_arrays := [];
  f_locals :=
     [("internal_context", CPtr, ENull);
      ("safe_hash_size", (CInt false R32), (EInt 0))];
  f_body :=
    SIf (EBin OEq (EVar "context") ENull) (
      SExpr (ECall "libcerror_error_set" [(EVar "error"); (EName "LIBCERROR_ERROR_DOMAIN_ARGUMENTS"); (EName "LIBCERROR_ARGUMENT_ERROR_INVALID_VALUE")]) ;-
      SReturn (EInt (-1))) SSkip ;-
    SAssign (EVar "internal_context") (EVar "context") ;-
    SIf (EBin OEq (EVar "hash") ENull) (
      SExpr (ECall "libcerror_error_set" [(EVar "error"); (EName "LIBCERROR_ERROR_DOMAIN_ARGUMENTS"); (EName "LIBCERROR_ARGUMENT_ERROR_INVALID_VALUE")]) ;-
      SReturn (EInt (-1))) SSkip ;-
    SIf (ELogOr (EBin OLt (EVar "hash_size") (ECast false RSz (EInt 20))) (EBin OGt (EVar "hash_size") (ECast false RSz (ECast false R32 (EInt (-1)))))) (
      SExpr (ECall "libcerror_error_set" [(EVar "error"); (EName "LIBCERROR_ERROR_DOMAIN_ARGUMENTS"); (EName "LIBCERROR_ARGUMENT_ERROR_VALUE_OUT_OF_BOUNDS")]) ;-
      SReturn (EInt (-1))) SSkip ;-
    SAssign (EVar "safe_hash_size") (ECast false R32 (EVar "hash_size")) ;-
    SIf (EBin ONe (ECall "EVP_DigestFinal_ex" [(ECall "->" [(EVar "internal_context"); (EName "evp_md_context")]); (EVar "hash"); (ERef "safe_hash_size")]) (EInt 1)) (
      SExpr (ECall "libcerror_error_set" [(EVar "error"); (EName "LIBCERROR_ERROR_DOMAIN_RUNTIME"); (EName "LIBCERROR_RUNTIME_ERROR_FINALIZE_FAILED")]) ;-
      SReturn (EInt (-1))) SSkip ;-
    SReturn (EInt 1);
  f_error :=
    SSkip |}.

(* libhmac/libhmac_sha1_context.c:497-660 libhmac_sha1_context_initialize, inside_ex2 *)
Definition text_libhmac_sha1_context_initialize_inside_ex2 : fundef := {|
  f_name := "libhmac_sha1_context_initialize";
  f_ret := (true, R32);
  f_params := [("context", CPtr); ("error", CPtr)];
  f_arrays := [];
  f_locals :=
     [("internal_context", CPtr, ENull);
      ("evp_md_type", CPtr, ENull)];
  f_body :=
    SIf (EBin OEq (EVar "context") ENull) (
      SExpr (ECall "libcerror_error_set" [(EVar "error"); (EName "LIBCERROR_ERROR_DOMAIN_ARGUMENTS"); (EName "LIBCERROR_ARGUMENT_ERROR_INVALID_VALUE")]) ;-
      SReturn (EInt (-1))) SSkip ;-
    SIf (EBin ONe (EStar "context") ENull) (
      SExpr (ECall "libcerror_error_set" [(EVar "error"); (EName "LIBCERROR_ERROR_DOMAIN_RUNTIME"); (EName "LIBCERROR_RUNTIME_ERROR_VALUE_ALREADY_SET")]) ;-
      SReturn (EInt (-1))) SSkip ;-
    SAssign (EVar "internal_context") (ECall "structure:allocate" [ESizeof "libhmac_internal_sha1_context_t"]) ;-
    SIf (EBin OEq (EVar "internal_context") ENull) (
      SExpr (ECall "libcerror_error_set" [(EVar "error"); (EName "LIBCERROR_ERROR_DOMAIN_MEMORY"); (EName "LIBCERROR_MEMORY_ERROR_INSUFFICIENT")]) ;-
      SGoto) SSkip ;-
    SIf (EBin OEq (ECall "structure:clear" [(EVar "internal_context"); (EInt 0); (ESizeof "libhmac_internal_sha1_context_t")]) ENull) (
      SExpr (ECall "libcerror_error_set" [(EVar "error"); (EName "LIBCERROR_ERROR_DOMAIN_MEMORY"); (EName "LIBCERROR_MEMORY_ERROR_SET_FAILED")]) ;-
      SExpr (ECall "memory_free" [(EVar "internal_context")]) ;-
      SReturn (EInt (-1))) SSkip ;-
    SExpr (ECall "EVP_MD_CTX_init" [(ECall "&->" [(EVar "internal_context"); (EName "internal_evp_md_context")])]) ;-
    SExpr (ECall "->=" [(EVar "internal_context"); (EName "evp_md_context"); (ECall "&->" [(EVar "internal_context"); (EName "internal_evp_md_context")])]) ;-
    SAssign (EVar "evp_md_type") (ECall "EVP_sha1" []) ;-
    SIf (EBin ONe (ECall "EVP_DigestInit_ex2" [(ECall "->" [(EVar "internal_context"); (EName "evp_md_context")]); (EVar "evp_md_type"); ENull]) (EInt 1)) (
      SExpr (ECall "libcerror_error_set" [(EVar "error"); (EName "LIBCERROR_ERROR_DOMAIN_RUNTIME"); (EName "LIBCERROR_RUNTIME_ERROR_INITIALIZE_FAILED")]) ;-
      SExpr (ECall "EVP_MD_CTX_cleanup" [(ECall "&->" [(EVar "internal_context"); (EName "internal_evp_md_context")])]) ;-
      SExpr (ECall "ERR_remove_thread_state" [ENull]) ;-
      SExpr (ECall "->=" [(EVar "internal_context"); (EName "evp_md_context"); ENull]) ;-
      SGoto) SSkip ;-
    SAssign (EStar "context") (EVar "internal_context") ;-
    SReturn (EInt 1);
  f_error :=
    SIf (EBin ONe (EVar "internal_context") ENull) (
      SExpr (ECall "memory_free" [(EVar "internal_context")])) SSkip ;-
    SReturn (EInt (-1)) |}.

(* libhmac/libhmac_sha1_context.c:497-660 libhmac_sha1_context_initialize, outside *)
Definition text_libhmac_sha1_context_initialize_outside : fundef := {|
  f_name := "libhmac_sha1_context_initialize";
  f_ret := (true, R32);
  f_params := [("context", CPtr); ("error", CPtr)];
  f_arrays := [];
  f_locals :=
     [("internal_context", CPtr, ENull);
      ("evp_md_type", CPtr, ENull)];
  f_body :=
    SIf (EBin OEq (EVar "context") ENull) (
      SExpr (ECall "libcerror_error_set" [(EVar "error"); (EName "LIBCERROR_ERROR_DOMAIN_ARGUMENTS"); (EName "LIBCERROR_ARGUMENT_ERROR_INVALID_VALUE")]) ;-
      SReturn (EInt (-1))) SSkip ;-
    SIf (EBin ONe (EStar "context") ENull) (
      SExpr (ECall "libcerror_error_set" [(EVar "error"); (EName "LIBCERROR_ERROR_DOMAIN_RUNTIME"); (EName "LIBCERROR_RUNTIME_ERROR_VALUE_ALREADY_SET")]) ;-
      SReturn (EInt (-1))) SSkip ;-
    SAssign (EVar "internal_context") (ECall "structure:allocate" [ESizeof "libhmac_internal_sha1_context_t"]) ;-
    SIf (EBin OEq (EVar "internal_context") ENull) (
      SExpr (ECall "libcerror_error_set" [(EVar "error"); (EName "LIBCERROR_ERROR_DOMAIN_MEMORY"); (EName "LIBCERROR_MEMORY_ERROR_INSUFFICIENT")]) ;-
      SGoto) SSkip ;-
    SIf (EBin OEq (ECall "structure:clear" [(EVar "internal_context"); (EInt 0); (ESizeof "libhmac_internal_sha1_context_t")]) ENull) (
      SExpr (ECall "libcerror_error_set" [(EVar "error"); (EName "LIBCERROR_ERROR_DOMAIN_MEMORY"); (EName "LIBCERROR_MEMORY_ERROR_SET_FAILED")]) ;-
      SExpr (ECall "memory_free" [(EVar "internal_context")]) ;-
      SReturn (EInt (-1))) SSkip ;-
    SExpr (ECall "->=" [(EVar "internal_context"); (EName "evp_md_context"); (ECall "EVP_MD_CTX_new" [])]) ;-
    SIf (EBin OEq (ECall "->" [(EVar "internal_context"); (EName "evp_md_context")]) ENull) (
      SExpr (ECall "libcerror_error_set" [(EVar "error"); (EName "LIBCERROR_ERROR_DOMAIN_RUNTIME"); (EName "LIBCERROR_RUNTIME_ERROR_INITIALIZE_FAILED")]) ;-
      SGoto) SSkip ;-
    SAssign (EVar "evp_md_type") (ECall "EVP_sha1" []) ;-
    SIf (EBin ONe (ECall "EVP_DigestInit_ex" [(ECall "->" [(EVar "internal_context"); (EName "evp_md_context")]); (EVar "evp_md_type"); ENull]) (EInt 1)) (
      SExpr (ECall "libcerror_error_set" [(EVar "error"); (EName "LIBCERROR_ERROR_DOMAIN_RUNTIME"); (EName "LIBCERROR_RUNTIME_ERROR_INITIALIZE_FAILED")]) ;-
      SExpr (ECall "EVP_MD_CTX_free" [(ECall "->" [(EVar "internal_context"); (EName "evp_md_context")])]) ;-
      SExpr (ECall "->=" [(EVar "internal_context"); (EName "evp_md_context"); ENull]) ;-
      SGoto) SSkip ;-
    SAssign (EStar "context") (EVar "internal_context") ;-
    SReturn (EInt 1);
  f_error :=
    SIf (EBin ONe (EVar "internal_context") ENull) (
      SExpr (ECall "memory_free" [(EVar "internal_context")])) SSkip ;-
    SReturn (EInt (-1)) |}.

(* libhmac/libhmac_sha1_context.c:665-724 libhmac_sha1_context_free, outside *)
Definition text_libhmac_sha1_context_free_outside : fundef := {|
  f_name := "libhmac_sha1_context_free";
  f_ret := (true, R32);
  f_params := [("context", CPtr); ("error", CPtr)];
  f_arrays := [];
  f_locals :=
     [("internal_context", CPtr, ENull)];
  f_body :=
    SIf (EBin OEq (EVar "context") ENull) (
      SExpr (ECall "libcerror_error_set" [(EVar "error"); (EName "LIBCERROR_ERROR_DOMAIN_ARGUMENTS"); (EName "LIBCERROR_ARGUMENT_ERROR_INVALID_VALUE")]) ;-
      SReturn (EInt (-1))) SSkip ;-
    SIf (EBin ONe (EStar "context") ENull) (
      SAssign (EVar "internal_context") (EStar "context") ;-
      SAssign (EStar "context") ENull ;-
      SExpr (ECall "EVP_MD_CTX_free" [(ECall "->" [(EVar "internal_context"); (EName "evp_md_context")])]) ;-
      SExpr (ECall "->=" [(EVar "internal_context"); (EName "evp_md_context"); ENull]) ;-
      SExpr (ECall "memory_free" [(EVar "internal_context")])) SSkip ;-
    SReturn (EInt 1);
  f_error :=
    SSkip |}.

(* libhmac/libhmac_sha1_context.c:497-660 libhmac_sha1_context_initialize, outside_ex2 *)
Definition text_libhmac_sha1_context_initialize_outside_ex2 : fundef := {|
  f_name := "libhmac_sha1_context_initialize";
  f_ret := (true, R32);
  f_params := [("context", CPtr); ("error", CPtr)];
  f_arrays := [];
  f_locals :=
     [("internal_context", CPtr, ENull);
      ("evp_md_type", CPtr, ENull)];
  f_body :=
    SIf (EBin OEq (EVar "context") ENull) (
      SExpr (ECall "libcerror_error_set" [(EVar "error"); (EName "LIBCERROR_ERROR_DOMAIN_ARGUMENTS"); (EName "LIBCERROR_ARGUMENT_ERROR_INVALID_VALUE")]) ;-
      SReturn (EInt (-1))) SSkip ;-
    SIf (EBin ONe (EStar "context") ENull) (
      SExpr (ECall "libcerror_error_set" [(EVar "error"); (EName "LIBCERROR_ERROR_DOMAIN_RUNTIME"); (EName "LIBCERROR_RUNTIME_ERROR_VALUE_ALREADY_SET")]) ;-
      SReturn (EInt (-1))) SSkip ;-
    SAssign (EVar "internal_context") (ECall "structure:allocate" [ESizeof "libhmac_internal_sha1_context_t"]) ;-
    SIf (EBin OEq (EVar "internal_context") ENull) (
      SExpr (ECall "libcerror_error_set" [(EVar "error"); (EName "LIBCERROR_ERROR_DOMAIN_MEMORY"); (EName "LIBCERROR_MEMORY_ERROR_INSUFFICIENT")]) ;-
      SGoto) SSkip ;-
    SIf (EBin OEq (ECall "structure:clear" [(EVar "internal_context"); (EInt 0); (ESizeof "libhmac_internal_sha1_context_t")]) ENull) (
      SExpr (ECall "libcerror_error_set" [(EVar "error"); (EName "LIBCERROR_ERROR_DOMAIN_MEMORY"); (EName "LIBCERROR_MEMORY_ERROR_SET_FAILED")]) ;-
      SExpr (ECall "memory_free" [(EVar "internal_context")]) ;-
      SReturn (EInt (-1))) SSkip ;-
    SExpr (ECall "->=" [(EVar "internal_context"); (EName "evp_md_context"); (ECall "EVP_MD_CTX_new" [])]) ;-
    SIf (EBin OEq (ECall "->" [(EVar "internal_context"); (EName "evp_md_context")]) ENull) (
      SExpr (ECall "libcerror_error_set" [(EVar "error"); (EName "LIBCERROR_ERROR_DOMAIN_RUNTIME"); (EName "LIBCERROR_RUNTIME_ERROR_INITIALIZE_FAILED")]) ;-
      SGoto) SSkip ;-
    SAssign (EVar "evp_md_type") (ECall "EVP_sha1" []) ;-
    SIf (EBin ONe (ECall "EVP_DigestInit_ex2" [(ECall "->" [(EVar "internal_context"); (EName "evp_md_context")]); (EVar "evp_md_type"); ENull]) (EInt 1)) (
      SExpr (ECall "libcerror_error_set" [(EVar "error"); (EName "LIBCERROR_ERROR_DOMAIN_RUNTIME"); (EName "LIBCERROR_RUNTIME_ERROR_INITIALIZE_FAILED")]) ;-
      SExpr (ECall "EVP_MD_CTX_free" [(ECall "->" [(EVar "internal_context"); (EName "evp_md_context")])]) ;-
      SExpr (ECall "->=" [(EVar "internal_context"); (EName "evp_md_context"); ENull]) ;-
      SGoto) SSkip ;-
    SAssign (EStar "context") (EVar "internal_context") ;-
    SReturn (EInt 1);
  f_error :=
    SIf (EBin ONe (EVar "internal_context") ENull) (
      SExpr (ECall "memory_free" [(EVar "internal_context")])) SSkip ;-
    SReturn (EInt (-1)) |}.

(* libhmac/libhmac_sha224_context.c:456-619 libhmac_sha224_context_initialize, legacy *)
Definition text_libhmac_sha224_context_initialize_legacy : fundef := {|
  f_name := "libhmac_sha224_context_initialize";
  f_ret := (true, R32);
  f_params := [("context", CPtr); ("error", CPtr)];
  f_arrays := [];
  f_locals :=
     [("internal_context", CPtr, ENull)];
  f_body :=
    SIf (EBin OEq (EVar "context") ENull) (
      SExpr (ECall "libcerror_error_set" [(EVar "error"); (EName "LIBCERROR_ERROR_DOMAIN_ARGUMENTS"); (EName "LIBCERROR_ARGUMENT_ERROR_INVALID_VALUE")]) ;-
      SReturn (EInt (-1))) SSkip ;-
    SIf (EBin ONe (EStar "context") ENull) (
      SExpr (ECall "libcerror_error_set" [(EVar "error"); (EName "LIBCERROR_ERROR_DOMAIN_RUNTIME"); (EName "LIBCERROR_RUNTIME_ERROR_VALUE_ALREADY_SET")]) ;-
      SReturn (EInt (-1))) SSkip ;-
    SAssign (EVar "internal_context") (ECall "structure:allocate" [ESizeof "libhmac_internal_sha224_context_t"]) ;-
    SIf (EBin OEq (EVar "internal_context") ENull) (
      SExpr (ECall "libcerror_error_set" [(EVar "error"); (EName "LIBCERROR_ERROR_DOMAIN_MEMORY"); (EName "LIBCERROR_MEMORY_ERROR_INSUFFICIENT")]) ;-
      SGoto) SSkip ;-
    SIf (EBin OEq (ECall "structure:clear" [(EVar "internal_context"); (EInt 0); (ESizeof "libhmac_internal_sha224_context_t")]) ENull) (
      SExpr (ECall "libcerror_error_set" [(EVar "error"); (EName "LIBCERROR_ERROR_DOMAIN_MEMORY"); (EName "LIBCERROR_MEMORY_ERROR_SET_FAILED")]) ;-
      SExpr (ECall "memory_free" [(EVar "internal_context")]) ;-
      SReturn (EInt (-1))) SSkip ;-
    SIf (EBin ONe (ECall "SHA224_Init" [(ECall "&->" [(EVar "internal_context"); (EName "sha224_context")])]) (EInt 1)) (
      SExpr (ECall "libcerror_error_set" [(EVar "error"); (EName "LIBCERROR_ERROR_DOMAIN_RUNTIME"); (EName "LIBCERROR_RUNTIME_ERROR_INITIALIZE_FAILED")]) ;-
      SGoto) SSkip ;-
    SAssign (EStar "context") (EVar "internal_context") ;-
    SReturn (EInt 1);
  f_error :=
    SIf (EBin ONe (EVar "internal_context") ENull) (
      SExpr (ECall "memory_free" [(EVar "internal_context")])) SSkip ;-
    SReturn (EInt (-1)) |}.

(* libhmac/libhmac_sha224_context.c:624-683 libhmac_sha224_context_free, legacy *)
Definition text_libhmac_sha224_context_free_legacy : fundef := {|
  f_name := "libhmac_sha224_context_free";
  f_ret := (true, R32);
  f_params := [("context", CPtr); ("error", CPtr)];
  f_arrays := [];
  f_locals :=
     [("internal_context", CPtr, ENull)];
  f_body :=
    SIf (EBin OEq (EVar "context") ENull) (
      SExpr (ECall "libcerror_error_set" [(EVar "error"); (EName "LIBCERROR_ERROR_DOMAIN_ARGUMENTS"); (EName "LIBCERROR_ARGUMENT_ERROR_INVALID_VALUE")]) ;-
      SReturn (EInt (-1))) SSkip ;-
    SIf (EBin ONe (EStar "context") ENull) (
      SAssign (EVar "internal_context") (EStar "context") ;-
      SAssign (EStar "context") ENull ;-
      SExpr (ECall "memory_free" [(EVar "internal_context")])) SSkip ;-
    SReturn (EInt 1);
  f_error :=
    SSkip |}.

(* libhmac/libhmac_sha224_context.c:690-760 libhmac_sha224_context_update, legacy *)
Definition text_libhmac_sha224_context_update_legacy : fundef := {|
  f_name := "libhmac_sha224_context_update";
  f_ret := (true, R32);
  f_params := [("context", CPtr); ("buffer", CPtr); ("size", CInt false RSz); ("error", CPtr)];
  f_arrays := [];
  f_locals :=
     [("internal_context", CPtr, ENull);
      ("safe_hash_size", (CInt false RSz), (EInt 0))];
  f_body :=
    SIf (EBin OEq (EVar "context") ENull) (
      SExpr (ECall "libcerror_error_set" [(EVar "error"); (EName "LIBCERROR_ERROR_DOMAIN_ARGUMENTS"); (EName "LIBCERROR_ARGUMENT_ERROR_INVALID_VALUE")]) ;-
      SReturn (EInt (-1))) SSkip ;-
    SAssign (EVar "internal_context") (EVar "context") ;-
    SIf (EBin OEq (EVar "buffer") ENull) (
      SExpr (ECall "libcerror_error_set" [(EVar "error"); (EName "LIBCERROR_ERROR_DOMAIN_ARGUMENTS"); (EName "LIBCERROR_ARGUMENT_ERROR_INVALID_VALUE")]) ;-
      SReturn (EInt (-1))) SSkip ;-
    SIf (EBin OGt (EVar "size") (ECast false RSz ESsizeMax)) (
      SExpr (ECall "libcerror_error_set" [(EVar "error"); (EName "LIBCERROR_ERROR_DOMAIN_ARGUMENTS"); (EName "LIBCERROR_ARGUMENT_ERROR_VALUE_EXCEEDS_MAXIMUM")]) ;-
      SReturn (EInt (-1))) SSkip ;-
    SIf (EBin OEq (EVar "size") (EInt 0)) (
      SReturn (EInt 1)) SSkip ;-
    SAssign (EVar "safe_hash_size") (ECast false RSz (EVar "size")) ;-
    SIf (EBin ONe (ECall "SHA256_Update" [(ECall "&->" [(EVar "internal_context"); (EName "sha224_context")]); (EVar "buffer"); (EVar "size")]) (EInt 1)) (
      SExpr (ECall "libcerror_error_set" [(EVar "error"); (EName "LIBCERROR_ERROR_DOMAIN_RUNTIME"); (EName "LIBCERROR_RUNTIME_ERROR_SET_FAILED")]) ;-
      SReturn (EInt (-1))) SSkip ;-
    SReturn (EInt 1);
  f_error :=
    SSkip |}.

(* libhmac/libhmac_sha224_context.c:1013-1082 libhmac_sha224_context_finalize, legacy *)
Definition text_libhmac_sha224_context_finalize_legacy : fundef := {|
  f_name := "libhmac_sha224_context_finalize";
  f_ret := (true, R32);
  f_params := [("context", CPtr); ("hash", CPtr); ("hash_size", CInt false RSz); ("error", CPtr)];
  f_arrays := [];
  f_locals :=
     [("internal_context", CPtr, ENull)];
  f_body :=
    SIf (EBin OEq (EVar "context") ENull) (
      SExpr (ECall "libcerror_error_set" [(EVar "error"); (EName "LIBCERROR_ERROR_DOMAIN_ARGUMENTS"); (EName "LIBCERROR_ARGUMENT_ERROR_INVALID_VALUE")]) ;-
      SReturn (EInt (-1))) SSkip ;-
    SAssign (EVar "internal_context") (EVar "context") ;-
    SIf (EBin OEq (EVar "hash") ENull) (
      SExpr (ECall "libcerror_error_set" [(EVar "error"); (EName "LIBCERROR_ERROR_DOMAIN_ARGUMENTS"); (EName "LIBCERROR_ARGUMENT_ERROR_INVALID_VALUE")]) ;-
      SReturn (EInt (-1))) SSkip ;-
    SIf (EBin OGt (EVar "hash_size") (ECast false RSz ESsizeMax)) (
      SExpr (ECall "libcerror_error_set" [(EVar "error"); (EName "LIBCERROR_ERROR_DOMAIN_ARGUMENTS"); (EName "LIBCERROR_ARGUMENT_ERROR_VALUE_EXCEEDS_MAXIMUM")]) ;-
      SReturn (EInt (-1))) SSkip ;-
    SIf (EBin OLt (EVar "hash_size") (ECast false RSz (EInt 28))) (
      SExpr (ECall "libcerror_error_set" [(EVar "error"); (EName "LIBCERROR_ERROR_DOMAIN_ARGUMENTS"); (EName "LIBCERROR_ARGUMENT_ERROR_VALUE_TOO_SMALL")]) ;-
      SReturn (EInt (-1))) SSkip ;-
    SIf (EBin ONe (ECall "SHA256_Final" [(EVar "hash"); (ECall "&->" [(EVar "internal_context"); (EName "sha224_context")])]) (EInt 1)) (
      SExpr (ECall "libcerror_error_set" [(EVar "error"); (EName "LIBCERROR_ERROR_DOMAIN_RUNTIME"); (EName "LIBCERROR_RUNTIME_ERROR_FINALIZE_FAILED")]) ;-
      SReturn (EInt (-1))) SSkip ;-
    SReturn (EInt 1);
  f_error :=
    SSkip |}.

(* libhmac/libhmac_sha224_context.c:690-760 libhmac_sha224_context_update, legacy_long *)
Definition text_libhmac_sha224_context_update_legacy_long : fundef := {|
  f_name := "libhmac_sha224_context_update";
  f_ret := (true, R32);
  f_params := [("context", CPtr); ("buffer", CPtr); ("size", CInt false RSz); ("error", CPtr)];
  f_arrays := [];
  f_locals :=
     [("internal_context", CPtr, ENull);
      ("safe_hash_size", (CInt false R32), (EInt 0))];
  f_body :=
    SIf (EBin OEq (EVar "context") ENull) (
      SExpr (ECall "libcerror_error_set" [(EVar "error"); (EName "LIBCERROR_ERROR_DOMAIN_ARGUMENTS"); (EName "LIBCERROR_ARGUMENT_ERROR_INVALID_VALUE")]) ;-
      SReturn (EInt (-1))) SSkip ;-
    SAssign (EVar "internal_context") (EVar "context") ;-
    SIf (EBin OEq (EVar "buffer") ENull) (
      SExpr (ECall "libcerror_error_set" [(EVar "error"); (EName "LIBCERROR_ERROR_DOMAIN_ARGUMENTS"); (EName "LIBCERROR_ARGUMENT_ERROR_INVALID_VALUE")]) ;-
      SReturn (EInt (-1))) SSkip ;-
    SIf (EBin OGt (EVar "size") (ECast false RSz (ECast false R32 (EInt (-1))))) (
      SExpr (ECall "libcerror_error_set" [(EVar "error"); (EName "LIBCERROR_ERROR_DOMAIN_ARGUMENTS"); (EName "LIBCERROR_ARGUMENT_ERROR_VALUE_EXCEEDS_MAXIMUM")]) ;-
      SReturn (EInt (-1))) SSkip ;-
    SIf (EBin OEq (EVar "size") (EInt 0)) (
      SReturn (EInt 1)) SSkip ;-
    SAssign (EVar "safe_hash_size") (ECast false R32 (EVar "size")) ;-
    SIf (EBin ONe (ECall "SHA256_Update" [(ECall "&->" [(EVar "internal_context"); (EName "sha224_context")]); (EVar "buffer"); (EVar "size")]) (EInt 1)) (
      SExpr (ECall "libcerror_error_set" [(EVar "error"); (EName "LIBCERROR_ERROR_DOMAIN_RUNTIME"); (EName "LIBCERROR_RUNTIME_ERROR_SET_FAILED")]) ;-
      SReturn (EInt (-1))) SSkip ;-
    SReturn (EInt 1);
  f_error :=
    SSkip |}.

(* libhmac/libhmac_sha224_context.c:456-619 libhmac_sha224_context_initialize, inside *)
Definition text_libhmac_sha224_context_initialize_inside : fundef := {|
  f_name := "libhmac_sha224_context_initialize";
  f_ret := (true, R32);
  f_params := [("context", CPtr); ("error", CPtr)];
  f_arrays := [];
  f_locals :=
     [("internal_context", CPtr, ENull);
      ("evp_md_type", CPtr, ENull)];
  f_body :=
    SIf (EBin OEq (EVar "context") ENull) (
      SExpr (ECall "libcerror_error_set" [(EVar "error"); (EName "LIBCERROR_ERROR_DOMAIN_ARGUMENTS"); (EName "LIBCERROR_ARGUMENT_ERROR_INVALID_VALUE")]) ;-
      SReturn (EInt (-1))) SSkip ;-
    SIf (EBin ONe (EStar "context") ENull) (
      SExpr (ECall "libcerror_error_set" [(EVar "error"); (EName "LIBCERROR_ERROR_DOMAIN_RUNTIME"); (EName "LIBCERROR_RUNTIME_ERROR_VALUE_ALREADY_SET")]) ;-
      SReturn (EInt (-1))) SSkip ;-
    SAssign (EVar "internal_context") (ECall "structure:allocate" [ESizeof "libhmac_internal_sha224_context_t"]) ;-
    SIf (EBin OEq (EVar "internal_context") ENull) (
      SExpr (ECall "libcerror_error_set" [(EVar "error"); (EName "LIBCERROR_ERROR_DOMAIN_MEMORY"); (EName "LIBCERROR_MEMORY_ERROR_INSUFFICIENT")]) ;-
      SGoto) SSkip ;-
    SIf (EBin OEq (ECall "structure:clear" [(EVar "internal_context"); (EInt 0); (ESizeof "libhmac_internal_sha224_context_t")]) ENull) (
      SExpr (ECall "libcerror_error_set" [(EVar "error"); (EName "LIBCERROR_ERROR_DOMAIN_MEMORY"); (EName "LIBCERROR_MEMORY_ERROR_SET_FAILED")]) ;-
      SExpr (ECall "memory_free" [(EVar "internal_context")]) ;-
      SReturn (EInt (-1))) SSkip ;-
    SExpr (ECall "EVP_MD_CTX_init" [(ECall "&->" [(EVar "internal_context"); (EName "internal_evp_md_context")])]) ;-
    SExpr (ECall "->=" [(EVar "internal_context"); (EName "evp_md_context"); (ECall "&->" [(EVar "internal_context"); (EName "internal_evp_md_context")])]) ;-
    SAssign (EVar "evp_md_type") (ECall "EVP_sha224" []) ;-
    SIf (EBin ONe (ECall "EVP_DigestInit_ex" [(ECall "->" [(EVar "internal_context"); (EName "evp_md_context")]); (EVar "evp_md_type"); ENull]) (EInt 1)) (
      SExpr (ECall "libcerror_error_set" [(EVar "error"); (EName "LIBCERROR_ERROR_DOMAIN_RUNTIME"); (EName "LIBCERROR_RUNTIME_ERROR_INITIALIZE_FAILED")]) ;-
      SExpr (ECall "EVP_MD_CTX_cleanup" [(ECall "&->" [(EVar "internal_context"); (EName "internal_evp_md_context")])]) ;-
      SExpr (ECall "ERR_remove_thread_state" [ENull]) ;-
      SExpr (ECall "->=" [(EVar "internal_context"); (EName "evp_md_context"); ENull]) ;-
      SGoto) SSkip ;-
    SAssign (EStar "context") (EVar "internal_context") ;-
    SReturn (EInt 1);
  f_error :=
    SIf (EBin ONe (EVar "internal_context") ENull) (
      SExpr (ECall "memory_free" [(EVar "internal_context")])) SSkip ;-
    SReturn (EInt (-1)) |}.

(* libhmac/libhmac_sha224_context.c:624-683 libhmac_sha224_context_free, inside *)
Definition text_libhmac_sha224_context_free_inside : fundef := {|
  f_name := "libhmac_sha224_context_free";
  f_ret := (true, R32);
  f_params := [("context", CPtr); ("error", CPtr)];
  f_arrays := [];
  f_locals :=
     [("internal_context", CPtr, ENull)];
  f_body :=
    SIf (EBin OEq (EVar "context") ENull) (
      SExpr (ECall "libcerror_error_set" [(EVar "error"); (EName "LIBCERROR_ERROR_DOMAIN_ARGUMENTS"); (EName "LIBCERROR_ARGUMENT_ERROR_INVALID_VALUE")]) ;-
      SReturn (EInt (-1))) SSkip ;-
    SIf (EBin ONe (EStar "context") ENull) (
      SAssign (EVar "internal_context") (EStar "context") ;-
      SAssign (EStar "context") ENull ;-
      SIf (EBin ONe (ECall "EVP_MD_CTX_cleanup" [(ECall "&->" [(EVar "internal_context"); (EName "internal_evp_md_context")])]) (EInt 1)) (
        SExpr (ECall "libcerror_error_set" [(EVar "error"); (EName "LIBCERROR_ERROR_DOMAIN_RUNTIME"); (EName "LIBCERROR_RUNTIME_ERROR_FINALIZE_FAILED")])) SSkip ;-
      SExpr (ECall "ERR_remove_thread_state" [ENull]) ;-
      SExpr (ECall "->=" [(EVar "internal_context"); (EName "evp_md_context"); ENull]) ;-
      SExpr (ECall "memory_free" [(EVar "internal_context")])) SSkip ;-
    SReturn (EInt 1);
  f_error :=
    SSkip |}.

(* libhmac/libhmac_sha224_context.c:767-830 libhmac_sha224_context_update, inside *)
Definition text_libhmac_sha224_context_update_inside : fundef := {|
  f_name := "libhmac_sha224_context_update";
  f_ret := (true, R32);
  f_params := [("context", CPtr); ("buffer", CPtr); ("size", CInt false RSz); ("error", CPtr)];
  f_arrays := [];
  f_locals :=
     [("internal_context", CPtr, ENull)];
  f_body :=
    SIf (EBin OEq (EVar "context") ENull) (
      SExpr (ECall "libcerror_error_set" [(EVar "error"); (EName "LIBCERROR_ERROR_DOMAIN_ARGUMENTS"); (EName "LIBCERROR_ARGUMENT_ERROR_INVALID_VALUE")]) ;-
      SReturn (EInt (-1))) SSkip ;-
    SAssign (EVar "internal_context") (EVar "context") ;-
    SIf (EBin OEq (EVar "buffer") ENull) (
      SExpr (ECall "libcerror_error_set" [(EVar "error"); (EName "LIBCERROR_ERROR_DOMAIN_ARGUMENTS"); (EName "LIBCERROR_ARGUMENT_ERROR_INVALID_VALUE")]) ;-
      SReturn (EInt (-1))) SSkip ;-
    SIf (EBin OGt (EVar "size") (ECast false RSz ESsizeMax)) (
      SExpr (ECall "libcerror_error_set" [(EVar "error"); (EName "LIBCERROR_ERROR_DOMAIN_ARGUMENTS"); (EName "LIBCERROR_ARGUMENT_ERROR_VALUE_EXCEEDS_MAXIMUM")]) ;-
      SReturn (EInt (-1))) SSkip ;-
    SIf (EBin OEq (EVar "size") (EInt 0)) (
      SReturn (EInt 1)) SSkip ;-
    SIf (EBin ONe (ECall "EVP_DigestUpdate" [(ECall "->" [(EVar "internal_context"); (EName "evp_md_context")]); (EVar "buffer"); (EVar "size")]) (EInt 1)) (
      SExpr (ECall "libcerror_error_set" [(EVar "error"); (EName "LIBCERROR_ERROR_DOMAIN_RUNTIME"); (EName "LIBCERROR_RUNTIME_ERROR_SET_FAILED")]) ;-
      SReturn (EInt (-1))) SSkip ;-
    SReturn (EInt 1);
  f_error :=
    SSkip |}.

(* libhmac/libhmac_sha224_context.c:1089-1152 libhmac_sha224_context_finalize, inside *)
Definition text_libhmac_sha224_context_finalize_inside : fundef := {|
  f_name := "libhmac_sha224_context_finalize";
  f_ret := (true, R32);
  f_params := [("context", CPtr); ("hash", CPtr); ("hash_size", CInt false RSz); ("error", CPtr)];
  f_arrays := [];
  f_locals :=
     [("internal_context", CPtr, ENull);
      ("safe_hash_size", (CInt false R32), (EInt 0))];
  f_body :=
    SIf (EBin OEq (EVar "context") ENull) (
      SExpr (ECall "libcerror_error_set" [(EVar "error"); (EName "LIBCERROR_ERROR_DOMAIN_ARGUMENTS"); (EName "LIBCERROR_ARGUMENT_ERROR_INVALID_VALUE")]) ;-
      SReturn (EInt (-1))) SSkip ;-
    SAssign (EVar "internal_context") (EVar "context") ;-
    SIf (EBin OEq (EVar "hash") ENull) (
      SExpr (ECall "libcerror_error_set" [(EVar "error"); (EName "LIBCERROR_ERROR_DOMAIN_ARGUMENTS"); (EName "LIBCERROR_ARGUMENT_ERROR_INVALID_VALUE")]) ;-
      SReturn (EInt (-1))) SSkip ;-
    SIf (ELogOr (EBin OLt (EVar "hash_size") (ECast false RSz (EInt 28))) (EBin OGt (EVar "hash_size") (ECast false RSz (ECast false R32 (EInt (-1)))))) (
      SExpr (ECall "libcerror_error_set" [(EVar "error"); (EName "LIBCERROR_ERROR_DOMAIN_ARGUMENTS"); (EName "LIBCERROR_ARGUMENT_ERROR_VALUE_OUT_OF_BOUNDS")]) ;-
      SReturn (EInt (-1))) SSkip ;-
    SAssign (EVar "safe_hash_size") (ECast false R32 (EVar "hash_size")) ;-
    SIf (EBin ONe (ECall "EVP_DigestFinal_ex" [(ECall "->" [(EVar "internal_context"); (EName "evp_md_context")]); (EVar "hash"); (ERef "safe_hash_size")]) (EInt 1)) (
      SExpr (ECall "libcerror_error_set" [(EVar "error"); (EName "LIBCERROR_ERROR_DOMAIN_RUNTIME"); (EName "LIBCERROR_RUNTIME_ERROR_FINALIZE_FAILED")]) ;-
      SReturn (EInt (-1))) SSkip ;-
    SReturn (EInt 1);
  f_error :=
    SSkip |}.

(* libhmac/libhmac_sha224_context.c:456-619 libhmac_sha224_context_initialize, inside_ex2 *)
Definition text_libhmac_sha224_context_initialize_inside_ex2 : fundef := {|
  f_name := "libhmac_sha224_context_initialize";
  f_ret := (true, R32);
  f_params := [("context", CPtr); ("error", CPtr)];
  f_arrays := [];
  f_locals :=
     [("internal_context", CPtr, ENull);
      ("evp_md_type", CPtr, ENull)];
  f_body :=
    SIf (EBin OEq (EVar "context") ENull) (
      SExpr (ECall "libcerror_error_set" [(EVar "error"); (EName "LIBCERROR_ERROR_DOMAIN_ARGUMENTS"); (EName "LIBCERROR_ARGUMENT_ERROR_INVALID_VALUE")]) ;-
      SReturn (EInt (-1))) SSkip ;-
    SIf (EBin ONe (EStar "context") ENull) (
      SExpr (ECall "libcerror_error_set" [(EVar "error"); (EName "LIBCERROR_ERROR_DOMAIN_RUNTIME"); (EName "LIBCERROR_RUNTIME_ERROR_VALUE_ALREADY_SET")]) ;-
      SReturn (EInt (-1))) SSkip ;-
    SAssign (EVar "internal_context") (ECall "structure:allocate" [ESizeof "libhmac_internal_sha224_context_t"]) ;-
    SIf (EBin OEq (EVar "internal_context") ENull) (
      SExpr (ECall "libcerror_error_set" [(EVar "error"); (EName "LIBCERROR_ERROR_DOMAIN_MEMORY"); (EName "LIBCERROR_MEMORY_ERROR_INSUFFICIENT")]) ;-
      SGoto) SSkip ;-
    SIf (EBin OEq (ECall "structure:clear" [(EVar "internal_context"); (EInt 0); (ESizeof "libhmac_internal_sha224_context_t")]) ENull) (
      SExpr (ECall "libcerror_error_set" [(EVar "error"); (EName "LIBCERROR_ERROR_DOMAIN_MEMORY"); (EName "LIBCERROR_MEMORY_ERROR_SET_FAILED")]) ;-
      SExpr (ECall "memory_free" [(EVar "internal_context")]) ;-
      SReturn (EInt (-1))) SSkip ;-
    SExpr (ECall "EVP_MD_CTX_init" [(ECall "&->" [(EVar "internal_context"); (EName "internal_evp_md_context")])]) ;-
    SExpr (ECall "->=" [(EVar "internal_context"); (EName "evp_md_context"); (ECall "&->" [(EVar "internal_context"); (EName "internal_evp_md_context")])]) ;-
    SAssign (EVar "evp_md_type") (ECall "EVP_sha224" []) ;-
    SIf (EBin ONe (ECall "EVP_DigestInit_ex2" [(ECall "->" [(EVar "internal_context"); (EName "evp_md_context")]); (EVar "evp_md_type"); ENull]) (EInt 1)) (
      SExpr (ECall "libcerror_error_set" [(EVar "error"); (EName "LIBCERROR_ERROR_DOMAIN_RUNTIME"); (EName "LIBCERROR_RUNTIME_ERROR_INITIALIZE_FAILED")]) ;-
      SExpr (ECall "EVP_MD_CTX_cleanup" [(ECall "&->" [(EVar "internal_context"); (EName "internal_evp_md_context")])]) ;-
      SExpr (ECall "ERR_remove_thread_state" [ENull]) ;-
      SExpr (ECall "->=" [(EVar "internal_context"); (EName "evp_md_context"); ENull]) ;-
      SGoto) SSkip ;-
    SAssign (EStar "context") (EVar "internal_context") ;-
    SReturn (EInt 1);
  f_error :=
    SIf (EBin ONe (EVar "internal_context") ENull) (
      SExpr (ECall "memory_free" [(EVar "internal_context")])) SSkip ;-
    SReturn (EInt (-1)) |}.

(* libhmac/libhmac_sha224_context.c:456-619 libhmac_sha224_context_initialize, outside *)
Definition text_libhmac_sha224_context_initialize_outside : fundef := {|
  f_name := "libhmac_sha224_context_initialize";
  f_ret := (true, R32);
  f_params := [("context", CPtr); ("error", CPtr)];
  f_arrays := [];
  f_locals :=
     [("internal_context", CPtr, ENull);
      ("evp_md_type", CPtr, ENull)];
  f_body :=
    SIf (EBin OEq (EVar "context") ENull) (
      SExpr (ECall "libcerror_error_set" [(EVar "error"); (EName "LIBCERROR_ERROR_DOMAIN_ARGUMENTS"); (EName "LIBCERROR_ARGUMENT_ERROR_INVALID_VALUE")]) ;-
      SReturn (EInt (-1))) SSkip ;-
    SIf (EBin ONe (EStar "context") ENull) (
      SExpr (ECall "libcerror_error_set" [(EVar "error"); (EName "LIBCERROR_ERROR_DOMAIN_RUNTIME"); (EName "LIBCERROR_RUNTIME_ERROR_VALUE_ALREADY_SET")]) ;-
      SReturn (EInt (-1))) SSkip ;-
    SAssign (EVar "internal_context") (ECall "structure:allocate" [ESizeof "libhmac_internal_sha224_context_t"]) ;-
    SIf (EBin OEq (EVar "internal_context") ENull) (
      SExpr (ECall "libcerror_error_set" [(EVar "error"); (EName "LIBCERROR_ERROR_DOMAIN_MEMORY"); (EName "LIBCERROR_MEMORY_ERROR_INSUFFICIENT")]) ;-
      SGoto) SSkip ;-
    SIf (EBin OEq (ECall "structure:clear" [(EVar "internal_context"); (EInt 0); (ESizeof "libhmac_internal_sha224_context_t")]) ENull) (
      SExpr (ECall "libcerror_error_set" [(EVar "error"); (EName "LIBCERROR_ERROR_DOMAIN_MEMORY"); (EName "LIBCERROR_MEMORY_ERROR_SET_FAILED")]) ;-
      SExpr (ECall "memory_free" [(EVar "internal_context")]) ;-
      SReturn (EInt (-1))) SSkip ;-
    SExpr (ECall "->=" [(EVar "internal_context"); (EName "evp_md_context"); (ECall "EVP_MD_CTX_new" [])]) ;-
    SIf (EBin OEq (ECall "->" [(EVar "internal_context"); (EName "evp_md_context")]) ENull) (
      SExpr (ECall "libcerror_error_set" [(EVar "error"); (EName "LIBCERROR_ERROR_DOMAIN_RUNTIME"); (EName "LIBCERROR_RUNTIME_ERROR_INITIALIZE_FAILED")]) ;-
      SGoto) SSkip ;-
    SAssign (EVar "evp_md_type") (ECall "EVP_sha224" []) ;-
    SIf (EBin ONe (ECall "EVP_DigestInit_ex" [(ECall "->" [(EVar "internal_context"); (EName "evp_md_context")]); (EVar "evp_md_type"); ENull]) (EInt 1)) (
      SExpr (ECall "libcerror_error_set" [(EVar "error"); (EName "LIBCERROR_ERROR_DOMAIN_RUNTIME"); (EName "LIBCERROR_RUNTIME_ERROR_INITIALIZE_FAILED")]) ;-
      SExpr (ECall "EVP_MD_CTX_free" [(ECall "->" [(EVar "internal_context"); (EName "evp_md_context")])]) ;-
      SExpr (ECall "->=" [(EVar "internal_context"); (EName "evp_md_context"); ENull]) ;-
      SGoto) SSkip ;-
    SAssign (EStar "context") (EVar "internal_context") ;-
    SReturn (EInt 1);
  f_error :=
    SIf (EBin ONe (EVar "internal_context") ENull) (
      SExpr (ECall "memory_free" [(EVar "internal_context")])) SSkip ;-
    SReturn (EInt (-1)) |}.

(* libhmac/libhmac_sha224_context.c:624-683 libhmac_sha224_context_free, outside *)
Definition text_libhmac_sha224_context_free_outside : fundef := {|
  f_name := "libhmac_sha224_context_free";
  f_ret := (true, R32);
  f_params := [("context", CPtr); ("error", CPtr)];
  f_arrays := [];
  f_locals :=
     [("internal_context", CPtr, ENull)];
  f_body :=
    SIf (EBin OEq (EVar "context") ENull) (
      SExpr (ECall "libcerror_error_set" [(EVar "error"); (EName "LIBCERROR_ERROR_DOMAIN_ARGUMENTS"); (EName "LIBCERROR_ARGUMENT_ERROR_INVALID_VALUE")]) ;-
      SReturn (EInt (-1))) SSkip ;-
    SIf (EBin ONe (EStar "context") ENull) (
      SAssign (EVar "internal_context") (EStar "context") ;-
      SAssign (EStar "context") ENull ;-
      SExpr (ECall "EVP_MD_CTX_free" [(ECall "->" [(EVar "internal_context"); (EName "evp_md_context")])]) ;-
      SExpr (ECall "->=" [(EVar "internal_context"); (EName "evp_md_context"); ENull]) ;-
      SExpr (ECall "memory_free" [(EVar "internal_context")])) SSkip ;-
    SReturn (EInt 1);
  f_error :=
    SSkip |}.

(* libhmac/libhmac_sha224_context.c:456-619 libhmac_sha224_context_initialize, outside_ex2 *)
Definition text_libhmac_sha224_context_initialize_outside_ex2 : fundef := {|
  f_name := "libhmac_sha224_context_initialize";
  f_ret := (true, R32);
  f_params := [("context", CPtr); ("error", CPtr)];
  f_arrays := [];
  f_locals :=
     [("internal_context", CPtr, ENull);
      ("evp_md_type", CPtr, ENull)];
  f_body :=
    SIf (EBin OEq (EVar "context") ENull) (
      SExpr (ECall "libcerror_error_set" [(EVar "error"); (EName "LIBCERROR_ERROR_DOMAIN_ARGUMENTS"); (EName "LIBCERROR_ARGUMENT_ERROR_INVALID_VALUE")]) ;-
      SReturn (EInt (-1))) SSkip ;-
    SIf (EBin ONe (EStar "context") ENull) (
      SExpr (ECall "libcerror_error_set" [(EVar "error"); (EName "LIBCERROR_ERROR_DOMAIN_RUNTIME"); (EName "LIBCERROR_RUNTIME_ERROR_VALUE_ALREADY_SET")]) ;-
      SReturn (EInt (-1))) SSkip ;-
    SAssign (EVar "internal_context") (ECall "structure:allocate" [ESizeof "libhmac_internal_sha224_context_t"]) ;-
    SIf (EBin OEq (EVar "internal_context") ENull) (
      SExpr (ECall "libcerror_error_set" [(EVar "error"); (EName "LIBCERROR_ERROR_DOMAIN_MEMORY"); (EName "LIBCERROR_MEMORY_ERROR_INSUFFICIENT")]) ;-
      SGoto) SSkip ;-
    SIf (EBin OEq (ECall "structure:clear" [(EVar "internal_context"); (EInt 0); (ESizeof "libhmac_internal_sha224_context_t")]) ENull) (
      SExpr (ECall "libcerror_error_set" [(EVar "error"); (EName "LIBCERROR_ERROR_DOMAIN_MEMORY"); (EName "LIBCERROR_MEMORY_ERROR_SET_FAILED")]) ;-
      SExpr (ECall "memory_free" [(EVar "internal_context")]) ;-
      SReturn (EInt (-1))) SSkip ;-
    SExpr (ECall "->=" [(EVar "internal_context"); (EName "evp_md_context"); (ECall "EVP_MD_CTX_new" [])]) ;-
    SIf (EBin OEq (ECall "->" [(EVar "internal_context"); (EName "evp_md_context")]) ENull) (
      SExpr (ECall "libcerror_error_set" [(EVar "error"); (EName "LIBCERROR_ERROR_DOMAIN_RUNTIME"); (EName "LIBCERROR_RUNTIME_ERROR_INITIALIZE_FAILED")]) ;-
      SGoto) SSkip ;-
    SAssign (EVar "evp_md_type") (ECall "EVP_sha224" []) ;-
    SIf (EBin ONe (ECall "EVP_DigestInit_ex2" [(ECall "->" [(EVar "internal_context"); (EName "evp_md_context")]); (EVar "evp_md_type"); ENull]) (EInt 1)) (
      SExpr (ECall "libcerror_error_set" [(EVar "error"); (EName "LIBCERROR_ERROR_DOMAIN_RUNTIME"); (EName "LIBCERROR_RUNTIME_ERROR_INITIALIZE_FAILED")]) ;-
      SExpr (ECall "EVP_MD_CTX_free" [(ECall "->" [(EVar "internal_context"); (EName "evp_md_context")])]) ;-
      SExpr (ECall "->=" [(EVar "internal_context"); (EName "evp_md_context"); ENull]) ;-
      SGoto) SSkip ;-
    SAssign (EStar "context") (EVar "internal_context") ;-
    SReturn (EInt 1);
  f_error :=
    SIf (EBin ONe (EVar "internal_context") ENull) (
      SExpr (ECall "memory_free" [(EVar "internal_context")])) SSkip ;-
    SReturn (EInt (-1)) |}.

(* libhmac/libhmac_sha256_context.c:456-619 libhmac_sha256_context_initialize, legacy *)
Definition text_libhmac_sha256_context_initialize_legacy : fundef := {|
  f_name := "libhmac_sha256_context_initialize";
  f_ret := (true, R32);
  f_params := [("context", CPtr); ("error", CPtr)];
  f_arrays := [];
  f_locals :=
     [("internal_context", CPtr, ENull)];
  f_body :=
    SIf (EBin OEq (EVar "context") ENull) (
      SExpr (ECall "libcerror_error_set" [(EVar "error"); (EName "LIBCERROR_ERROR_DOMAIN_ARGUMENTS"); (EName "LIBCERROR_ARGUMENT_ERROR_INVALID_VALUE")]) ;-
      SReturn (EInt (-1))) SSkip ;-
    SIf (EBin ONe (EStar "context") ENull) (
      SExpr (ECall "libcerror_error_set" [(EVar "error"); (EName "LIBCERROR_ERROR_DOMAIN_RUNTIME"); (EName "LIBCERROR_RUNTIME_ERROR_VALUE_ALREADY_SET")]) ;-
      SReturn (EInt (-1))) SSkip ;-
    SAssign (EVar "internal_context") (ECall "structure:allocate" [ESizeof "libhmac_internal_sha256_context_t"]) ;-
    SIf (EBin OEq (EVar "internal_context") ENull) (
      SExpr (ECall "libcerror_error_set" [(EVar "error"); (EName "LIBCERROR_ERROR_DOMAIN_MEMORY"); (EName "LIBCERROR_MEMORY_ERROR_INSUFFICIENT")]) ;-
      SGoto) SSkip ;-
    SIf (EBin OEq (ECall "structure:clear" [(EVar "internal_context"); (EInt 0); (ESizeof "libhmac_internal_sha256_context_t")]) ENull) (
      SExpr (ECall "libcerror_error_set" [(EVar "error"); (EName "LIBCERROR_ERROR_DOMAIN_MEMORY"); (EName "LIBCERROR_MEMORY_ERROR_SET_FAILED")]) ;-
      SExpr (ECall "memory_free" [(EVar "internal_context")]) ;-
      SReturn (EInt (-1))) SSkip ;-
    SIf (EBin ONe (ECall "SHA256_Init" [(ECall "&->" [(EVar "internal_context"); (EName "sha256_context")])]) (EInt 1)) (
      SExpr (ECall "libcerror_error_set" [(EVar "error"); (EName "LIBCERROR_ERROR_DOMAIN_RUNTIME"); (EName "LIBCERROR_RUNTIME_ERROR_INITIALIZE_FAILED")]) ;-
      SGoto) SSkip ;-
    SAssign (EStar "context") (EVar "internal_context") ;-
    SReturn (EInt 1);
  f_error :=
    SIf (EBin ONe (EVar "internal_context") ENull) (
      SExpr (ECall "memory_free" [(EVar "internal_context")])) SSkip ;-
    SReturn (EInt (-1)) |}.

(* libhmac/libhmac_sha256_context.c:624-683 libhmac_sha256_context_free, legacy *)
Definition text_libhmac_sha256_context_free_legacy : fundef := {|
  f_name := "libhmac_sha256_context_free";
  f_ret := (true, R32);
  f_params := [("context", CPtr); ("error", CPtr)];
  f_arrays := [];
  f_locals :=
     [("internal_context", CPtr, ENull)];
  f_body :=
    SIf (EBin OEq (EVar "context") ENull) (
      SExpr (ECall "libcerror_error_set" [(EVar "error"); (EName "LIBCERROR_ERROR_DOMAIN_ARGUMENTS"); (EName "LIBCERROR_ARGUMENT_ERROR_INVALID_VALUE")]) ;-
      SReturn (EInt (-1))) SSkip ;-
    SIf (EBin ONe (EStar "context") ENull) (
      SAssign (EVar "internal_context") (EStar "context") ;-
      SAssign (EStar "context") ENull ;-
      SExpr (ECall "memory_free" [(EVar "internal_context")])) SSkip ;-
    SReturn (EInt 1);
  f_error :=
    SSkip |}.

(* libhmac/libhmac_sha256_context.c:690-760 libhmac_sha256_context_update, legacy *)
Definition text_libhmac_sha256_context_update_legacy : fundef := {|
  f_name := "libhmac_sha256_context_update";
  f_ret := (true, R32);
  f_params := [("context", CPtr); ("buffer", CPtr); ("size", CInt false RSz); ("error", CPtr)];
  f_arrays := [];
  f_locals :=
     [("internal_context", CPtr, ENull);
      ("safe_hash_size", (CInt false RSz), (EInt 0))];
  f_body :=
    SIf (EBin OEq (EVar "context") ENull) (
      SExpr (ECall "libcerror_error_set" [(EVar "error"); (EName "LIBCERROR_ERROR_DOMAIN_ARGUMENTS"); (EName "LIBCERROR_ARGUMENT_ERROR_INVALID_VALUE")]) ;-
      SReturn (EInt (-1))) SSkip ;-
    SAssign (EVar "internal_context") (EVar "context") ;-
    SIf (EBin OEq (EVar "buffer") ENull) (
      SExpr (ECall "libcerror_error_set" [(EVar "error"); (EName "LIBCERROR_ERROR_DOMAIN_ARGUMENTS"); (EName "LIBCERROR_ARGUMENT_ERROR_INVALID_VALUE")]) ;-
      SReturn (EInt (-1))) SSkip ;-
    SIf (EBin OGt (EVar "size") (ECast false RSz ESsizeMax)) (
      SExpr (ECall "libcerror_error_set" [(EVar "error"); (EName "LIBCERROR_ERROR_DOMAIN_ARGUMENTS"); (EName "LIBCERROR_ARGUMENT_ERROR_VALUE_EXCEEDS_MAXIMUM")]) ;-
      SReturn (EInt (-1))) SSkip ;-
    SIf (EBin OEq (EVar "size") (EInt 0)) (
      SReturn (EInt 1)) SSkip ;-
    SAssign (EVar "safe_hash_size") (ECast false RSz (EVar "size")) ;-
    SIf (EBin ONe (ECall "SHA256_Update" [(ECall "&->" [(EVar "internal_context"); (EName "sha256_context")]); (EVar "buffer"); (EVar "size")]) (EInt 1)) (
      SExpr (ECall "libcerror_error_set" [(EVar "error"); (EName "LIBCERROR_ERROR_DOMAIN_RUNTIME"); (EName "LIBCERROR_RUNTIME_ERROR_SET_FAILED")]) ;-
      SReturn (EInt (-1))) SSkip ;-
    SReturn (EInt 1);
  f_error :=
    SSkip |}.

(* libhmac/libhmac_sha256_context.c:1013-1082 libhmac_sha256_context_finalize, legacy *)
Definition text_libhmac_sha256_context_finalize_legacy : fundef := {|
  f_name := "libhmac_sha256_context_finalize";
  f_ret := (true, R32);
  f_params := [("context", CPtr); ("hash", CPtr); ("hash_size", CInt false RSz); ("error", CPtr)];
  f_arrays := [];
  f_locals :=
     [("internal_context", CPtr, ENull)];
  f_body :=
    SIf (EBin OEq (EVar "context") ENull) (
      SExpr (ECall "libcerror_error_set" [(EVar "error"); (EName "LIBCERROR_ERROR_DOMAIN_ARGUMENTS"); (EName "LIBCERROR_ARGUMENT_ERROR_INVALID_VALUE")]) ;-
      SReturn (EInt (-1))) SSkip ;-
    SAssign (EVar "internal_context") (EVar "context") ;-
    SIf (EBin OEq (EVar "hash") ENull) (
      SExpr (ECall "libcerror_error_set" [(EVar "error"); (EName "LIBCERROR_ERROR_DOMAIN_ARGUMENTS"); (EName "LIBCERROR_ARGUMENT_ERROR_INVALID_VALUE")]) ;-
      SReturn (EInt (-1))) SSkip ;-
    SIf (EBin OGt (EVar "hash_size") (ECast false RSz ESsizeMax)) (
      SExpr (ECall "libcerror_error_set" [(EVar "error"); (EName "LIBCERROR_ERROR_DOMAIN_ARGUMENTS"); (EName "LIBCERROR_ARGUMENT_ERROR_VALUE_EXCEEDS_MAXIMUM")]) ;-
      SReturn (EInt (-1))) SSkip ;-
    SIf (EBin OLt (EVar "hash_size") (ECast false RSz (EInt 32))) (
      SExpr (ECall "libcerror_error_set" [(EVar "error"); (EName "LIBCERROR_ERROR_DOMAIN_ARGUMENTS"); (EName "LIBCERROR_ARGUMENT_ERROR_VALUE_TOO_SMALL")]) ;-
      SReturn (EInt (-1))) SSkip ;-
    SIf (EBin ONe (ECall "SHA256_Final" [(EVar "hash"); (ECall "&->" [(EVar "internal_context"); (EName "sha256_context")])]) (EInt 1)) (
      SExpr (ECall "libcerror_error_set" [(EVar "error"); (EName "LIBCERROR_ERROR_DOMAIN_RUNTIME"); (EName "LIBCERROR_RUNTIME_ERROR_FINALIZE_FAILED")]) ;-
      SReturn (EInt (-1))) SSkip ;-
    SReturn (EInt 1);
  f_error :=
    SSkip |}.

(* libhmac/libhmac_sha256_context.c:690-760 libhmac_sha256_context_update, legacy_long *)
Definition text_libhmac_sha256_context_update_legacy_long : fundef := {|
  f_name := "libhmac_sha256_context_update";
  f_ret := (true, R32);
  f_params := [("context", CPtr); ("buffer", CPtr); ("size", CInt false RSz); ("error", CPtr)];
  f_arrays := [];
  f_locals :=
     [("internal_context", CPtr, ENull);
      ("safe_hash_size", (CInt false R32), (EInt 0))];
  f_body :=
    SIf (EBin OEq (EVar "context") ENull) (
      SExpr (ECall "libcerror_error_set" [(EVar "error"); (EName "LIBCERROR_ERROR_DOMAIN_ARGUMENTS"); (EName "LIBCERROR_ARGUMENT_ERROR_INVALID_VALUE")]) ;-
      SReturn (EInt (-1))) SSkip ;-
    SAssign (EVar "internal_context") (EVar "context") ;-
    SIf (EBin OEq (EVar "buffer") ENull) (
      SExpr (ECall "libcerror_error_set" [(EVar "error"); (EName "LIBCERROR_ERROR_DOMAIN_ARGUMENTS"); (EName "LIBCERROR_ARGUMENT_ERROR_INVALID_VALUE")]) ;-
      SReturn (EInt (-1))) SSkip ;-
    SIf (EBin OGt (EVar "size") (ECast false RSz (ECast false R32 (EInt (-1))))) (
      SExpr (ECall "libcerror_error_set" [(EVar "error"); (EName "LIBCERROR_ERROR_DOMAIN_ARGUMENTS"); (EName "LIBCERROR_ARGUMENT_ERROR_VALUE_EXCEEDS_MAXIMUM")]) ;-
      SReturn (EInt (-1))) SSkip ;-
    SIf (EBin OEq (EVar "size") (EInt 0)) (
      SReturn (EInt 1)) SSkip ;-
    SAssign (EVar "safe_hash_size") (ECast false R32 (EVar "size")) ;-
    SIf (EBin ONe (ECall "SHA256_Update" [(ECall "&->" [(EVar "internal_context"); (EName "sha256_context")]); (EVar "buffer"); (EVar "size")]) (EInt 1)) (
      SExpr (ECall "libcerror_error_set" [(EVar "error"); (EName "LIBCERROR_ERROR_DOMAIN_RUNTIME"); (EName "LIBCERROR_RUNTIME_ERROR_SET_FAILED")]) ;-
      SReturn (EInt (-1))) SSkip ;-
    SReturn (EInt 1);
  f_error :=
    SSkip |}.

(* libhmac/libhmac_sha256_context.c:456-619 libhmac_sha256_context_initialize, inside *)
Definition text_libhmac_sha256_context_initialize_inside : fundef := {|
  f_name := "libhmac_sha256_context_initialize";
  f_ret := (true, R32);
  f_params := [("context", CPtr); ("error", CPtr)];
  f_arrays := [];
  f_locals :=
     [("internal_context", CPtr, ENull);
      ("evp_md_type", CPtr, ENull)];
  f_body :=
    SIf (EBin OEq (EVar "context") ENull) (
      SExpr (ECall "libcerror_error_set" [(EVar "error"); (EName "LIBCERROR_ERROR_DOMAIN_ARGUMENTS"); (EName "LIBCERROR_ARGUMENT_ERROR_INVALID_VALUE")]) ;-
      SReturn (EInt (-1))) SSkip ;-
    SIf (EBin ONe (EStar "context") ENull) (
      SExpr (ECall "libcerror_error_set" [(EVar "error"); (EName "LIBCERROR_ERROR_DOMAIN_RUNTIME"); (EName "LIBCERROR_RUNTIME_ERROR_VALUE_ALREADY_SET")]) ;-
      SReturn (EInt (-1))) SSkip ;-
    SAssign (EVar "internal_context") (ECall "structure:allocate" [ESizeof "libhmac_internal_sha256_context_t"]) ;-
    SIf (EBin OEq (EVar "internal_context") ENull) (
      SExpr (ECall "libcerror_error_set" [(EVar "error"); (EName "LIBCERROR_ERROR_DOMAIN_MEMORY"); (EName "LIBCERROR_MEMORY_ERROR_INSUFFICIENT")]) ;-
      SGoto) SSkip ;-
    SIf (EBin OEq (ECall "structure:clear" [(EVar "internal_context"); (EInt 0); (ESizeof "libhmac_internal_sha256_context_t")]) ENull) (
      SExpr (ECall "libcerror_error_set" [(EVar "error"); (EName "LIBCERROR_ERROR_DOMAIN_MEMORY"); (EName "LIBCERROR_MEMORY_ERROR_SET_FAILED")]) ;-
      SExpr (ECall "memory_free" [(EVar "internal_context")]) ;-
      SReturn (EInt (-1))) SSkip ;-
    SExpr (ECall "EVP_MD_CTX_init" [(ECall "&->" [(EVar "internal_context"); (EName "internal_evp_md_context")])]) ;-
    SExpr (ECall "->=" [(EVar "internal_context"); (EName "evp_md_context"); (ECall "&->" [(EVar "internal_context"); (EName "internal_evp_md_context")])]) ;-
    SAssign (EVar "evp_md_type") (ECall "EVP_sha256" []) ;-
    SIf (EBin ONe (ECall "EVP_DigestInit_ex" [(ECall "->" [(EVar "internal_context"); (EName "evp_md_context")]); (EVar "evp_md_type"); ENull]) (EInt 1)) (
      SExpr (ECall "libcerror_error_set" [(EVar "error"); (EName "LIBCERROR_ERROR_DOMAIN_RUNTIME"); (EName "LIBCERROR_RUNTIME_ERROR_INITIALIZE_FAILED")]) ;-
      SExpr (ECall "EVP_MD_CTX_cleanup" [(ECall "&->" [(EVar "internal_context"); (EName "internal_evp_md_context")])]) ;-
      SExpr (ECall "ERR_remove_thread_state" [ENull]) ;-
      SExpr (ECall "->=" [(EVar "internal_context"); (EName "evp_md_context"); ENull]) ;-
      SGoto) SSkip ;-
    SAssign (EStar "context") (EVar "internal_context") ;-
    SReturn (EInt 1);
  f_error :=
    SIf (EBin ONe (EVar "internal_context") ENull) (
      SExpr (ECall "memory_free" [(EVar "internal_context")])) SSkip ;-
    SReturn (EInt (-1)) |}.

(* libhmac/libhmac_sha256_context.c:624-683 libhmac_sha256_context_free, inside *)
Definition text_libhmac_sha256_context_free_inside : fundef := {|
  f_name := "libhmac_sha256_context_free";
  f_ret := (true, R32);
  f_params := [("context", CPtr); ("error", CPtr)];
  f_arrays := [];
  f_locals :=
     [("internal_context", CPtr, ENull)];
  f_body :=
    SIf (EBin OEq (EVar "context") ENull) (
      SExpr (ECall "libcerror_error_set" [(EVar "error"); (EName "LIBCERROR_ERROR_DOMAIN_ARGUMENTS"); (EName "LIBCERROR_ARGUMENT_ERROR_INVALID_VALUE")]) ;-
      SReturn (EInt (-1))) SSkip ;-
    SIf (EBin ONe (EStar "context") ENull) (
      SAssign (EVar "internal_context") (EStar "context") ;-
      SAssign (EStar "context") ENull ;-
      SIf (EBin ONe (ECall "EVP_MD_CTX_cleanup" [(ECall "&->" [(EVar "internal_context"); (EName "internal_evp_md_context")])]) (EInt 1)) (
        SExpr (ECall "libcerror_error_set" [(EVar "error"); (EName "LIBCERROR_ERROR_DOMAIN_RUNTIME"); (EName "LIBCERROR_RUNTIME_ERROR_FINALIZE_FAILED")])) SSkip ;-
      SExpr (ECall "ERR_remove_thread_state" [ENull]) ;-
      SExpr (ECall "->=" [(EVar "internal_context"); (EName "evp_md_context"); ENull]) ;-
      SExpr (ECall "memory_free" [(EVar "internal_context")])) SSkip ;-
    SReturn (EInt 1);
  f_error :=
    SSkip |}.

(* libhmac/libhmac_sha256_context.c:767-830 libhmac_sha256_context_update, inside *)
Definition text_libhmac_sha256_context_update_inside : fundef := {|
  f_name := "libhmac_sha256_context_update";
  f_ret := (true, R32);
  f_params := [("context", CPtr); ("buffer", CPtr); ("size", CInt false RSz); ("error", CPtr)];
  f_arrays := [];
  f_locals :=
     [("internal_context", CPtr, ENull)];
  f_body :=
    SIf (EBin OEq (EVar "context") ENull) (
      SExpr (ECall "libcerror_error_set" [(EVar "error"); (EName "LIBCERROR_ERROR_DOMAIN_ARGUMENTS"); (EName "LIBCERROR_ARGUMENT_ERROR_INVALID_VALUE")]) ;-
      SReturn (EInt (-1))) SSkip ;-
    SAssign (EVar "internal_context") (EVar "context") ;-
    SIf (EBin OEq (EVar "buffer") ENull) (
      SExpr (ECall "libcerror_error_set" [(EVar "error"); (EName "LIBCERROR_ERROR_DOMAIN_ARGUMENTS"); (EName "LIBCERROR_ARGUMENT_ERROR_INVALID_VALUE")]) ;-
      SReturn (EInt (-1))) SSkip ;-
    SIf (EBin OGt (EVar "size") (ECast false RSz ESsizeMax)) (
      SExpr (ECall "libcerror_error_set" [(EVar "error"); (EName "LIBCERROR_ERROR_DOMAIN_ARGUMENTS"); (EName "LIBCERROR_ARGUMENT_ERROR_VALUE_EXCEEDS_MAXIMUM")]) ;-
      SReturn (EInt (-1))) SSkip ;-
    SIf (EBin OEq (EVar "size") (EInt 0)) (
      SReturn (EInt 1)) SSkip ;-
    SIf (EBin ONe (ECall "EVP_DigestUpdate" [(ECall "->" [(EVar "internal_context"); (EName "evp_md_context")]); (EVar "buffer"); (EVar "size")]) (EInt 1)) (
      SExpr (ECall "libcerror_error_set" [(EVar "error"); (EName "LIBCERROR_ERROR_DOMAIN_RUNTIME"); (EName "LIBCERROR_RUNTIME_ERROR_SET_FAILED")]) ;-
      SReturn (EInt (-1))) SSkip ;-
    SReturn (EInt 1);
  f_error :=
    SSkip |}.

(* libhmac/libhmac_sha256_context.c:1089-1152 libhmac_sha256_context_finalize, inside *)
Definition text_libhmac_sha256_context_finalize_inside : fundef := {|
  f_name := "libhmac_sha256_context_finalize";
  f_ret := (true, R32);
  f_params := [("context", CPtr); ("hash", CPtr); ("hash_size", CInt false RSz); ("error", CPtr)];
  f_arrays := [];
  f_locals :=
     [("internal_context", CPtr, ENull);
      ("safe_hash_size", (CInt false R32), (EInt 0))];
  f_body :=
    SIf (EBin OEq (EVar "context") ENull) (
      SExpr (ECall "libcerror_error_set" [(EVar "error"); (EName "LIBCERROR_ERROR_DOMAIN_ARGUMENTS"); (EName "LIBCERROR_ARGUMENT_ERROR_INVALID_VALUE")]) ;-
      SReturn (EInt (-1))) SSkip ;-
    SAssign (EVar "internal_context") (EVar "context") ;-
    SIf (EBin OEq (EVar "hash") ENull) (
      SExpr (ECall "libcerror_error_set" [(EVar "error"); (EName "LIBCERROR_ERROR_DOMAIN_ARGUMENTS"); (EName "LIBCERROR_ARGUMENT_ERROR_INVALID_VALUE")]) ;-
      SReturn (EInt (-1))) SSkip ;-
    SIf (ELogOr (EBin OLt (EVar "hash_size") (ECast false RSz (EInt 32))) (EBin OGt (EVar "hash_size") (ECast false RSz (ECast false R32 (EInt (-1)))))) (
      SExpr (ECall "libcerror_error_set" [(EVar "error"); (EName "LIBCERROR_ERROR_DOMAIN_ARGUMENTS"); (EName "LIBCERROR_ARGUMENT_ERROR_VALUE_OUT_OF_BOUNDS")]) ;-
      SReturn (EInt (-1))) SSkip ;-
    SAssign (EVar "safe_hash_size") (ECast false R32 (EVar "hash_size")) ;-
    SIf (EBin ONe (ECall "EVP_DigestFinal_ex" [(ECall "->" [(EVar "internal_context"); (EName "evp_md_context")]); (EVar "hash"); (ERef "safe_hash_size")]) (EInt 1)) (
      SExpr (ECall "libcerror_error_set" [(EVar "error"); (EName "LIBCERROR_ERROR_DOMAIN_RUNTIME"); (EName "LIBCERROR_RUNTIME_ERROR_FINALIZE_FAILED")]) ;-
      SReturn (EInt (-1))) SSkip ;-
    SReturn (EInt 1);
  f_error :=
    SSkip |}.

(* libhmac/libhmac_sha256_context.c:456-619 libhmac_sha256_context_initialize, inside_ex2 *)
Definition text_libhmac_sha256_context_initialize_inside_ex2 : fundef := {|
  f_name := "libhmac_sha256_context_initialize";
  f_ret := (true, R32);
  f_params := [("context", CPtr); ("error", CPtr)];
  f_arrays := [];
  f_locals :=
     [("internal_context", CPtr, ENull);
      ("evp_md_type", CPtr, ENull)];
  f_body :=
    SIf (EBin OEq (EVar "context") ENull) (
      SExpr (ECall "libcerror_error_set" [(EVar "error"); (EName "LIBCERROR_ERROR_DOMAIN_ARGUMENTS"); (EName "LIBCERROR_ARGUMENT_ERROR_INVALID_VALUE")]) ;-
      SReturn (EInt (-1))) SSkip ;-
    SIf (EBin ONe (EStar "context") ENull) (
      SExpr (ECall "libcerror_error_set" [(EVar "error"); (EName "LIBCERROR_ERROR_DOMAIN_RUNTIME"); (EName "LIBCERROR_RUNTIME_ERROR_VALUE_ALREADY_SET")]) ;-
      SReturn (EInt (-1))) SSkip ;-
    SAssign (EVar "internal_context") (ECall "structure:allocate" [ESizeof "libhmac_internal_sha256_context_t"]) ;-
    SIf (EBin OEq (EVar "internal_context") ENull) (
      SExpr (ECall "libcerror_error_set" [(EVar "error"); (EName "LIBCERROR_ERROR_DOMAIN_MEMORY"); (EName "LIBCERROR_MEMORY_ERROR_INSUFFICIENT")]) ;-
      SGoto) SSkip ;-
    SIf (EBin OEq (ECall "structure:clear" [(EVar "internal_context"); (EInt 0); (ESizeof "libhmac_internal_sha256_context_t")]) ENull) (
      SExpr (ECall "libcerror_error_set" [(EVar "error"); (EName "LIBCERROR_ERROR_DOMAIN_MEMORY"); (EName "LIBCERROR_MEMORY_ERROR_SET_FAILED")]) ;-
      SExpr (ECall "memory_free" [(EVar "internal_context")]) ;-
      SReturn (EInt (-1))) SSkip ;-
    SExpr (ECall "EVP_MD_CTX_init" [(ECall "&->" [(EVar "internal_context"); (EName "internal_evp_md_context")])]) ;-
    SExpr (ECall "->=" [(EVar "internal_context"); (EName "evp_md_context"); (ECall "&->" [(EVar "internal_context"); (EName "internal_evp_md_context")])]) ;-
    SAssign (EVar "evp_md_type") (ECall "EVP_sha256" []) ;-
    SIf (EBin ONe (ECall "EVP_DigestInit_ex2" [(ECall "->" [(EVar "internal_context"); (EName "evp_md_context")]); (EVar "evp_md_type"); ENull]) (EInt 1)) (
      SExpr (ECall "libcerror_error_set" [(EVar "error"); (EName "LIBCERROR_ERROR_DOMAIN_RUNTIME"); (EName "LIBCERROR_RUNTIME_ERROR_INITIALIZE_FAILED")]) ;-
      SExpr (ECall "EVP_MD_CTX_cleanup" [(ECall "&->" [(EVar "internal_context"); (EName "internal_evp_md_context")])]) ;-
      SExpr (ECall "ERR_remove_thread_state" [ENull]) ;-
      SExpr (ECall "->=" [(EVar "internal_context"); (EName "evp_md_context"); ENull]) ;-
      SGoto) SSkip ;-
    SAssign (EStar "context") (EVar "internal_context") ;-
    SReturn (EInt 1);
  f_error :=
    SIf (EBin ONe (EVar "internal_context") ENull) (
      SExpr (ECall "memory_free" [(EVar "internal_context")])) SSkip ;-
    SReturn (EInt (-1)) |}.

(* libhmac/libhmac_sha256_context.c:456-619 libhmac_sha256_context_initialize, outside *)
Definition text_libhmac_sha256_context_initialize_outside : fundef := {|
  f_name := "libhmac_sha256_context_initialize";
  f_ret := (true, R32);
  f_params := [("context", CPtr); ("error", CPtr)];
  f_arrays := [];
  f_locals :=
     [("internal_context", CPtr, ENull);
      ("evp_md_type", CPtr, ENull)];
  f_body :=
    SIf (EBin OEq (EVar "context") ENull) (
      SExpr (ECall "libcerror_error_set" [(EVar "error"); (EName "LIBCERROR_ERROR_DOMAIN_ARGUMENTS"); (EName "LIBCERROR_ARGUMENT_ERROR_INVALID_VALUE")]) ;-
      SReturn (EInt (-1))) SSkip ;-
    SIf (EBin ONe (EStar "context") ENull) (
      SExpr (ECall "libcerror_error_set" [(EVar "error"); (EName "LIBCERROR_ERROR_DOMAIN_RUNTIME"); (EName "LIBCERROR_RUNTIME_ERROR_VALUE_ALREADY_SET")]) ;-
      SReturn (EInt (-1))) SSkip ;-
    SAssign (EVar "internal_context") (ECall "structure:allocate" [ESizeof "libhmac_internal_sha256_context_t"]) ;-
    SIf (EBin OEq (EVar "internal_context") ENull) (
      SExpr (ECall "libcerror_error_set" [(EVar "error"); (EName "LIBCERROR_ERROR_DOMAIN_MEMORY"); (EName "LIBCERROR_MEMORY_ERROR_INSUFFICIENT")]) ;-
      SGoto) SSkip ;-
    SIf (EBin OEq (ECall "structure:clear" [(EVar "internal_context"); (EInt 0); (ESizeof "libhmac_internal_sha256_context_t")]) ENull) (
      SExpr (ECall "libcerror_error_set" [(EVar "error"); (EName "LIBCERROR_ERROR_DOMAIN_MEMORY"); (EName "LIBCERROR_MEMORY_ERROR_SET_FAILED")]) ;-
      SExpr (ECall "memory_free" [(EVar "internal_context")]) ;-
      SReturn (EInt (-1))) SSkip ;-
    SExpr (ECall "->=" [(EVar "internal_context"); (EName "evp_md_context"); (ECall "EVP_MD_CTX_new" [])]) ;-
    SIf (EBin OEq (ECall "->" [(EVar "internal_context"); (EName "evp_md_context")]) ENull) (
      SExpr (ECall "libcerror_error_set" [(EVar "error"); (EName "LIBCERROR_ERROR_DOMAIN_RUNTIME"); (EName "LIBCERROR_RUNTIME_ERROR_INITIALIZE_FAILED")]) ;-
      SGoto) SSkip ;-
    SAssign (EVar "evp_md_type") (ECall "EVP_sha256" []) ;-
    SIf (EBin ONe (ECall "EVP_DigestInit_ex" [(ECall "->" [(EVar "internal_context"); (EName "evp_md_context")]); (EVar "evp_md_type"); ENull]) (EInt 1)) (
      SExpr (ECall "libcerror_error_set" [(EVar "error"); (EName "LIBCERROR_ERROR_DOMAIN_RUNTIME"); (EName "LIBCERROR_RUNTIME_ERROR_INITIALIZE_FAILED")]) ;-
      SExpr (ECall "EVP_MD_CTX_free" [(ECall "->" [(EVar "internal_context"); (EName "evp_md_context")])]) ;-
      SExpr (ECall "->=" [(EVar "internal_context"); (EName "evp_md_context"); ENull]) ;-
      SGoto) SSkip ;-
    SAssign (EStar "context") (EVar "internal_context") ;-
    SReturn (EInt 1);
  f_error :=
    SIf (EBin ONe (EVar "internal_context") ENull) (
      SExpr (ECall "memory_free" [(EVar "internal_context")])) SSkip ;-
    SReturn (EInt (-1)) |}.

(* libhmac/libhmac_sha256_context.c:624-683 libhmac_sha256_context_free, outside *)
Definition text_libhmac_sha256_context_free_outside : fundef := {|
  f_name := "libhmac_sha256_context_free";
  f_ret := (true, R32);
  f_params := [("context", CPtr); ("error", CPtr)];
  f_arrays := [];
  f_locals :=
     [("internal_context", CPtr, ENull)];
  f_body :=
    SIf (EBin OEq (EVar "context") ENull) (
      SExpr (ECall "libcerror_error_set" [(EVar "error"); (EName "LIBCERROR_ERROR_DOMAIN_ARGUMENTS"); (EName "LIBCERROR_ARGUMENT_ERROR_INVALID_VALUE")]) ;-
      SReturn (EInt (-1))) SSkip ;-
    SIf (EBin ONe (EStar "context") ENull) (
      SAssign (EVar "internal_context") (EStar "context") ;-
      SAssign (EStar "context") ENull ;-
      SExpr (ECall "EVP_MD_CTX_free" [(ECall "->" [(EVar "internal_context"); (EName "evp_md_context")])]) ;-
      SExpr (ECall "->=" [(EVar "internal_context"); (EName "evp_md_context"); ENull]) ;-
      SExpr (ECall "memory_free" [(EVar "internal_context")])) SSkip ;-
    SReturn (EInt 1);
  f_error :=
    SSkip |}.

(* libhmac/libhmac_sha256_context.c:456-619 libhmac_sha256_context_initialize, outside_ex2 *)
Definition text_libhmac_sha256_context_initialize_outside_ex2 : fundef := {|
  f_name := "libhmac_sha256_context_initialize";
  f_ret := (true, R32);
  f_params := [("context", CPtr); ("error", CPtr)];
  f_arrays := [];
  f_locals :=
     [("internal_context", CPtr, ENull);
      ("evp_md_type", CPtr, ENull)];
  f_body :=
    SIf (EBin OEq (EVar "context") ENull) (
      SExpr (ECall "libcerror_error_set" [(EVar "error"); (EName "LIBCERROR_ERROR_DOMAIN_ARGUMENTS"); (EName "LIBCERROR_ARGUMENT_ERROR_INVALID_VALUE")]) ;-
      SReturn (EInt (-1))) SSkip ;-
    SIf (EBin ONe (EStar "context") ENull) (
      SExpr (ECall "libcerror_error_set" [(EVar "error"); (EName "LIBCERROR_ERROR_DOMAIN_RUNTIME"); (EName "LIBCERROR_RUNTIME_ERROR_VALUE_ALREADY_SET")]) ;-
      SReturn (EInt (-1))) SSkip ;-
    SAssign (EVar "internal_context") (ECall "structure:allocate" [ESizeof "libhmac_internal_sha256_context_t"]) ;-
    SIf (EBin OEq (EVar "internal_context") ENull) (
      SExpr (ECall "libcerror_error_set" [(EVar "error"); (EName "LIBCERROR_ERROR_DOMAIN_MEMORY"); (EName "LIBCERROR_MEMORY_ERROR_INSUFFICIENT")]) ;-
      SGoto) SSkip ;-
    SIf (EBin OEq (ECall "structure:clear" [(EVar "internal_context"); (EInt 0); (ESizeof "libhmac_internal_sha256_context_t")]) ENull) (
      SExpr (ECall "libcerror_error_set" [(EVar "error"); (EName "LIBCERROR_ERROR_DOMAIN_MEMORY"); (EName "LIBCERROR_MEMORY_ERROR_SET_FAILED")]) ;-
      SExpr (ECall "memory_free" [(EVar "internal_context")]) ;-
      SReturn (EInt (-1))) SSkip ;-
    SExpr (ECall "->=" [(EVar "internal_context"); (EName "evp_md_context"); (ECall "EVP_MD_CTX_new" [])]) ;-
    SIf (EBin OEq (ECall "->" [(EVar "internal_context"); (EName "evp_md_context")]) ENull) (
      SExpr (ECall "libcerror_error_set" [(EVar "error"); (EName "LIBCERROR_ERROR_DOMAIN_RUNTIME"); (EName "LIBCERROR_RUNTIME_ERROR_INITIALIZE_FAILED")]) ;-
      SGoto) SSkip ;-
    SAssign (EVar "evp_md_type") (ECall "EVP_sha256" []) ;-
    SIf (EBin ONe (ECall "EVP_DigestInit_ex2" [(ECall "->" [(EVar "internal_context"); (EName "evp_md_context")]); (EVar "evp_md_type"); ENull]) (EInt 1)) (
      SExpr (ECall "libcerror_error_set" [(EVar "error"); (EName "LIBCERROR_ERROR_DOMAIN_RUNTIME"); (EName "LIBCERROR_RUNTIME_ERROR_INITIALIZE_FAILED")]) ;-
      SExpr (ECall "EVP_MD_CTX_free" [(ECall "->" [(EVar "internal_context"); (EName "evp_md_context")])]) ;-
      SExpr (ECall "->=" [(EVar "internal_context"); (EName "evp_md_context"); ENull]) ;-
      SGoto) SSkip ;-
    SAssign (EStar "context") (EVar "internal_context") ;-
    SReturn (EInt 1);
  f_error :=
    SIf (EBin ONe (EVar "internal_context") ENull) (
      SExpr (ECall "memory_free" [(EVar "internal_context")])) SSkip ;-
    SReturn (EInt (-1)) |}.

(* libhmac/libhmac_sha512_context.c:492-655 libhmac_sha512_context_initialize, legacy *)
Definition text_libhmac_sha512_context_initialize_legacy : fundef := {|
  f_name := "libhmac_sha512_context_initialize";
  f_ret := (true, R32);
  f_params := [("context", CPtr); ("error", CPtr)];
  f_arrays := [];
  f_locals :=
     [("internal_context", CPtr, ENull)];
  f_body :=
    SIf (EBin OEq (EVar "context") ENull) (
      SExpr (ECall "libcerror_error_set" [(EVar "error"); (EName "LIBCERROR_ERROR_DOMAIN_ARGUMENTS"); (EName "LIBCERROR_ARGUMENT_ERROR_INVALID_VALUE")]) ;-
      SReturn (EInt (-1))) SSkip ;-
    SIf (EBin ONe (EStar "context") ENull) (
      SExpr (ECall "libcerror_error_set" [(EVar "error"); (EName "LIBCERROR_ERROR_DOMAIN_RUNTIME"); (EName "LIBCERROR_RUNTIME_ERROR_VALUE_ALREADY_SET")]) ;-
      SReturn (EInt (-1))) SSkip ;-
    SAssign (EVar "internal_context") (ECall "structure:allocate" [ESizeof "libhmac_internal_sha512_context_t"]) ;-
    SIf (EBin OEq (EVar "internal_context") ENull) (
      SExpr (ECall "libcerror_error_set" [(EVar "error"); (EName "LIBCERROR_ERROR_DOMAIN_MEMORY"); (EName "LIBCERROR_MEMORY_ERROR_INSUFFICIENT")]) ;-
      SGoto) SSkip ;-
    SIf (EBin OEq (ECall "structure:clear" [(EVar "internal_context"); (EInt 0); (ESizeof "libhmac_internal_sha512_context_t")]) ENull) (
      SExpr (ECall "libcerror_error_set" [(EVar "error"); (EName "LIBCERROR_ERROR_DOMAIN_MEMORY"); (EName "LIBCERROR_MEMORY_ERROR_SET_FAILED")]) ;-
      SExpr (ECall "memory_free" [(EVar "internal_context")]) ;-
      SReturn (EInt (-1))) SSkip ;-
    SIf (EBin ONe (ECall "SHA512_Init" [(ECall "&->" [(EVar "internal_context"); (EName "sha512_context")])]) (EInt 1)) (
      SExpr (ECall "libcerror_error_set" [(EVar "error"); (EName "LIBCERROR_ERROR_DOMAIN_RUNTIME"); (EName "LIBCERROR_RUNTIME_ERROR_INITIALIZE_FAILED")]) ;-
      SGoto) SSkip ;-
    SAssign (EStar "context") (EVar "internal_context") ;-
    SReturn (EInt 1);
  f_error :=
    SIf (EBin ONe (EVar "internal_context") ENull) (
      SExpr (ECall "memory_free" [(EVar "internal_context")])) SSkip ;-
    SReturn (EInt (-1)) |}.

(* libhmac/libhmac_sha512_context.c:660-719 libhmac_sha512_context_free, legacy *)
Definition text_libhmac_sha512_context_free_legacy : fundef := {|
  f_name := "libhmac_sha512_context_free";
  f_ret := (true, R32);
  f_params := [("context", CPtr); ("error", CPtr)];
  f_arrays := [];
  f_locals :=
     [("internal_context", CPtr, ENull)];
  f_body :=
    SIf (EBin OEq (EVar "context") ENull) (
      SExpr (ECall "libcerror_error_set" [(EVar "error"); (EName "LIBCERROR_ERROR_DOMAIN_ARGUMENTS"); (EName "LIBCERROR_ARGUMENT_ERROR_INVALID_VALUE")]) ;-
      SReturn (EInt (-1))) SSkip ;-
    SIf (EBin ONe (EStar "context") ENull) (
      SAssign (EVar "internal_context") (EStar "context") ;-
      SAssign (EStar "context") ENull ;-
      SExpr (ECall "memory_free" [(EVar "internal_context")])) SSkip ;-
    SReturn (EInt 1);
  f_error :=
    SSkip |}.

(* libhmac/libhmac_sha512_context.c:726-796 libhmac_sha512_context_update, legacy *)
Definition text_libhmac_sha512_context_update_legacy : fundef := {|
  f_name := "libhmac_sha512_context_update";
  f_ret := (true, R32);
  f_params := [("context", CPtr); ("buffer", CPtr); ("size", CInt false RSz); ("error", CPtr)];
  f_arrays := [];
  f_locals :=
     [("internal_context", CPtr, ENull);
      ("safe_hash_size", (CInt false RSz), (EInt 0))];
  f_body :=
    SIf (EBin OEq (EVar "context") ENull) (
      SExpr (ECall "libcerror_error_set" [(EVar "error"); (EName "LIBCERROR_ERROR_DOMAIN_ARGUMENTS"); (EName "LIBCERROR_ARGUMENT_ERROR_INVALID_VALUE")]) ;-
      SReturn (EInt (-1))) SSkip ;-
    SAssign (EVar "internal_context") (EVar "context") ;-
    SIf (EBin OEq (EVar "buffer") ENull) (
      SExpr (ECall "libcerror_error_set" [(EVar "error"); (EName "LIBCERROR_ERROR_DOMAIN_ARGUMENTS"); (EName "LIBCERROR_ARGUMENT_ERROR_INVALID_VALUE")]) ;-
      SReturn (EInt (-1))) SSkip ;-
    SIf (EBin OGt (EVar "size") (ECast false RSz ESsizeMax)) (
      SExpr (ECall "libcerror_error_set" [(EVar "error"); (EName "LIBCERROR_ERROR_DOMAIN_ARGUMENTS"); (EName "LIBCERROR_ARGUMENT_ERROR_VALUE_EXCEEDS_MAXIMUM")]) ;-
      SReturn (EInt (-1))) SSkip ;-
    SIf (EBin OEq (EVar "size") (EInt 0)) (
      SReturn (EInt 1)) SSkip ;-
    SAssign (EVar "safe_hash_size") (ECast false RSz (EVar "size")) ;-
    SIf (EBin ONe (ECall "SHA512_Update" [(ECall "&->" [(EVar "internal_context"); (EName "sha512_context")]); (EVar "buffer"); (EVar "size")]) (EInt 1)) (
      SExpr (ECall "libcerror_error_set" [(EVar "error"); (EName "LIBCERROR_ERROR_DOMAIN_RUNTIME"); (EName "LIBCERROR_RUNTIME_ERROR_SET_FAILED")]) ;-
      SReturn (EInt (-1))) SSkip ;-
    SReturn (EInt 1);
  f_error :=
    SSkip |}.

(* libhmac/libhmac_sha512_context.c:1049-1118 libhmac_sha512_context_finalize, legacy *)
Definition text_libhmac_sha512_context_finalize_legacy : fundef := {|
  f_name := "libhmac_sha512_context_finalize";
  f_ret := (true, R32);
  f_params := [("context", CPtr); ("hash", CPtr); ("hash_size", CInt false RSz); ("error", CPtr)];
  f_arrays := [];
  f_locals :=
     [("internal_context", CPtr, ENull)];
  f_body :=
    SIf (EBin OEq (EVar "context") ENull) (
      SExpr (ECall "libcerror_error_set" [(EVar "error"); (EName "LIBCERROR_ERROR_DOMAIN_ARGUMENTS"); (EName "LIBCERROR_ARGUMENT_ERROR_INVALID_VALUE")]) ;-
      SReturn (EInt (-1))) SSkip ;-
    SAssign (EVar "internal_context") (EVar "context") ;-
    SIf (EBin OEq (EVar "hash") ENull) (
      SExpr (ECall "libcerror_error_set" [(EVar "error"); (EName "LIBCERROR_ERROR_DOMAIN_ARGUMENTS"); (EName "LIBCERROR_ARGUMENT_ERROR_INVALID_VALUE")]) ;-
      SReturn (EInt (-1))) SSkip ;-
    SIf (EBin OGt (EVar "hash_size") (ECast false RSz ESsizeMax)) (
      SExpr (ECall "libcerror_error_set" [(EVar "error"); (EName "LIBCERROR_ERROR_DOMAIN_ARGUMENTS"); (EName "LIBCERROR_ARGUMENT_ERROR_VALUE_EXCEEDS_MAXIMUM")]) ;-
      SReturn (EInt (-1))) SSkip ;-
    SIf (EBin OLt (EVar "hash_size") (ECast false RSz (EInt 64))) (
      SExpr (ECall "libcerror_error_set" [(EVar "error"); (EName "LIBCERROR_ERROR_DOMAIN_ARGUMENTS"); (EName "LIBCERROR_ARGUMENT_ERROR_VALUE_TOO_SMALL")]) ;-
      SReturn (EInt (-1))) SSkip ;-
    SIf (EBin ONe (ECall "SHA512_Final" [(EVar "hash"); (ECall "&->" [(EVar "internal_context"); (EName "sha512_context")])]) (EInt 1)) (
      SExpr (ECall "libcerror_error_set" [(EVar "error"); (EName "LIBCERROR_ERROR_DOMAIN_RUNTIME"); (EName "LIBCERROR_RUNTIME_ERROR_FINALIZE_FAILED")]) ;-
      SReturn (EInt (-1))) SSkip ;-
    SReturn (EInt 1);
  f_error :=
    SSkip |}.

(* libhmac/libhmac_sha512_context.c:726-796 libhmac_sha512_context_update, legacy_long *)
Definition text_libhmac_sha512_context_update_legacy_long : fundef := {|
  f_name := "libhmac_sha512_context_update";
  f_ret := (true, R32);
  f_params := [("context", CPtr); ("buffer", CPtr); ("size", CInt false RSz); ("error", CPtr)];
  f_arrays := [];
  f_locals :=
     [("internal_context", CPtr, ENull);
      ("safe_hash_size", (CInt false R32), (EInt 0))];
  f_body :=
    SIf (EBin OEq (EVar "context") ENull) (
      SExpr (ECall "libcerror_error_set" [(EVar "error"); (EName "LIBCERROR_ERROR_DOMAIN_ARGUMENTS"); (EName "LIBCERROR_ARGUMENT_ERROR_INVALID_VALUE")]) ;-
      SReturn (EInt (-1))) SSkip ;-
    SAssign (EVar "internal_context") (EVar "context") ;-
    SIf (EBin OEq (EVar "buffer") ENull) (
      SExpr (ECall "libcerror_error_set" [(EVar "error"); (EName "LIBCERROR_ERROR_DOMAIN_ARGUMENTS"); (EName "LIBCERROR_ARGUMENT_ERROR_INVALID_VALUE")]) ;-
      SReturn (EInt (-1))) SSkip ;-
    SIf (EBin OGt (EVar "size") (ECast false RSz (ECast false R32 (EInt (-1))))) (
      SExpr (ECall "libcerror_error_set" [(EVar "error"); (EName "LIBCERROR_ERROR_DOMAIN_ARGUMENTS"); (EName "LIBCERROR_ARGUMENT_ERROR_VALUE_EXCEEDS_MAXIMUM")]) ;-
      SReturn (EInt (-1))) SSkip ;-
    SIf (EBin OEq (EVar "size") (EInt 0)) (
      SReturn (EInt 1)) SSkip ;-
    SAssign (EVar "safe_hash_size") (ECast false R32 (EVar "size")) ;-
    SIf (EBin ONe (ECall "SHA512_Update" [(ECall "&->" [(EVar "internal_context"); (EName "sha512_context")]); (EVar "buffer"); (EVar "size")]) (EInt 1)) (
      SExpr (ECall "libcerror_error_set" [(EVar "error"); (EName "LIBCERROR_ERROR_DOMAIN_RUNTIME"); (EName "LIBCERROR_RUNTIME_ERROR_SET_FAILED")]) ;-
      SReturn (EInt (-1))) SSkip ;-
    SReturn (EInt 1);
  f_error :=
    SSkip |}.

(* libhmac/libhmac_sha512_context.c:492-655 libhmac_sha512_context_initialize, inside *)
Definition text_libhmac_sha512_context_initialize_inside : fundef := {|
  f_name := "libhmac_sha512_context_initialize";
  f_ret := (true, R32);
  f_params := [("context", CPtr); ("error", CPtr)];
  f_arrays := [];
  f_locals :=
     [("internal_context", CPtr, ENull);
      ("evp_md_type", CPtr, ENull)];
  f_body :=
    SIf (EBin OEq (EVar "context") ENull) (
      SExpr (ECall "libcerror_error_set" [(EVar "error"); (EName "LIBCERROR_ERROR_DOMAIN_ARGUMENTS"); (EName "LIBCERROR_ARGUMENT_ERROR_INVALID_VALUE")]) ;-
      SReturn (EInt (-1))) SSkip ;-
    SIf (EBin ONe (EStar "context") ENull) (
      SExpr (ECall "libcerror_error_set" [(EVar "error"); (EName "LIBCERROR_ERROR_DOMAIN_RUNTIME"); (EName "LIBCERROR_RUNTIME_ERROR_VALUE_ALREADY_SET")]) ;-
      SReturn (EInt (-1))) SSkip ;-
    SAssign (EVar "internal_context") (ECall "structure:allocate" [ESizeof "libhmac_internal_sha512_context_t"]) ;-
    SIf (EBin OEq (EVar "internal_context") ENull) (
      SExpr (ECall "libcerror_error_set" [(EVar "error"); (EName "LIBCERROR_ERROR_DOMAIN_MEMORY"); (EName "LIBCERROR_MEMORY_ERROR_INSUFFICIENT")]) ;-
      SGoto) SSkip ;-
    SIf (EBin OEq (ECall "structure:clear" [(EVar "internal_context"); (EInt 0); (ESizeof "libhmac_internal_sha512_context_t")]) ENull) (
      SExpr (ECall "libcerror_error_set" [(EVar "error"); (EName "LIBCERROR_ERROR_DOMAIN_MEMORY"); (EName "LIBCERROR_MEMORY_ERROR_SET_FAILED")]) ;-
      SExpr (ECall "memory_free" [(EVar "internal_context")]) ;-
      SReturn (EInt (-1))) SSkip ;-
    SExpr (ECall "EVP_MD_CTX_init" [(ECall "&->" [(EVar "internal_context"); (EName "internal_evp_md_context")])]) ;-
    SExpr (ECall "->=" [(EVar "internal_context"); (EName "evp_md_context"); (ECall "&->" [(EVar "internal_context"); (EName "internal_evp_md_context")])]) ;-
    SAssign (EVar "evp_md_type") (ECall "EVP_sha512" []) ;-
    SIf (EBin ONe (ECall "EVP_DigestInit_ex" [(ECall "->" [(EVar "internal_context"); (EName "evp_md_context")]); (EVar "evp_md_type"); ENull]) (EInt 1)) (
      SExpr (ECall "libcerror_error_set" [(EVar "error"); (EName "LIBCERROR_ERROR_DOMAIN_RUNTIME"); (EName "LIBCERROR_RUNTIME_ERROR_INITIALIZE_FAILED")]) ;-
      SExpr (ECall "EVP_MD_CTX_cleanup" [(ECall "&->" [(EVar "internal_context"); (EName "internal_evp_md_context")])]) ;-
      SExpr (ECall "ERR_remove_thread_state" [ENull]) ;-
      SExpr (ECall "->=" [(EVar "internal_context"); (EName "evp_md_context"); ENull]) ;-
      SGoto) SSkip ;-
    SAssign (EStar "context") (EVar "internal_context") ;-
    SReturn (EInt 1);
  f_error :=
    SIf (EBin ONe (EVar "internal_context") ENull) (
      SExpr (ECall "memory_free" [(EVar "internal_context")])) SSkip ;-
    SReturn (EInt (-1)) |}.

(* libhmac/libhmac_sha512_context.c:660-719 libhmac_sha512_context_free, inside *)
Definition text_libhmac_sha512_context_free_inside : fundef := {|
  f_name := "libhmac_sha512_context_free";
  f_ret := (true, R32);
  f_params := [("context", CPtr); ("error", CPtr)];
  f_arrays := [];
  f_locals :=
     [("internal_context", CPtr, ENull)];
  f_body :=
    SIf (EBin OEq (EVar "context") ENull) (
      SExpr (ECall "libcerror_error_set" [(EVar "error"); (EName "LIBCERROR_ERROR_DOMAIN_ARGUMENTS"); (EName "LIBCERROR_ARGUMENT_ERROR_INVALID_VALUE")]) ;-
      SReturn (EInt (-1))) SSkip ;-
    SIf (EBin ONe (EStar "context") ENull) (
      SAssign (EVar "internal_context") (EStar "context") ;-
      SAssign (EStar "context") ENull ;-
      SIf (EBin ONe (ECall "EVP_MD_CTX_cleanup" [(ECall "&->" [(EVar "internal_context"); (EName "internal_evp_md_context")])]) (EInt 1)) (
        SExpr (ECall "libcerror_error_set" [(EVar "error"); (EName "LIBCERROR_ERROR_DOMAIN_RUNTIME"); (EName "LIBCERROR_RUNTIME_ERROR_FINALIZE_FAILED")])) SSkip ;-
      SExpr (ECall "ERR_remove_thread_state" [ENull]) ;-
      SExpr (ECall "->=" [(EVar "internal_context"); (EName "evp_md_context"); ENull]) ;-
      SExpr (ECall "memory_free" [(EVar "internal_context")])) SSkip ;-
    SReturn (EInt 1);
  f_error :=
    SSkip |}.

(* libhmac/libhmac_sha512_context.c:803-866 libhmac_sha512_context_update, inside *)
Definition text_libhmac_sha512_context_update_inside : fundef := {|
  f_name := "libhmac_sha512_context_update";
  f_ret := (true, R32);
  f_params := [("context", CPtr); ("buffer", CPtr); ("size", CInt false RSz); ("error", CPtr)];
  f_arrays := [];
  f_locals :=
     [("internal_context", CPtr, ENull)];
  f_body :=
    SIf (EBin OEq (EVar "context") ENull) (
      SExpr (ECall "libcerror_error_set" [(EVar "error"); (EName "LIBCERROR_ERROR_DOMAIN_ARGUMENTS"); (EName "LIBCERROR_ARGUMENT_ERROR_INVALID_VALUE")]) ;-
      SReturn (EInt (-1))) SSkip ;-
    SAssign (EVar "internal_context") (EVar "context") ;-
    SIf (EBin OEq (EVar "buffer") ENull) (
      SExpr (ECall "libcerror_error_set" [(EVar "error"); (EName "LIBCERROR_ERROR_DOMAIN_ARGUMENTS"); (EName "LIBCERROR_ARGUMENT_ERROR_INVALID_VALUE")]) ;-
      SReturn (EInt (-1))) SSkip ;-
    SIf (EBin OGt (EVar "size") (ECast false RSz ESsizeMax)) (
      SExpr (ECall "libcerror_error_set" [(EVar "error"); (EName "LIBCERROR_ERROR_DOMAIN_ARGUMENTS"); (EName "LIBCERROR_ARGUMENT_ERROR_VALUE_EXCEEDS_MAXIMUM")]) ;-
      SReturn (EInt (-1))) SSkip ;-
    SIf (EBin OEq (EVar "size") (EInt 0)) (
      SReturn (EInt 1)) SSkip ;-
    SIf (EBin ONe (ECall "EVP_DigestUpdate" [(ECall "->" [(EVar "internal_context"); (EName "evp_md_context")]); (EVar "buffer"); (EVar "size")]) (EInt 1)) (
      SExpr (ECall "libcerror_error_set" [(EVar "error"); (EName "LIBCERROR_ERROR_DOMAIN_RUNTIME"); (EName "LIBCERROR_RUNTIME_ERROR_SET_FAILED")]) ;-
      SReturn (EInt (-1))) SSkip ;-
    SReturn (EInt 1);
  f_error :=
    SSkip |}.

(* libhmac/libhmac_sha512_context.c:1125-1188 libhmac_sha512_context_finalize, inside *)
Definition text_libhmac_sha512_context_finalize_inside : fundef := {|
  f_name := "libhmac_sha512_context_finalize";
  f_ret := (true, R32);
  f_params := [("context", CPtr); ("hash", CPtr); ("hash_size", CInt false RSz); ("error", CPtr)];
  f_arrays := [];
  f_locals :=
     [("internal_context", CPtr, ENull);
      ("safe_hash_size", (CInt false R32), (EInt 0))];
  f_body :=
    SIf (EBin OEq (EVar "context") ENull) (
      SExpr (ECall "libcerror_error_set" [(EVar "error"); (EName "LIBCERROR_ERROR_DOMAIN_ARGUMENTS"); (EName "LIBCERROR_ARGUMENT_ERROR_INVALID_VALUE")]) ;-
      SReturn (EInt (-1))) SSkip ;-
    SAssign (EVar "internal_context") (EVar "context") ;-
    SIf (EBin OEq (EVar "hash") ENull) (
      SExpr (ECall "libcerror_error_set" [(EVar "error"); (EName "LIBCERROR_ERROR_DOMAIN_ARGUMENTS"); (EName "LIBCERROR_ARGUMENT_ERROR_INVALID_VALUE")]) ;-
      SReturn (EInt (-1))) SSkip ;-
    SIf (ELogOr (EBin OLt (EVar "hash_size") (ECast false RSz (EInt 64))) (EBin OGt (EVar "hash_size") (ECast false RSz (ECast false R32 (EInt (-1)))))) (
      SExpr (ECall "libcerror_error_set" [(EVar "error"); (EName "LIBCERROR_ERROR_DOMAIN_ARGUMENTS"); (EName "LIBCERROR_ARGUMENT_ERROR_VALUE_OUT_OF_BOUNDS")]) ;-
      SReturn (EInt (-1))) SSkip ;-
    SAssign (EVar "safe_hash_size") (ECast false R32 (EVar "hash_size")) ;-
    SIf (EBin ONe (ECall "EVP_DigestFinal_ex" [(ECall "->" [(EVar "internal_context"); (EName "evp_md_context")]); (EVar "hash"); (ERef "safe_hash_size")]) (EInt 1)) (
      SExpr (ECall "libcerror_error_set" [(EVar "error"); (EName "LIBCERROR_ERROR_DOMAIN_RUNTIME"); (EName "LIBCERROR_RUNTIME_ERROR_FINALIZE_FAILED")]) ;-
      SReturn (EInt (-1))) SSkip ;-
    SReturn (EInt 1);
  f_error :=
    SSkip |}.

(* libhmac/libhmac_sha512_context.c:492-655 libhmac_sha512_context_initialize, inside_ex2 *)
Definition text_libhmac_sha512_context_initialize_inside_ex2 : fundef := {|
  f_name := "libhmac_sha512_context_initialize";
  f_ret := (true, R32);
  f_params := [("context", CPtr); ("error", CPtr)];
  f_arrays := [];
  f_locals :=
     [("internal_context", CPtr, ENull);
      ("evp_md_type", CPtr, ENull)];
  f_body :=
    SIf (EBin OEq (EVar "context") ENull) (
      SExpr (ECall "libcerror_error_set" [(EVar "error"); (EName "LIBCERROR_ERROR_DOMAIN_ARGUMENTS"); (EName "LIBCERROR_ARGUMENT_ERROR_INVALID_VALUE")]) ;-
      SReturn (EInt (-1))) SSkip ;-
    SIf (EBin ONe (EStar "context") ENull) (
      SExpr (ECall "libcerror_error_set" [(EVar "error"); (EName "LIBCERROR_ERROR_DOMAIN_RUNTIME"); (EName "LIBCERROR_RUNTIME_ERROR_VALUE_ALREADY_SET")]) ;-
      SReturn (EInt (-1))) SSkip ;-
    SAssign (EVar "internal_context") (ECall "structure:allocate" [ESizeof "libhmac_internal_sha512_context_t"]) ;-
    SIf (EBin OEq (EVar "internal_context") ENull) (
      SExpr (ECall "libcerror_error_set" [(EVar "error"); (EName "LIBCERROR_ERROR_DOMAIN_MEMORY"); (EName "LIBCERROR_MEMORY_ERROR_INSUFFICIENT")]) ;-
      SGoto) SSkip ;-
    SIf (EBin OEq (ECall "structure:clear" [(EVar "internal_context"); (EInt 0); (ESizeof "libhmac_internal_sha512_context_t")]) ENull) (
      SExpr (ECall "libcerror_error_set" [(EVar "error"); (EName "LIBCERROR_ERROR_DOMAIN_MEMORY"); (EName "LIBCERROR_MEMORY_ERROR_SET_FAILED")]) ;-
      SExpr (ECall "memory_free" [(EVar "internal_context")]) ;-
      SReturn (EInt (-1))) SSkip ;-
    SExpr (ECall "EVP_MD_CTX_init" [(ECall "&->" [(EVar "internal_context"); (EName "internal_evp_md_context")])]) ;-
    SExpr (ECall "->=" [(EVar "internal_context"); (EName "evp_md_context"); (ECall "&->" [(EVar "internal_context"); (EName "internal_evp_md_context")])]) ;-
    SAssign (EVar "evp_md_type") (ECall "EVP_sha512" []) ;-
    SIf (EBin ONe (ECall "EVP_DigestInit_ex2" [(ECall "->" [(EVar "internal_context"); (EName "evp_md_context")]); (EVar "evp_md_type"); ENull]) (EInt 1)) (
      SExpr (ECall "libcerror_error_set" [(EVar "error"); (EName "LIBCERROR_ERROR_DOMAIN_RUNTIME"); (EName "LIBCERROR_RUNTIME_ERROR_INITIALIZE_FAILED")]) ;-
      SExpr (ECall "EVP_MD_CTX_cleanup" [(ECall "&->" [(EVar "internal_context"); (EName "internal_evp_md_context")])]) ;-
      SExpr (ECall "ERR_remove_thread_state" [ENull]) ;-
      SExpr (ECall "->=" [(EVar "internal_context"); (EName "evp_md_context"); ENull]) ;-
      SGoto) SSkip ;-
    SAssign (EStar "context") (EVar "internal_context") ;-
    SReturn (EInt 1);
  f_error :=
    SIf (EBin ONe (EVar "internal_context") ENull) (
      SExpr (ECall "memory_free" [(EVar "internal_context")])) SSkip ;-
    SReturn (EInt (-1)) |}.

(* libhmac/libhmac_sha512_context.c:492-655 libhmac_sha512_context_initialize, outside *)
Definition text_libhmac_sha512_context_initialize_outside : fundef := {|
  f_name := "libhmac_sha512_context_initialize";
  f_ret := (true, R32);
  f_params := [("context", CPtr); ("error", CPtr)];
  f_arrays := [];
  f_locals :=
     [("internal_context", CPtr, ENull);
      ("evp_md_type", CPtr, ENull)];
  f_body :=
    SIf (EBin OEq (EVar "context") ENull) (
      SExpr (ECall "libcerror_error_set" [(EVar "error"); (EName "LIBCERROR_ERROR_DOMAIN_ARGUMENTS"); (EName "LIBCERROR_ARGUMENT_ERROR_INVALID_VALUE")]) ;-
      SReturn (EInt (-1))) SSkip ;-
    SIf (EBin ONe (EStar "context") ENull) (
      SExpr (ECall "libcerror_error_set" [(EVar "error"); (EName "LIBCERROR_ERROR_DOMAIN_RUNTIME"); (EName "LIBCERROR_RUNTIME_ERROR_VALUE_ALREADY_SET")]) ;-
      SReturn (EInt (-1))) SSkip ;-
    SAssign (EVar "internal_context") (ECall "structure:allocate" [ESizeof "libhmac_internal_sha512_context_t"]) ;-
    SIf (EBin OEq (EVar "internal_context") ENull) (
      SExpr (ECall "libcerror_error_set" [(EVar "error"); (EName "LIBCERROR_ERROR_DOMAIN_MEMORY"); (EName "LIBCERROR_MEMORY_ERROR_INSUFFICIENT")]) ;-
      SGoto) SSkip ;-
    SIf (EBin OEq (ECall "structure:clear" [(EVar "internal_context"); (EInt 0); (ESizeof "libhmac_internal_sha512_context_t")]) ENull) (
      SExpr (ECall "libcerror_error_set" [(EVar "error"); (EName "LIBCERROR_ERROR_DOMAIN_MEMORY"); (EName "LIBCERROR_MEMORY_ERROR_SET_FAILED")]) ;-
      SExpr (ECall "memory_free" [(EVar "internal_context")]) ;-
      SReturn (EInt (-1))) SSkip ;-
    SExpr (ECall "->=" [(EVar "internal_context"); (EName "evp_md_context"); (ECall "EVP_MD_CTX_new" [])]) ;-
    SIf (EBin OEq (ECall "->" [(EVar "internal_context"); (EName "evp_md_context")]) ENull) (
      SExpr (ECall "libcerror_error_set" [(EVar "error"); (EName "LIBCERROR_ERROR_DOMAIN_RUNTIME"); (EName "LIBCERROR_RUNTIME_ERROR_INITIALIZE_FAILED")]) ;-
      SGoto) SSkip ;-
    SAssign (EVar "evp_md_type") (ECall "EVP_sha512" []) ;-
    SIf (EBin ONe (ECall "EVP_DigestInit_ex" [(ECall "->" [(EVar "internal_context"); (EName "evp_md_context")]); (EVar "evp_md_type"); ENull]) (EInt 1)) (
      SExpr (ECall "libcerror_error_set" [(EVar "error"); (EName "LIBCERROR_ERROR_DOMAIN_RUNTIME"); (EName "LIBCERROR_RUNTIME_ERROR_INITIALIZE_FAILED")]) ;-
      SExpr (ECall "EVP_MD_CTX_free" [(ECall "->" [(EVar "internal_context"); (EName "evp_md_context")])]) ;-
      SExpr (ECall "->=" [(EVar "internal_context"); (EName "evp_md_context"); ENull]) ;-
      SGoto) SSkip ;-
    SAssign (EStar "context") (EVar "internal_context") ;-
    SReturn (EInt 1);
  f_error :=
    SIf (EBin ONe (EVar "internal_context") ENull) (
      SExpr (ECall "memory_free" [(EVar "internal_context")])) SSkip ;-
    SReturn (EInt (-1)) |}.

(* libhmac/libhmac_sha512_context.c:660-719 libhmac_sha512_context_free, outside *)
Definition text_libhmac_sha512_context_free_outside : fundef := {|
  f_name := "libhmac_sha512_context_free";
  f_ret := (true, R32);
  f_params := [("context", CPtr); ("error", CPtr)];
  f_arrays := [];
  f_locals :=
     [("internal_context", CPtr, ENull)];
  f_body :=
    SIf (EBin OEq (EVar "context") ENull) (
      SExpr (ECall "libcerror_error_set" [(EVar "error"); (EName "LIBCERROR_ERROR_DOMAIN_ARGUMENTS"); (EName "LIBCERROR_ARGUMENT_ERROR_INVALID_VALUE")]) ;-
      SReturn (EInt (-1))) SSkip ;-
    SIf (EBin ONe (EStar "context") ENull) (
      SAssign (EVar "internal_context") (EStar "context") ;-
      SAssign (EStar "context") ENull ;-
      SExpr (ECall "EVP_MD_CTX_free" [(ECall "->" [(EVar "internal_context"); (EName "evp_md_context")])]) ;-
      SExpr (ECall "->=" [(EVar "internal_context"); (EName "evp_md_context"); ENull]) ;-
      SExpr (ECall "memory_free" [(EVar "internal_context")])) SSkip ;-
    SReturn (EInt 1);
  f_error :=
    SSkip |}.

(* libhmac/libhmac_sha512_context.c:492-655 libhmac_sha512_context_initialize, outside_ex2 *)
Definition text_libhmac_sha512_context_initialize_outside_ex2 : fundef := {|
  f_name := "libhmac_sha512_context_initialize";
  f_ret := (true, R32);
  f_params := [("context", CPtr); ("error", CPtr)];
  f_arrays := [];
  f_locals :=
     [("internal_context", CPtr, ENull);
      ("evp_md_type", CPtr, ENull)];
  f_body :=
    SIf (EBin OEq (EVar "context") ENull) (
      SExpr (ECall "libcerror_error_set" [(EVar "error"); (EName "LIBCERROR_ERROR_DOMAIN_ARGUMENTS"); (EName "LIBCERROR_ARGUMENT_ERROR_INVALID_VALUE")]) ;-
      SReturn (EInt (-1))) SSkip ;-
    SIf (EBin ONe (EStar "context") ENull) (
      SExpr (ECall "libcerror_error_set" [(EVar "error"); (EName "LIBCERROR_ERROR_DOMAIN_RUNTIME"); (EName "LIBCERROR_RUNTIME_ERROR_VALUE_ALREADY_SET")]) ;-
      SReturn (EInt (-1))) SSkip ;-
    SAssign (EVar "internal_context") (ECall "structure:allocate" [ESizeof "libhmac_internal_sha512_context_t"]) ;-
    SIf (EBin OEq (EVar "internal_context") ENull) (
      SExpr (ECall "libcerror_error_set" [(EVar "error"); (EName "LIBCERROR_ERROR_DOMAIN_MEMORY"); (EName "LIBCERROR_MEMORY_ERROR_INSUFFICIENT")]) ;-
      SGoto) SSkip ;-
    SIf (EBin OEq (ECall "structure:clear" [(EVar "internal_context"); (EInt 0); (ESizeof "libhmac_internal_sha512_context_t")]) ENull) (
      SExpr (ECall "libcerror_error_set" [(EVar "error"); (EName "LIBCERROR_ERROR_DOMAIN_MEMORY"); (EName "LIBCERROR_MEMORY_ERROR_SET_FAILED")]) ;-
      SExpr (ECall "memory_free" [(EVar "internal_context")]) ;-
      SReturn (EInt (-1))) SSkip ;-
    SExpr (ECall "->=" [(EVar "internal_context"); (EName "evp_md_context"); (ECall "EVP_MD_CTX_new" [])]) ;-
    SIf (EBin OEq (ECall "->" [(EVar "internal_context"); (EName "evp_md_context")]) ENull) (
      SExpr (ECall "libcerror_error_set" [(EVar "error"); (EName "LIBCERROR_ERROR_DOMAIN_RUNTIME"); (EName "LIBCERROR_RUNTIME_ERROR_INITIALIZE_FAILED")]) ;-
      SGoto) SSkip ;-
    SAssign (EVar "evp_md_type") (ECall "EVP_sha512" []) ;-
    SIf (EBin ONe (ECall "EVP_DigestInit_ex2" [(ECall "->" [(EVar "internal_context"); (EName "evp_md_context")]); (EVar "evp_md_type"); ENull]) (EInt 1)) (
      SExpr (ECall "libcerror_error_set" [(EVar "error"); (EName "LIBCERROR_ERROR_DOMAIN_RUNTIME"); (EName "LIBCERROR_RUNTIME_ERROR_INITIALIZE_FAILED")]) ;-
      SExpr (ECall "EVP_MD_CTX_free" [(ECall "->" [(EVar "internal_context"); (EName "evp_md_context")])]) ;-
      SExpr (ECall "->=" [(EVar "internal_context"); (EName "evp_md_context"); ENull]) ;-
      SGoto) SSkip ;-
    SAssign (EStar "context") (EVar "internal_context") ;-
    SReturn (EInt 1);
  f_error :=
    SIf (EBin ONe (EVar "internal_context") ENull) (
      SExpr (ECall "memory_free" [(EVar "internal_context")])) SSkip ;-
    SReturn (EInt (-1)) |}.

(* the functions of libhmac_X_context.c in these builds; is there EVP_DigestInit_ex2 *)
Definition evp_functions (v : variant) (ex2 : bool) (a : algid) : list fundef :=
  match v, ex2 with
  | Legacy false, _ =>
      match a with
      | MD5 => [text_libhmac_md5_context_initialize_legacy; text_libhmac_md5_context_free_legacy; text_libhmac_md5_context_update_legacy; text_libhmac_md5_context_finalize_legacy]
      | SHA1 => [text_libhmac_sha1_context_initialize_legacy; text_libhmac_sha1_context_free_legacy; text_libhmac_sha1_context_update_legacy; text_libhmac_sha1_context_finalize_legacy]
      | SHA224 => [text_libhmac_sha224_context_initialize_legacy; text_libhmac_sha224_context_free_legacy; text_libhmac_sha224_context_update_legacy; text_libhmac_sha224_context_finalize_legacy]
      | SHA256 => [text_libhmac_sha256_context_initialize_legacy; text_libhmac_sha256_context_free_legacy; text_libhmac_sha256_context_update_legacy; text_libhmac_sha256_context_finalize_legacy]
      | SHA512 => [text_libhmac_sha512_context_initialize_legacy; text_libhmac_sha512_context_free_legacy; text_libhmac_sha512_context_update_legacy; text_libhmac_sha512_context_finalize_legacy]
      end
  | Legacy true, _ =>
      match a with
      | MD5 => [text_libhmac_md5_context_initialize_legacy; text_libhmac_md5_context_free_legacy; text_libhmac_md5_context_update_legacy_long; text_libhmac_md5_context_finalize_legacy]
      | SHA1 => [text_libhmac_sha1_context_initialize_legacy; text_libhmac_sha1_context_free_legacy; text_libhmac_sha1_context_update_legacy_long; text_libhmac_sha1_context_finalize_legacy]
      | SHA224 => [text_libhmac_sha224_context_initialize_legacy; text_libhmac_sha224_context_free_legacy; text_libhmac_sha224_context_update_legacy_long; text_libhmac_sha224_context_finalize_legacy]
      | SHA256 => [text_libhmac_sha256_context_initialize_legacy; text_libhmac_sha256_context_free_legacy; text_libhmac_sha256_context_update_legacy_long; text_libhmac_sha256_context_finalize_legacy]
      | SHA512 => [text_libhmac_sha512_context_initialize_legacy; text_libhmac_sha512_context_free_legacy; text_libhmac_sha512_context_update_legacy_long; text_libhmac_sha512_context_finalize_legacy]
      end
  | Inside, false =>
      match a with
      | MD5 => [text_libhmac_md5_context_initialize_inside; text_libhmac_md5_context_free_inside; text_libhmac_md5_context_update_inside; text_libhmac_md5_context_finalize_inside]
      | SHA1 => [text_libhmac_sha1_context_initialize_inside; text_libhmac_sha1_context_free_inside; text_libhmac_sha1_context_update_inside; text_libhmac_sha1_context_finalize_inside]
      | SHA224 => [text_libhmac_sha224_context_initialize_inside; text_libhmac_sha224_context_free_inside; text_libhmac_sha224_context_update_inside; text_libhmac_sha224_context_finalize_inside]
      | SHA256 => [text_libhmac_sha256_context_initialize_inside; text_libhmac_sha256_context_free_inside; text_libhmac_sha256_context_update_inside; text_libhmac_sha256_context_finalize_inside]
      | SHA512 => [text_libhmac_sha512_context_initialize_inside; text_libhmac_sha512_context_free_inside; text_libhmac_sha512_context_update_inside; text_libhmac_sha512_context_finalize_inside]
      end
  | Inside, true =>
      match a with
      | MD5 => [text_libhmac_md5_context_initialize_inside_ex2; text_libhmac_md5_context_free_inside; text_libhmac_md5_context_update_inside; text_libhmac_md5_context_finalize_inside]
      | SHA1 => [text_libhmac_sha1_context_initialize_inside_ex2; text_libhmac_sha1_context_free_inside; text_libhmac_sha1_context_update_inside; text_libhmac_sha1_context_finalize_inside]
      | SHA224 => [text_libhmac_sha224_context_initialize_inside_ex2; text_libhmac_sha224_context_free_inside; text_libhmac_sha224_context_update_inside; text_libhmac_sha224_context_finalize_inside]
      | SHA256 => [text_libhmac_sha256_context_initialize_inside_ex2; text_libhmac_sha256_context_free_inside; text_libhmac_sha256_context_update_inside; text_libhmac_sha256_context_finalize_inside]
      | SHA512 => [text_libhmac_sha512_context_initialize_inside_ex2; text_libhmac_sha512_context_free_inside; text_libhmac_sha512_context_update_inside; text_libhmac_sha512_context_finalize_inside]
      end
  | Outside, false =>
      match a with
      | MD5 => [text_libhmac_md5_context_initialize_outside; text_libhmac_md5_context_free_outside; text_libhmac_md5_context_update_inside; text_libhmac_md5_context_finalize_inside]
      | SHA1 => [text_libhmac_sha1_context_initialize_outside; text_libhmac_sha1_context_free_outside; text_libhmac_sha1_context_update_inside; text_libhmac_sha1_context_finalize_inside]
      | SHA224 => [text_libhmac_sha224_context_initialize_outside; text_libhmac_sha224_context_free_outside; text_libhmac_sha224_context_update_inside; text_libhmac_sha224_context_finalize_inside]
      | SHA256 => [text_libhmac_sha256_context_initialize_outside; text_libhmac_sha256_context_free_outside; text_libhmac_sha256_context_update_inside; text_libhmac_sha256_context_finalize_inside]
      | SHA512 => [text_libhmac_sha512_context_initialize_outside; text_libhmac_sha512_context_free_outside; text_libhmac_sha512_context_update_inside; text_libhmac_sha512_context_finalize_inside]
      end
  | Outside, true =>
      match a with
      | MD5 => [text_libhmac_md5_context_initialize_outside_ex2; text_libhmac_md5_context_free_outside; text_libhmac_md5_context_update_inside; text_libhmac_md5_context_finalize_inside]
      | SHA1 => [text_libhmac_sha1_context_initialize_outside_ex2; text_libhmac_sha1_context_free_outside; text_libhmac_sha1_context_update_inside; text_libhmac_sha1_context_finalize_inside]
      | SHA224 => [text_libhmac_sha224_context_initialize_outside_ex2; text_libhmac_sha224_context_free_outside; text_libhmac_sha224_context_update_inside; text_libhmac_sha224_context_finalize_inside]
      | SHA256 => [text_libhmac_sha256_context_initialize_outside_ex2; text_libhmac_sha256_context_free_outside; text_libhmac_sha256_context_update_inside; text_libhmac_sha256_context_finalize_inside]
      | SHA512 => [text_libhmac_sha512_context_initialize_outside_ex2; text_libhmac_sha512_context_free_outside; text_libhmac_sha512_context_update_inside; text_libhmac_sha512_context_finalize_inside]
      end
  end.
