(* The text of hmactools/sum_handle.c for a build with narrow characters, as terms of CText.v.
   Written by tools/ctext.py from the files in /repo.  Left out: the declaration of the function name for
   messages, the message arguments of libcerror_error_set, casts between pointer types and the
   assignments to the members X_context_initialized, which nothing reads.
   Rewritten: the members of the structure behind sum_handle, and the number of reads and the offset of the
   file behind input_handle, are further parameters that hold their addresses; calls pass them on, and to
   libcfile_file_read_buffer with them the address of abort, which a signal may set at that moment.
   memory_allocate_structure( sum_handle_t ) and memory_set( *sum_handle, 0, sizeof( sum_handle_t ) ) are
   calls of sum_handle_t:allocate and sum_handle_t:clear.  In a format the name of a macro stands in braces. *)
From Coq Require Import NArith ZArith List String.
From Verif Require Import Machine CText.
Import ListNotations.
Open Scope string_scope.
Open Scope list_scope.
Open Scope N_scope.

(* hmactools/sum_handle.c:49-146 sum_handle_initialize *)
Definition text_sum_handle_initialize  : fundef := {|
  f_name := "sum_handle_initialize";
  f_ret := (true, R32);
  f_params := [("sum_handle", CPtr); ("error", CPtr); ("sum_handle->input_handle", CPtr); ("sum_handle->calculate_md5", CPtr); ("sum_handle->md5_context", CPtr); ("sum_handle->calculated_md5_hash_string", CPtr); ("sum_handle->calculate_sha1", CPtr); ("sum_handle->sha1_context", CPtr); ("sum_handle->calculated_sha1_hash_string", CPtr); ("sum_handle->calculate_sha224", CPtr); ("sum_handle->sha224_context", CPtr); ("sum_handle->calculated_sha224_hash_string", CPtr); ("sum_handle->calculate_sha256", CPtr); ("sum_handle->sha256_context", CPtr); ("sum_handle->calculated_sha256_hash_string", CPtr); ("sum_handle->calculate_sha512", CPtr); ("sum_handle->sha512_context", CPtr); ("sum_handle->calculated_sha512_hash_string", CPtr); ("sum_handle->process_buffer_size", CPtr); ("sum_handle->abort", CPtr); ("file->reads", CPtr); ("file->offset", CPtr)];
  f_arrays := [];
  f_locals :=
     [];
  f_body :=
    SIf (EBin OEq (EVar "sum_handle") ENull) (
      SExpr (ECall "libcerror_error_set" [(EVar "error"); (EName "LIBCERROR_ERROR_DOMAIN_ARGUMENTS"); (EName "LIBCERROR_ARGUMENT_ERROR_INVALID_VALUE")]) ;-
      SReturn (EInt (-1))) SSkip ;-
    SIf (EBin ONe (EStar "sum_handle") ENull) (
      SExpr (ECall "libcerror_error_set" [(EVar "error"); (EName "LIBCERROR_ERROR_DOMAIN_RUNTIME"); (EName "LIBCERROR_RUNTIME_ERROR_VALUE_ALREADY_SET")]) ;-
      SReturn (EInt (-1))) SSkip ;-
    SAssign (EStar "sum_handle") (ECall "sum_handle_t:allocate" []) ;-
    SIf (EBin OEq (EStar "sum_handle") ENull) (
      SExpr (ECall "libcerror_error_set" [(EVar "error"); (EName "LIBCERROR_ERROR_DOMAIN_MEMORY"); (EName "LIBCERROR_MEMORY_ERROR_INSUFFICIENT")]) ;-
      SGoto) SSkip ;-
    SIf (EBin OEq (ECall "sum_handle_t:clear" [(EStar "sum_handle"); (EInt 0); (EVar "sum_handle->input_handle"); (EVar "sum_handle->calculate_md5"); (EVar "sum_handle->md5_context"); (EVar "sum_handle->calculated_md5_hash_string"); (EVar "sum_handle->calculate_sha1"); (EVar "sum_handle->sha1_context"); (EVar "sum_handle->calculated_sha1_hash_string"); (EVar "sum_handle->calculate_sha224"); (EVar "sum_handle->sha224_context"); (EVar "sum_handle->calculated_sha224_hash_string"); (EVar "sum_handle->calculate_sha256"); (EVar "sum_handle->sha256_context"); (EVar "sum_handle->calculated_sha256_hash_string"); (EVar "sum_handle->calculate_sha512"); (EVar "sum_handle->sha512_context"); (EVar "sum_handle->calculated_sha512_hash_string"); (EVar "sum_handle->process_buffer_size"); (EVar "sum_handle->abort"); (EVar "file->reads"); (EVar "file->offset")]) ENull) (
      SExpr (ECall "libcerror_error_set" [(EVar "error"); (EName "LIBCERROR_ERROR_DOMAIN_MEMORY"); (EName "LIBCERROR_MEMORY_ERROR_SET_FAILED")]) ;-
      SGoto) SSkip ;-
    SIf (EBin ONe (ECall "libcfile_file_initialize" [(EVar "sum_handle->input_handle"); (EVar "error")]) (EInt 1)) (
      SExpr (ECall "libcerror_error_set" [(EVar "error"); (EName "LIBCERROR_ERROR_DOMAIN_RUNTIME"); (EName "LIBCERROR_RUNTIME_ERROR_INITIALIZE_FAILED")]) ;-
      SGoto) SSkip ;-
    SAssign (EStar "sum_handle->calculated_md5_hash_string") (ECall "system_string_allocate" [(EInt 33)]) ;-
    SIf (EBin OEq (EStar "sum_handle->calculated_md5_hash_string") ENull) (
      SExpr (ECall "libcerror_error_set" [(EVar "error"); (EName "LIBCERROR_ERROR_DOMAIN_MEMORY"); (EName "LIBCERROR_MEMORY_ERROR_INSUFFICIENT")]) ;-
      SGoto) SSkip ;-
    SAssign (EOut "sum_handle->calculate_md5") (EInt 1) ;-
    SAssign (EOut "sum_handle->process_buffer_size") (EInt 32768) ;-
    SReturn (EInt 1);
  f_error :=
    SIf (EBin ONe (EStar "sum_handle") ENull) (
      SExpr (ECall "memory_free" [(EStar "sum_handle")]) ;-
      SAssign (EStar "sum_handle") ENull) SSkip ;-
    SReturn (EInt (-1)) |}.

(* hmactools/sum_handle.c:151-295 sum_handle_free *)
Definition text_sum_handle_free  : fundef := {|
  f_name := "sum_handle_free";
  f_ret := (true, R32);
  f_params := [("sum_handle", CPtr); ("error", CPtr); ("sum_handle->input_handle", CPtr); ("sum_handle->calculate_md5", CPtr); ("sum_handle->md5_context", CPtr); ("sum_handle->calculated_md5_hash_string", CPtr); ("sum_handle->calculate_sha1", CPtr); ("sum_handle->sha1_context", CPtr); ("sum_handle->calculated_sha1_hash_string", CPtr); ("sum_handle->calculate_sha224", CPtr); ("sum_handle->sha224_context", CPtr); ("sum_handle->calculated_sha224_hash_string", CPtr); ("sum_handle->calculate_sha256", CPtr); ("sum_handle->sha256_context", CPtr); ("sum_handle->calculated_sha256_hash_string", CPtr); ("sum_handle->calculate_sha512", CPtr); ("sum_handle->sha512_context", CPtr); ("sum_handle->calculated_sha512_hash_string", CPtr); ("sum_handle->process_buffer_size", CPtr); ("sum_handle->abort", CPtr); ("file->reads", CPtr); ("file->offset", CPtr)];
  f_arrays := [];
  f_locals :=
     [("result", (CInt true R32), (EInt 1))];
  f_body :=
    SIf (EBin OEq (EVar "sum_handle") ENull) (
      SExpr (ECall "libcerror_error_set" [(EVar "error"); (EName "LIBCERROR_ERROR_DOMAIN_ARGUMENTS"); (EName "LIBCERROR_ARGUMENT_ERROR_INVALID_VALUE")]) ;-
      SReturn (EInt (-1))) SSkip ;-
    SIf (EBin ONe (EStar "sum_handle") ENull) (
      SIf (EBin ONe (EStar "sum_handle->md5_context") ENull) (
        SIf (EBin ONe (ECall "libhmac_md5_context_free" [(EVar "sum_handle->md5_context"); (EVar "error")]) (EInt 1)) (
          SExpr (ECall "libcerror_error_set" [(EVar "error"); (EName "LIBCERROR_ERROR_DOMAIN_RUNTIME"); (EName "LIBCERROR_RUNTIME_ERROR_FINALIZE_FAILED")]) ;-
          SAssign (EVar "result") (EInt (-1))) SSkip) SSkip ;-
      SIf (EBin ONe (EStar "sum_handle->calculated_md5_hash_string") ENull) (
        SExpr (ECall "memory_free" [(EStar "sum_handle->calculated_md5_hash_string")])) SSkip ;-
      SIf (EBin ONe (EStar "sum_handle->sha1_context") ENull) (
        SIf (EBin ONe (ECall "libhmac_sha1_context_free" [(EVar "sum_handle->sha1_context"); (EVar "error")]) (EInt 1)) (
          SExpr (ECall "libcerror_error_set" [(EVar "error"); (EName "LIBCERROR_ERROR_DOMAIN_RUNTIME"); (EName "LIBCERROR_RUNTIME_ERROR_FINALIZE_FAILED")]) ;-
          SAssign (EVar "result") (EInt (-1))) SSkip) SSkip ;-
      SIf (EBin ONe (EStar "sum_handle->calculated_sha1_hash_string") ENull) (
        SExpr (ECall "memory_free" [(EStar "sum_handle->calculated_sha1_hash_string")])) SSkip ;-
      SIf (EBin ONe (EStar "sum_handle->sha224_context") ENull) (
        SIf (EBin ONe (ECall "libhmac_sha224_context_free" [(EVar "sum_handle->sha224_context"); (EVar "error")]) (EInt 1)) (
          SExpr (ECall "libcerror_error_set" [(EVar "error"); (EName "LIBCERROR_ERROR_DOMAIN_RUNTIME"); (EName "LIBCERROR_RUNTIME_ERROR_FINALIZE_FAILED")]) ;-
          SAssign (EVar "result") (EInt (-1))) SSkip) SSkip ;-
      SIf (EBin ONe (EStar "sum_handle->calculated_sha224_hash_string") ENull) (
        SExpr (ECall "memory_free" [(EStar "sum_handle->calculated_sha224_hash_string")])) SSkip ;-
      SIf (EBin ONe (EStar "sum_handle->sha256_context") ENull) (
        SIf (EBin ONe (ECall "libhmac_sha256_context_free" [(EVar "sum_handle->sha256_context"); (EVar "error")]) (EInt 1)) (
          SExpr (ECall "libcerror_error_set" [(EVar "error"); (EName "LIBCERROR_ERROR_DOMAIN_RUNTIME"); (EName "LIBCERROR_RUNTIME_ERROR_FINALIZE_FAILED")]) ;-
          SAssign (EVar "result") (EInt (-1))) SSkip) SSkip ;-
      SIf (EBin ONe (EStar "sum_handle->calculated_sha256_hash_string") ENull) (
        SExpr (ECall "memory_free" [(EStar "sum_handle->calculated_sha256_hash_string")])) SSkip ;-
      SIf (EBin ONe (EStar "sum_handle->sha512_context") ENull) (
        SIf (EBin ONe (ECall "libhmac_sha512_context_free" [(EVar "sum_handle->sha512_context"); (EVar "error")]) (EInt 1)) (
          SExpr (ECall "libcerror_error_set" [(EVar "error"); (EName "LIBCERROR_ERROR_DOMAIN_RUNTIME"); (EName "LIBCERROR_RUNTIME_ERROR_FINALIZE_FAILED")]) ;-
          SAssign (EVar "result") (EInt (-1))) SSkip) SSkip ;-
      SIf (EBin ONe (EStar "sum_handle->calculated_sha512_hash_string") ENull) (
        SExpr (ECall "memory_free" [(EStar "sum_handle->calculated_sha512_hash_string")])) SSkip ;-
      SIf (EBin ONe (ECall "libcfile_file_free" [(EVar "sum_handle->input_handle"); (EVar "error")]) (EInt 1)) (
        SExpr (ECall "libcerror_error_set" [(EVar "error"); (EName "LIBCERROR_ERROR_DOMAIN_RUNTIME"); (EName "LIBCERROR_RUNTIME_ERROR_FINALIZE_FAILED")]) ;-
        SAssign (EVar "result") (EInt (-1))) SSkip ;-
      SExpr (ECall "memory_free" [(EStar "sum_handle")]) ;-
      SAssign (EStar "sum_handle") ENull) SSkip ;-
    SReturn (EVar "result");
  f_error :=
    SSkip |}.

(* hmactools/sum_handle.c:300-320 sum_handle_signal_abort *)
Definition text_sum_handle_signal_abort  : fundef := {|
  f_name := "sum_handle_signal_abort";
  f_ret := (true, R32);
  f_params := [("sum_handle", CPtr); ("error", CPtr); ("sum_handle->input_handle", CPtr); ("sum_handle->calculate_md5", CPtr); ("sum_handle->md5_context", CPtr); ("sum_handle->calculated_md5_hash_string", CPtr); ("sum_handle->calculate_sha1", CPtr); ("sum_handle->sha1_context", CPtr); ("sum_handle->calculated_sha1_hash_string", CPtr); ("sum_handle->calculate_sha224", CPtr); ("sum_handle->sha224_context", CPtr); ("sum_handle->calculated_sha224_hash_string", CPtr); ("sum_handle->calculate_sha256", CPtr); ("sum_handle->sha256_context", CPtr); ("sum_handle->calculated_sha256_hash_string", CPtr); ("sum_handle->calculate_sha512", CPtr); ("sum_handle->sha512_context", CPtr); ("sum_handle->calculated_sha512_hash_string", CPtr); ("sum_handle->process_buffer_size", CPtr); ("sum_handle->abort", CPtr); ("file->reads", CPtr); ("file->offset", CPtr)];
  f_arrays := [];
  f_locals :=
     [];
  f_body :=
    SIf (EBin OEq (EVar "sum_handle") ENull) (
      SExpr (ECall "libcerror_error_set" [(EVar "error"); (EName "LIBCERROR_ERROR_DOMAIN_ARGUMENTS"); (EName "LIBCERROR_ARGUMENT_ERROR_INVALID_VALUE")]) ;-
      SReturn (EInt (-1))) SSkip ;-
    SAssign (EOut "sum_handle->abort") (EInt 1) ;-
    SReturn (EInt 1);
  f_error :=
    SSkip |}.

(* hmactools/sum_handle.c:325-367 sum_handle_open_input *)
Definition text_sum_handle_open_input  : fundef := {|
  f_name := "sum_handle_open_input";
  f_ret := (true, R32);
  f_params := [("sum_handle", CPtr); ("filename", CPtr); ("error", CPtr); ("sum_handle->input_handle", CPtr); ("sum_handle->calculate_md5", CPtr); ("sum_handle->md5_context", CPtr); ("sum_handle->calculated_md5_hash_string", CPtr); ("sum_handle->calculate_sha1", CPtr); ("sum_handle->sha1_context", CPtr); ("sum_handle->calculated_sha1_hash_string", CPtr); ("sum_handle->calculate_sha224", CPtr); ("sum_handle->sha224_context", CPtr); ("sum_handle->calculated_sha224_hash_string", CPtr); ("sum_handle->calculate_sha256", CPtr); ("sum_handle->sha256_context", CPtr); ("sum_handle->calculated_sha256_hash_string", CPtr); ("sum_handle->calculate_sha512", CPtr); ("sum_handle->sha512_context", CPtr); ("sum_handle->calculated_sha512_hash_string", CPtr); ("sum_handle->process_buffer_size", CPtr); ("sum_handle->abort", CPtr); ("file->reads", CPtr); ("file->offset", CPtr)];
  f_arrays := [];
  f_locals :=
     [];
  f_body :=
    SIf (EBin OEq (EVar "sum_handle") ENull) (
      SExpr (ECall "libcerror_error_set" [(EVar "error"); (EName "LIBCERROR_ERROR_DOMAIN_ARGUMENTS"); (EName "LIBCERROR_ARGUMENT_ERROR_INVALID_VALUE")]) ;-
      SReturn (EInt (-1))) SSkip ;-
    SIf (EBin ONe (ECall "libcfile_file_open" [(EStar "sum_handle->input_handle"); (EVar "filename"); (EName "LIBCFILE_OPEN_READ"); (EVar "error")]) (EInt 1)) (
      SExpr (ECall "libcerror_error_set" [(EVar "error"); (EName "LIBCERROR_ERROR_DOMAIN_IO"); (EName "LIBCERROR_IO_ERROR_OPEN_FAILED")]) ;-
      SReturn (EInt (-1))) SSkip ;-
    SReturn (EInt 1);
  f_error :=
    SSkip |}.

(* hmactools/sum_handle.c:372-403 sum_handle_close *)
Definition text_sum_handle_close  : fundef := {|
  f_name := "sum_handle_close";
  f_ret := (true, R32);
  f_params := [("sum_handle", CPtr); ("error", CPtr); ("sum_handle->input_handle", CPtr); ("sum_handle->calculate_md5", CPtr); ("sum_handle->md5_context", CPtr); ("sum_handle->calculated_md5_hash_string", CPtr); ("sum_handle->calculate_sha1", CPtr); ("sum_handle->sha1_context", CPtr); ("sum_handle->calculated_sha1_hash_string", CPtr); ("sum_handle->calculate_sha224", CPtr); ("sum_handle->sha224_context", CPtr); ("sum_handle->calculated_sha224_hash_string", CPtr); ("sum_handle->calculate_sha256", CPtr); ("sum_handle->sha256_context", CPtr); ("sum_handle->calculated_sha256_hash_string", CPtr); ("sum_handle->calculate_sha512", CPtr); ("sum_handle->sha512_context", CPtr); ("sum_handle->calculated_sha512_hash_string", CPtr); ("sum_handle->process_buffer_size", CPtr); ("sum_handle->abort", CPtr); ("file->reads", CPtr); ("file->offset", CPtr)];
  f_arrays := [];
  f_locals :=
     [];
  f_body :=
    SIf (EBin OEq (EVar "sum_handle") ENull) (
      SExpr (ECall "libcerror_error_set" [(EVar "error"); (EName "LIBCERROR_ERROR_DOMAIN_ARGUMENTS"); (EName "LIBCERROR_ARGUMENT_ERROR_INVALID_VALUE")]) ;-
      SReturn (EInt (-1))) SSkip ;-
    SIf (EBin ONe (ECall "libcfile_file_close" [(EStar "sum_handle->input_handle"); (EVar "error")]) (EInt 0)) (
      SExpr (ECall "libcerror_error_set" [(EVar "error"); (EName "LIBCERROR_ERROR_DOMAIN_IO"); (EName "LIBCERROR_IO_ERROR_CLOSE_FAILED")]) ;-
      SReturn (EInt (-1))) SSkip ;-
    SReturn (EInt 0);
  f_error :=
    SSkip |}.

(* hmactools/sum_handle.c:408-468 sum_handle_read_buffer *)
Definition text_sum_handle_read_buffer  : fundef := {|
  f_name := "sum_handle_read_buffer";
  f_ret := (true, RSz);
  f_params := [("sum_handle", CPtr); ("buffer", CPtr); ("buffer_size", CInt false RSz); ("error", CPtr); ("sum_handle->input_handle", CPtr); ("sum_handle->calculate_md5", CPtr); ("sum_handle->md5_context", CPtr); ("sum_handle->calculated_md5_hash_string", CPtr); ("sum_handle->calculate_sha1", CPtr); ("sum_handle->sha1_context", CPtr); ("sum_handle->calculated_sha1_hash_string", CPtr); ("sum_handle->calculate_sha224", CPtr); ("sum_handle->sha224_context", CPtr); ("sum_handle->calculated_sha224_hash_string", CPtr); ("sum_handle->calculate_sha256", CPtr); ("sum_handle->sha256_context", CPtr); ("sum_handle->calculated_sha256_hash_string", CPtr); ("sum_handle->calculate_sha512", CPtr); ("sum_handle->sha512_context", CPtr); ("sum_handle->calculated_sha512_hash_string", CPtr); ("sum_handle->process_buffer_size", CPtr); ("sum_handle->abort", CPtr); ("file->reads", CPtr); ("file->offset", CPtr)];
  f_arrays := [];
  f_locals :=
     [("read_count", (CInt true RSz), (EInt 0))];
  f_body :=
    SIf (EBin OEq (EVar "sum_handle") ENull) (
      SExpr (ECall "libcerror_error_set" [(EVar "error"); (EName "LIBCERROR_ERROR_DOMAIN_ARGUMENTS"); (EName "LIBCERROR_ARGUMENT_ERROR_INVALID_VALUE")]) ;-
      SReturn (EInt (-1))) SSkip ;-
    SIf (EBin OEq (EVar "buffer") ENull) (
      SExpr (ECall "libcerror_error_set" [(EVar "error"); (EName "LIBCERROR_ERROR_DOMAIN_ARGUMENTS"); (EName "LIBCERROR_ARGUMENT_ERROR_INVALID_VALUE")]) ;-
      SReturn (EInt (-1))) SSkip ;-
    SIf (EBin OGt (EVar "buffer_size") (ECast false RSz ESsizeMax)) (
      SExpr (ECall "libcerror_error_set" [(EVar "error"); (EName "LIBCERROR_ERROR_DOMAIN_ARGUMENTS"); (EName "LIBCERROR_ARGUMENT_ERROR_VALUE_OUT_OF_BOUNDS")]) ;-
      SReturn (EInt (-1))) SSkip ;-
    SAssign (EVar "read_count") (ECall "libcfile_file_read_buffer" [(EStar "sum_handle->input_handle"); (EVar "buffer"); (EVar "buffer_size"); (EVar "error"); (EVar "file->reads"); (EVar "file->offset"); (EVar "sum_handle->abort")]) ;-
    SIf (EBin OEq (EVar "read_count") (EInt (-1))) (
      SExpr (ECall "libcerror_error_set" [(EVar "error"); (EName "LIBCERROR_ERROR_DOMAIN_IO"); (EName "LIBCERROR_IO_ERROR_READ_FAILED")]) ;-
      SReturn (EInt (-1))) SSkip ;-
    SReturn (EVar "read_count");
  f_error :=
    SSkip |}.

(* hmactools/sum_handle.c:473-591 sum_handle_initialize_integrity_hash *)
Definition text_sum_handle_initialize_integrity_hash  : fundef := {|
  f_name := "sum_handle_initialize_integrity_hash";
  f_ret := (true, R32);
  f_params := [("sum_handle", CPtr); ("error", CPtr); ("sum_handle->input_handle", CPtr); ("sum_handle->calculate_md5", CPtr); ("sum_handle->md5_context", CPtr); ("sum_handle->calculated_md5_hash_string", CPtr); ("sum_handle->calculate_sha1", CPtr); ("sum_handle->sha1_context", CPtr); ("sum_handle->calculated_sha1_hash_string", CPtr); ("sum_handle->calculate_sha224", CPtr); ("sum_handle->sha224_context", CPtr); ("sum_handle->calculated_sha224_hash_string", CPtr); ("sum_handle->calculate_sha256", CPtr); ("sum_handle->sha256_context", CPtr); ("sum_handle->calculated_sha256_hash_string", CPtr); ("sum_handle->calculate_sha512", CPtr); ("sum_handle->sha512_context", CPtr); ("sum_handle->calculated_sha512_hash_string", CPtr); ("sum_handle->process_buffer_size", CPtr); ("sum_handle->abort", CPtr); ("file->reads", CPtr); ("file->offset", CPtr)];
  f_arrays := [];
  f_locals :=
     [];
  f_body :=
    SIf (EBin OEq (EVar "sum_handle") ENull) (
      SExpr (ECall "libcerror_error_set" [(EVar "error"); (EName "LIBCERROR_ERROR_DOMAIN_ARGUMENTS"); (EName "LIBCERROR_ARGUMENT_ERROR_INVALID_VALUE")]) ;-
      SReturn (EInt (-1))) SSkip ;-
    SIf (EBin ONe (EOut "sum_handle->calculate_md5") (EInt 0)) (
      SIf (EBin ONe (ECall "libhmac_md5_context_initialize" [(EVar "sum_handle->md5_context"); (EVar "error")]) (EInt 1)) (
        SExpr (ECall "libcerror_error_set" [(EVar "error"); (EName "LIBCERROR_ERROR_DOMAIN_RUNTIME"); (EName "LIBCERROR_RUNTIME_ERROR_INITIALIZE_FAILED")]) ;-
        SGoto) SSkip) SSkip ;-
    SIf (EBin ONe (EOut "sum_handle->calculate_sha1") (EInt 0)) (
      SIf (EBin ONe (ECall "libhmac_sha1_context_initialize" [(EVar "sum_handle->sha1_context"); (EVar "error")]) (EInt 1)) (
        SExpr (ECall "libcerror_error_set" [(EVar "error"); (EName "LIBCERROR_ERROR_DOMAIN_RUNTIME"); (EName "LIBCERROR_RUNTIME_ERROR_INITIALIZE_FAILED")]) ;-
        SGoto) SSkip) SSkip ;-
    SIf (EBin ONe (EOut "sum_handle->calculate_sha224") (EInt 0)) (
      SIf (EBin ONe (ECall "libhmac_sha224_context_initialize" [(EVar "sum_handle->sha224_context"); (EVar "error")]) (EInt 1)) (
        SExpr (ECall "libcerror_error_set" [(EVar "error"); (EName "LIBCERROR_ERROR_DOMAIN_RUNTIME"); (EName "LIBCERROR_RUNTIME_ERROR_INITIALIZE_FAILED")]) ;-
        SGoto) SSkip) SSkip ;-
    SIf (EBin ONe (EOut "sum_handle->calculate_sha256") (EInt 0)) (
      SIf (EBin ONe (ECall "libhmac_sha256_context_initialize" [(EVar "sum_handle->sha256_context"); (EVar "error")]) (EInt 1)) (
        SExpr (ECall "libcerror_error_set" [(EVar "error"); (EName "LIBCERROR_ERROR_DOMAIN_RUNTIME"); (EName "LIBCERROR_RUNTIME_ERROR_INITIALIZE_FAILED")]) ;-
        SGoto) SSkip) SSkip ;-
    SIf (EBin ONe (EOut "sum_handle->calculate_sha512") (EInt 0)) (
      SIf (EBin ONe (ECall "libhmac_sha512_context_initialize" [(EVar "sum_handle->sha512_context"); (EVar "error")]) (EInt 1)) (
        SExpr (ECall "libcerror_error_set" [(EVar "error"); (EName "LIBCERROR_ERROR_DOMAIN_RUNTIME"); (EName "LIBCERROR_RUNTIME_ERROR_INITIALIZE_FAILED")]) ;-
        SGoto) SSkip) SSkip ;-
    SReturn (EInt 1);
  f_error :=
    SIf (EBin ONe (EStar "sum_handle->sha1_context") ENull) (
      SExpr (ECall "libhmac_sha1_context_free" [(EVar "sum_handle->sha1_context"); ENull])) SSkip ;-
    SIf (EBin ONe (EStar "sum_handle->md5_context") ENull) (
      SExpr (ECall "libhmac_md5_context_free" [(EVar "sum_handle->md5_context"); ENull])) SSkip ;-
    SReturn (EInt (-1)) |}.

(* hmactools/sum_handle.c:596-729 sum_handle_update_integrity_hash *)
Definition text_sum_handle_update_integrity_hash  : fundef := {|
  f_name := "sum_handle_update_integrity_hash";
  f_ret := (true, R32);
  f_params := [("sum_handle", CPtr); ("buffer", CPtr); ("buffer_size", CInt false RSz); ("error", CPtr); ("sum_handle->input_handle", CPtr); ("sum_handle->calculate_md5", CPtr); ("sum_handle->md5_context", CPtr); ("sum_handle->calculated_md5_hash_string", CPtr); ("sum_handle->calculate_sha1", CPtr); ("sum_handle->sha1_context", CPtr); ("sum_handle->calculated_sha1_hash_string", CPtr); ("sum_handle->calculate_sha224", CPtr); ("sum_handle->sha224_context", CPtr); ("sum_handle->calculated_sha224_hash_string", CPtr); ("sum_handle->calculate_sha256", CPtr); ("sum_handle->sha256_context", CPtr); ("sum_handle->calculated_sha256_hash_string", CPtr); ("sum_handle->calculate_sha512", CPtr); ("sum_handle->sha512_context", CPtr); ("sum_handle->calculated_sha512_hash_string", CPtr); ("sum_handle->process_buffer_size", CPtr); ("sum_handle->abort", CPtr); ("file->reads", CPtr); ("file->offset", CPtr)];
  f_arrays := [];
  f_locals :=
     [];
  f_body :=
    SIf (EBin OEq (EVar "sum_handle") ENull) (
      SExpr (ECall "libcerror_error_set" [(EVar "error"); (EName "LIBCERROR_ERROR_DOMAIN_ARGUMENTS"); (EName "LIBCERROR_ARGUMENT_ERROR_INVALID_VALUE")]) ;-
      SReturn (EInt (-1))) SSkip ;-
    SIf (EBin OEq (EVar "buffer") ENull) (
      SExpr (ECall "libcerror_error_set" [(EVar "error"); (EName "LIBCERROR_ERROR_DOMAIN_ARGUMENTS"); (EName "LIBCERROR_ARGUMENT_ERROR_INVALID_VALUE")]) ;-
      SReturn (EInt (-1))) SSkip ;-
    SIf (ELogOr (EBin OEq (EVar "buffer_size") (EInt 0)) (EBin OGt (EVar "buffer_size") (ECast false RSz ESsizeMax))) (
      SExpr (ECall "libcerror_error_set" [(EVar "error"); (EName "LIBCERROR_ERROR_DOMAIN_ARGUMENTS"); (EName "LIBCERROR_ARGUMENT_ERROR_VALUE_OUT_OF_BOUNDS")]) ;-
      SReturn (EInt (-1))) SSkip ;-
    SIf (EBin ONe (EOut "sum_handle->calculate_md5") (EInt 0)) (
      SIf (EBin ONe (ECall "libhmac_md5_context_update" [(EStar "sum_handle->md5_context"); (EVar "buffer"); (EVar "buffer_size"); (EVar "error")]) (EInt 1)) (
        SExpr (ECall "libcerror_error_set" [(EVar "error"); (EName "LIBCERROR_ERROR_DOMAIN_RUNTIME"); (EName "LIBCERROR_RUNTIME_ERROR_SET_FAILED")]) ;-
        SReturn (EInt (-1))) SSkip) SSkip ;-
    SIf (EBin ONe (EOut "sum_handle->calculate_sha1") (EInt 0)) (
      SIf (EBin ONe (ECall "libhmac_sha1_context_update" [(EStar "sum_handle->sha1_context"); (EVar "buffer"); (EVar "buffer_size"); (EVar "error")]) (EInt 1)) (
        SExpr (ECall "libcerror_error_set" [(EVar "error"); (EName "LIBCERROR_ERROR_DOMAIN_RUNTIME"); (EName "LIBCERROR_RUNTIME_ERROR_SET_FAILED")]) ;-
        SReturn (EInt (-1))) SSkip) SSkip ;-
    SIf (EBin ONe (EOut "sum_handle->calculate_sha224") (EInt 0)) (
      SIf (EBin ONe (ECall "libhmac_sha224_context_update" [(EStar "sum_handle->sha224_context"); (EVar "buffer"); (EVar "buffer_size"); (EVar "error")]) (EInt 1)) (
        SExpr (ECall "libcerror_error_set" [(EVar "error"); (EName "LIBCERROR_ERROR_DOMAIN_RUNTIME"); (EName "LIBCERROR_RUNTIME_ERROR_SET_FAILED")]) ;-
        SReturn (EInt (-1))) SSkip) SSkip ;-
    SIf (EBin ONe (EOut "sum_handle->calculate_sha256") (EInt 0)) (
      SIf (EBin ONe (ECall "libhmac_sha256_context_update" [(EStar "sum_handle->sha256_context"); (EVar "buffer"); (EVar "buffer_size"); (EVar "error")]) (EInt 1)) (
        SExpr (ECall "libcerror_error_set" [(EVar "error"); (EName "LIBCERROR_ERROR_DOMAIN_RUNTIME"); (EName "LIBCERROR_RUNTIME_ERROR_SET_FAILED")]) ;-
        SReturn (EInt (-1))) SSkip) SSkip ;-
    SIf (EBin ONe (EOut "sum_handle->calculate_sha512") (EInt 0)) (
      SIf (EBin ONe (ECall "libhmac_sha512_context_update" [(EStar "sum_handle->sha512_context"); (EVar "buffer"); (EVar "buffer_size"); (EVar "error")]) (EInt 1)) (
        SExpr (ECall "libcerror_error_set" [(EVar "error"); (EName "LIBCERROR_ERROR_DOMAIN_RUNTIME"); (EName "LIBCERROR_RUNTIME_ERROR_SET_FAILED")]) ;-
        SReturn (EInt (-1))) SSkip) SSkip ;-
    SReturn (EInt 1);
  f_error :=
    SSkip |}.

(* hmactools/sum_handle.c:734-983 sum_handle_finalize_integrity_hash *)
Definition text_sum_handle_finalize_integrity_hash  : fundef := {|
  f_name := "sum_handle_finalize_integrity_hash";
  f_ret := (true, R32);
  f_params := [("sum_handle", CPtr); ("error", CPtr); ("sum_handle->input_handle", CPtr); ("sum_handle->calculate_md5", CPtr); ("sum_handle->md5_context", CPtr); ("sum_handle->calculated_md5_hash_string", CPtr); ("sum_handle->calculate_sha1", CPtr); ("sum_handle->sha1_context", CPtr); ("sum_handle->calculated_sha1_hash_string", CPtr); ("sum_handle->calculate_sha224", CPtr); ("sum_handle->sha224_context", CPtr); ("sum_handle->calculated_sha224_hash_string", CPtr); ("sum_handle->calculate_sha256", CPtr); ("sum_handle->sha256_context", CPtr); ("sum_handle->calculated_sha256_hash_string", CPtr); ("sum_handle->calculate_sha512", CPtr); ("sum_handle->sha512_context", CPtr); ("sum_handle->calculated_sha512_hash_string", CPtr); ("sum_handle->process_buffer_size", CPtr); ("sum_handle->abort", CPtr); ("file->reads", CPtr); ("file->offset", CPtr)];
  f_arrays := [("calculated_md5_hash", R8, 16%nat); ("calculated_sha1_hash", R8, 20%nat); ("calculated_sha224_hash", R8, 28%nat); ("calculated_sha256_hash", R8, 32%nat); ("calculated_sha512_hash", R8, 64%nat)];
  f_locals :=
     [];
  f_body :=
    SIf (EBin OEq (EVar "sum_handle") ENull) (
      SExpr (ECall "libcerror_error_set" [(EVar "error"); (EName "LIBCERROR_ERROR_DOMAIN_ARGUMENTS"); (EName "LIBCERROR_ARGUMENT_ERROR_INVALID_VALUE")]) ;-
      SReturn (EInt (-1))) SSkip ;-
    SIf (EBin ONe (EOut "sum_handle->calculate_md5") (EInt 0)) (
      SIf (EBin OEq (EStar "sum_handle->calculated_md5_hash_string") ENull) (
        SExpr (ECall "libcerror_error_set" [(EVar "error"); (EName "LIBCERROR_ERROR_DOMAIN_RUNTIME"); (EName "LIBCERROR_RUNTIME_ERROR_VALUE_MISSING")]) ;-
        SReturn (EInt (-1))) SSkip ;-
      SIf (EBin ONe (ECall "libhmac_md5_context_finalize" [(EStar "sum_handle->md5_context"); (EVar "calculated_md5_hash"); (EInt 16); (EVar "error")]) (EInt 1)) (
        SExpr (ECall "libcerror_error_set" [(EVar "error"); (EName "LIBCERROR_ERROR_DOMAIN_RUNTIME"); (EName "LIBCERROR_RUNTIME_ERROR_FINALIZE_FAILED")]) ;-
        SReturn (EInt (-1))) SSkip ;-
      SIf (EBin ONe (ECall "digest_hash_copy_to_string" [(EVar "calculated_md5_hash"); (EInt 16); (EStar "sum_handle->calculated_md5_hash_string"); (EInt 33); (EVar "error")]) (EInt 1)) (
        SExpr (ECall "libcerror_error_set" [(EVar "error"); (EName "LIBCERROR_ERROR_DOMAIN_RUNTIME"); (EName "LIBHMAC_RUNTIME_ERROR_SET_FAILED")]) ;-
        SReturn (EInt (-1))) SSkip) SSkip ;-
    SIf (EBin ONe (EOut "sum_handle->calculate_sha1") (EInt 0)) (
      SIf (EBin OEq (EStar "sum_handle->calculated_sha1_hash_string") ENull) (
        SExpr (ECall "libcerror_error_set" [(EVar "error"); (EName "LIBCERROR_ERROR_DOMAIN_RUNTIME"); (EName "LIBCERROR_RUNTIME_ERROR_VALUE_MISSING")]) ;-
        SReturn (EInt (-1))) SSkip ;-
      SIf (EBin ONe (ECall "libhmac_sha1_context_finalize" [(EStar "sum_handle->sha1_context"); (EVar "calculated_sha1_hash"); (EInt 20); (EVar "error")]) (EInt 1)) (
        SExpr (ECall "libcerror_error_set" [(EVar "error"); (EName "LIBCERROR_ERROR_DOMAIN_RUNTIME"); (EName "LIBCERROR_RUNTIME_ERROR_FINALIZE_FAILED")]) ;-
        SReturn (EInt (-1))) SSkip ;-
      SIf (EBin ONe (ECall "digest_hash_copy_to_string" [(EVar "calculated_sha1_hash"); (EInt 20); (EStar "sum_handle->calculated_sha1_hash_string"); (EInt 41); (EVar "error")]) (EInt 1)) (
        SExpr (ECall "libcerror_error_set" [(EVar "error"); (EName "LIBCERROR_ERROR_DOMAIN_RUNTIME"); (EName "LIBCERROR_RUNTIME_ERROR_INITIALIZE_FAILED")]) ;-
        SReturn (EInt (-1))) SSkip) SSkip ;-
    SIf (EBin ONe (EOut "sum_handle->calculate_sha224") (EInt 0)) (
      SIf (EBin OEq (EStar "sum_handle->calculated_sha224_hash_string") ENull) (
        SExpr (ECall "libcerror_error_set" [(EVar "error"); (EName "LIBCERROR_ERROR_DOMAIN_RUNTIME"); (EName "LIBCERROR_RUNTIME_ERROR_VALUE_MISSING")]) ;-
        SReturn (EInt (-1))) SSkip ;-
      SIf (EBin ONe (ECall "libhmac_sha224_context_finalize" [(EStar "sum_handle->sha224_context"); (EVar "calculated_sha224_hash"); (EInt 28); (EVar "error")]) (EInt 1)) (
        SExpr (ECall "libcerror_error_set" [(EVar "error"); (EName "LIBCERROR_ERROR_DOMAIN_RUNTIME"); (EName "LIBCERROR_RUNTIME_ERROR_FINALIZE_FAILED")]) ;-
        SReturn (EInt (-1))) SSkip ;-
      SIf (EBin ONe (ECall "digest_hash_copy_to_string" [(EVar "calculated_sha224_hash"); (EInt 28); (EStar "sum_handle->calculated_sha224_hash_string"); (EInt 57); (EVar "error")]) (EInt 1)) (
        SExpr (ECall "libcerror_error_set" [(EVar "error"); (EName "LIBCERROR_ERROR_DOMAIN_RUNTIME"); (EName "LIBCERROR_RUNTIME_ERROR_INITIALIZE_FAILED")]) ;-
        SReturn (EInt (-1))) SSkip) SSkip ;-
    SIf (EBin ONe (EOut "sum_handle->calculate_sha256") (EInt 0)) (
      SIf (EBin OEq (EStar "sum_handle->calculated_sha256_hash_string") ENull) (
        SExpr (ECall "libcerror_error_set" [(EVar "error"); (EName "LIBCERROR_ERROR_DOMAIN_RUNTIME"); (EName "LIBCERROR_RUNTIME_ERROR_VALUE_MISSING")]) ;-
        SReturn (EInt (-1))) SSkip ;-
      SIf (EBin ONe (ECall "libhmac_sha256_context_finalize" [(EStar "sum_handle->sha256_context"); (EVar "calculated_sha256_hash"); (EInt 32); (EVar "error")]) (EInt 1)) (
        SExpr (ECall "libcerror_error_set" [(EVar "error"); (EName "LIBCERROR_ERROR_DOMAIN_RUNTIME"); (EName "LIBCERROR_RUNTIME_ERROR_FINALIZE_FAILED")]) ;-
        SReturn (EInt (-1))) SSkip ;-
      SIf (EBin ONe (ECall "digest_hash_copy_to_string" [(EVar "calculated_sha256_hash"); (EInt 32); (EStar "sum_handle->calculated_sha256_hash_string"); (EInt 65); (EVar "error")]) (EInt 1)) (
        SExpr (ECall "libcerror_error_set" [(EVar "error"); (EName "LIBCERROR_ERROR_DOMAIN_RUNTIME"); (EName "LIBCERROR_RUNTIME_ERROR_INITIALIZE_FAILED")]) ;-
        SReturn (EInt (-1))) SSkip) SSkip ;-
    SIf (EBin ONe (EOut "sum_handle->calculate_sha512") (EInt 0)) (
      SIf (EBin OEq (EStar "sum_handle->calculated_sha512_hash_string") ENull) (
        SExpr (ECall "libcerror_error_set" [(EVar "error"); (EName "LIBCERROR_ERROR_DOMAIN_RUNTIME"); (EName "LIBCERROR_RUNTIME_ERROR_VALUE_MISSING")]) ;-
        SReturn (EInt (-1))) SSkip ;-
      SIf (EBin ONe (ECall "libhmac_sha512_context_finalize" [(EStar "sum_handle->sha512_context"); (EVar "calculated_sha512_hash"); (EInt 64); (EVar "error")]) (EInt 1)) (
        SExpr (ECall "libcerror_error_set" [(EVar "error"); (EName "LIBCERROR_ERROR_DOMAIN_RUNTIME"); (EName "LIBCERROR_RUNTIME_ERROR_FINALIZE_FAILED")]) ;-
        SReturn (EInt (-1))) SSkip ;-
      SIf (EBin ONe (ECall "digest_hash_copy_to_string" [(EVar "calculated_sha512_hash"); (EInt 64); (EStar "sum_handle->calculated_sha512_hash_string"); (EInt 129); (EVar "error")]) (EInt 1)) (
        SExpr (ECall "libcerror_error_set" [(EVar "error"); (EName "LIBCERROR_ERROR_DOMAIN_RUNTIME"); (EName "LIBCERROR_RUNTIME_ERROR_INITIALIZE_FAILED")]) ;-
        SReturn (EInt (-1))) SSkip) SSkip ;-
    SReturn (EInt 1);
  f_error :=
    SSkip |}.

(* hmactools/sum_handle.c:988-1148 sum_handle_process_input *)
Definition text_sum_handle_process_input  : fundef := {|
  f_name := "sum_handle_process_input";
  f_ret := (true, R32);
  f_params := [("sum_handle", CPtr); ("error", CPtr); ("sum_handle->input_handle", CPtr); ("sum_handle->calculate_md5", CPtr); ("sum_handle->md5_context", CPtr); ("sum_handle->calculated_md5_hash_string", CPtr); ("sum_handle->calculate_sha1", CPtr); ("sum_handle->sha1_context", CPtr); ("sum_handle->calculated_sha1_hash_string", CPtr); ("sum_handle->calculate_sha224", CPtr); ("sum_handle->sha224_context", CPtr); ("sum_handle->calculated_sha224_hash_string", CPtr); ("sum_handle->calculate_sha256", CPtr); ("sum_handle->sha256_context", CPtr); ("sum_handle->calculated_sha256_hash_string", CPtr); ("sum_handle->calculate_sha512", CPtr); ("sum_handle->sha512_context", CPtr); ("sum_handle->calculated_sha512_hash_string", CPtr); ("sum_handle->process_buffer_size", CPtr); ("sum_handle->abort", CPtr); ("file->reads", CPtr); ("file->offset", CPtr)];
  f_arrays := [];
  f_locals :=
     [("buffer", CPtr, ENull);
      ("media_size", (CInt false R64), (EInt 0));
      ("process_count", (CInt false R64), (EInt 0));
      ("read_size", (CInt false RSz), (EInt 0));
      ("read_count", (CInt true RSz), (EInt 0))];
  f_body :=
    SIf (EBin OEq (EVar "sum_handle") ENull) (
      SExpr (ECall "libcerror_error_set" [(EVar "error"); (EName "LIBCERROR_ERROR_DOMAIN_ARGUMENTS"); (EName "LIBCERROR_ARGUMENT_ERROR_INVALID_VALUE")]) ;-
      SReturn (EInt (-1))) SSkip ;-
    SIf (ELogOr (EBin OEq (EOut "sum_handle->process_buffer_size") (EInt 0)) (EBin OGt (EOut "sum_handle->process_buffer_size") (ECast false RSz ESsizeMax))) (
      SExpr (ECall "libcerror_error_set" [(EVar "error"); (EName "LIBCERROR_ERROR_DOMAIN_ARGUMENTS"); (EName "LIBCERROR_ARGUMENT_ERROR_VALUE_OUT_OF_BOUNDS")]) ;-
      SReturn (EInt (-1))) SSkip ;-
    SIf (EBin ONe (ECall "libcfile_file_get_size" [(EStar "sum_handle->input_handle"); (ERef "media_size"); (EVar "error")]) (EInt 1)) (
      SExpr (ECall "libcerror_error_set" [(EVar "error"); (EName "LIBCERROR_ERROR_DOMAIN_RUNTIME"); (EName "LIBCERROR_RUNTIME_ERROR_GET_FAILED")]) ;-
      SGoto) SSkip ;-
    SAssign (EVar "buffer") (ECall "memory_allocate" [(EBin OMul (ESize 1) (EOut "sum_handle->process_buffer_size"))]) ;-
    SIf (EBin OEq (EVar "buffer") ENull) (
      SExpr (ECall "libcerror_error_set" [(EVar "error"); (EName "LIBCERROR_ERROR_DOMAIN_MEMORY"); (EName "LIBCERROR_MEMORY_ERROR_INSUFFICIENT")]) ;-
      SGoto) SSkip ;-
    SIf (EBin ONe (ECall "sum_handle_initialize_integrity_hash" [(EVar "sum_handle"); (EVar "error"); (EVar "sum_handle->input_handle"); (EVar "sum_handle->calculate_md5"); (EVar "sum_handle->md5_context"); (EVar "sum_handle->calculated_md5_hash_string"); (EVar "sum_handle->calculate_sha1"); (EVar "sum_handle->sha1_context"); (EVar "sum_handle->calculated_sha1_hash_string"); (EVar "sum_handle->calculate_sha224"); (EVar "sum_handle->sha224_context"); (EVar "sum_handle->calculated_sha224_hash_string"); (EVar "sum_handle->calculate_sha256"); (EVar "sum_handle->sha256_context"); (EVar "sum_handle->calculated_sha256_hash_string"); (EVar "sum_handle->calculate_sha512"); (EVar "sum_handle->sha512_context"); (EVar "sum_handle->calculated_sha512_hash_string"); (EVar "sum_handle->process_buffer_size"); (EVar "sum_handle->abort"); (EVar "file->reads"); (EVar "file->offset")]) (EInt 1)) (
      SExpr (ECall "libcerror_error_set" [(EVar "error"); (EName "LIBCERROR_ERROR_DOMAIN_RUNTIME"); (EName "LIBCERROR_RUNTIME_ERROR_INITIALIZE_FAILED")]) ;-
      SGoto) SSkip ;-
    SWhile (EBin OLt (EVar "process_count") (EVar "media_size")) (
      SAssign (EVar "read_size") (EOut "sum_handle->process_buffer_size") ;-
      SIf (EBin OLt (EBin OSub (EVar "media_size") (EVar "process_count")) (EVar "read_size")) (
        SAssign (EVar "read_size") (ECast false RSz (EBin OSub (EVar "media_size") (EVar "process_count")))) SSkip ;-
      SAssign (EVar "read_count") (ECall "sum_handle_read_buffer" [(EVar "sum_handle"); (EVar "buffer"); (EVar "read_size"); (EVar "error"); (EVar "sum_handle->input_handle"); (EVar "sum_handle->calculate_md5"); (EVar "sum_handle->md5_context"); (EVar "sum_handle->calculated_md5_hash_string"); (EVar "sum_handle->calculate_sha1"); (EVar "sum_handle->sha1_context"); (EVar "sum_handle->calculated_sha1_hash_string"); (EVar "sum_handle->calculate_sha224"); (EVar "sum_handle->sha224_context"); (EVar "sum_handle->calculated_sha224_hash_string"); (EVar "sum_handle->calculate_sha256"); (EVar "sum_handle->sha256_context"); (EVar "sum_handle->calculated_sha256_hash_string"); (EVar "sum_handle->calculate_sha512"); (EVar "sum_handle->sha512_context"); (EVar "sum_handle->calculated_sha512_hash_string"); (EVar "sum_handle->process_buffer_size"); (EVar "sum_handle->abort"); (EVar "file->reads"); (EVar "file->offset")]) ;-
      SIf (EBin OLt (EVar "read_count") (EInt 0)) (
        SExpr (ECall "libcerror_error_set" [(EVar "error"); (EName "LIBCERROR_ERROR_DOMAIN_IO"); (EName "LIBCERROR_IO_ERROR_READ_FAILED")]) ;-
        SGoto) SSkip ;-
      SIf (EBin OEq (EVar "read_count") (EInt 0)) (
        SExpr (ECall "libcerror_error_set" [(EVar "error"); (EName "LIBCERROR_ERROR_DOMAIN_IO"); (EName "LIBCERROR_IO_ERROR_READ_FAILED")]) ;-
        SGoto) SSkip ;-
      SIf (EBin ONe (ECall "sum_handle_update_integrity_hash" [(EVar "sum_handle"); (EVar "buffer"); (EVar "read_count"); (EVar "error"); (EVar "sum_handle->input_handle"); (EVar "sum_handle->calculate_md5"); (EVar "sum_handle->md5_context"); (EVar "sum_handle->calculated_md5_hash_string"); (EVar "sum_handle->calculate_sha1"); (EVar "sum_handle->sha1_context"); (EVar "sum_handle->calculated_sha1_hash_string"); (EVar "sum_handle->calculate_sha224"); (EVar "sum_handle->sha224_context"); (EVar "sum_handle->calculated_sha224_hash_string"); (EVar "sum_handle->calculate_sha256"); (EVar "sum_handle->sha256_context"); (EVar "sum_handle->calculated_sha256_hash_string"); (EVar "sum_handle->calculate_sha512"); (EVar "sum_handle->sha512_context"); (EVar "sum_handle->calculated_sha512_hash_string"); (EVar "sum_handle->process_buffer_size"); (EVar "sum_handle->abort"); (EVar "file->reads"); (EVar "file->offset")]) (EInt 1)) (
        SExpr (ECall "libcerror_error_set" [(EVar "error"); (EName "LIBCERROR_ERROR_DOMAIN_RUNTIME"); (EName "LIBCERROR_RUNTIME_ERROR_GENERIC")]) ;-
        SGoto) SSkip ;-
      SOp OAdd (EVar "process_count") (EVar "read_count") ;-
      SIf (EBin ONe (EOut "sum_handle->abort") (EInt 0)) (
        SBreak) SSkip) ;-
    SExpr (ECall "memory_free" [(EVar "buffer")]) ;-
    SAssign (EVar "buffer") ENull ;-
    SIf (EBin ONe (ECall "sum_handle_finalize_integrity_hash" [(EVar "sum_handle"); (EVar "error"); (EVar "sum_handle->input_handle"); (EVar "sum_handle->calculate_md5"); (EVar "sum_handle->md5_context"); (EVar "sum_handle->calculated_md5_hash_string"); (EVar "sum_handle->calculate_sha1"); (EVar "sum_handle->sha1_context"); (EVar "sum_handle->calculated_sha1_hash_string"); (EVar "sum_handle->calculate_sha224"); (EVar "sum_handle->sha224_context"); (EVar "sum_handle->calculated_sha224_hash_string"); (EVar "sum_handle->calculate_sha256"); (EVar "sum_handle->sha256_context"); (EVar "sum_handle->calculated_sha256_hash_string"); (EVar "sum_handle->calculate_sha512"); (EVar "sum_handle->sha512_context"); (EVar "sum_handle->calculated_sha512_hash_string"); (EVar "sum_handle->process_buffer_size"); (EVar "sum_handle->abort"); (EVar "file->reads"); (EVar "file->offset")]) (EInt 1)) (
      SExpr (ECall "libcerror_error_set" [(EVar "error"); (EName "LIBCERROR_ERROR_DOMAIN_RUNTIME"); (EName "LIBCERROR_RUNTIME_ERROR_FINALIZE_FAILED")]) ;-
      SGoto) SSkip ;-
    SReturn (EInt 1);
  f_error :=
    SIf (EBin ONe (EVar "buffer") ENull) (
      SExpr (ECall "memory_free" [(EVar "buffer")])) SSkip ;-
    SReturn (EInt (-1)) |}.

(* hmactools/sum_handle.c:1153-1565 sum_handle_set_digest_types *)
Definition text_sum_handle_set_digest_types  : fundef := {|
  f_name := "sum_handle_set_digest_types";
  f_ret := (true, R32);
  f_params := [("sum_handle", CPtr); ("string", CPtr); ("error", CPtr); ("sum_handle->input_handle", CPtr); ("sum_handle->calculate_md5", CPtr); ("sum_handle->md5_context", CPtr); ("sum_handle->calculated_md5_hash_string", CPtr); ("sum_handle->calculate_sha1", CPtr); ("sum_handle->sha1_context", CPtr); ("sum_handle->calculated_sha1_hash_string", CPtr); ("sum_handle->calculate_sha224", CPtr); ("sum_handle->sha224_context", CPtr); ("sum_handle->calculated_sha224_hash_string", CPtr); ("sum_handle->calculate_sha256", CPtr); ("sum_handle->sha256_context", CPtr); ("sum_handle->calculated_sha256_hash_string", CPtr); ("sum_handle->calculate_sha512", CPtr); ("sum_handle->sha512_context", CPtr); ("sum_handle->calculated_sha512_hash_string", CPtr); ("sum_handle->process_buffer_size", CPtr); ("sum_handle->abort", CPtr); ("file->reads", CPtr); ("file->offset", CPtr)];
  f_arrays := [];
  f_locals :=
     [("string_segment", CPtr, ENull);
      ("string_elements", CPtr, ENull);
      ("string_length", (CInt false RSz), (EInt 0));
      ("string_segment_size", (CInt false RSz), (EInt 0));
      ("calculate_md5", (CInt false R8), (EInt 0));
      ("calculate_sha1", (CInt false R8), (EInt 0));
      ("calculate_sha224", (CInt false R8), (EInt 0));
      ("calculate_sha256", (CInt false R8), (EInt 0));
      ("calculate_sha512", (CInt false R8), (EInt 0));
      ("number_of_segments", (CInt true R32), (EInt 0));
      ("segment_index", (CInt true R32), (EInt 0));
      ("result", (CInt true R32), (EInt 0))];
  f_body :=
    SIf (EBin OEq (EVar "sum_handle") ENull) (
      SExpr (ECall "libcerror_error_set" [(EVar "error"); (EName "LIBCERROR_ERROR_DOMAIN_ARGUMENTS"); (EName "LIBCERROR_ARGUMENT_ERROR_INVALID_VALUE")]) ;-
      SReturn (EInt (-1))) SSkip ;-
    SAssign (EVar "string_length") (ECall "system_string_length" [(EVar "string")]) ;-
    SIf (EBin ONe (ECall "system_string_split" [(EVar "string"); (EBin OAdd (EVar "string_length") (EInt 1)); (EInt 44); (ERef "string_elements"); (EVar "error")]) (EInt 1)) (
      SExpr (ECall "libcerror_error_set" [(EVar "error"); (EName "LIBCERROR_ERROR_DOMAIN_RUNTIME"); (EName "LIBCERROR_RUNTIME_ERROR_INITIALIZE_FAILED")]) ;-
      SGoto) SSkip ;-
    SIf (EBin ONe (ECall "system_split_string_get_number_of_segments" [(EVar "string_elements"); (ERef "number_of_segments"); (EVar "error")]) (EInt 1)) (
      SExpr (ECall "libcerror_error_set" [(EVar "error"); (EName "LIBCERROR_ERROR_DOMAIN_RUNTIME"); (EName "LIBCERROR_RUNTIME_ERROR_GET_FAILED")]) ;-
      SReturn (EInt (-1))) SSkip ;-
    SFor (SAssign (EVar "segment_index") (EInt 0)) (EBin OLt (EVar "segment_index") (EVar "number_of_segments")) (SOp OAdd (EVar "segment_index") (EInt 1)) (
      SIf (EBin ONe (ECall "system_split_string_get_segment_by_index" [(EVar "string_elements"); (EVar "segment_index"); (ERef "string_segment"); (ERef "string_segment_size"); (EVar "error")]) (EInt 1)) (
        SExpr (ECall "libcerror_error_set" [(EVar "error"); (EName "LIBCERROR_ERROR_DOMAIN_RUNTIME"); (EName "LIBCERROR_RUNTIME_ERROR_GET_FAILED")]) ;-
        SGoto) SSkip ;-
      SIf (EBin OEq (EVar "string_segment") ENull) (
        SExpr (ECall "libcerror_error_set" [(EVar "error"); (EName "LIBCERROR_ERROR_DOMAIN_RUNTIME"); (EName "LIBCERROR_RUNTIME_ERROR_VALUE_MISSING")]) ;-
        SReturn (EInt (-1))) SSkip ;-
      SIf (EBin OEq (EVar "string_segment_size") (EInt 4)) (
        SIf (EBin OEq (ECall "system_string_compare" [(EVar "string_segment"); (EText "md5"); (EInt 4)]) (EInt 0)) (
          SAssign (EVar "calculate_md5") (EInt 1))
        (
          SIf (EBin OEq (ECall "system_string_compare" [(EVar "string_segment"); (EText "MD5"); (EInt 4)]) (EInt 0)) (
            SAssign (EVar "calculate_md5") (EInt 1)) SSkip))
      (
        SIf (EBin OEq (EVar "string_segment_size") (EInt 5)) (
          SIf (EBin OEq (ECall "system_string_compare" [(EVar "string_segment"); (EText "sha1"); (EInt 4)]) (EInt 0)) (
            SAssign (EVar "calculate_sha1") (EInt 1))
          (
            SIf (EBin OEq (ECall "system_string_compare" [(EVar "string_segment"); (EText "SHA1"); (EInt 4)]) (EInt 0)) (
              SAssign (EVar "calculate_sha1") (EInt 1)) SSkip))
        (
          SIf (EBin OEq (EVar "string_segment_size") (EInt 6)) (
            SIf (EBin OEq (ECall "system_string_compare" [(EVar "string_segment"); (EText "sha-1"); (EInt 5)]) (EInt 0)) (
              SAssign (EVar "calculate_sha1") (EInt 1))
            (
              SIf (EBin OEq (ECall "system_string_compare" [(EVar "string_segment"); (EText "sha_1"); (EInt 5)]) (EInt 0)) (
                SAssign (EVar "calculate_sha1") (EInt 1))
              (
                SIf (EBin OEq (ECall "system_string_compare" [(EVar "string_segment"); (EText "SHA-1"); (EInt 5)]) (EInt 0)) (
                  SAssign (EVar "calculate_sha1") (EInt 1))
                (
                  SIf (EBin OEq (ECall "system_string_compare" [(EVar "string_segment"); (EText "SHA_1"); (EInt 5)]) (EInt 0)) (
                    SAssign (EVar "calculate_sha1") (EInt 1)) SSkip))))
          (
            SIf (EBin OEq (EVar "string_segment_size") (EInt 7)) (
              SIf (EBin OEq (ECall "system_string_compare" [(EVar "string_segment"); (EText "sha224"); (EInt 6)]) (EInt 0)) (
                SAssign (EVar "calculate_sha224") (EInt 1))
              (
                SIf (EBin OEq (ECall "system_string_compare" [(EVar "string_segment"); (EText "SHA224"); (EInt 6)]) (EInt 0)) (
                  SAssign (EVar "calculate_sha224") (EInt 1))
                (
                  SIf (EBin OEq (ECall "system_string_compare" [(EVar "string_segment"); (EText "sha256"); (EInt 6)]) (EInt 0)) (
                    SAssign (EVar "calculate_sha256") (EInt 1))
                  (
                    SIf (EBin OEq (ECall "system_string_compare" [(EVar "string_segment"); (EText "SHA256"); (EInt 6)]) (EInt 0)) (
                      SAssign (EVar "calculate_sha256") (EInt 1))
                    (
                      SIf (EBin OEq (ECall "system_string_compare" [(EVar "string_segment"); (EText "sha512"); (EInt 6)]) (EInt 0)) (
                        SAssign (EVar "calculate_sha512") (EInt 1))
                      (
                        SIf (EBin OEq (ECall "system_string_compare" [(EVar "string_segment"); (EText "SHA512"); (EInt 6)]) (EInt 0)) (
                          SAssign (EVar "calculate_sha512") (EInt 1)) SSkip))))))
            (
              SIf (EBin OEq (EVar "string_segment_size") (EInt 8)) (
                SIf (EBin OEq (ECall "system_string_compare" [(EVar "string_segment"); (EText "sha-224"); (EInt 7)]) (EInt 0)) (
                  SAssign (EVar "calculate_sha224") (EInt 1))
                (
                  SIf (EBin OEq (ECall "system_string_compare" [(EVar "string_segment"); (EText "sha_224"); (EInt 7)]) (EInt 0)) (
                    SAssign (EVar "calculate_sha224") (EInt 1))
                  (
                    SIf (EBin OEq (ECall "system_string_compare" [(EVar "string_segment"); (EText "SHA-224"); (EInt 7)]) (EInt 0)) (
                      SAssign (EVar "calculate_sha224") (EInt 1))
                    (
                      SIf (EBin OEq (ECall "system_string_compare" [(EVar "string_segment"); (EText "SHA_224"); (EInt 7)]) (EInt 0)) (
                        SAssign (EVar "calculate_sha224") (EInt 1))
                      (
                        SIf (EBin OEq (ECall "system_string_compare" [(EVar "string_segment"); (EText "sha-256"); (EInt 7)]) (EInt 0)) (
                          SAssign (EVar "calculate_sha256") (EInt 1))
                        (
                          SIf (EBin OEq (ECall "system_string_compare" [(EVar "string_segment"); (EText "sha_256"); (EInt 7)]) (EInt 0)) (
                            SAssign (EVar "calculate_sha256") (EInt 1))
                          (
                            SIf (EBin OEq (ECall "system_string_compare" [(EVar "string_segment"); (EText "SHA-256"); (EInt 7)]) (EInt 0)) (
                              SAssign (EVar "calculate_sha256") (EInt 1))
                            (
                              SIf (EBin OEq (ECall "system_string_compare" [(EVar "string_segment"); (EText "SHA_256"); (EInt 7)]) (EInt 0)) (
                                SAssign (EVar "calculate_sha256") (EInt 1))
                              (
                                SIf (EBin OEq (ECall "system_string_compare" [(EVar "string_segment"); (EText "sha-512"); (EInt 7)]) (EInt 0)) (
                                  SAssign (EVar "calculate_sha512") (EInt 1))
                                (
                                  SIf (EBin OEq (ECall "system_string_compare" [(EVar "string_segment"); (EText "sha_512"); (EInt 7)]) (EInt 0)) (
                                    SAssign (EVar "calculate_sha512") (EInt 1))
                                  (
                                    SIf (EBin OEq (ECall "system_string_compare" [(EVar "string_segment"); (EText "SHA-512"); (EInt 7)]) (EInt 0)) (
                                      SAssign (EVar "calculate_sha512") (EInt 1))
                                    (
                                      SIf (EBin OEq (ECall "system_string_compare" [(EVar "string_segment"); (EText "SHA_512"); (EInt 7)]) (EInt 0)) (
                                        SAssign (EVar "calculate_sha512") (EInt 1)) SSkip)))))))))))) SSkip))))) ;-
    SIf (ELogAnd (EBin ONe (EVar "calculate_md5") (EInt 0)) (EBin OEq (EOut "sum_handle->calculate_md5") (EInt 0))) (
      SAssign (EStar "sum_handle->calculated_md5_hash_string") (ECall "system_string_allocate" [(EInt 33)]) ;-
      SIf (EBin OEq (EStar "sum_handle->calculated_md5_hash_string") ENull) (
        SExpr (ECall "libcerror_error_set" [(EVar "error"); (EName "LIBCERROR_ERROR_DOMAIN_MEMORY"); (EName "LIBCERROR_MEMORY_ERROR_INSUFFICIENT")]) ;-
        SGoto) SSkip ;-
      SAssign (EOut "sum_handle->calculate_md5") (EInt 1)) SSkip ;-
    SIf (ELogAnd (EBin ONe (EVar "calculate_sha1") (EInt 0)) (EBin OEq (EOut "sum_handle->calculate_sha1") (EInt 0))) (
      SAssign (EStar "sum_handle->calculated_sha1_hash_string") (ECall "system_string_allocate" [(EInt 41)]) ;-
      SIf (EBin OEq (EStar "sum_handle->calculated_sha1_hash_string") ENull) (
        SExpr (ECall "libcerror_error_set" [(EVar "error"); (EName "LIBCERROR_ERROR_DOMAIN_MEMORY"); (EName "LIBCERROR_MEMORY_ERROR_INSUFFICIENT")]) ;-
        SGoto) SSkip ;-
      SAssign (EOut "sum_handle->calculate_sha1") (EInt 1)) SSkip ;-
    SIf (ELogAnd (EBin ONe (EVar "calculate_sha224") (EInt 0)) (EBin OEq (EOut "sum_handle->calculate_sha224") (EInt 0))) (
      SAssign (EStar "sum_handle->calculated_sha224_hash_string") (ECall "system_string_allocate" [(EInt 57)]) ;-
      SIf (EBin OEq (EStar "sum_handle->calculated_sha224_hash_string") ENull) (
        SExpr (ECall "libcerror_error_set" [(EVar "error"); (EName "LIBCERROR_ERROR_DOMAIN_MEMORY"); (EName "LIBCERROR_MEMORY_ERROR_INSUFFICIENT")]) ;-
        SGoto) SSkip ;-
      SAssign (EOut "sum_handle->calculate_sha224") (EInt 1)) SSkip ;-
    SIf (ELogAnd (EBin ONe (EVar "calculate_sha256") (EInt 0)) (EBin OEq (EOut "sum_handle->calculate_sha256") (EInt 0))) (
      SAssign (EStar "sum_handle->calculated_sha256_hash_string") (ECall "system_string_allocate" [(EInt 65)]) ;-
      SIf (EBin OEq (EStar "sum_handle->calculated_sha256_hash_string") ENull) (
        SExpr (ECall "libcerror_error_set" [(EVar "error"); (EName "LIBCERROR_ERROR_DOMAIN_MEMORY"); (EName "LIBCERROR_MEMORY_ERROR_INSUFFICIENT")]) ;-
        SGoto) SSkip ;-
      SAssign (EOut "sum_handle->calculate_sha256") (EInt 1)) SSkip ;-
    SIf (ELogAnd (EBin ONe (EVar "calculate_sha512") (EInt 0)) (EBin OEq (EOut "sum_handle->calculate_sha512") (EInt 0))) (
      SAssign (EStar "sum_handle->calculated_sha512_hash_string") (ECall "system_string_allocate" [(EInt 129)]) ;-
      SIf (EBin OEq (EStar "sum_handle->calculated_sha512_hash_string") ENull) (
        SExpr (ECall "libcerror_error_set" [(EVar "error"); (EName "LIBCERROR_ERROR_DOMAIN_MEMORY"); (EName "LIBCERROR_MEMORY_ERROR_INSUFFICIENT")]) ;-
        SGoto) SSkip ;-
      SAssign (EOut "sum_handle->calculate_sha512") (EInt 1)) SSkip ;-
    SIf (EBin ONe (ECall "system_split_string_free" [(ERef "string_elements"); (EVar "error")]) (EInt 1)) (
      SExpr (ECall "libcerror_error_set" [(EVar "error"); (EName "LIBCERROR_ERROR_DOMAIN_RUNTIME"); (EName "LIBCERROR_RUNTIME_ERROR_FINALIZE_FAILED")]) ;-
      SGoto) SSkip ;-
    SReturn (EVar "result");
  f_error :=
    SIf (EBin ONe (EVar "string_elements") ENull) (
      SExpr (ECall "system_split_string_free" [(ERef "string_elements"); ENull])) SSkip ;-
    SReturn (EInt (-1)) |}.

(* hmactools/sum_handle.c:1570-1623 sum_handle_set_process_buffer_size *)
Definition text_sum_handle_set_process_buffer_size  : fundef := {|
  f_name := "sum_handle_set_process_buffer_size";
  f_ret := (true, R32);
  f_params := [("sum_handle", CPtr); ("string", CPtr); ("error", CPtr); ("sum_handle->input_handle", CPtr); ("sum_handle->calculate_md5", CPtr); ("sum_handle->md5_context", CPtr); ("sum_handle->calculated_md5_hash_string", CPtr); ("sum_handle->calculate_sha1", CPtr); ("sum_handle->sha1_context", CPtr); ("sum_handle->calculated_sha1_hash_string", CPtr); ("sum_handle->calculate_sha224", CPtr); ("sum_handle->sha224_context", CPtr); ("sum_handle->calculated_sha224_hash_string", CPtr); ("sum_handle->calculate_sha256", CPtr); ("sum_handle->sha256_context", CPtr); ("sum_handle->calculated_sha256_hash_string", CPtr); ("sum_handle->calculate_sha512", CPtr); ("sum_handle->sha512_context", CPtr); ("sum_handle->calculated_sha512_hash_string", CPtr); ("sum_handle->process_buffer_size", CPtr); ("sum_handle->abort", CPtr); ("file->reads", CPtr); ("file->offset", CPtr)];
  f_arrays := [];
  f_locals :=
     [("string_length", (CInt false RSz), (EInt 0));
      ("size_variable", (CInt false R64), (EInt 0));
      ("result", (CInt true R32), (EInt 0))];
  f_body :=
    SIf (EBin OEq (EVar "sum_handle") ENull) (
      SExpr (ECall "libcerror_error_set" [(EVar "error"); (EName "LIBCERROR_ERROR_DOMAIN_ARGUMENTS"); (EName "LIBCERROR_ARGUMENT_ERROR_INVALID_VALUE")]) ;-
      SReturn (EInt (-1))) SSkip ;-
    SAssign (EVar "string_length") (ECall "system_string_length" [(EVar "string")]) ;-
    SAssign (EVar "result") (ECall "byte_size_string_convert" [(EVar "string"); (EVar "string_length"); (ERef "size_variable"); (EVar "error")]) ;-
    SIf (EBin OEq (EVar "result") (EInt (-1))) (
      SExpr (ECall "libcerror_error_set" [(EVar "error"); (EName "LIBCERROR_ERROR_DOMAIN_RUNTIME"); (EName "LIBCERROR_RUNTIME_ERROR_GET_FAILED")]) ;-
      SReturn (EInt (-1)))
    (
      SIf (EBin ONe (EVar "result") (EInt 0)) (
        SIf (EBin OGt (EVar "size_variable") (ECast false R64 ESsizeMax)) (
          SAssign (EVar "result") (EInt 0))
        (
          SAssign (EOut "sum_handle->process_buffer_size") (ECast false RSz (EVar "size_variable")))) SSkip) ;-
    SReturn (EVar "result");
  f_error :=
    SSkip |}.

(* hmactools/sum_handle.c:1628-1693 sum_handle_hash_values_fprint *)
Definition text_sum_handle_hash_values_fprint  : fundef := {|
  f_name := "sum_handle_hash_values_fprint";
  f_ret := (true, R32);
  f_params := [("sum_handle", CPtr); ("stream", CPtr); ("error", CPtr); ("sum_handle->input_handle", CPtr); ("sum_handle->calculate_md5", CPtr); ("sum_handle->md5_context", CPtr); ("sum_handle->calculated_md5_hash_string", CPtr); ("sum_handle->calculate_sha1", CPtr); ("sum_handle->sha1_context", CPtr); ("sum_handle->calculated_sha1_hash_string", CPtr); ("sum_handle->calculate_sha224", CPtr); ("sum_handle->sha224_context", CPtr); ("sum_handle->calculated_sha224_hash_string", CPtr); ("sum_handle->calculate_sha256", CPtr); ("sum_handle->sha256_context", CPtr); ("sum_handle->calculated_sha256_hash_string", CPtr); ("sum_handle->calculate_sha512", CPtr); ("sum_handle->sha512_context", CPtr); ("sum_handle->calculated_sha512_hash_string", CPtr); ("sum_handle->process_buffer_size", CPtr); ("sum_handle->abort", CPtr); ("file->reads", CPtr); ("file->offset", CPtr)];
  f_arrays := [];
  f_locals :=
     [];
  f_body :=
    SIf (EBin OEq (EVar "sum_handle") ENull) (
      SExpr (ECall "libcerror_error_set" [(EVar "error"); (EName "LIBCERROR_ERROR_DOMAIN_ARGUMENTS"); (EName "LIBCERROR_ARGUMENT_ERROR_INVALID_VALUE")]) ;-
      SReturn (EInt (-1))) SSkip ;-
    SIf (EBin OEq (EVar "stream") ENull) (
      SExpr (ECall "libcerror_error_set" [(EVar "error"); (EName "LIBCERROR_ERROR_DOMAIN_ARGUMENTS"); (EName "LIBCERROR_ARGUMENT_ERROR_INVALID_VALUE")]) ;-
      SReturn (EInt (-1))) SSkip ;-
    SIf (EBin ONe (EOut "sum_handle->calculate_md5") (EInt 0)) (
      SExpr (ECall "fprintf" [(EVar "stream"); (EText "MD5 hash calculated over data:		%{PRIs_SYSTEM}
"); (EStar "sum_handle->calculated_md5_hash_string")])) SSkip ;-
    SIf (EBin ONe (EOut "sum_handle->calculate_sha1") (EInt 0)) (
      SExpr (ECall "fprintf" [(EVar "stream"); (EText "SHA1 hash calculated over data:		%{PRIs_SYSTEM}
"); (EStar "sum_handle->calculated_sha1_hash_string")])) SSkip ;-
    SIf (EBin ONe (EOut "sum_handle->calculate_sha224") (EInt 0)) (
      SExpr (ECall "fprintf" [(EVar "stream"); (EText "SHA224 hash calculated over data:	%{PRIs_SYSTEM}
"); (EStar "sum_handle->calculated_sha224_hash_string")])) SSkip ;-
    SIf (EBin ONe (EOut "sum_handle->calculate_sha256") (EInt 0)) (
      SExpr (ECall "fprintf" [(EVar "stream"); (EText "SHA256 hash calculated over data:	%{PRIs_SYSTEM}
"); (EStar "sum_handle->calculated_sha256_hash_string")])) SSkip ;-
    SIf (EBin ONe (EOut "sum_handle->calculate_sha512") (EInt 0)) (
      SExpr (ECall "fprintf" [(EVar "stream"); (EText "SHA512 hash calculated over data:	%{PRIs_SYSTEM}
"); (EStar "sum_handle->calculated_sha512_hash_string")])) SSkip ;-
    SReturn (EInt 1);
  f_error :=
    SSkip |}.

(* the functions of this file; is char signed *)
Definition sum_text (signed : bool) : program := {|
  p_tables := [];
  p_functions := [text_sum_handle_initialize;
    text_sum_handle_free;
    text_sum_handle_signal_abort;
    text_sum_handle_open_input;
    text_sum_handle_close;
    text_sum_handle_read_buffer;
    text_sum_handle_initialize_integrity_hash;
    text_sum_handle_update_integrity_hash;
    text_sum_handle_finalize_integrity_hash;
    text_sum_handle_process_input;
    text_sum_handle_set_digest_types;
    text_sum_handle_set_process_buffer_size;
    text_sum_handle_hash_values_fprint];
  p_types := [];
  p_char := signed |}.
