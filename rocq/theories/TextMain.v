(* The text of main of hmactools/hmacsum.c from behind the reading of the options, for a build with narrow
   characters, as a term of CText.v.  Written by tools/ctext.py from the files in /repo.
   Left out: what is printed on stderr, libcnotify_verbose_set, and printing and freeing the error object.
   Rewritten: the options, source, program, stdout and the global variable hmacsum_sum_handle are parameters, the last two
   and error hold addresses; so do the members of the structure (TextSum.v).  Reading the global variable hmacsum_abort,
   which a signal sets, is a call that is given the number of earlier looks at it in main and the number of reads.
   goto on_abort; is the break; of a switch around what stands before that label. *)
From Coq Require Import NArith ZArith List String.
From Verif Require Import Machine CText.
Import ListNotations.
Open Scope string_scope.
Open Scope list_scope.
Open Scope N_scope.

(* hmactools/hmacsum.c:232-402 main, from behind the options *)
Definition text_main : fundef := {|
  f_name := "main";
  f_ret := (true, R32);
  f_params := [("option_process_buffer_size", CPtr); ("option_digest_types", CPtr); ("source", CPtr); ("program", CPtr); ("stdout", CPtr); ("error", CPtr); ("hmacsum_sum_handle", CPtr); ("looks", CPtr); ("sum_handle->input_handle", CPtr); ("sum_handle->calculate_md5", CPtr); ("sum_handle->md5_context", CPtr); ("sum_handle->calculated_md5_hash_string", CPtr); ("sum_handle->calculate_sha1", CPtr); ("sum_handle->sha1_context", CPtr); ("sum_handle->calculated_sha1_hash_string", CPtr); ("sum_handle->calculate_sha224", CPtr); ("sum_handle->sha224_context", CPtr); ("sum_handle->calculated_sha224_hash_string", CPtr); ("sum_handle->calculate_sha256", CPtr); ("sum_handle->sha256_context", CPtr); ("sum_handle->calculated_sha256_hash_string", CPtr); ("sum_handle->calculate_sha512", CPtr); ("sum_handle->sha512_context", CPtr); ("sum_handle->calculated_sha512_hash_string", CPtr); ("sum_handle->process_buffer_size", CPtr); ("sum_handle->abort", CPtr); ("file->reads", CPtr); ("file->offset", CPtr)];
  f_arrays := [];
  f_locals :=
     [("result", (CInt true R32), (EInt 0))];
  f_body :=
    SSwitch (EInt 0) [
      ([0]%Z,
        SIf (EBin ONe (ECall "sum_handle_initialize" [(EVar "hmacsum_sum_handle"); (EVar "error"); (EVar "sum_handle->input_handle"); (EVar "sum_handle->calculate_md5"); (EVar "sum_handle->md5_context"); (EVar "sum_handle->calculated_md5_hash_string"); (EVar "sum_handle->calculate_sha1"); (EVar "sum_handle->sha1_context"); (EVar "sum_handle->calculated_sha1_hash_string"); (EVar "sum_handle->calculate_sha224"); (EVar "sum_handle->sha224_context"); (EVar "sum_handle->calculated_sha224_hash_string"); (EVar "sum_handle->calculate_sha256"); (EVar "sum_handle->sha256_context"); (EVar "sum_handle->calculated_sha256_hash_string"); (EVar "sum_handle->calculate_sha512"); (EVar "sum_handle->sha512_context"); (EVar "sum_handle->calculated_sha512_hash_string"); (EVar "sum_handle->process_buffer_size"); (EVar "sum_handle->abort"); (EVar "file->reads"); (EVar "file->offset")]) (EInt 1)) (
          SGoto) SSkip ;-
        SIf (EBin ONe (EVar "option_process_buffer_size") ENull) (
          SAssign (EVar "result") (ECall "sum_handle_set_process_buffer_size" [(EStar "hmacsum_sum_handle"); (EVar "option_process_buffer_size"); (EVar "error"); (EVar "sum_handle->input_handle"); (EVar "sum_handle->calculate_md5"); (EVar "sum_handle->md5_context"); (EVar "sum_handle->calculated_md5_hash_string"); (EVar "sum_handle->calculate_sha1"); (EVar "sum_handle->sha1_context"); (EVar "sum_handle->calculated_sha1_hash_string"); (EVar "sum_handle->calculate_sha224"); (EVar "sum_handle->sha224_context"); (EVar "sum_handle->calculated_sha224_hash_string"); (EVar "sum_handle->calculate_sha256"); (EVar "sum_handle->sha256_context"); (EVar "sum_handle->calculated_sha256_hash_string"); (EVar "sum_handle->calculate_sha512"); (EVar "sum_handle->sha512_context"); (EVar "sum_handle->calculated_sha512_hash_string"); (EVar "sum_handle->process_buffer_size"); (EVar "sum_handle->abort"); (EVar "file->reads"); (EVar "file->offset")]) ;-
          SIf (EBin OEq (EVar "result") (EInt (-1))) (
            SGoto)
          (
            SIf (ELogOr (EBin OEq (EVar "result") (EInt 0)) (EBin OGt (EOut "sum_handle->process_buffer_size") (ECast false RSz ESsizeMax))) (
              SAssign (EOut "sum_handle->process_buffer_size") (EInt 32768)) SSkip)) SSkip ;-
        SIf (EBin ONe (EVar "option_digest_types") ENull) (
          SAssign (EVar "result") (ECall "sum_handle_set_digest_types" [(EStar "hmacsum_sum_handle"); (EVar "option_digest_types"); (EVar "error"); (EVar "sum_handle->input_handle"); (EVar "sum_handle->calculate_md5"); (EVar "sum_handle->md5_context"); (EVar "sum_handle->calculated_md5_hash_string"); (EVar "sum_handle->calculate_sha1"); (EVar "sum_handle->sha1_context"); (EVar "sum_handle->calculated_sha1_hash_string"); (EVar "sum_handle->calculate_sha224"); (EVar "sum_handle->sha224_context"); (EVar "sum_handle->calculated_sha224_hash_string"); (EVar "sum_handle->calculate_sha256"); (EVar "sum_handle->sha256_context"); (EVar "sum_handle->calculated_sha256_hash_string"); (EVar "sum_handle->calculate_sha512"); (EVar "sum_handle->sha512_context"); (EVar "sum_handle->calculated_sha512_hash_string"); (EVar "sum_handle->process_buffer_size"); (EVar "sum_handle->abort"); (EVar "file->reads"); (EVar "file->offset")]) ;-
          SIf (EBin OEq (EVar "result") (EInt (-1))) (
            SGoto) SSkip) SSkip ;-
        SIf (EBin ONe (ECall "hmactools_signal_attach" [(EName "hmacsum_signal_handler"); (EVar "error")]) (EInt 1)) (
          SSkip) SSkip ;-
        SAssign (EVar "result") (ECall "sum_handle_open_input" [(EStar "hmacsum_sum_handle"); (EVar "source"); (EVar "error"); (EVar "sum_handle->input_handle"); (EVar "sum_handle->calculate_md5"); (EVar "sum_handle->md5_context"); (EVar "sum_handle->calculated_md5_hash_string"); (EVar "sum_handle->calculate_sha1"); (EVar "sum_handle->sha1_context"); (EVar "sum_handle->calculated_sha1_hash_string"); (EVar "sum_handle->calculate_sha224"); (EVar "sum_handle->sha224_context"); (EVar "sum_handle->calculated_sha224_hash_string"); (EVar "sum_handle->calculate_sha256"); (EVar "sum_handle->sha256_context"); (EVar "sum_handle->calculated_sha256_hash_string"); (EVar "sum_handle->calculate_sha512"); (EVar "sum_handle->sha512_context"); (EVar "sum_handle->calculated_sha512_hash_string"); (EVar "sum_handle->process_buffer_size"); (EVar "sum_handle->abort"); (EVar "file->reads"); (EVar "file->offset")]) ;-
        SIf (EBin ONe (ECall "hmacsum_abort" [(EVar "looks"); (EVar "file->reads")]) (EInt 0)) (
          SBreak) SSkip ;-
        SIf (EBin ONe (EVar "result") (EInt 1)) (
          SGoto) SSkip ;-
        SAssign (EVar "result") (ECall "sum_handle_process_input" [(EStar "hmacsum_sum_handle"); (EVar "error"); (EVar "sum_handle->input_handle"); (EVar "sum_handle->calculate_md5"); (EVar "sum_handle->md5_context"); (EVar "sum_handle->calculated_md5_hash_string"); (EVar "sum_handle->calculate_sha1"); (EVar "sum_handle->sha1_context"); (EVar "sum_handle->calculated_sha1_hash_string"); (EVar "sum_handle->calculate_sha224"); (EVar "sum_handle->sha224_context"); (EVar "sum_handle->calculated_sha224_hash_string"); (EVar "sum_handle->calculate_sha256"); (EVar "sum_handle->sha256_context"); (EVar "sum_handle->calculated_sha256_hash_string"); (EVar "sum_handle->calculate_sha512"); (EVar "sum_handle->sha512_context"); (EVar "sum_handle->calculated_sha512_hash_string"); (EVar "sum_handle->process_buffer_size"); (EVar "sum_handle->abort"); (EVar "file->reads"); (EVar "file->offset")]) ;-
        SIf (EBin ONe (ECall "hmacsum_abort" [(EVar "looks"); (EVar "file->reads")]) (EInt 0)) (
          SBreak) SSkip ;-
        SIf (EBin ONe (EVar "result") (EInt 1)) (
          SGoto) SSkip ;-
        SIf (EBin ONe (ECall "sum_handle_hash_values_fprint" [(EStar "hmacsum_sum_handle"); (EVar "stdout"); (EVar "error"); (EVar "sum_handle->input_handle"); (EVar "sum_handle->calculate_md5"); (EVar "sum_handle->md5_context"); (EVar "sum_handle->calculated_md5_hash_string"); (EVar "sum_handle->calculate_sha1"); (EVar "sum_handle->sha1_context"); (EVar "sum_handle->calculated_sha1_hash_string"); (EVar "sum_handle->calculate_sha224"); (EVar "sum_handle->sha224_context"); (EVar "sum_handle->calculated_sha224_hash_string"); (EVar "sum_handle->calculate_sha256"); (EVar "sum_handle->sha256_context"); (EVar "sum_handle->calculated_sha256_hash_string"); (EVar "sum_handle->calculate_sha512"); (EVar "sum_handle->sha512_context"); (EVar "sum_handle->calculated_sha512_hash_string"); (EVar "sum_handle->process_buffer_size"); (EVar "sum_handle->abort"); (EVar "file->reads"); (EVar "file->offset")]) (EInt 1)) (
          SGoto) SSkip)] ;-
    SIf (EBin ONe (ECall "sum_handle_close" [(EStar "hmacsum_sum_handle"); (EVar "error"); (EVar "sum_handle->input_handle"); (EVar "sum_handle->calculate_md5"); (EVar "sum_handle->md5_context"); (EVar "sum_handle->calculated_md5_hash_string"); (EVar "sum_handle->calculate_sha1"); (EVar "sum_handle->sha1_context"); (EVar "sum_handle->calculated_sha1_hash_string"); (EVar "sum_handle->calculate_sha224"); (EVar "sum_handle->sha224_context"); (EVar "sum_handle->calculated_sha224_hash_string"); (EVar "sum_handle->calculate_sha256"); (EVar "sum_handle->sha256_context"); (EVar "sum_handle->calculated_sha256_hash_string"); (EVar "sum_handle->calculate_sha512"); (EVar "sum_handle->sha512_context"); (EVar "sum_handle->calculated_sha512_hash_string"); (EVar "sum_handle->process_buffer_size"); (EVar "sum_handle->abort"); (EVar "file->reads"); (EVar "file->offset")]) (EInt 0)) (
      SGoto) SSkip ;-
    SIf (EBin ONe (ECall "hmactools_signal_detach" [(EVar "error")]) (EInt 1)) (
      SSkip) SSkip ;-
    SIf (EBin ONe (ECall "sum_handle_free" [(EVar "hmacsum_sum_handle"); (EVar "error"); (EVar "sum_handle->input_handle"); (EVar "sum_handle->calculate_md5"); (EVar "sum_handle->md5_context"); (EVar "sum_handle->calculated_md5_hash_string"); (EVar "sum_handle->calculate_sha1"); (EVar "sum_handle->sha1_context"); (EVar "sum_handle->calculated_sha1_hash_string"); (EVar "sum_handle->calculate_sha224"); (EVar "sum_handle->sha224_context"); (EVar "sum_handle->calculated_sha224_hash_string"); (EVar "sum_handle->calculate_sha256"); (EVar "sum_handle->sha256_context"); (EVar "sum_handle->calculated_sha256_hash_string"); (EVar "sum_handle->calculate_sha512"); (EVar "sum_handle->sha512_context"); (EVar "sum_handle->calculated_sha512_hash_string"); (EVar "sum_handle->process_buffer_size"); (EVar "sum_handle->abort"); (EVar "file->reads"); (EVar "file->offset")]) (EInt 1)) (
      SGoto) SSkip ;-
    SIf (EBin ONe (ECall "hmacsum_abort" [(EVar "looks"); (EVar "file->reads")]) (EInt 0)) (
      SExpr (ECall "fprintf" [(EVar "stdout"); (EText "%{PRIs_SYSTEM}: ABORTED
"); (EVar "program")]) ;-
      SReturn (EInt 1)) SSkip ;-
    SReturn (EInt 0);
  f_error :=
    SIf (EBin ONe (EStar "hmacsum_sum_handle") ENull) (
      SExpr (ECall "sum_handle_free" [(EVar "hmacsum_sum_handle"); ENull; (EVar "sum_handle->input_handle"); (EVar "sum_handle->calculate_md5"); (EVar "sum_handle->md5_context"); (EVar "sum_handle->calculated_md5_hash_string"); (EVar "sum_handle->calculate_sha1"); (EVar "sum_handle->sha1_context"); (EVar "sum_handle->calculated_sha1_hash_string"); (EVar "sum_handle->calculate_sha224"); (EVar "sum_handle->sha224_context"); (EVar "sum_handle->calculated_sha224_hash_string"); (EVar "sum_handle->calculate_sha256"); (EVar "sum_handle->sha256_context"); (EVar "sum_handle->calculated_sha256_hash_string"); (EVar "sum_handle->calculate_sha512"); (EVar "sum_handle->sha512_context"); (EVar "sum_handle->calculated_sha512_hash_string"); (EVar "sum_handle->process_buffer_size"); (EVar "sum_handle->abort"); (EVar "file->reads"); (EVar "file->offset")])) SSkip ;-
    SReturn (EInt 1) |}.

(* this function; is char signed *)
Definition main_text (signed : bool) : program := {|
  p_tables := [];
  p_functions := [text_main];
  p_types := [];
  p_char := signed |}.
