(* The text of main of hmactools/hmacsum.c up to the options, for a build with narrow characters, as a term
   of CText.v.  Written by tools/ctext.py from the files in /repo.
   Left out: libcnotify_stream_set, libcnotify_verbose_set, the texts of messages, and printing and freeing the error object.
   Rewritten: the global variables of hmactools_getopt.c, stdout, error, hmacsum_sum_handle and the members of the structure are
   parameters that hold addresses (TextMain.v).  What stands behind the options is the function of TextMain.v, called as main_behind with
   the variables.  while( ( option = e ) != -1 ) is for( option = e; option != -1; option = e ).  The part of the switch
   with default, which stands first and ends in a goto, is the other side of an if that asks for the labels of the rest. *)
From Coq Require Import NArith ZArith List String.
From Verif Require Import Machine CText.
Import ListNotations.
Open Scope string_scope.
Open Scope list_scope.
Open Scope N_scope.

(* hmactools/hmacsum.c:130-231 and 387-402 main, up to the options *)
Definition text_main_start : fundef := {|
  f_name := "main";
  f_ret := (true, R32);
  f_params := [("argc", CInt true R32); ("argv", CPtr); ("optind", CPtr); ("optarg", CPtr); ("optopt", CPtr); ("next_option", CPtr); ("stdout", CPtr); ("error", CPtr); ("hmacsum_sum_handle", CPtr); ("looks", CPtr); ("sum_handle->input_handle", CPtr); ("sum_handle->calculate_md5", CPtr); ("sum_handle->md5_context", CPtr); ("sum_handle->calculated_md5_hash_string", CPtr); ("sum_handle->calculate_sha1", CPtr); ("sum_handle->sha1_context", CPtr); ("sum_handle->calculated_sha1_hash_string", CPtr); ("sum_handle->calculate_sha224", CPtr); ("sum_handle->sha224_context", CPtr); ("sum_handle->calculated_sha224_hash_string", CPtr); ("sum_handle->calculate_sha256", CPtr); ("sum_handle->sha256_context", CPtr); ("sum_handle->calculated_sha256_hash_string", CPtr); ("sum_handle->calculate_sha512", CPtr); ("sum_handle->sha512_context", CPtr); ("sum_handle->calculated_sha512_hash_string", CPtr); ("sum_handle->process_buffer_size", CPtr); ("sum_handle->abort", CPtr); ("file->reads", CPtr); ("file->offset", CPtr)];
  f_arrays := [];
  f_locals :=
     [("option_digest_types", CPtr, ENull);
      ("option_process_buffer_size", CPtr, ENull);
      ("program", CPtr, (EText "hmacsum"));
      ("source", CPtr, ENull);
      ("option", (CInt true R32), (EInt 0));
      ("verbose", (CInt false R8), (EInt 0));
      ("result", (CInt true R32), (EInt 0))];
  f_body :=
    SIf (EBin ONe (ECall "libclocale_initialize" [(EName "text"); (EVar "error")]) (EInt 1)) (
      SExpr (ECall "fprintf" [(EName "stderr"); (EName "text")]) ;-
      SGoto) SSkip ;-
    SIf (EBin ONe (ECall "hmactools_output_initialize" [(EName "_IONBF"); (EVar "error")]) (EInt 1)) (
      SExpr (ECall "fprintf" [(EName "stderr"); (EName "text")]) ;-
      SGoto) SSkip ;-
    SExpr (ECall "hmactools_output_version_fprint" [(EVar "stdout"); (EVar "program")]) ;-
    SFor (SAssign (EVar "option") (ECall "hmactools_getopt" [(EVar "argc"); (EVar "argv"); (ECall "_SYSTEM_STRING" [(EText "d:hp:vV")]); (EVar "optind"); (EVar "optarg"); (EVar "optopt"); (EVar "next_option")])) (EBin ONe (EVar "option") (ECast true R32 (EInt (-1)))) (SAssign (EVar "option") (ECall "hmactools_getopt" [(EVar "argc"); (EVar "argv"); (ECall "_SYSTEM_STRING" [(EText "d:hp:vV")]); (EVar "optind"); (EVar "optarg"); (EVar "optopt"); (EVar "next_option")])) (
      SIf (ELogOr (EBin OEq (EVar "option") (EInt 100)) (ELogOr (EBin OEq (EVar "option") (EInt 104)) (ELogOr (EBin OEq (EVar "option") (EInt 112)) (ELogOr (EBin OEq (EVar "option") (EInt 118)) (EBin OEq (EVar "option") (EInt 86)))))) (
        SSwitch (EVar "option") [
          ([100]%Z,
            SAssign (EVar "option_digest_types") (EStar "optarg") ;-
            SBreak);
          ([104]%Z,
            SExpr (ECall "usage_fprint" [(EVar "stdout")]) ;-
            SReturn (EInt 0));
          ([112]%Z,
            SAssign (EVar "option_process_buffer_size") (EStar "optarg") ;-
            SBreak);
          ([118]%Z,
            SAssign (EVar "verbose") (EInt 1) ;-
            SBreak);
          ([86]%Z,
            SExpr (ECall "hmactools_output_copyright_fprint" [(EVar "stdout")]) ;-
            SReturn (EInt 0))])
      (
        SExpr (ECall "fprintf" [(EName "stderr"); (EName "text"); (EIndex (EVar "argv") (EBin OSub (EOut "optind") (EInt 1)))]) ;-
        SExpr (ECall "usage_fprint" [(EVar "stdout")]) ;-
        SGoto)) ;-
    SIf (EBin OEq (EOut "optind") (EVar "argc")) (
      SExpr (ECall "fprintf" [(EName "stderr"); (EName "text")]) ;-
      SExpr (ECall "usage_fprint" [(EVar "stdout")]) ;-
      SGoto) SSkip ;-
    SAssign (EVar "source") (EIndex (EVar "argv") (EOut "optind")) ;-
    SReturn (ECall "main_behind" [(EVar "option_process_buffer_size"); (EVar "option_digest_types"); (EVar "source"); (EVar "program"); (EVar "stdout"); (EVar "error"); (EVar "hmacsum_sum_handle"); (EVar "looks"); (EVar "sum_handle->input_handle"); (EVar "sum_handle->calculate_md5"); (EVar "sum_handle->md5_context"); (EVar "sum_handle->calculated_md5_hash_string"); (EVar "sum_handle->calculate_sha1"); (EVar "sum_handle->sha1_context"); (EVar "sum_handle->calculated_sha1_hash_string"); (EVar "sum_handle->calculate_sha224"); (EVar "sum_handle->sha224_context"); (EVar "sum_handle->calculated_sha224_hash_string"); (EVar "sum_handle->calculate_sha256"); (EVar "sum_handle->sha256_context"); (EVar "sum_handle->calculated_sha256_hash_string"); (EVar "sum_handle->calculate_sha512"); (EVar "sum_handle->sha512_context"); (EVar "sum_handle->calculated_sha512_hash_string"); (EVar "sum_handle->process_buffer_size"); (EVar "sum_handle->abort"); (EVar "file->reads"); (EVar "file->offset")]);
  f_error :=
    SIf (EBin ONe (EStar "hmacsum_sum_handle") ENull) (
      SExpr (ECall "sum_handle_free" [(EVar "hmacsum_sum_handle"); ENull; (EVar "sum_handle->input_handle"); (EVar "sum_handle->calculate_md5"); (EVar "sum_handle->md5_context"); (EVar "sum_handle->calculated_md5_hash_string"); (EVar "sum_handle->calculate_sha1"); (EVar "sum_handle->sha1_context"); (EVar "sum_handle->calculated_sha1_hash_string"); (EVar "sum_handle->calculate_sha224"); (EVar "sum_handle->sha224_context"); (EVar "sum_handle->calculated_sha224_hash_string"); (EVar "sum_handle->calculate_sha256"); (EVar "sum_handle->sha256_context"); (EVar "sum_handle->calculated_sha256_hash_string"); (EVar "sum_handle->calculate_sha512"); (EVar "sum_handle->sha512_context"); (EVar "sum_handle->calculated_sha512_hash_string"); (EVar "sum_handle->process_buffer_size"); (EVar "sum_handle->abort"); (EVar "file->reads"); (EVar "file->offset")])) SSkip ;-
    SReturn (EInt 1) |}.
