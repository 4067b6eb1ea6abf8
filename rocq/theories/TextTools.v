(* The text of hmactools/digest_hash.c, hmactools/byte_size_string.c and hmactools/hmactools_getopt.c
   for a build with narrow characters, as terms of CText.v.  Written by tools/ctext.py from the files in
   /repo; a function that contains #if on HAVE_VERBOSE_OUTPUT is there twice.
   Left out: the declaration of the function name for messages, the message arguments of
   libcerror_error_set and the arguments of libcnotify_printf.  Rewritten: *p as p[ 0 ] and p++ as
   p = &( p[ 1 ] ) for pointers to characters; the global variables of hmactools_getopt.c are further
   parameters that hold their addresses.  In a format the name of a macro stands in braces. *)
From Coq Require Import NArith ZArith List String.
From Verif Require Import Machine CText.
Import ListNotations.
Open Scope string_scope.
Open Scope list_scope.
Open Scope N_scope.

(* hmactools/digest_hash.c:31-128 digest_hash_copy_to_string *)
Definition text_digest_hash_copy_to_string  : fundef := {|
  f_name := "digest_hash_copy_to_string";
  f_ret := (true, R32);
  f_params := [("digest_hash", CPtr); ("digest_hash_size", CInt false RSz); ("string", CPtr); ("string_size", CInt false RSz); ("error", CPtr)];
  f_arrays := [];
  f_locals :=
     [("string_iterator", (CInt false RSz), (EInt 0));
      ("digest_hash_iterator", (CInt false RSz), (EInt 0));
      ("digest_digit", (CInt false R8), (EInt 0))];
  f_body :=
    SIf (EBin OEq (EVar "digest_hash") ENull) (
      SExpr (ECall "libcerror_error_set" [(EVar "error"); (EName "LIBCERROR_ERROR_DOMAIN_ARGUMENTS"); (EName "LIBCERROR_ARGUMENT_ERROR_INVALID_VALUE")]) ;-
      SReturn (EInt (-1))) SSkip ;-
    SIf (EBin OGt (EVar "digest_hash_size") (ECast false RSz ESsizeMax)) (
      SExpr (ECall "libcerror_error_set" [(EVar "error"); (EName "LIBCERROR_ERROR_DOMAIN_ARGUMENTS"); (EName "LIBCERROR_ARGUMENT_ERROR_VALUE_EXCEEDS_MAXIMUM")]) ;-
      SReturn (EInt (-1))) SSkip ;-
    SIf (EBin OEq (EVar "string") ENull) (
      SExpr (ECall "libcerror_error_set" [(EVar "error"); (EName "LIBCERROR_ERROR_DOMAIN_ARGUMENTS"); (EName "LIBCERROR_ARGUMENT_ERROR_INVALID_VALUE")]) ;-
      SReturn (EInt (-1))) SSkip ;-
    SIf (EBin OGt (EVar "string_size") (ECast false RSz ESsizeMax)) (
      SExpr (ECall "libcerror_error_set" [(EVar "error"); (EName "LIBCERROR_ERROR_DOMAIN_ARGUMENTS"); (EName "LIBCERROR_ARGUMENT_ERROR_VALUE_EXCEEDS_MAXIMUM")]) ;-
      SReturn (EInt (-1))) SSkip ;-
    SIf (EBin OLt (EVar "string_size") (EBin OAdd (EBin OMul (EInt 2) (EVar "digest_hash_size")) (EInt 1))) (
      SExpr (ECall "libcerror_error_set" [(EVar "error"); (EName "LIBCERROR_ERROR_DOMAIN_ARGUMENTS"); (EName "LIBCERROR_ARGUMENT_ERROR_VALUE_TOO_SMALL")]) ;-
      SReturn (EInt (-1))) SSkip ;-
    SFor (SAssign (EVar "digest_hash_iterator") (EInt 0)) (EBin OLt (EVar "digest_hash_iterator") (EVar "digest_hash_size")) (SOp OAdd (EVar "digest_hash_iterator") (EInt 1)) (
      SAssign (EVar "digest_digit") (EBin ODiv (EIndex (EVar "digest_hash") (EVar "digest_hash_iterator")) (EInt 16)) ;-
      SIf (EBin OLe (EVar "digest_digit") (EInt 9)) (
        SAssign (EIndex (EVar "string") (EPost "string_iterator")) (EChar (EBin OAdd (ECast false R8 (EInt 48)) (EVar "digest_digit"))))
      (
        SAssign (EIndex (EVar "string") (EPost "string_iterator")) (EChar (EBin OAdd (ECast false R8 (EInt 97)) (EBin OSub (EVar "digest_digit") (EInt 10))))) ;-
      SAssign (EVar "digest_digit") (EBin OMod (EIndex (EVar "digest_hash") (EVar "digest_hash_iterator")) (EInt 16)) ;-
      SIf (EBin OLe (EVar "digest_digit") (EInt 9)) (
        SAssign (EIndex (EVar "string") (EPost "string_iterator")) (EChar (EBin OAdd (ECast false R8 (EInt 48)) (EVar "digest_digit"))))
      (
        SAssign (EIndex (EVar "string") (EPost "string_iterator")) (EChar (EBin OAdd (ECast false R8 (EInt 97)) (EBin OSub (EVar "digest_digit") (EInt 10)))))) ;-
    SAssign (EIndex (EVar "string") (EVar "string_iterator")) (EInt 0) ;-
    SReturn (EInt 1);
  f_error :=
    SSkip |}.

(* hmactools/byte_size_string.c:36-202 byte_size_string_create *)
Definition text_byte_size_string_create  : fundef := {|
  f_name := "byte_size_string_create";
  f_ret := (true, R32);
  f_params := [("byte_size_string", CPtr); ("byte_size_string_length", CInt false RSz); ("size", CInt false R64); ("units", CInt true R32); ("error", CPtr)];
  f_arrays := [];
  f_locals :=
     [("factor_string", CPtr, ENull);
      ("units_string", CPtr, ENull);
      ("print_count", (CInt true RSz), (EInt 0));
      ("factored_size", (CInt false R64), (EInt 0));
      ("last_factored_size", (CInt false R64), (EInt 0));
      ("factor", (CInt true R8), (EInt 0));
      ("remainder", (CInt true R8), (EInt (-1)));
      ("decimal_point", (CInt true R32), (EInt 0))];
  f_body :=
    SIf (EBin OEq (EVar "byte_size_string") ENull) (
      SExpr (ECall "libcerror_error_set" [(EVar "error"); (EName "LIBCERROR_ERROR_DOMAIN_ARGUMENTS"); (EName "LIBCERROR_ARGUMENT_ERROR_INVALID_VALUE")]) ;-
      SReturn (EInt (-1))) SSkip ;-
    SIf (EBin OLt (EVar "byte_size_string_length") (EInt 9)) (
      SExpr (ECall "libcerror_error_set" [(EVar "error"); (EName "LIBCERROR_ERROR_DOMAIN_ARGUMENTS"); (EName "LIBCERROR_ARGUMENT_ERROR_VALUE_TOO_SMALL")]) ;-
      SReturn (EInt (-1))) SSkip ;-
    SIf (ELogOr (EBin OLt (EVar "size") (EInt 1024)) (EBin OEq (EVar "units") (EInt 1000))) (
      SAssign (EVar "units_string") (EText "B"))
    (
      SIf (EBin OEq (EVar "units") (EInt 1024)) (
        SAssign (EVar "units_string") (EText "iB")) SSkip) ;-
    SAssign (EVar "factored_size") (EVar "size") ;-
    SIf (EBin OGe (EVar "factored_size") (ECast false R64 (EVar "units"))) (
      SWhile (EBin OGe (EVar "factored_size") (ECast false R64 (EVar "units"))) (
        SAssign (EVar "last_factored_size") (EVar "factored_size") ;-
        SOp ODiv (EVar "factored_size") (EVar "units") ;-
        SOp OAdd (EVar "factor") (EInt 1)) ;-
      SIf (EBin OLt (EVar "factored_size") (EInt 10)) (
        SOp OMod (EVar "last_factored_size") (EVar "units") ;-
        SAssign (EVar "remainder") (ECast true R8 (EBin ODiv (EVar "last_factored_size") (EInt 100)))) SSkip) SSkip ;-
    SIf (EBin OGt (EVar "factor") (EInt 8)) (
      SExpr (ECall "libcerror_error_set" [(EVar "error"); (EName "LIBCERROR_ERROR_DOMAIN_RUNTIME"); (EName "LIBCERROR_RUNTIME_ERROR_UNSUPPORTED_VALUE")]) ;-
      SReturn (EInt (-1))) SSkip ;-
    SSwitch (EVar "factor") [
      ([0]%Z,
        SAssign (EVar "factor_string") (EText "") ;-
        SBreak);
      ([1]%Z,
        SAssign (EVar "factor_string") (EText "K") ;-
        SBreak);
      ([2]%Z,
        SAssign (EVar "factor_string") (EText "M") ;-
        SBreak);
      ([3]%Z,
        SAssign (EVar "factor_string") (EText "G") ;-
        SBreak);
      ([4]%Z,
        SAssign (EVar "factor_string") (EText "T") ;-
        SBreak);
      ([5]%Z,
        SAssign (EVar "factor_string") (EText "P") ;-
        SBreak);
      ([6]%Z,
        SAssign (EVar "factor_string") (EText "E") ;-
        SBreak);
      ([7]%Z,
        SAssign (EVar "factor_string") (EText "Z") ;-
        SBreak);
      ([8]%Z,
        SAssign (EVar "factor_string") (EText "Y") ;-
        SBreak)] ;-
    SIf (EBin OGt (EVar "remainder") (EInt 9)) (
      SAssign (EVar "remainder") (EInt 9)) SSkip ;-
    SIf (EBin OGe (EVar "remainder") (EInt 0)) (
      SIf (EBin ONe (ECall "libclocale_locale_get_decimal_point" [(ERef "decimal_point"); (EVar "error")]) (EInt 1)) (
        SExpr (ECall "libcerror_error_set" [(EVar "error"); (EName "LIBCERROR_ERROR_DOMAIN_RUNTIME"); (EName "LIBCERROR_RUNTIME_ERROR_GET_FAILED")]) ;-
        SReturn (EInt (-1))) SSkip ;-
      SAssign (EVar "print_count") (ECall "system_string_sprintf" [(EVar "byte_size_string"); (EVar "byte_size_string_length"); (EText "%{PRIu64}%{PRIc_SYSTEM}%{PRIu8} %{PRIs_SYSTEM}%{PRIs_SYSTEM}"); (EVar "factored_size"); (EChar (EVar "decimal_point")); (EVar "remainder"); (EVar "factor_string"); (EVar "units_string")]))
    (
      SAssign (EVar "print_count") (ECall "system_string_sprintf" [(EVar "byte_size_string"); (EVar "byte_size_string_length"); (EText "%{PRIu64} %{PRIs_SYSTEM}%{PRIs_SYSTEM}"); (EVar "factored_size"); (EVar "factor_string"); (EVar "units_string")])) ;-
    SIf (ELogOr (EBin OLt (EVar "print_count") (EInt 0)) (EBin OGt (ECast false RSz (EVar "print_count")) (EVar "byte_size_string_length"))) (
      SExpr (ECall "libcerror_error_set" [(EVar "error"); (EName "LIBCERROR_ERROR_DOMAIN_RUNTIME"); (EName "LIBCERROR_RUNTIME_ERROR_SET_FAILED")]) ;-
      SReturn (EInt (-1))) SSkip ;-
    SReturn (EInt 1);
  f_error :=
    SSkip |}.

(* hmactools/byte_size_string.c:207-419 byte_size_string_convert *)
Definition text_byte_size_string_convert_quiet  : fundef := {|
  f_name := "byte_size_string_convert";
  f_ret := (true, R32);
  f_params := [("byte_size_string", CPtr); ("byte_size_string_length", CInt false RSz); ("size", CPtr); ("error", CPtr)];
  f_arrays := [];
  f_locals :=
     [("byte_size_string_iterator", (CInt false RSz), (EInt 0));
      ("byte_size", (CInt false R64), (EInt 0));
      ("factor", (CInt true R8), (EInt 0));
      ("remainder", (CInt true R8), (EInt (-1)));
      ("decimal_point", (CInt true R32), (EInt 0));
      ("units", (CInt true R32), (EInt 0))];
  f_body :=
    SIf (EBin OEq (EVar "byte_size_string") ENull) (
      SExpr (ECall "libcerror_error_set" [(EVar "error"); (EName "LIBCERROR_ERROR_DOMAIN_ARGUMENTS"); (EName "LIBCERROR_ARGUMENT_ERROR_INVALID_VALUE")]) ;-
      SReturn (EInt (-1))) SSkip ;-
    SIf (EBin OEq (EVar "size") ENull) (
      SExpr (ECall "libcerror_error_set" [(EVar "error"); (EName "LIBCERROR_ERROR_DOMAIN_ARGUMENTS"); (EName "LIBCERROR_ARGUMENT_ERROR_INVALID_VALUE")]) ;-
      SReturn (EInt (-1))) SSkip ;-
    SIf (EBin ONe (ECall "libclocale_locale_get_decimal_point" [(ERef "decimal_point"); (EVar "error")]) (EInt 1)) (
      SExpr (ECall "libcerror_error_set" [(EVar "error"); (EName "LIBCERROR_ERROR_DOMAIN_RUNTIME"); (EName "LIBCERROR_RUNTIME_ERROR_GET_FAILED")]) ;-
      SReturn (EInt (-1))) SSkip ;-
    SWhile (EBin OLt (EVar "byte_size_string_iterator") (EVar "byte_size_string_length")) (
      SIf (ELogOr (EBin OLt (EIndex (EVar "byte_size_string") (EVar "byte_size_string_iterator")) (EChar (EInt 48))) (EBin OGt (EIndex (EVar "byte_size_string") (EVar "byte_size_string_iterator")) (EChar (EInt 57)))) (
        SBreak) SSkip ;-
      SOp OMul (EVar "byte_size") (EInt 10) ;-
      SOp OAdd (EVar "byte_size") (EBin OSub (EIndex (EVar "byte_size_string") (EVar "byte_size_string_iterator")) (EChar (EInt 48))) ;-
      SOp OAdd (EVar "byte_size_string_iterator") (EInt 1)) ;-
    SIf (EBin OEq (EIndex (EVar "byte_size_string") (EVar "byte_size_string_iterator")) (EChar (EVar "decimal_point"))) (
      SOp OAdd (EVar "byte_size_string_iterator") (EInt 1) ;-
      SIf (ELogAnd (EBin OGe (EIndex (EVar "byte_size_string") (EVar "byte_size_string_iterator")) (EChar (EInt 48))) (EBin OLe (EIndex (EVar "byte_size_string") (EVar "byte_size_string_iterator")) (EChar (EInt 57)))) (
        SAssign (EVar "remainder") (ECast true R8 (EBin OSub (EIndex (EVar "byte_size_string") (EVar "byte_size_string_iterator")) (EChar (EInt 48)))) ;-
        SOp OAdd (EVar "byte_size_string_iterator") (EInt 1)) SSkip ;-
      SOp OMul (EVar "remainder") (EInt 10) ;-
      SIf (ELogAnd (EBin OGe (EIndex (EVar "byte_size_string") (EVar "byte_size_string_iterator")) (EChar (EInt 48))) (EBin OLe (EIndex (EVar "byte_size_string") (EVar "byte_size_string_iterator")) (EChar (EInt 57)))) (
        SOp OAdd (EVar "remainder") (ECast true R8 (EBin OSub (EIndex (EVar "byte_size_string") (EVar "byte_size_string_iterator")) (EChar (EInt 48)))) ;-
        SOp OAdd (EVar "byte_size_string_iterator") (EInt 1)) SSkip ;-
      SWhile (EBin OLt (EVar "byte_size_string_iterator") (EVar "byte_size_string_length")) (
        SIf (ELogOr (EBin OLt (EIndex (EVar "byte_size_string") (EVar "byte_size_string_iterator")) (EChar (EInt 48))) (EBin OGt (EIndex (EVar "byte_size_string") (EVar "byte_size_string_iterator")) (EChar (EInt 57)))) (
          SBreak) SSkip ;-
        SOp OAdd (EVar "byte_size_string_iterator") (EInt 1))) SSkip ;-
    SIf (EBin OEq (EIndex (EVar "byte_size_string") (EVar "byte_size_string_iterator")) (EChar (EInt 32))) (
      SOp OAdd (EVar "byte_size_string_iterator") (EInt 1)) SSkip ;-
    SSwitch (EIndex (EVar "byte_size_string") (EVar "byte_size_string_iterator")) [
      ([107; 75]%Z,
        SAssign (EVar "factor") (EInt 1) ;-
        SBreak);
      ([109; 77]%Z,
        SAssign (EVar "factor") (EInt 2) ;-
        SBreak);
      ([103; 71]%Z,
        SAssign (EVar "factor") (EInt 3) ;-
        SBreak);
      ([116; 84]%Z,
        SAssign (EVar "factor") (EInt 4) ;-
        SBreak);
      ([112; 80]%Z,
        SAssign (EVar "factor") (EInt 5) ;-
        SBreak);
      ([101; 69]%Z,
        SAssign (EVar "factor") (EInt 6) ;-
        SBreak);
      ([122; 90]%Z,
        SAssign (EVar "factor") (EInt 7) ;-
        SBreak);
      ([121; 89]%Z,
        SAssign (EVar "factor") (EInt 8) ;-
        SBreak)] ;-
    SIf (EBin OLt (EVar "factor") (EInt 0)) (
      SExpr (ECall "libcerror_error_set" [(EVar "error"); (EName "LIBCERROR_ERROR_DOMAIN_RUNTIME"); (EName "LIBCERROR_RUNTIME_ERROR_VALUE_OUT_OF_BOUNDS")]) ;-
      SReturn (EInt (-1)))
    (
      SIf (EBin OGt (EVar "factor") (EInt 1)) (
        SOp OAdd (EVar "byte_size_string_iterator") (EInt 1)) SSkip) ;-
    SIf (EBin OGe (EVar "byte_size_string_iterator") (EVar "byte_size_string_length")) (
      SAssign (EVar "units") (EInt 1024))
    (
      SIf (ELogAnd (EBin OEq (EIndex (EVar "byte_size_string") (EVar "byte_size_string_iterator")) (EChar (EInt 105))) (EBin OEq (EIndex (EVar "byte_size_string") (EBin OAdd (EVar "byte_size_string_iterator") (EInt 1))) (EChar (EInt 66)))) (
        SAssign (EVar "units") (EInt 1024) ;-
        SOp OAdd (EVar "byte_size_string_iterator") (EInt 2))
      (
        SIf (EBin OEq (EIndex (EVar "byte_size_string") (EVar "byte_size_string_iterator")) (EChar (EInt 66))) (
          SAssign (EVar "units") (EInt 1000) ;-
          SOp OAdd (EVar "byte_size_string_iterator") (EInt 1))
        (
          SExpr (ECall "libcerror_error_set" [(EVar "error"); (EName "LIBCERROR_ERROR_DOMAIN_RUNTIME"); (EName "LIBCERROR_RUNTIME_ERROR_VALUE_OUT_OF_BOUNDS")]) ;-
          SReturn (EInt (-1))))) ;-
    SIf (EBin OGt (EVar "factor") (EInt 0)) (
      SIf (EBin OGt (EVar "remainder") (EInt 0)) (
        SOp OMul (EVar "byte_size") (EVar "units") ;-
        SOp OSub (EVar "factor") (EInt 1) ;-
        SOp OAdd (EVar "byte_size") (EBin OMul (EVar "remainder") (EInt 10))) SSkip ;-
      SFor (SSkip) (EBin OGt (EVar "factor") (EInt 0)) (SOp OSub (EVar "factor") (EInt 1)) (
        SOp OMul (EVar "byte_size") (EVar "units"))) SSkip ;-
    SAssign (EOut "size") (EVar "byte_size") ;-
    SReturn (EInt 1);
  f_error :=
    SSkip |}.

(* hmactools/byte_size_string.c:207-419 byte_size_string_convert *)
Definition text_byte_size_string_convert_verbose  : fundef := {|
  f_name := "byte_size_string_convert";
  f_ret := (true, R32);
  f_params := [("byte_size_string", CPtr); ("byte_size_string_length", CInt false RSz); ("size", CPtr); ("error", CPtr)];
  f_arrays := [];
  f_locals :=
     [("byte_size_string_iterator", (CInt false RSz), (EInt 0));
      ("byte_size", (CInt false R64), (EInt 0));
      ("factor", (CInt true R8), (EInt 0));
      ("remainder", (CInt true R8), (EInt (-1)));
      ("decimal_point", (CInt true R32), (EInt 0));
      ("units", (CInt true R32), (EInt 0))];
  f_body :=
    SIf (EBin OEq (EVar "byte_size_string") ENull) (
      SExpr (ECall "libcerror_error_set" [(EVar "error"); (EName "LIBCERROR_ERROR_DOMAIN_ARGUMENTS"); (EName "LIBCERROR_ARGUMENT_ERROR_INVALID_VALUE")]) ;-
      SReturn (EInt (-1))) SSkip ;-
    SIf (EBin OEq (EVar "size") ENull) (
      SExpr (ECall "libcerror_error_set" [(EVar "error"); (EName "LIBCERROR_ERROR_DOMAIN_ARGUMENTS"); (EName "LIBCERROR_ARGUMENT_ERROR_INVALID_VALUE")]) ;-
      SReturn (EInt (-1))) SSkip ;-
    SIf (EBin ONe (ECall "libclocale_locale_get_decimal_point" [(ERef "decimal_point"); (EVar "error")]) (EInt 1)) (
      SExpr (ECall "libcerror_error_set" [(EVar "error"); (EName "LIBCERROR_ERROR_DOMAIN_RUNTIME"); (EName "LIBCERROR_RUNTIME_ERROR_GET_FAILED")]) ;-
      SReturn (EInt (-1))) SSkip ;-
    SWhile (EBin OLt (EVar "byte_size_string_iterator") (EVar "byte_size_string_length")) (
      SIf (ELogOr (EBin OLt (EIndex (EVar "byte_size_string") (EVar "byte_size_string_iterator")) (EChar (EInt 48))) (EBin OGt (EIndex (EVar "byte_size_string") (EVar "byte_size_string_iterator")) (EChar (EInt 57)))) (
        SBreak) SSkip ;-
      SOp OMul (EVar "byte_size") (EInt 10) ;-
      SOp OAdd (EVar "byte_size") (EBin OSub (EIndex (EVar "byte_size_string") (EVar "byte_size_string_iterator")) (EChar (EInt 48))) ;-
      SOp OAdd (EVar "byte_size_string_iterator") (EInt 1)) ;-
    SIf (EBin OEq (EIndex (EVar "byte_size_string") (EVar "byte_size_string_iterator")) (EChar (EVar "decimal_point"))) (
      SOp OAdd (EVar "byte_size_string_iterator") (EInt 1) ;-
      SIf (ELogAnd (EBin OGe (EIndex (EVar "byte_size_string") (EVar "byte_size_string_iterator")) (EChar (EInt 48))) (EBin OLe (EIndex (EVar "byte_size_string") (EVar "byte_size_string_iterator")) (EChar (EInt 57)))) (
        SAssign (EVar "remainder") (ECast true R8 (EBin OSub (EIndex (EVar "byte_size_string") (EVar "byte_size_string_iterator")) (EChar (EInt 48)))) ;-
        SOp OAdd (EVar "byte_size_string_iterator") (EInt 1)) SSkip ;-
      SOp OMul (EVar "remainder") (EInt 10) ;-
      SIf (ELogAnd (EBin OGe (EIndex (EVar "byte_size_string") (EVar "byte_size_string_iterator")) (EChar (EInt 48))) (EBin OLe (EIndex (EVar "byte_size_string") (EVar "byte_size_string_iterator")) (EChar (EInt 57)))) (
        SOp OAdd (EVar "remainder") (ECast true R8 (EBin OSub (EIndex (EVar "byte_size_string") (EVar "byte_size_string_iterator")) (EChar (EInt 48)))) ;-
        SOp OAdd (EVar "byte_size_string_iterator") (EInt 1)) SSkip ;-
      SWhile (EBin OLt (EVar "byte_size_string_iterator") (EVar "byte_size_string_length")) (
        SIf (ELogOr (EBin OLt (EIndex (EVar "byte_size_string") (EVar "byte_size_string_iterator")) (EChar (EInt 48))) (EBin OGt (EIndex (EVar "byte_size_string") (EVar "byte_size_string_iterator")) (EChar (EInt 57)))) (
          SBreak) SSkip ;-
        SOp OAdd (EVar "byte_size_string_iterator") (EInt 1))) SSkip ;-
    SIf (EBin OEq (EIndex (EVar "byte_size_string") (EVar "byte_size_string_iterator")) (EChar (EInt 32))) (
      SOp OAdd (EVar "byte_size_string_iterator") (EInt 1)) SSkip ;-
    SSwitch (EIndex (EVar "byte_size_string") (EVar "byte_size_string_iterator")) [
      ([107; 75]%Z,
        SAssign (EVar "factor") (EInt 1) ;-
        SBreak);
      ([109; 77]%Z,
        SAssign (EVar "factor") (EInt 2) ;-
        SBreak);
      ([103; 71]%Z,
        SAssign (EVar "factor") (EInt 3) ;-
        SBreak);
      ([116; 84]%Z,
        SAssign (EVar "factor") (EInt 4) ;-
        SBreak);
      ([112; 80]%Z,
        SAssign (EVar "factor") (EInt 5) ;-
        SBreak);
      ([101; 69]%Z,
        SAssign (EVar "factor") (EInt 6) ;-
        SBreak);
      ([122; 90]%Z,
        SAssign (EVar "factor") (EInt 7) ;-
        SBreak);
      ([121; 89]%Z,
        SAssign (EVar "factor") (EInt 8) ;-
        SBreak)] ;-
    SIf (EBin OLt (EVar "factor") (EInt 0)) (
      SExpr (ECall "libcerror_error_set" [(EVar "error"); (EName "LIBCERROR_ERROR_DOMAIN_RUNTIME"); (EName "LIBCERROR_RUNTIME_ERROR_VALUE_OUT_OF_BOUNDS")]) ;-
      SReturn (EInt (-1)))
    (
      SIf (EBin OGt (EVar "factor") (EInt 1)) (
        SOp OAdd (EVar "byte_size_string_iterator") (EInt 1)) SSkip) ;-
    SIf (EBin OGe (EVar "byte_size_string_iterator") (EVar "byte_size_string_length")) (
      SAssign (EVar "units") (EInt 1024))
    (
      SIf (ELogAnd (EBin OEq (EIndex (EVar "byte_size_string") (EVar "byte_size_string_iterator")) (EChar (EInt 105))) (EBin OEq (EIndex (EVar "byte_size_string") (EBin OAdd (EVar "byte_size_string_iterator") (EInt 1))) (EChar (EInt 66)))) (
        SAssign (EVar "units") (EInt 1024) ;-
        SOp OAdd (EVar "byte_size_string_iterator") (EInt 2))
      (
        SIf (EBin OEq (EIndex (EVar "byte_size_string") (EVar "byte_size_string_iterator")) (EChar (EInt 66))) (
          SAssign (EVar "units") (EInt 1000) ;-
          SOp OAdd (EVar "byte_size_string_iterator") (EInt 1))
        (
          SExpr (ECall "libcerror_error_set" [(EVar "error"); (EName "LIBCERROR_ERROR_DOMAIN_RUNTIME"); (EName "LIBCERROR_RUNTIME_ERROR_VALUE_OUT_OF_BOUNDS")]) ;-
          SReturn (EInt (-1))))) ;-
    SIf (EBin OGt (EVar "factor") (EInt 0)) (
      SIf (EBin OGt (EVar "remainder") (EInt 0)) (
        SOp OMul (EVar "byte_size") (EVar "units") ;-
        SOp OSub (EVar "factor") (EInt 1) ;-
        SOp OAdd (EVar "byte_size") (EBin OMul (EVar "remainder") (EInt 10))) SSkip ;-
      SFor (SSkip) (EBin OGt (EVar "factor") (EInt 0)) (SOp OSub (EVar "factor") (EInt 1)) (
        SOp OMul (EVar "byte_size") (EVar "units")))
    (
      SIf (EBin OGe (EVar "remainder") (EInt 0)) (
        SExpr (ECall "libcnotify_printf" [])) SSkip) ;-
    SIf (ELogAnd (ELogAnd (ELogAnd (EBin ONe (EIndex (EVar "byte_size_string") (EVar "byte_size_string_iterator")) (EInt 0)) (EBin ONe (EIndex (EVar "byte_size_string") (EVar "byte_size_string_iterator")) (EChar (EInt 32)))) (EBin ONe (EIndex (EVar "byte_size_string") (EVar "byte_size_string_iterator")) (EChar (EInt 10)))) (EBin ONe (EIndex (EVar "byte_size_string") (EVar "byte_size_string_iterator")) (EChar (EInt 13)))) (
      SExpr (ECall "libcnotify_printf" [])) SSkip ;-
    SAssign (EOut "size") (EVar "byte_size") ;-
    SReturn (EInt 1);
  f_error :=
    SSkip |}.

(* hmactools/hmactools_getopt.c:59-187 hmactools_getopt *)
Definition text_hmactools_getopt  : fundef := {|
  f_name := "hmactools_getopt";
  f_ret := (true, R32);
  f_params := [("argument_count", CInt true R32); ("argument_values", CPtr); ("options_string", CPtr); ("optind", CPtr); ("optarg", CPtr); ("optopt", CPtr); ("next_option", CPtr)];
  f_arrays := [];
  f_locals :=
     [("argument_value", CPtr, ENull);
      ("option_value", CPtr, ENull);
      ("options_string_length", (CInt false RSz), (EInt 0))];
  f_body :=
    SIf (EBin ONe (EStar "next_option") ENull) (
      SAssign (EVar "argument_value") (EStar "next_option") ;-
      SAssign (EStar "next_option") ENull)
    (
      SIf (EBin OGe (EOut "optind") (EVar "argument_count")) (
        SReturn (ECast true R32 (EInt (-1))))
      (
        SAssign (EVar "argument_value") (EIndex (EVar "argument_values") (EOut "optind")) ;-
        SIf (EBin OEq (EIndex (EVar "argument_value") (EInt 0)) (EChar (EInt 0))) (
          SReturn (ECast true R32 (EInt (-1)))) SSkip ;-
        SIf (EBin ONe (EIndex (EVar "argument_value") (EInt 0)) (EChar (EInt 45))) (
          SReturn (ECast true R32 (EInt (-1)))) SSkip ;-
        SAssign (EVar "argument_value") (EAddr (EIndex (EVar "argument_value") (EInt 1))) ;-
        SIf (EBin OEq (EIndex (EVar "argument_value") (EInt 0)) (EChar (EInt 45))) (
          SOp OAdd (EOut "optind") (EInt 1) ;-
          SReturn (ECast true R32 (EInt (-1)))) SSkip)) ;-
    SAssign (EVar "options_string_length") (ECall "system_string_length" [(EVar "options_string")]) ;-
    SAssign (EOut "optopt") (EIndex (EVar "argument_value") (EInt 0)) ;-
    SAssign (EVar "option_value") (ECall "system_string_search_character" [(EVar "options_string"); (EOut "optopt"); (EVar "options_string_length")]) ;-
    SAssign (EVar "argument_value") (EAddr (EIndex (EVar "argument_value") (EInt 1))) ;-
    SIf (ELogOr (EBin OEq (EOut "optopt") (ECast true R32 (EInt 58))) (EBin OEq (EVar "option_value") ENull)) (
      SIf (EBin OEq (EIndex (EVar "argument_value") (EInt 0)) (EChar (EInt 0))) (
        SOp OAdd (EOut "optind") (EInt 1)) SSkip ;-
      SIf (ELogAnd (EBin ONe (EIndex (EVar "options_string") (EInt 0)) (EChar (EInt 58))) (EBin ONe (EOut "optopt") (ECast true R32 (EInt 63)))) (
        SExpr (ECall "libcnotify_printf" [])) SSkip ;-
      SReturn (ECast true R32 (EInt 63))) SSkip ;-
    SAssign (EVar "option_value") (EAddr (EIndex (EVar "option_value") (EInt 1))) ;-
    SIf (EBin ONe (EIndex (EVar "option_value") (EInt 0)) (EChar (EInt 58))) (
      SAssign (EStar "optarg") ENull ;-
      SIf (EBin OEq (EIndex (EVar "argument_value") (EInt 0)) (EChar (EInt 0))) (
        SOp OAdd (EOut "optind") (EInt 1))
      (
        SAssign (EStar "next_option") (EVar "argument_value")))
    (
      SIf (EBin ONe (EIndex (EVar "argument_value") (EInt 0)) (EChar (EInt 0))) (
        SAssign (EStar "optarg") (EVar "argument_value") ;-
        SOp OAdd (EOut "optind") (EInt 1))
      (
        SOp OAdd (EOut "optind") (EInt 1) ;-
        SIf (EBin OLe (EVar "argument_count") (EOut "optind")) (
          SIf (EBin OEq (EIndex (EVar "option_value") (EInt 0)) (EInt 58)) (
            SReturn (ECast true R32 (EInt 58))) SSkip ;-
          SExpr (ECall "libcnotify_printf" []) ;-
          SReturn (ECast true R32 (EInt 63))) SSkip ;-
        SAssign (EStar "optarg") (EIndex (EVar "argument_values") (EOut "optind")) ;-
        SOp OAdd (EOut "optind") (EInt 1))) ;-
    SReturn (EOut "optopt");
  f_error :=
    SSkip |}.

(* the functions of these files; is char signed, and was HAVE_VERBOSE_OUTPUT defined *)
Definition tools_text (signed verbose : bool) : program := {|
  p_tables := [];
  p_functions := [text_digest_hash_copy_to_string;
    text_byte_size_string_create;
    (if verbose then text_byte_size_string_convert_verbose else text_byte_size_string_convert_quiet);
    text_hmactools_getopt];
  p_types := [];
  p_char := signed |}.
