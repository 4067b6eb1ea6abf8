(* The fuzz targets ossfuzz/X_context_fuzzer.cc.  Line numbers are those of md5_context_fuzzer.cc; the others have the same text up
   to names. *)
From Coq Require Import Arith NArith ZArith List Bool.
From Verif Require Import Words Machine Context Hash Py.
Import ListNotations.
Open Scope N_scope.

(* md5_context_fuzzer.cc:31-45 LLVMFuzzerTestOneInput; local_hash is the array of line 35.  The result of the calculation is not
   looked at, and there is no error object. *)
Definition fuzz_target (E : env) (a : algid) (data : option ptr) (size : N) : M Z :=
  hash <- local_hash E a ;;
  calculate E a data size (Some (hash, 0)) (a_hs (alg_of a)) false ;;;
  pop_local hash ;;;
  ret 0%Z.

(* the calls an engine makes one after another in one process; the engine itself is not in /repo.  It goes on only while a target
   returns 0 (md5_context_fuzzer.cc:44) *)
Fixpoint fuzz_run (E : env) (a : algid) (inputs : list (option ptr * N)) : M Z :=
  match inputs with
  | [] => ret 0%Z
  | (data, size) :: rest =>
      r <- fuzz_target E a data size ;;
      if (r =? 0)%Z then fuzz_run E a rest else ret r
  end.
