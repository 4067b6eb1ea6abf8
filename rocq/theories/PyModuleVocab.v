(* What is said about the names in the module pyhmac.  No proofs. *)
From Coq Require Import Arith NArith ZArith List Bool String Permutation.
From Verif Require Import Words Machine Context Hash Py ToolVocab PyModule.
Import ListNotations.
Open Scope N_scope.

(* how an algorithm is called in Python *)
Definition alg_name (a : algid) : list N :=
  chars (match a with MD5 => "md5" | SHA1 => "sha1" | SHA224 => "sha224" | SHA256 => "sha256" | SHA512 => "sha512" end).

(* A call with the values of the parameters: some first ones by position, all others by name and in any order *)
Definition passed (names : list (list N)) (values arguments : list pyarg) (keywords : list (list N * pyarg)) : Prop :=
  exists k, arguments = firstn k values /\ Permutation keywords (combine (skipn k names) (skipn k values)) /\
  List.length values = List.length names.

(* what can be found in the module *)
Definition is_function (name : list N) : Prop :=
  name = chars "get_version" \/ exists a, name = alg_name a ++ chars "_calculate" \/ name = alg_name a ++ chars "_calculate_hmac".
