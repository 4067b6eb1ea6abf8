(* Properties C52 and C53: the texts of exceptions, and the names in the module pyhmac.
   The models are in PyError.v and PyModule.v. *)
From Coq Require Import Arith NArith ZArith List Bool Lia String Permutation.
From Verif Require Import Words Spec Machine Vocab Context Hash Demo ToolVocab Py PyVocab PyError PyErrorVocab PyErrorFacts PyModule PyModuleVocab PyModuleFacts.
Import ListNotations.
Open Scope N_scope.

(* ------------------------------------------------------- C52 *)

(* An error of the library becomes an exception of the class asked for, whatever libcerror_error_backtrace_sprint leaves in its
   array; nothing outside the two arrays is accessed and no reference is kept. *)
Theorem C52_raise : forall error x t junk s, error_array junk ->
  (forall b, error = Some (Some b) -> error_array b) ->
  exists text m, error_raise_text error x (Some (Some t)) junk s =
    Some (tt, mk_interp (Some (Formatted x text)) (held s) (objects s) (error_texts s)) /\
  begins 2047 t m /\
  match error with
  | Some (Some b) => exists u v, begins 2047 b u /\ on_one_line u v /\ text = m ++ [32] ++ v
  | _ => text = m
  end.
Proof. exact raise_text. Qed.
Print Assumptions C52_raise.

(* Without a format string, or with one that cannot be formatted, the exception is a ValueError that names the function, and
   nothing else happens. *)
Theorem C52_no_message : forall repr utf8 error x d c format junk s, format = None \/ format = Some None ->
  exists t1 t2 t3,
  error_raise_text error x format junk s = Some (tt, mk_interp (Some (Formatted X_ValueError (chars "pyhmac_error_raise: " ++ t1))) (held s) (objects s) (error_texts s)) /\
  error_fetch_and_raise repr utf8 x format junk s =
    Some (tt, mk_interp (Some (Formatted X_ValueError (chars "pyhmac_error_fetch_and_raise: " ++ t2))) (held s) (objects s) (error_texts s)) /\
  error_fetch repr utf8 d c format junk s = Some (tt, mk_interp (Some (Formatted X_ValueError (chars "pyhmac_error_fetch: " ++ t3))) (held s) (objects s) (error_texts s)).
Proof. exact no_message. Qed.
Print Assumptions C52_no_message.

(* The text is a string of one line. *)
Theorem C52_one_line : forall error x t junk s text s', error_array junk ->
  (forall b, error = Some (Some b) -> error_array b) -> ~ In 10 t -> ~ In 13 t ->
  error_raise_text error x (Some (Some t)) junk s = Some (tt, s') -> indicator s' = Some (Formatted x text) ->
  ~ In 10 text /\ ~ In 13 text /\ ~ In 0 text /\ N.of_nat (List.length text) <= 4095.
Proof. exact raise_one_line. Qed.
Print Assumptions C52_one_line.

Definition interp0 : interp := mk_interp (Some (Occurred 3 (Some 4%nat) None)) [7%nat] 10 [].
Definition stack_array : list N := repeat 99 (N.to_nat 2048).
(* a backtrace of two lines, and one that fills its array *)
Definition trace1 : list N := chars "a: bad." ++ [10] ++ chars "b: worse." ++ [13; 0] ++ repeat 255 (N.to_nat 2029).
Example C52_raise_example :
  error_array stack_array /\ error_array trace1 /\ error_array (repeat 10 (N.to_nat 2048)) /\
  option_map (fun r => indicator (snd r)) (error_raise_text (Some (Some trace1)) X_IOError (Some (Some (chars "f: unable."))) stack_array interp0) =
  Some (Some (Formatted X_IOError (chars "f: unable. a: bad. b: worse. "))) /\
  option_map (fun r => indicator (snd r)) (error_raise_text (Some (Some (repeat 10 (N.to_nat 2048)))) X_IOError (Some (Some [46])) stack_array interp0) =
  Some (Some (Formatted X_IOError (46 :: repeat 32 (N.to_nat 2048)))) /\
  option_map (fun r => indicator (snd r)) (error_raise_text (Some None) X_MemoryError (Some (Some (repeat 65 (N.to_nat 5000)))) stack_array interp0) =
  Some (Some (Formatted X_MemoryError (repeat 65 (N.to_nat 2047)))).
Proof. vm_compute. repeat split. Qed.

(* An exception of the interpreter is fetched and shown in the text of the new one.  Full statement: all references taken are
   dropped again.  Missing: the type, the value and the traceback of the fetched exception and the bytes of the text are kept
   (C52_references_refuted); without a text of the exception there is undefined behaviour (C52_repr_refuted). *)
Theorem C52_fetch_and_raise_partial : forall repr utf8 x t junk s rt, error_array junk ->
  repr (value_of (indicator s) (objects s)) = Some rt ->
  exists u m text n, error_fetch_and_raise repr utf8 x (Some (Some t)) junk s =
    Some (tt, mk_interp (Some (Formatted x text))
                ((match utf8 rt with Some _ => [n] | None => [] end) ++ references (indicator s) (objects s) ++ held s)
                (S n) (error_texts s)) /\
  begins 2047 t u /\ without_stop u m /\
  match utf8 rt with
  | Some b => exists v, begins (N.of_nat (List.length b)) b v /\ text = m ++ chars " with error: " ++ v ++ chars "."
  | None => text = m ++ chars "."
  end.
Proof. exact fetch_and_raise_text. Qed.
Print Assumptions C52_fetch_and_raise_partial.

(* The same for pyhmac_error_fetch, which makes an error of the library of it; here the bytes of the text are dropped.  When the
   text cannot be encoded the exception of that is left set. *)
Theorem C52_fetch_partial : forall repr utf8 d c t junk s rt, error_array junk ->
  repr (value_of (indicator s) (objects s)) = Some rt ->
  exists u m text n, error_fetch repr utf8 d c (Some (Some t)) junk s =
    Some (tt, mk_interp (match utf8 rt with Some _ => None | None => Some (Formatted X_ValueError []) end)
                (references (indicator s) (objects s) ++ held s) n (error_texts s ++ [(d, c, text)])) /\
  begins 2047 t u /\ without_stop u m /\
  match utf8 rt with
  | Some b => exists v, begins (N.of_nat (List.length b)) b v /\ text = m ++ chars " with error: " ++ v ++ chars "."
  | None => text = m ++ chars "."
  end.
Proof. exact fetch_text. Qed.
Print Assumptions C52_fetch_partial.

Example C52_fetch_example :
  let repr := fun o => if match o with Some 4%nat => true | _ => false end then Some (chars "bad") else None in
  repr (value_of (indicator interp0) (objects interp0)) = Some (chars "bad") /\
  error_fetch_and_raise repr Some X_RuntimeError (Some (Some (chars "f: unable."))) stack_array interp0 =
  Some (tt, mk_interp (Some (Formatted X_RuntimeError (chars "f: unable with error: bad."))) [11; 3; 4; 7]%nat 12 []) /\
  error_fetch repr (fun _ => None) 1 2 (Some (Some (chars "f: unable"))) stack_array interp0 =
  Some (tt, mk_interp (Some (Formatted X_ValueError [])) [3; 4; 7]%nat 11 [(1%Z, 2%Z, chars "f: unable.")]) /\
  (* what is left of a format that cannot be used *)
  error_fetch_and_raise repr Some X_RuntimeError (Some None) stack_array interp0 =
  Some (tt, mk_interp (Some (Formatted X_ValueError (chars "pyhmac_error_fetch_and_raise: unable to format exception string."))) [7%nat] 10 []).
Proof. vm_compute. repeat split. Qed.

Theorem C52_references_refuted : ~ (forall repr utf8 x t junk s s', error_array junk ->
  error_fetch_and_raise repr utf8 x (Some (Some t)) junk s = Some (tt, s') -> held s' = held s).
Proof. exact fetch_keeps. Qed.
Print Assumptions C52_references_refuted.

(* Whenever the text of the exception cannot be made, NULL is given to PyUnicode_AsUTF8String. *)
Theorem C52_repr_refuted : forall repr utf8 x t junk s, repr (value_of (indicator s) (objects s)) = None ->
  error_fetch_and_raise repr utf8 x (Some (Some t)) junk s = None.
Proof. exact fetch_undefined. Qed.
Print Assumptions C52_repr_refuted.
Example C52_repr_example : let repr := fun _ : option nat => @None (list N) in
  error_fetch_and_raise repr Some X_RuntimeError (Some (Some (chars "f"))) stack_array interp0 = None.
Proof. apply C52_repr_refuted. reflexivity. Qed.

(* ------------------------------------------------------- C53 *)

(* The functions of the module: get_version, and two for every algorithm. *)
Theorem C53_names : forall E version name arguments keywords,
  (exists m, module_call E version name arguments keywords = Some m) <-> is_function name.
Proof. exact call_exists. Qed.
Print Assumptions C53_names.

(* get_version takes no arguments. *)
Theorem C53_version : forall E version arguments keywords S,
  exists m, module_call E version (chars "get_version") arguments keywords = Some m /\
  (arguments = [] /\ keywords = [] /\ m S = PDone (VText version) S \/
   (arguments <> [] \/ keywords <> []) /\ m S = PDone (VRes RNull) (mk_py (lib S) (none_refs S) (Some X_TypeError))).
Proof. exact call_version. Qed.
Print Assumptions C53_version.

(* pyhmac.X_calculate gives the digest X of its data, however the data is passed. *)
Theorem C53_calculate : forall E version a arguments keywords p n S, good_state (lib S) -> errs (lib S) = [] ->
  passed [chars "data"] [ABytes p n] arguments keywords -> accessible (lib S) p n -> n <= ssize_max E -> in_domain a (bytes_at (lib S) p n) ->
  exists m r S', module_call E version (alg_name a ++ chars "_calculate") arguments keywords = Some m /\ m S = PDone (VRes r) S' /\
  ((exists q, r = RBytes q /\ exn S' = None /\ get_obj (lib S') q = Some (OBytes (spec_hash a (bytes_at (lib S) p n)))) \/
   (r = RNull /\ exn S' = Some X_IOError /\ some_alloc_failed E (lib S) (lib S'))).
Proof. exact call_calculate. Qed.
Print Assumptions C53_calculate.

Theorem C53_hmac : forall E version a arguments keywords kp kn p n S, good_state (lib S) -> errs (lib S) = [] ->
  passed [chars "key"; chars "data"] [ABytes kp kn; ABytes p n] arguments keywords ->
  accessible (lib S) kp kn -> kn <= ssize_max E -> accessible (lib S) p n -> n <= ssize_max E ->
  (a = SHA512 -> kn < 2 ^ 61 /\ 128 + n < 2 ^ 61) ->
  exists m r S', module_call E version (alg_name a ++ chars "_calculate_hmac") arguments keywords = Some m /\ m S = PDone (VRes r) S' /\
  ((exists q, r = RBytes q /\ exn S' = None /\
      get_obj (lib S') q = Some (OBytes (spec_hmac a (bytes_at (lib S) kp kn) (bytes_at (lib S) p n)))) \/
   (r = RNull /\ exn S' = Some X_IOError /\ some_alloc_failed E (lib S) (lib S'))).
Proof. exact call_hmac. Qed.
Print Assumptions C53_hmac.

(* Any other arguments give a TypeError and nothing else. *)
Theorem C53_refused : forall E version a arguments keywords S, NoDup (map fst keywords) ->
  ((forall x, ~ passed [chars "data"] [x] arguments keywords) ->
   exists m, module_call E version (alg_name a ++ chars "_calculate") arguments keywords = Some m /\
   m S = PDone (VRes RNull) (mk_py (lib S) (none_refs S) (Some X_TypeError))) /\
  ((forall k x, ~ passed [chars "key"; chars "data"] [k; x] arguments keywords) ->
   exists m, module_call E version (alg_name a ++ chars "_calculate_hmac") arguments keywords = Some m /\
   m S = PDone (VRes RNull) (mk_py (lib S) (none_refs S) (Some X_TypeError))).
Proof. exact call_refused. Qed.
Print Assumptions C53_refused.

(* The methods of a context object are update and finalize, those of Py.v. *)
Theorem C53_methods : forall E a self name arguments keywords,
  (name <> chars "update" -> name <> chars "finalize" -> object_call E a self name arguments keywords = None) /\
  (forall x, passed [chars "data"] [x] arguments keywords ->
     object_call E a self (chars "update") arguments keywords = Some (py_update E a self (Some x))) /\
  object_call E a self (chars "finalize") [] [] = Some (py_finalize E a self).
Proof. exact object_methods. Qed.
Print Assumptions C53_methods.
Theorem C53_methods_refused : forall E a self arguments keywords S, NoDup (map fst keywords) ->
  ((forall x, ~ passed [chars "data"] [x] arguments keywords) ->
   exists m, object_call E a self (chars "update") arguments keywords = Some m /\
   m S = PDone RNull (mk_py (lib S) (none_refs S) (Some X_TypeError))) /\
  (arguments <> [] \/ keywords <> [] ->
   exists m, object_call E a self (chars "finalize") arguments keywords = Some m /\
   m S = PDone RNull (mk_py (lib S) (none_refs S) (Some X_TypeError))).
Proof. exact methods_refused. Qed.
Print Assumptions C53_methods_refused.

(* md5_calculate_hmac(data = "abc", key = "a"), and wrong calls *)
Definition key_arg : pyarg := ABytes (0%nat, 0) 1.
Definition data_arg : pyarg := ABytes (0%nat, 0) 3.
Example C53_example :
  passed [chars "key"; chars "data"] [key_arg; data_arg] [] [(chars "data", data_arg); (chars "key", key_arg)] /\
  passed [chars "key"; chars "data"] [key_arg; data_arg] [key_arg] [(chars "data", data_arg)] /\
  (forall k x, ~ passed [chars "key"; chars "data"] [k; x] [key_arg] [(chars "key", key_arg)]) /\
  is_function (chars "sha224_calculate_hmac") /\ ~ is_function (chars "md4_calculate") /\
  match module_call (demo_env true true) [] (chars "md5_calculate_hmac") [] [(chars "data", data_arg); (chars "key", key_arg)] with
  | Some m => match m (mk_py demo_state 0 None) with
              | PDone (VRes (RBytes q)) S' => get_obj (lib S') q
              | _ => None
              end
  | None => None
  end = Some (OBytes (spec_hmac MD5 [97] [97; 98; 99])).
Proof.
  split; [|split; [|split; [|split; [|split]]]].
  - exists 0%nat. split; [reflexivity|]. split; [apply perm_swap|reflexivity].
  - exists 1%nat. split; [reflexivity|]. split; [apply Permutation_refl|reflexivity].
  - intros k x (i & A & P & _). destruct i as [|[|i]]; [discriminate| |destruct i; discriminate].
    cbn [skipn combine] in P. apply Permutation_length_1 in P. discriminate.
  - right. exists SHA224. now right.
  - intros [H|([] & [H|H])]; vm_compute in H; discriminate.
  - vm_compute. reflexivity.
Qed.

(* The initialisation returns the module exactly if it could be made and every type was made ready; it gives the interpreter lock
   back; the module has the types that could be added under their names, and objects of them can be made. *)
Theorem C53_init : forall create ready add s,
  let r := fst (init_module create ready add s) in let s' := snd (init_module create ready add s) in
  (r = true <-> create = true /\ forall a, ready a = true) /\
  gil s' = gil s /\
  (r = true -> module_refs s' = module_refs s /\ (forall a, tp_new s' a = true) /\
     attributes s' = attributes s ++ map (fun a => (alg_name a ++ chars "_context", a)) (filter add [MD5; SHA1; SHA224; SHA256; SHA512]) /\
     (forall a, type_refs s' a = (type_refs s a + if add a then 0 else 1)%Z)).
Proof. exact init_result. Qed.
Print Assumptions C53_init.

(* "No reference is kept when it fails" is false: whenever a type is not ready, a reference to the module stays. *)
Theorem C53_init_refuted : forall ready add s, (exists a, ready a = false) ->
  module_refs (snd (init_module true ready add s)) = (module_refs s + 1)%Z.
Proof. exact init_failed. Qed.
Print Assumptions C53_init_refuted.

Definition module0 : module_state := mk_module 0 [] (fun _ => 1%Z) (fun _ => false) 0.
Example C53_init_example :
  fst (init_module true (fun _ => true) (fun a => negb (algid_eqb a SHA1)) module0) = true /\
  map snd (attributes (snd (init_module true (fun _ => true) (fun a => negb (algid_eqb a SHA1)) module0))) = [MD5; SHA224; SHA256; SHA512] /\
  type_refs (snd (init_module true (fun _ => true) (fun a => negb (algid_eqb a SHA1)) module0)) SHA1 = 2%Z /\
  fst (init_module true (fun a => negb (algid_eqb a SHA256)) (fun _ => true) module0) = false /\
  module_refs (snd (init_module true (fun a => negb (algid_eqb a SHA256)) (fun _ => true) module0)) = 1%Z.
Proof. vm_compute. repeat split. Qed.
