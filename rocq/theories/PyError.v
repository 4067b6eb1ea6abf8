(* pyhmac/pyhmac_error.c: how the Python bindings turn an error of the library or of the interpreter into an exception.

   Texts are the bytes given to PyErr_Format, before the interpreter decodes them.  An object of the interpreter is a
   number.  [held] are the references that functions own and have not dropped: PyErr_Fetch and every function that makes an
   object add one, Py_DecRef drops one.  References of the exception indicator itself are the business of the interpreter.
   None is undefined behaviour: an access outside a buffer, a NULL object where there must be one, or dropping a reference that is
   not owned. *)
From Coq Require Import Arith NArith ZArith List Bool String.
From Verif Require Import Words Machine Context SumHandle Py.
Import ListNotations.
Open Scope N_scope.

(* the exception indicator: an exception of the interpreter (type, value, traceback), or one set by PyErr_Format *)
Inductive exception : Type :=
| Occurred (type : nat) (value traceback : option nat)
| Formatted (class : pyexn) (text : list N).

Record interp : Type := mk_interp {
  indicator : option exception;
  held : list nat;
  objects : nat;                            (* the number of objects so far *)
  error_texts : list (Z * Z * list N);      (* libcerror_error_set: domain, code and text *)
}.
Definition X (A : Type) : Type := interp -> option (A * interp).
Definition xret {A} (a : A) : X A := fun s => Some (a, s).
Definition xbind {A B} (m : X A) (f : A -> X B) : X B := fun s => match m s with Some (a, s') => f a s' | None => None end.
Definition xlift {A} (o : option A) : X A := fun s => match o with Some a => Some (a, s) | None => None end.
Notation "x <-- m ;; k" := (xbind m (fun x => k)) (at level 61, m at next level, right associativity).
Notation "m |> k" := (xbind m (fun _ => k)) (at level 61, right associativity).

(* pyhmac_error.h:31 PYHMAC_ERROR_STRING_SIZE *)
Definition error_string_size : N := 2048.

(* PyErr_Format *)
Definition py_format (x : pyexn) (text : list N) : X unit :=
  fun s => Some (tt, mk_interp (Some (Formatted x text)) (held s) (objects s) (error_texts s)).
(* a function of the interpreter that makes an object *)
Definition new_object : X nat :=
  fun s => Some (objects s, mk_interp (indicator s) (objects s :: held s) (S (objects s)) (error_texts s)).
(* removes the first occurrence *)
Fixpoint drop_one (o : nat) (l : list nat) : option (list nat) :=
  match l with
  | [] => None
  | x :: t => if Nat.eqb o x then Some t else option_map (cons x) (drop_one o t)
  end.
(* Py_DecRef *)
Definition decref (o : option nat) : X unit :=
  match o with
  | None => xret tt
  | Some o => fun s => match drop_one o (held s) with
                       | Some l => Some (tt, mk_interp (indicator s) l (objects s) (error_texts s))
                       | None => None
                       end
  end.
(* PyErr_Fetch: the indicator is cleared, its references are the caller's.  The objects of a formatted exception are its type and
   its value. *)
Definition py_fetch : X (option nat * option nat * option nat) :=
  fun s =>
    match indicator s with
    | None => Some ((None, None, None), s)
    | Some (Occurred t v b) =>
        Some ((Some t, v, b),
              mk_interp None (t :: match v with Some v => [v] | None => [] end ++ match b with Some b => [b] | None => [] end ++ held s)
                        (objects s) (error_texts s))
    | Some (Formatted x text) =>
        Some ((Some (objects s), Some (S (objects s)), None),
              mk_interp None (objects s :: S (objects s) :: held s) (S (S (objects s))) (error_texts s))
    end.
(* libcerror_error_set *)
Definition set_error (d c : Z) (text : list N) : X unit :=
  fun s => Some (tt, mk_interp (indicator s) (held s) (objects s) (error_texts s ++ [(d, c, text)])).

(* PyOS_vsnprintf( buffer, size, ... ): out is what the format and its arguments give, None if they cannot be formatted.
   At most size - 1 characters are stored, and an end of string character. *)
Definition vsnprintf (buffer : list N) (size : N) (out : option (list N)) : list N * Z :=
  match out with
  | None => (buffer, (-1)%Z)
  | Some t =>
      let stored := firstn (N.to_nat (size - 1)) t ++ [0] in
      (stored ++ skipn (List.length stored) buffer, Z.of_nat (List.length t))
  end.

(* narrow_string_length *)
Definition string_length (buffer : list N) : option nat := option_map (@List.length N) (until_zero buffer).

Section Interpreter.
  (* PyObject_Repr of an object or of NULL: the text, None if it fails *)
  Variable repr : option nat -> option (list N).
  (* PyUnicode_AsUTF8String: the bytes, None if the text cannot be encoded *)
  Variable utf8 : list N -> option (list N).

  (* error_string_length - 1 as an index; of 0 it is SIZE_MAX, which is outside every array *)
  Definition last_index (n : nat) : option nat := match n with O => None | S k => Some k end.
  (* pyhmac_error.c:116-123, 256-263: one full stop at the end is removed *)
  Definition remove_stop (buffer : list N) : option (list N) :=
    n <-? string_length buffer;
    if Nat.leb 1 n then
      i <-? last_index n;
      c <-? aget buffer i;
      if c =? 46 then aset buffer i 0 else Some buffer
    else Some buffer.

  (* pyhmac_error.c:129-141, 269-280 (Python 3): the object of the text, the object of its bytes, and the bytes.
     PyUnicode_AsUTF8String looks at the type of its argument, so that it must not be NULL; when it fails it sets
     UnicodeEncodeError, a ValueError whose text is not represented. *)
  Definition exception_text (value : option nat) : X (nat * option nat * option (list N)) :=
    t <-- xlift (repr value) ;;
    string_object <-- new_object ;;
    match utf8 t with
    | None => py_format X_ValueError [] |> xret (string_object, None, None)
    | Some b => utf8_string_object <-- new_object ;; xret (string_object, Some utf8_string_object, Some b)
    end.

  (* pyhmac_error.c:59-175 pyhmac_error_fetch.  format is None for a NULL format string, else what it gives; junk is what the
     array on the stack has in it. *)
  Definition error_fetch (domain code : Z) (format : option (option (list N))) (junk : list N) : X unit :=
    match format with
    | None => py_format X_ValueError (literal "pyhmac_error_fetch: missing format string.")
    | Some out =>
        let (error_string, print_count) := vsnprintf junk error_string_size out in
        if (print_count <? 0)%Z then py_format X_ValueError (literal "pyhmac_error_fetch: unable to format error string.")
        else
          error_string <-- xlift (remove_stop error_string) ;;
          fetched <-- py_fetch ;;
          x <-- exception_text (snd (fst fetched)) ;;
          let '(string_object, utf8_string_object, exception_string) := x in
          m <-- xlift (until_zero error_string) ;;
          (match exception_string with
           | Some b => v <-- xlift (until_zero (b ++ [0])) ;; set_error domain code (m ++ literal " with error: " ++ v ++ literal ".")
           | None => set_error domain code (m ++ literal ".")
           end) |>
          (match utf8_string_object with
           | Some o => decref (Some o)
           | None => xret tt
           end) |>
          decref (Some string_object)
    end.

  (* pyhmac_error.c:201-304 pyhmac_error_fetch_and_raise *)
  Definition error_fetch_and_raise (x : pyexn) (format : option (option (list N))) (junk : list N) : X unit :=
    match format with
    | None => py_format X_ValueError (literal "pyhmac_error_fetch_and_raise: missing format string.")
    | Some out =>
        let (error_string, print_count) := vsnprintf junk error_string_size out in
        if (print_count <? 0)%Z then py_format X_ValueError (literal "pyhmac_error_fetch_and_raise: unable to format exception string.")
        else
          error_string <-- xlift (remove_stop error_string) ;;
          fetched <-- py_fetch ;;
          y <-- exception_text (snd (fst fetched)) ;;
          let '(string_object, utf8_string_object, exception_string) := y in
          m <-- xlift (until_zero error_string) ;;
          (match exception_string with
           | Some b => v <-- xlift (until_zero (b ++ [0])) ;; py_format x (m ++ literal " with error: " ++ v ++ literal ".")
           | None => py_format x (m ++ literal ".")
           end) |>
          decref (Some string_object)
    end.

  (* pyhmac_error.c:385-397: the loop over the text of the error.  i is error_string_index; fuel is for the recursion only. *)
  Fixpoint replace_newlines (fuel : nat) (buffer : list N) (i : nat) : option (list N * nat) :=
    match fuel with
    | O => None
    | S fuel =>
        if N.of_nat i <? error_string_size then
          c <-? aget buffer i;
          if c =? 0 then Some (buffer, i)
          else if (c =? 10) || (c =? 13) then buffer' <-? aset buffer i 32; replace_newlines fuel buffer' (S i)
          else replace_newlines fuel buffer (S i)
        else Some (buffer, i)
    end.

  (* pyhmac_error.c:330-417 pyhmac_error_raise.  error: None is NULL, Some None an error of which libcerror_error_backtrace_sprint
     cannot print the backtrace (-1), Some (Some b) one for which it leaves b in error_string. *)
  Definition error_raise_text (error : option (option (list N))) (x : pyexn) (format : option (option (list N))) (junk : list N) : X unit :=
    match format with
    | None => py_format X_ValueError (literal "pyhmac_error_raise: missing format string.")
    | Some out =>
        let (exception_string, print_count) := vsnprintf junk error_string_size out in
        if (print_count <? 0)%Z then py_format X_ValueError (literal "pyhmac_error_raise: unable to format exception string.")
        else
          match error with
          | Some (Some b) =>
              r <-- xlift (replace_newlines (S (N.to_nat error_string_size)) b 0) ;;
              let (error_string, i) := r in
              error_string <-- xlift (if error_string_size <=? N.of_nat i then aset error_string (N.to_nat (error_string_size - 1)) 0
                                      else Some error_string) ;;
              m <-- xlift (until_zero exception_string) ;;
              t <-- xlift (until_zero error_string) ;;
              py_format x (m ++ literal " " ++ t)
          | _ => m <-- xlift (until_zero exception_string) ;; py_format x m
          end
    end.
End Interpreter.
