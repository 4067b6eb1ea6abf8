(* What the text of main of hmacsum.c up to the options (TextStart.v) calls, and how it is run.
   hmactools_getopt is run by run_tool (ToolCalls.v) and what stands behind the options as run_main runs it (MainCalls.v): their texts are
   executed too.  The rest are contracts. *)
From Coq Require Import Arith NArith ZArith List Bool String.
From Verif Require Import Words Machine SumHandle ToolStrings Getopt CText TextAll ToolCalls SumCalls TextMain MainCalls TextStart.
Import ListNotations.
Open Scope string_scope.
Open Scope list_scope.
Open Scope N_scope.

(* the world around the program once the source is known, hmacsum.c:299-302 *)
Definition with_input (O : outside) (W : input) : outside := mk_outside W (o_signal O) (o_looks O) (o_split O) (o_verbose O) (o_point O).

(* the two have the same characters; for the string literal of hmacsum.c:175 *)
Fixpoint same_codes (a b : list N) : bool :=
  match a, b with
  | [], [] => true
  | x :: a, y :: b => (x =? y) && same_codes a b
  | _, _ => false
  end.

(* [locale] and [setup]: what libclocale_initialize and hmactools_output_initialize (hmactools_output.c:49-102) return; [texts] is where the
   string literal is; [files] is what the system does with the source of that name; [strchr] as in ToolCalls.v.
   What the notices print, hmacsum.c:58-80 and hmactools_output.c:106-155, is not kept, and neither is stderr. *)
Definition start_call (E : env) (O : outside) (files : list N -> input) (signed strchr : bool) (fuel : nat) (attach detach locale setup : Z)
  (texts : ptr) (f : string) (args : list val) : M (val * list (option val)) :=
  if String.eqb f "libclocale_initialize" then
    match args with
    | [_; _] => ret (VS R32 locale, [None; None])
    | _ => undef
    end
  else if String.eqb f "hmactools_output_initialize" then
    match args with
    | [VName mode; _] => if String.eqb mode "_IONBF" then ret (VS R32 setup, [None; None]) else undef
    | _ => undef
    end
  else if String.eqb f "hmactools_output_version_fprint" then
    match args with
    | [VRef (VArr R8 _ _); VText _] => ret (VS R32 0%Z, [None; None])
    | _ => undef
    end
  else if String.eqb f "usage_fprint" || String.eqb f "hmactools_output_copyright_fprint" then
    match args with
    | [VRef (VArr R8 _ _)] => ret (VS R32 0%Z, [None])
    | _ => undef
    end
  (* %s reads the string *)
  else if String.eqb f "fprintf" then
    match args with
    | [VName stream; _] => if String.eqb stream "stderr" then ret (VS R32 0%Z, [None; None]) else undef
    | [VName stream; _; VChars p] =>
        if String.eqb stream "stderr" then v <- view p ;; t <- lift (until_zero v) ;; ret (VS R32 0%Z, [None; None; None]) else undef
    | _ => undef
    end
  (* a string literal is an array of characters somewhere *)
  else if String.eqb f "_SYSTEM_STRING" then
    match args with
    | [VText t] => v <- view texts ;; if same_codes v (codes t ++ [0]) then ret (VChars texts, [None]) else undef
    | _ => undef
    end
  else if String.eqb f "hmactools_getopt" then run_tool E signed (o_verbose O) None strchr fuel f args
  (* behind it main ends: of what it leaves only stdout is looked at *)
  else if String.eqb f "main_behind" then
    match args with
    | _ :: _ :: VChars source :: _ =>
        v <- view source ;; name <- lift (until_zero v) ;;
        r <- run_fun E (main_text signed) (main_call E (with_input O (files name)) signed fuel attach detach) fuel text_main args ;;
        t <- lift (on_stdout (snd r)) ;;
        ret (fst r, [None; None; None; None; Some (VArr R8 t true)] ++ repeat None 23)
    | _ => undef
    end
  else undef.

(* the system calls main with the pointers to the arguments, hmacsum.c:130 *)
Definition run_program (E : env) (O : outside) (files : list N -> input) (signed strchr : bool) (fuel : nat) (attach detach locale setup : Z)
  (texts : ptr) (ps : list ptr) (out : list N) (anything : handle) (k : nat) (pos : N) : M (val * list (option val)) :=
  run_fun E (main_text signed) (start_call E O files signed strchr fuel attach detach locale setup texts) fuel text_main_start
    (VS R32 (Z.of_nat (List.length ps)) :: VPtrs (map VChars ps) :: map VRef (v_globals signed ps getopt_start) ++
     v_stream (Some out) :: VErr :: VRef VNull :: VRef (VU R64 0) :: v_members (Some anything) k pos).

(* what was printed on stdout, which sum_handle_hash_values_fprint gets in hmacsum.c:332-335 *)
Definition printed_by (outs : list (option val)) : option (list N) :=
  match nth_error outs 6 with Some (Some (VArr R8 t _)) => Some t | _ => None end.
