(* What the functions of TextTools.v call outside their files, and how they are run: the contracts of printf, of the string
   functions and of libclocale.  The entries that libclocale adds to the error object itself are not modelled, and nothing is
   said of what libcnotify prints. *)
From Coq Require Import Arith NArith ZArith List Bool String Ascii.
From Verif Require Import Words Machine ToolStrings Getopt CText TextTools.
Import ListNotations.
Open Scope string_scope.
Open Scope list_scope.
Open Scope N_scope.

(* the characters of a string in the text of the program *)
Fixpoint codes (t : string) : list N :=
  match t with EmptyString => [] | String c r => N_of_ascii c :: codes r end.

(* C11 7.21.6.1: what one conversion prints.  PRIu64, PRIu8: inttypes.h; PRIc_SYSTEM, PRIs_SYSTEM: common/types.h.in:57-58, "c" and "s" *)
Definition print_value (E : env) (conversion : string) (v : val) : option (list N) :=
  if String.eqb conversion "PRIu64" then match v with VU R64 n => Some (print_decimal n) | _ => None end
  else if String.eqb conversion "PRIu8" then match v with VS R8 z => if (0 <=? z)%Z then Some (print_decimal (Z.to_N z)) else None | _ => None end
  else if String.eqb conversion "PRIc_SYSTEM" then option_map (fun n => [n]) (to_unsigned E R8 v)
  else if String.eqb conversion "PRIs_SYSTEM" then match v with VText t => Some (codes t) | _ => None end
  else None.

(* a format, in which %{X} stands for "%" X; [name] is the name read so far inside the braces *)
Fixpoint print_format (E : env) (f : string) (name : option string) (args : list val) : option (list N) :=
  match f, name with
  | EmptyString, None => match args with [] => Some [] | _ => None end
  | EmptyString, Some _ => None
  | String c t, None =>
      if Ascii.eqb c "%" then
        match t with
        | String d u => if Ascii.eqb d "{" then print_format E u (Some "") args else None
        | EmptyString => None
        end
      else option_map (cons (N_of_ascii c)) (print_format E t None args)
  | String c t, Some n =>
      if Ascii.eqb c "}" then
        match args with
        | v :: rest => x <-? print_value E n v; y <-? print_format E t None rest; Some (x ++ y)
        | [] => None
        end
      else print_format E t (Some (String.append n (String c ""))) args
  end.

(* common/narrow_string.h:58-59, 109-116 and 152-153, libclocale_locale_get_decimal_point and libcnotify_printf.
   [decimal_point] is what libclocale gives, None when it fails; [strchr] says that strchr is used and not memchr *)
Definition tool_call (E : env) (decimal_point : option Z) (strchr : bool) (f : string) (args : list val)
  : M (val * list (option val)) :=
  if String.eqb f "libclocale_locale_get_decimal_point" then
    match args with
    | [VRef (VS R32 z); _] =>
        ret match decimal_point with
            | Some d => (VS R32 1%Z, [Some (VS R32 d); None])
            | None => (VS R32 (-1)%Z, [Some (VS R32 z); None])
            end
    | _ => undef
    end
  else if String.eqb f "libcnotify_printf" then ret (VS R32 0%Z, [])
  else if String.eqb f "system_string_sprintf" then
    match args with
    | VChars p :: VU RSz n :: VText format :: rest =>
        t <- lift (print_format E format None rest) ;;
        v <- view p ;;
        x <- lift (snprintf v n t) ;;
        write p (snd x) ;;;
        ret (VS R32 (fst x), map (fun _ => None) args)
    | _ => undef
    end
  else if String.eqb f "system_string_length" then
    match args with
    | [VChars p] => v <- view p ;; n <- lift (index_of 0 v) ;; ret (VU RSz (N.of_nat n), [None])
    | _ => undef
    end
  else if String.eqb f "system_string_search_character" then
    match args with
    | [VChars p; c; VU RSz n] =>
        x <- lift (to_unsigned E R8 c) ;;
        v <- view p ;;
        t <- lift (if strchr then option_map (fun z => firstn (S z) v) (index_of 0 v) else take n v) ;;
        ret (match index_of x t with Some i => VChars (ptr_add p (N.of_nat i)) | None => VNull end, [None; None; None])
    | _ => undef
    end
  else undef.

(* run a function of these files *)
Definition run_tool (E : env) (signed verbose : bool) (decimal_point : option Z) (strchr : bool) (fuel : nat) (f : string) (args : list val)
  : M (val * list (option val)) :=
  match find_fun (p_functions (tools_text signed verbose)) f with
  | Some def => run_fun E (tools_text signed verbose) (tool_call E decimal_point strchr) fuel def args
  | None => undef
  end.

(* a pointer to characters *)
Definition v_chars (p : option ptr) : val := match p with Some q => VChars q | None => VNull end.

(* a pointer to a size64_t that holds n *)
Definition v_number (q : option N) : val := match q with Some n => VRef (VU R64 n) | None => VNull end.
Definition is_some {A : Type} (x : option A) : bool := match x with Some _ => true | None => false end.

(* the characters that a function of ToolStrings.v leaves, put where the pointer says *)
Definition store (p : option ptr) (t : option (list N)) : M unit :=
  match p, t with Some p, Some t => write p t | _, _ => ret tt end.

(* an int where ToolStrings.v has a word of 64 bits *)
Definition word64 (z : Z) : N := Z.to_N (z mod 2 ^ 64).

(* a character after promotion to int *)
Definition cz (signed : bool) (c : N) : Z :=
  if signed then (if c <? 128 then Z.of_N c else (Z.of_N c - 256)%Z) else Z.of_N c.

(* a place in the arguments as a pointer *)
Definition v_at (ps : list ptr) (x : option (nat * nat)) : val :=
  match x with
  | Some (i, j) => match nth_error ps i with Some p => VChars (ptr_add p (N.of_nat j)) | None => VNull end
  | None => VNull
  end.

(* the global variables of hmactools_getopt *)
Definition v_globals (signed : bool) (ps : list ptr) (g : getopt_state) : list val :=
  [VS R32 (Z.of_nat (optind g)); v_at ps (optarg g); VS R32 (cz signed (optopt g)); v_at ps (next_option g)].

(* the strings are where the pointers say *)
Definition strings_at (s : state) (ps : list ptr) (argv : list (list N)) : Prop :=
  Forall2 (fun p t => view p s = Done (t ++ [0]) s) ps argv.
