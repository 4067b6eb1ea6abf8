(* hmactools/hmactools_getopt.c, used when the system has no getopt, and the reading of the options in
   hmactools/hmacsum.c.  Characters are those of the narrow build.
   An argument is the list of its characters without the end of string character; a pointer into the arguments is the number
   of the argument and an offset.  argument_count is the number of arguments. *)
From Coq Require Import Arith NArith ZArith List Bool.
From Verif Require Import Words Machine Context SumHandle.
Import ListNotations.
Open Scope N_scope.

(* hmactools_getopt.c:37-52: the global variables optind, optarg, optopt and next_option *)
Record getopt_state : Type := mk_getopt {
  optind : nat;
  optarg : option (nat * nat);
  optopt : N;
  next_option : option (nat * nat);
}.
Definition getopt_start : getopt_state := mk_getopt 1 None 0 None.
(* assignments to them *)
Definition set_optind (n : nat) (g : getopt_state) : getopt_state := mk_getopt n (optarg g) (optopt g) (next_option g).
Definition set_optarg (p : option (nat * nat)) (g : getopt_state) : getopt_state := mk_getopt (optind g) p (optopt g) (next_option g).
Definition set_optopt (c : N) (g : getopt_state) : getopt_state := mk_getopt (optind g) (optarg g) c (next_option g).
Definition set_next_option (p : option (nat * nat)) (g : getopt_state) : getopt_state := mk_getopt (optind g) (optarg g) (optopt g) p.

(* *argument_value; None is a read outside the string *)
Definition char_at (argv : list (list N)) (p : nat * nat) : option N :=
  t <-? nth_error argv (fst p); nth_error (t ++ [0]) (snd p).

(* the first place of a character *)
Fixpoint index_of (c : N) (l : list N) : option nat :=
  match l with
  | [] => None
  | x :: t => if x =? c then Some O else option_map S (index_of c t)
  end.

(* common/narrow_string.h:109-116: memchr over the characters, or strchr, which finds the end of string too *)
Definition search_character (strchr : bool) (c : N) (options : list N) : option nat :=
  index_of c (if strchr then options ++ [0] else options).

(* hmactools_getopt.c:59-187 hmactools_getopt.  The options string has characters below 128 only, so that the sign of char
   makes no difference to the result.  The messages printed are not modelled. *)
Definition hmactools_getopt (strchr : bool) (argv : list (list N)) (options : list N) (g : getopt_state) : option (Z * getopt_state) :=
  start <-? (match next_option g with
             | Some p => Some (inr (p, set_next_option None g))
             | None =>
                 if Nat.leb (length argv) (optind g) then Some (inl ((-1)%Z, g))
                 else
                   c <-? char_at argv (optind g, 0%nat);
                   if c =? 0 then Some (inl ((-1)%Z, g))
                   else if negb (c =? 45) then Some (inl ((-1)%Z, g))
                   else
                     c <-? char_at argv (optind g, 1%nat);
                     if c =? 45 then Some (inl ((-1)%Z, set_optind (S (optind g)) g))
                     else Some (inr ((optind g, 1%nat), g))
             end);
  match start with
  | inl r => Some r
  | inr (argument_value, g) =>
      c <-? char_at argv argument_value;
      let g := set_optopt c g in
      let option_value := search_character strchr c options in
      let argument_value := (fst argument_value, S (snd argument_value)) in
      if (c =? 58) || (match option_value with None => true | Some _ => false end)
      then
        d <-? char_at argv argument_value;
        Some (63%Z, if d =? 0 then set_optind (S (optind g)) g else g)
      else
        v <-? option_value;
        o <-? nth_error (options ++ [0]) (S v);
        d <-? char_at argv argument_value;
        if negb (o =? 58) then
          let g := set_optarg None g in
          Some (Z.of_N c, if d =? 0 then set_optind (S (optind g)) g else set_next_option (Some argument_value) g)
        else if negb (d =? 0) then
          Some (Z.of_N c, set_optind (S (optind g)) (set_optarg (Some argument_value) g))
        else
          let g := set_optind (S (optind g)) g in
          if Nat.leb (length argv) (optind g) then Some (58%Z, g)
          else Some (Z.of_N c, set_optind (S (optind g)) (set_optarg (Some (optind g, 0%nat)) g))
  end.

(* the characters of a string from a pointer to its end *)
Definition string_at (argv : list (list N)) (p : nat * nat) : option (list N) :=
  t <-? nth_error argv (fst p); if Nat.leb (snd p) (length t) then Some (skipn (snd p) t) else None.

(* what main does with the arguments: exit at once, or go on with the values of the options -p and -d and the source *)
Inductive command : Type :=
| Exit (code : Z)
| Run (process_buffer_size digest_types : option (list N)) (source : list N).

(* hmacsum.c:172-229: the options; option_digest_types and option_process_buffer_size are the strings so far.
   More turns than the fuel would be an endless loop.  EXIT_FAILURE is 1. *)
Fixpoint main_options (fuel : nat) (strchr : bool) (argv : list (list N)) (g : getopt_state)
         (process_buffer_size digest_types : option (list N)) : option command :=
  match fuel with
  | O => None
  | S fuel =>
      x <-? hmactools_getopt strchr argv [100; 58; 104; 112; 58; 118; 86] g;
      let '(option, g) := x in
      if (option =? -1)%Z then
        if Nat.eqb (optind g) (length argv) then Some (Exit 1)
        else source <-? nth_error argv (optind g); Some (Run process_buffer_size digest_types source)
      else if (option =? 100)%Z then
        p <-? optarg g; v <-? string_at argv p; main_options fuel strchr argv g process_buffer_size (Some v)
      else if (option =? 104)%Z then Some (Exit 0)
      else if (option =? 112)%Z then
        p <-? optarg g; v <-? string_at argv p; main_options fuel strchr argv g (Some v) digest_types
      else if (option =? 118)%Z then main_options fuel strchr argv g process_buffer_size digest_types
      else if (option =? 86)%Z then Some (Exit 0)
      else v <-? nth_error argv (optind g - 1); Some (Exit 1)
  end.

(* the number of characters, and one for each argument *)
Definition size_of (argv : list (list N)) : nat := fold_right (fun t n => (S (length t) + n)%nat) 0%nat argv.

(* hmacsum.c:131-402 main.  [files] is what the system does with the source of that name.  The result is the exit code and
   what is printed on stdout but for the version, the copyright and the usage text; the initialization of libclocale and of
   the output (147-166) is assumed to succeed. *)
Definition hmacsum_main (E : env) (strchr : bool) (split : list N -> option (list (option (list N)))) (verbose : bool)
           (decimal_point : option N) (files : list N -> input) (signal : option nat) (argv : list (list N)) : M (Z * list N) :=
  c <- lift (main_options (S (size_of argv)) strchr argv getopt_start None None) ;;
  match c with
  | Exit code => ret (code, [])
  | Run size types source =>
      hmacsum E split verbose decimal_point (files source) signal
        (option_map (fun t => (t ++ [0], N.of_nat (length t))) size) types
  end.
