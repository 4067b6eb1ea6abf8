(* Vocabulary for the statements about option parsing.  No proofs. *)
From Coq Require Import Arith NArith ZArith List Bool.
From Verif Require Import Words Machine Getopt.
Import ListNotations.
Open Scope N_scope.

(* an options string says what a letter is: a colon after it asks for a value; a colon itself is no option *)
Definition takes_value (options : list N) (c : N) : Prop :=
  c <> 58 /\ exists l r, options = l ++ c :: 58 :: r /\ ~ In c l.
Definition is_flag (options : list N) (c : N) : Prop :=
  c <> 58 /\ exists l r, options = l ++ c :: r /\ ~ In c l /\ hd_error r <> Some 58.
Definition unknown (options : list N) (c : N) : Prop := c = 58 \/ ~ In c options.

(* how options end: at the first argument that is none, at an unknown one, or at one without its value *)
Inductive ending : Type := Operands | Unknown | Missing.
Definition code_of (e : ending) : Z := match e with Operands => -1 | Unknown => 63 | Missing => 58 end.

(* What arguments say.  [parsed options g args items e rest]: g is what is left of an argument with several letters,
   args are the arguments after it, items the options with their values, rest the arguments after the options. *)
Inductive parsed (options : list N) : list N -> list (list N) -> list (N * option (list N)) -> ending -> list (list N) -> Prop :=
| P_none : parsed options [] [] [] Operands []
| P_operand a args : hd_error a <> Some 45 -> parsed options [] (a :: args) [] Operands (a :: args)
| P_dashes a args : parsed options [] ((45 :: 45 :: a) :: args) [] Operands args
| P_dash c g args items e rest : c <> 45 -> parsed options (c :: g) args items e rest ->
    parsed options [] ((45 :: c :: g) :: args) items e rest
| P_flag c g args items e rest : is_flag options c -> parsed options g args items e rest ->
    parsed options (c :: g) args ((c, None) :: items) e rest
| P_value c g args items e rest : takes_value options c -> g <> [] -> parsed options [] args items e rest ->
    parsed options (c :: g) args ((c, Some g) :: items) e rest
| P_next_value c a args items e rest : takes_value options c -> parsed options [] args items e rest ->
    parsed options [c] (a :: args) ((c, Some a) :: items) e rest
| P_missing c : takes_value options c -> parsed options [c] [] [] Missing []
| P_unknown c g args rest : unknown options c -> parsed options (c :: g) args [] Unknown rest.

(* calls until one does not return an option: the letters with the strings at optarg, the last result and the
   variables after it.  None: undefined behaviour, or more than n calls. *)
Fixpoint collect (n : nat) (strchr : bool) (argv : list (list N)) (options : list N) (g : getopt_state)
  : option (list (N * option (list N)) * Z * getopt_state) :=
  match n with
  | O => None
  | S n =>
      match hmactools_getopt strchr argv options g with
      | None => None
      | Some (r, g') =>
          if ((r =? -1) || (r =? 63) || (r =? 58))%Z then Some ([], r, g')
          else
            match (match optarg g' with None => Some None | Some p => option_map Some (string_at argv p) end),
                  collect n strchr argv options g' with
            | Some v, Some (items, last, g'') => Some ((Z.to_N r, v) :: items, last, g'')
            | _, _ => None
            end
      end
  end.

(* arguments as the system gives them *)
Definition argument (t : list N) : Prop := Forall (fun c => 0 < c < 256) t.
(* an options string: no question mark, so that the result ? has one meaning *)
Definition options_ok (options : list N) : Prop := Forall (fun c => 0 < c < 128 /\ c <> 63) options.

(* ------------------------------------------------------------- hmacsum *)

(* hmacsum [ -d digest_types ] [ -p process_buffer_size ] [ -hvV ] source: the options string d:hp:vV *)
Definition hmacsum_options : list N := [100; 58; 104; 112; 58; 118; 86].
(* -h or -V is among the options *)
Definition informs (items : list (N * option (list N))) : Prop := exists v, In (104, v) items \/ In (86, v) items.
(* the value of the last option of that letter *)
Definition last_value (c : N) (items : list (N * option (list N))) (v : option (list N)) : Prop :=
  (v = None /\ forall x, ~ In (c, x) items) \/
  (exists l r, items = l ++ (c, v) :: r /\ v <> None /\ forall x, ~ In (c, x) r).
(* the last call, n calls after this one *)
Fixpoint call_again (n : nat) (strchr : bool) (argv : list (list N)) (options : list N) (g : getopt_state) : option (Z * getopt_state) :=
  match n with
  | O => hmactools_getopt strchr argv options g
  | S n => match hmactools_getopt strchr argv options g with None => None | Some (_, g') => call_again n strchr argv options g' end
  end.
