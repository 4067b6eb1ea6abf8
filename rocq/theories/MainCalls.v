(* What the text of main of hmacsum.c (TextMain.v) calls, and how it is run.
   The functions of sum_handle.c are run by run_sum (SumCalls.v): their texts are executed too.  The C library and
   hmactools_signal.c are contracts. *)
From Coq Require Import Arith NArith ZArith List Bool String.
From Verif Require Import Words Machine SumHandle CText TextAll ToolCalls SumCalls TextMain.
Import ListNotations.
Open Scope string_scope.
Open Scope list_scope.
Open Scope N_scope.

(* [attach] and [detach]: what hmactools_signal_attach and hmactools_signal_detach return, hmactools_signal.c:204-235, 240-259 *)
Definition main_call (E : env) (O : outside) (signed : bool) (fuel : nat) (attach detach : Z) (f : string) (args : list val)
  : M (val * list (option val)) :=
  (* hmacsum.c:84-123: hmacsum_abort is set when the signal arrives; looks and reads are what was counted so far *)
  if String.eqb f "hmacsum_abort" then
    match args with
    | [VRef (VU R64 looks); VRef (VU R64 reads)] =>
        ret (v_abort (arrived (o_signal O) (N.to_nat looks + N.to_nat reads)), [Some (VU R64 (looks + 1)); None])
    | _ => undef
    end
  else if String.eqb f "hmactools_signal_attach" then
    match args with
    | [VName handler; _] => if String.eqb handler "hmacsum_signal_handler" then ret (VS R32 attach, [None; None]) else undef
    | _ => undef
    end
  else if String.eqb f "hmactools_signal_detach" then
    match args with
    | [_] => ret (VS R32 detach, [None])
    | _ => undef
    end
  (* the stream is the text printed to it so far *)
  else if String.eqb f "fprintf" then
    match args with
    | [VRef (VArr R8 out w); VText format; VText t] =>
        x <- lift (print_string format (codes t)) ;;
        ret (VS R32 (Z.of_nat (List.length x)), [Some (VArr R8 (out ++ x) w); None; None])
    | _ => undef
    end
  else run_sum E O signed fuel f args.

(* hmacsum.c:132-149, 232: the variables when the options were read.  The members of the structure, which is not allocated yet,
   hold anything. *)
Definition run_main (E : env) (O : outside) (signed : bool) (fuel : nat) (attach detach : Z) (size types : option ptr) (source : ptr)
  (out : list N) (anything : handle) (k : nat) (pos : N) : M (val * list (option val)) :=
  run_fun E (main_text signed) (main_call E O signed fuel attach detach) fuel text_main
    (v_chars size :: v_chars types :: VChars source :: VText "hmacsum" :: v_stream (Some out) :: VErr :: VRef VNull :: VRef (VU R64 0) ::
     v_members (Some anything) k pos).

(* what was printed on stdout *)
Definition on_stdout (outs : list (option val)) : option (list N) :=
  match nth_error outs 4 with Some (Some (VArr R8 t _)) => Some t | _ => None end.

(* the value of an option: NULL, or a pointer to characters, [fst x], of which those before the 0 are [snd x] *)
Definition argument (p : option ptr) (x : option (list N * list N)) (s : state) : Prop :=
  match p, x with
  | None, None => True
  | Some q, Some (str, t) => view q s = Done str s /\ until_zero str = Some t
  | _, _ => False
  end.
(* with its length, as hmacsum of SumHandle.v has it *)
Definition counted (x : option (list N * list N)) : option (list N * N) := option_map (fun x => (fst x, N.of_nat (List.length (snd x)))) x.
(* a list of digest types whose length is a size_t, whose number of segments is an int, and for whose loop there is fuel *)
Definition short (E : env) (O : outside) (fuel : nat) (x : option (list N * list N)) : Prop :=
  forall str t, x = Some (str, t) -> N.of_nat (List.length t) + 1 < size_mod E /\
  (forall segments, o_split O t = Some segments -> (Z.of_nat (List.length segments) < 2 ^ 31)%Z /\ (List.length segments <= fuel)%nat).
