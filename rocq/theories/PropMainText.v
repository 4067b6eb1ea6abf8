(* Property C60 for main of hmactools/hmacsum.c, and C35 for the program without the model: the text of main, as TextMain.v repeats
   it, is executed by the rules of CText.v; what it calls in sum_handle.c is executed too (MainCalls.v).
   [size] and [types] are the values of -p and -d, [x] and [y] what they point to; [out] is what was printed before; [attach] and
   [detach] are any results of attaching and detaching the signal handler; [junk], [k] and [pos] are any values of what is not set yet.
   [fuel] limits the turns of each loop. *)
From Coq Require Import Arith NArith ZArith List Bool String.
From Verif Require Import Words Spec Machine Vocab ToolVocab SumVocab ToolStrings SumHandle CText TextAll ToolCalls SumCalls MainCalls TextMainRun.
Import ListNotations.
Open Scope string_scope.
Open Scope list_scope.
Open Scope N_scope.

Theorem C60_main : forall E O sg fuel attach detach size types source out junk k pos x y s,
  o_looks O = 1%nat -> good_state s -> point_or_none (o_point O) ->
  (forall n, in_size (o_input O) = Some n -> n < 2 ^ 64 /\ (N.to_nat n <= fuel)%nat) ->
  argument size x s -> (forall str t, x = Some (str, t) -> N.of_nat (List.length t) < size_mod E) ->
  argument types y s -> short E O fuel y ->
  (z <- run_main E O sg fuel attach detach size types source out junk k pos ;; ret (fst z, on_stdout (snd z))) s =
  (z <- hmacsum E (o_split O) (o_verbose O) (o_point O) (o_input O) (o_signal O) (counted x) (option_map snd y) ;;
   ret (VS R32 (fst z), Some (out ++ snd z))) s.
Proof. exact text_main_good. Qed.
Print Assumptions C60_main.

(* C35: the text ends; with exit code 0 it has printed the digests of the whole file *)
Theorem C35_main : forall E O sg fuel attach detach size types source out junk k pos x y s,
  o_looks O = 1%nat -> good_state s -> input_ok (o_input O) -> point_or_none (o_point O) ->
  (forall n, in_size (o_input O) = Some n -> (N.to_nat n <= fuel)%nat) ->
  argument size x s -> (forall str t, x = Some (str, t) -> N.of_nat (List.length t) < size_mod E) ->
  argument types y s -> short E O fuel y ->
  exists code outs printed s', run_main E O sg fuel attach detach size types source out junk k pos s = Done (VS R32 code, outs) s' /\
  on_stdout outs = Some (out ++ printed) /\ good_state s' /\ unchanged s s' /\
  ((exists selected n k, (forall a, selected a = true <-> asked (o_split O) (option_map snd y) a) /\ in_size (o_input O) = Some n /\
      n <= N.of_nat (List.length (in_data (o_input O))) /\ (k <= N.to_nat n)%nat /\ arrived (o_signal O) (1 + k) = false /\
      let text := digest_lines selected (firstn (N.to_nat n) (in_data (o_input O))) in
      (code = 0%Z /\ printed = text /\ arrived (o_signal O) (2 + k) = false) \/
      (code = 1%Z /\ printed = text /\ (in_close (o_input O) = false \/ in_free (o_input O) = false)) \/
      (code = 1%Z /\ printed = text ++ aborted_text /\ arrived (o_signal O) (2 + k) = true)) \/
   (code = 1%Z /\ (printed = [] \/ printed = aborted_text /\ o_signal O <> None) /\
    refusal E (o_split O) (o_point O) (o_input O) (o_signal O) (counted x) (option_map snd y) s s')) /\
  (no_leak s s' \/ some_alloc_failed E s s' \/ exists str segs, option_map snd y = Some str /\ o_split O str = Some segs /\ In None segs).
Proof. exact text_program. Qed.
Print Assumptions C35_main.

(* ---- a case: hmacsum -p 2B -d sha1 on the file abc, without a signal and with one that arrives
   before the first look.  The cells that live afterwards are the three that the options point to. ---- *)

Definition C60_main_env : env := mk_env false true (fun _ => true) (fun _ _ => 7) (fun _ _ => 0).
Definition C60_main_outside (signal : option nat) : outside :=
  mk_outside (mk_input true (Some 3) (chars "abc") (fun _ => Some 2) true true) signal 1 (fun t => Some [Some t]) false (Some 46).
Definition C60_main_state : state := mk_state (map (fun l => mk_cell true Heap (OBytes l)) [chars "2B" ++ [0]; chars "sha1" ++ [0]; chars "f" ++ [0]]) 3 [] [].
Definition C60_main_junk : handle := mk_handle 9 9 (fun _ => mk_slot true None (Some 8%nat)) 5 true.
Definition C60_main_run (signal : option nat) : option (val * option (list N) * nat) :=
  match run_main C60_main_env (C60_main_outside signal) true 3 (-1) 1 (Some (0%nat, 0)) (Some (1%nat, 0)) (2%nat, 0) (chars "> ") C60_main_junk 5 6 C60_main_state with
  | Done (r, outs) s => Some (r, on_stdout outs, List.length (filter live (mem s)))
  | Undef => None
  end.

Example C60_main_hypotheses : forall signal,
  o_looks (C60_main_outside signal) = 1%nat /\ good_state C60_main_state /\ input_ok (o_input (C60_main_outside signal)) /\
  point_or_none (o_point (C60_main_outside signal)) /\
  (forall n, in_size (o_input (C60_main_outside signal)) = Some n -> n < 2 ^ 64 /\ (N.to_nat n <= 3)%nat) /\
  argument (Some (0%nat, 0)) (Some (chars "2B" ++ [0], chars "2B")) C60_main_state /\
  argument (Some (1%nat, 0)) (Some (chars "sha1" ++ [0], chars "sha1")) C60_main_state /\
  short C60_main_env (C60_main_outside signal) 3 (Some (chars "sha1" ++ [0], chars "sha1")).
Proof.
  intros signal. split; [reflexivity|]. split.
  { intros [|[|[|p]]] o H; cbn in H; try (injection H as <-); try (now repeat constructor); destruct p; discriminate. }
  split; [split; [now repeat constructor|intros n H; injection H as <-; reflexivity]|].
  split; [intros d H; injection H as <-; repeat split; try discriminate; intros [A B]; now (try apply A; try apply B)|].
  split; [intros n H; injection H as <-; split; [reflexivity|repeat constructor]|].
  split; [now split|]. split; [now split|]. intros str t H. injection H as _ <-. split; [reflexivity|].
  intros segments H. injection H as <-. split; [reflexivity|repeat constructor].
Qed.
Example C60_main_example :
  C60_main_run None = Some (VS R32 0, Some (chars "> MD5 hash calculated over data:" ++ [9; 9] ++ chars "900150983cd24fb0d6963f7d28e17f72" ++ [10] ++
     chars "SHA1 hash calculated over data:" ++ [9; 9] ++ chars "a9993e364706816aba3e25717850c26c9cd0d89d" ++ [10]), 3%nat) /\
  C60_main_run (Some 0%nat) = Some (VS R32 1, Some (chars "> hmacsum: ABORTED" ++ [10]), 3%nat).
Proof. split; vm_compute; reflexivity. Qed.
