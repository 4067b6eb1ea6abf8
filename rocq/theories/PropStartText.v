(* Properties C60, C43 and C35 for the whole program hmacsum: the text of main of hmactools/hmacsum.c, as TextStart.v and TextMain.v repeat it,
   is executed by the rules of CText.v from the arguments on; what it calls in hmactools_getopt.c, sum_handle.c, byte_size_string.c and
   digest_hash.c is executed too (StartCalls.v).
   [ps] are pointers to the arguments [argv], [texts] points to the string literal of main, [locale] and [setup] are the results of
   libclocale_initialize and hmactools_output_initialize; [files], [out], [attach], [detach], [junk], [k] and [pos] are as in PropMainText.v and Getopt.v.
   [fuel] limits the turns of each loop.  Splitting a string gives at most one part more than it has characters (libcsplit). *)
From Coq Require Import Arith NArith ZArith List Bool String.
From Verif Require Import Words Spec Machine Vocab ToolVocab SumVocab ToolStrings SumHandle Getopt GetoptVocab CText TextAll ToolCalls SumCalls MainCalls StartCalls TextStartRun.
Import ListNotations.
Open Scope string_scope.
Open Scope list_scope.
Open Scope N_scope.

Theorem C60_program : forall E O files sg sc fuel attach detach locale setup texts ps argv out junk k pos s,
  o_looks O = 1%nat -> good_state s -> point_or_none (o_point O) ->
  (forall name n, in_size (files name) = Some n -> n < 2 ^ 64 /\ (N.to_nat n <= fuel)%nat) ->
  strings_at s ps argv -> Forall (fun t => ~ In 0 t) argv -> view texts s = Done (chars "d:hp:vV" ++ [0]) s ->
  (Z.of_nat (size_of argv) < 2 ^ 31 - 2)%Z -> (size_of argv <= fuel)%nat ->
  (forall t l, o_split O t = Some l -> (List.length l <= S (List.length t))%nat) ->
  (z <- run_program E O files sg sc fuel attach detach locale setup texts ps out junk k pos ;; ret (fst z, printed_by (snd z))) s =
  if ((locale =? 1) && (setup =? 1))%Z then
    (z <- hmacsum_main E sc (o_split O) (o_verbose O) (o_point O) files (o_signal O) argv ;; ret (VS R32 (fst z), Some (out ++ snd z))) s
  else Done (VS R32 1, Some out) s.
Proof. exact text_of_program. Qed.
Print Assumptions C60_program.

(* C43 and C35 without the model: from the arguments to the exit code and what is printed.
   Missing: an argument that is a dash alone, for which it is false (C43_text_program_refuted). *)
Theorem C43_text_program_partial : forall E O files sg sc fuel attach detach texts ps program args out junk k pos s,
  o_looks O = 1%nat -> good_state s -> point_or_none (o_point O) -> (forall name, input_ok (files name)) ->
  (forall name n, in_size (files name) = Some n -> (N.to_nat n <= fuel)%nat) ->
  strings_at s ps (program :: args) -> Forall GetoptVocab.argument (program :: args) -> ~ In [45] args -> view texts s = Done (chars "d:hp:vV" ++ [0]) s ->
  (Z.of_nat (size_of (program :: args)) < 2 ^ 31 - 2)%Z -> (size_of (program :: args) <= fuel)%nat ->
  (forall t l, o_split O t = Some l -> (List.length l <= S (List.length t))%nat) ->
  exists items e rest code outs printed s', parsed (chars "d:hp:vV") [] args items e rest /\
  run_program E O files sg sc fuel attach detach 1 1 texts ps out junk k pos s = Done (VS R32 code, outs) s' /\
  printed_by outs = Some (out ++ printed) /\
  ((informs items /\ code = 0%Z /\ printed = [] /\ s' = s) \/
   (~ informs items /\ (e <> Operands \/ rest = []) /\ code = 1%Z /\ printed = [] /\ s' = s) \/
   (~ informs items /\ e = Operands /\ exists source more size types, rest = source :: more /\ last_value 112 items size /\ last_value 100 items types /\
    good_state s' /\ unchanged s s' /\
    ((exists selected n k, (forall a, selected a = true <-> asked (o_split O) types a) /\ in_size (files source) = Some n /\
        n <= N.of_nat (List.length (in_data (files source))) /\ (k <= N.to_nat n)%nat /\ arrived (o_signal O) (1 + k) = false /\
        let text := digest_lines selected (firstn (N.to_nat n) (in_data (files source))) in
        (code = 0%Z /\ printed = text /\ arrived (o_signal O) (2 + k) = false) \/
        (code = 1%Z /\ printed = text /\ (in_close (files source) = false \/ in_free (files source) = false)) \/
        (code = 1%Z /\ printed = text ++ aborted_text /\ arrived (o_signal O) (2 + k) = true)) \/
     (code = 1%Z /\ (printed = [] \/ printed = aborted_text /\ o_signal O <> None) /\
      refusal E (o_split O) (o_point O) (files source) (o_signal O) (option_map (fun t => (t ++ [0], N.of_nat (List.length t))) size) types s s')))).
Proof. exact text_from_arguments. Qed.
Print Assumptions C43_text_program_partial.

(* hmacsum - ...: the program has undefined behaviour *)
Theorem C43_text_program_refuted : forall E O files sg sc fuel attach detach texts ps program args out junk k pos s,
  o_looks O = 1%nat -> good_state s -> point_or_none (o_point O) ->
  (forall name n, in_size (files name) = Some n -> n < 2 ^ 64 /\ (N.to_nat n <= fuel)%nat) ->
  strings_at s ps (program :: [45] :: args) -> Forall GetoptVocab.argument (program :: [45] :: args) -> view texts s = Done (chars "d:hp:vV" ++ [0]) s ->
  (Z.of_nat (size_of (program :: [45%N] :: args)) < 2 ^ 31 - 2)%Z -> (size_of (program :: [45%N] :: args) <= fuel)%nat ->
  (forall t l, o_split O t = Some l -> (List.length l <= S (List.length t))%nat) ->
  run_program E O files sg sc fuel attach detach 1 1 texts ps out junk k pos s = Undef.
Proof. exact text_from_dash. Qed.
Print Assumptions C43_text_program_refuted.

(* ---- a case: the file f holds abc, it is read two bytes at a time; hmacsum -vp2B f, hmacsum -h f, hmacsum -d and hmacsum - ---- *)

Definition C60_program_env : env := mk_env true true (fun _ => true) (fun _ _ => 7) (fun _ _ => 0).
Definition C60_program_files (name : list N) : input := mk_input true (Some 3) (chars "abc") (fun _ => Some 2) true true.
Definition C60_program_outside : outside := mk_outside (C60_program_files []) None 1 (fun t => Some [Some t]) false (Some 46).
Definition C60_program_state (argv : list string) : state :=
  mk_state (map (fun t => mk_cell true Heap (OBytes (chars t ++ [0]))) ("d:hp:vV" :: argv)) (1 + List.length argv) [] [].
Definition C60_program_junk : handle := mk_handle 9 9 (fun _ => mk_slot true None (Some 8%nat)) 5 true.
Definition C60_program_places (argv : list string) : list ptr := map (fun i => (i, 0)) (seq 1 (List.length argv)).
Definition C60_program_run (setup : Z) (argv : list string) : option (val * option (list N)) :=
  match run_program C60_program_env C60_program_outside C60_program_files true false 20 (-1) 1 1 setup (0%nat, 0) (C60_program_places argv) (chars "> ")
    C60_program_junk 5 6 (C60_program_state argv) with
  | Done (r, outs) s => Some (r, printed_by outs)
  | Undef => None
  end.

Example C60_program_hypotheses : let argv := ["hmacsum"; "-vp2B"; "f"] in
  o_looks C60_program_outside = 1%nat /\ good_state (C60_program_state argv) /\ point_or_none (o_point C60_program_outside) /\
  (forall name, input_ok (C60_program_files name)) /\
  (forall name n, in_size (C60_program_files name) = Some n -> n < 2 ^ 64 /\ (N.to_nat n <= 20)%nat) /\
  strings_at (C60_program_state argv) (C60_program_places argv) (map chars argv) /\ Forall GetoptVocab.argument (map chars argv) /\ ~ In [45] (map chars argv) /\
  view (0%nat, 0) (C60_program_state argv) = Done (chars "d:hp:vV" ++ [0]) (C60_program_state argv) /\
  (Z.of_nat (size_of (map chars argv)) < 2 ^ 31 - 2)%Z /\ (size_of (map chars argv) <= 20)%nat /\
  (forall t l, o_split C60_program_outside t = Some l -> (List.length l <= S (List.length t))%nat).
Proof.
  cbv zeta. split; [reflexivity|]. split.
  { intros [|[|[|[|p]]]] o H; cbn in H; try (injection H as <-); try (now repeat constructor); destruct p; discriminate. }
  split; [intros d H; injection H as <-; repeat split; try discriminate; intros [A B]; now (try apply A; try apply B)|].
  split; [intros name; split; [now repeat constructor|intros n H; injection H as <-; reflexivity]|].
  split; [intros name n H; injection H as <-; split; [reflexivity|repeat constructor]|].
  split; [repeat constructor|]. split; [now repeat constructor|]. split; [cbn; intros H; repeat (destruct H as [H|H]; [discriminate|]); exact H|].
  split; [reflexivity|]. split; [reflexivity|]. split; [repeat constructor|].
  intros t l H. injection H as <-. cbn [List.length]. apply -> Nat.succ_le_mono; apply Nat.le_0_l.
Qed.
Example C60_program_example :
  C60_program_run 1 ["hmacsum"; "-vp2B"; "f"] =
    Some (VS R32 0, Some (chars "> MD5 hash calculated over data:" ++ [9; 9] ++ chars "900150983cd24fb0d6963f7d28e17f72" ++ [10])) /\
  C60_program_run 1 ["hmacsum"; "-h"; "f"] = Some (VS R32 0, Some (chars "> ")) /\ C60_program_run 1 ["hmacsum"; "-d"] = Some (VS R32 1, Some (chars "> ")) /\
  C60_program_run (-1) ["hmacsum"; "f"] = Some (VS R32 1, Some (chars "> ")) /\ C60_program_run 1 ["hmacsum"; "-"] = None.
Proof. repeat split; vm_compute; reflexivity. Qed.
