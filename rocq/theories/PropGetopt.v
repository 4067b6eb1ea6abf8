(* C43: the options of the command line. *)
From Coq Require Import String Ascii.
From Coq Require Import Arith NArith ZArith List Bool.
From Verif Require Import Words Machine Context Vocab ToolVocab SumHandle SumVocab Getopt GetoptVocab GetoptFacts PropSum.
Import ListNotations.
Open Scope N_scope.

(* ---- C43: whatever the arguments, the calls read no memory outside them, end after at most one call for each character, and
   give the options that the arguments say, in their order, with their values and what is left after them.
   Missing: the claim for an argument that is a dash alone, where it is false (C43_dash_refuted), and the end with -1 when an
   option is unknown or has no value, where it is false (C43_ends_refuted): the caller has to stop at ? and at :. *)
Theorem C43_options_partial : forall strchr options program args, options_ok options -> Forall argument args -> ~ In [45] args ->
  exists items e rest g, parsed options [] args items e rest /\
  collect (S (size_of args)) strchr (program :: args) options getopt_start = Some (items, code_of e, g) /\
  (optind g <= length (program :: args))%nat /\ (e = Operands -> skipn (optind g) (program :: args) = rest).
Proof. exact getopt_parses. Qed.
Print Assumptions C43_options_partial.

(* arguments say one thing only *)
Theorem C43_unique : forall options grp args items e rest, parsed options grp args items e rest ->
  forall items' e' rest', parsed options grp args items' e' rest' -> items' = items /\ e' = e /\ (e = Operands -> rest' = rest).
Proof. exact parsed_unique. Qed.
Print Assumptions C43_unique.

(* -vdmd5 -p 2B file: a group of a flag and an option with its value, and an option with its value in the next argument *)
Example C43_example :
  (let '(r, g) := match collect 20 false [chars "hmacsum"; chars "-vdmd5"; chars "-p"; chars "2B"; chars "file"] hmacsum_options getopt_start with
   | Some (items, code, g) => (Some (items, code), optind g) | None => (None, O) end in (r, g)) =
  (Some ([(118, None); (100, Some (chars "md5")); (112, Some (chars "2B"))], (-1)%Z), 4%nat) /\
  (let '(r, g) := match collect 20 true [chars "hmacsum"; chars "-v"; chars "-d"] hmacsum_options getopt_start with
   | Some (items, code, g) => (Some (items, code), optind g) | None => (None, O) end in (r, g)) =
  (Some ([(118, None)], 58%Z), 3%nat) /\
  Forall argument [chars "-vdmd5"; chars "-p"; chars "2B"; chars "file"] /\ options_ok hmacsum_options.
Proof. split; [vm_compute; reflexivity|]. split; [vm_compute; reflexivity|]. split; repeat constructor; discriminate. Qed.

(* an argument that is a dash alone: the letter is the end of the string, and the next character is read after it *)
Theorem C43_dash_refuted : forall strchr options argv g, options_ok options -> next_option g = None -> nth_error argv (optind g) = Some [45] ->
  hmactools_getopt strchr argv options g = None.
Proof. exact dash_undefined. Qed.
Print Assumptions C43_dash_refuted.

Example C43_dash_example : nth_error [chars "hmacsum"; chars "-"] (optind getopt_start) = Some [45] /\ next_option getopt_start = None.
Proof. split; reflexivity. Qed.

(* an unknown letter that is not the last one of its argument: every call gives ? and the index stays *)
Theorem C43_ends_refuted : forall strchr options argv g c d t rest n, options_ok options -> unknown options c -> c <> 0 -> c <> 45 -> d <> 0 -> next_option g = None ->
  skipn (optind g) argv = (45 :: c :: d :: t) :: rest ->
  exists g', call_again n strchr argv options g = Some (63%Z, g') /\ optind g' = optind g.
Proof. exact unknown_forever. Qed.
Print Assumptions C43_ends_refuted.

Example C43_ends_example :
  option_map (fun x => (fst x, optind (snd x))) (call_again 1000 false [chars "hmacsum"; chars "-xv"] hmacsum_options getopt_start) = Some (63%Z, 1%nat) /\
  unknown hmacsum_options 120.
Proof. split; [vm_compute; reflexivity|]. right. cbn. intuition discriminate. Qed.

(* the program from its arguments on: -h or -V before anything wrong ends it with exit code 0, a wrong option or no source with
   exit code 1; otherwise it runs with the source after the options and the values of the last -p and the last -d
   (C35_program says what it does then) *)
Theorem C43_program_partial : forall E strchr split verbose d files signal program args s0, good_state s0 -> (forall name, input_ok (files name)) -> point_or_none d ->
  Forall argument args -> ~ In [45] args ->
  exists items e rest code out s', parsed hmacsum_options [] args items e rest /\
  hmacsum_main E strchr split verbose d files signal (program :: args) s0 = Done (code, out) s' /\
  ((informs items /\ code = 0%Z /\ out = [] /\ s' = s0) \/
   (~ informs items /\ (e <> Operands \/ rest = []) /\ code = 1%Z /\ out = [] /\ s' = s0) \/
   (~ informs items /\ e = Operands /\ exists source more size types, rest = source :: more /\ last_value 112 items size /\ last_value 100 items types /\
    hmacsum E split verbose d (files source) signal (option_map (fun t => (t ++ [0], N.of_nat (length t))) size) types s0 = Done (code, out) s' /\
    size_argument (option_map (fun t => (t ++ [0], N.of_nat (length t))) size))).
Proof. exact program_from_arguments. Qed.
Print Assumptions C43_program_partial.

(* hmacsum -v -d sha1 -p2B abc, and hmacsum -q *)
Example C43_program_example :
  printed (hmacsum_main sum_env false no_comma true (Some 46) (fun _ => abc) None [chars "hmacsum"; chars "-v"; chars "-d"; chars "sha1"; chars "-p2B"; chars "abc"] sum_start) =
    Some (0%Z, chars "MD5 hash calculated over data:" ++ [9; 9] ++ chars "900150983cd24fb0d6963f7d28e17f72" ++ [10] ++
               chars "SHA1 hash calculated over data:" ++ [9; 9] ++ chars "a9993e364706816aba3e25717850c26c9cd0d89d" ++ [10]) /\
  printed (hmacsum_main sum_env false no_comma true (Some 46) (fun _ => abc) None [chars "hmacsum"; chars "-q"] sum_start) = Some (1%Z, []).
Proof. split; vm_compute; reflexivity. Qed.

(* no arguments at all, not even the name of the program: the source is read after the end of the vector *)
Theorem C43_no_program_refuted : forall E strchr split verbose d files signal s0, hmacsum_main E strchr split verbose d files signal [] s0 = Undef.
Proof. exact no_program. Qed.
Print Assumptions C43_no_program_refuted.
