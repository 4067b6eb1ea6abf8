(* Property C60 for the tools: the model of hmactools/digest_hash.c, hmactools/byte_size_string.c and
   hmactools/hmactools_getopt.c does what the text of the files does, and what that says of C31, C32, C33 and C43.
   On the left the body of the function, as TextTools.v repeats it, is executed by the rules of CText.v with the contracts of
   ToolCalls.v.  [sg]: char is signed; [vb]: HAVE_VERBOSE_OUTPUT is defined; [lp]: what libclocale gives as decimal point;
   [sc]: strchr is used and not memchr.  The second component of a result: what is left in the variables whose addresses
   were passed. *)
From Coq Require Import Arith NArith ZArith List Bool String.
From Verif Require Import Words Spec Machine Vocab ToolVocab GetoptVocab ToolStrings Getopt CText TextAll ToolCalls TextToolRun.
Import ListNotations.
Open Scope string_scope.
Open Scope list_scope.
Open Scope N_scope.

Theorem C60_copy_to_string : forall E sg vb lp sc fuel d n t m e s,
  good_state s -> n < size_mod E -> m < size_mod E -> (N.to_nat n <= fuel)%nat ->
  run_tool E sg vb lp sc fuel "digest_hash_copy_to_string" [v_bytes d; VU RSz n; v_chars t; VU RSz m; v_error e] s =
  (r <- digest_hash_copy_to_string E d n t m e ;; ret (VS R32 r, [None; None; None; None; None])) s.
Proof. exact run_copy_to_string. Qed.
Print Assumptions C60_copy_to_string.

Theorem C60_text_to_size : forall E sg vb lp sc fuel p str len q e s, good_state s ->
  match p, str with
  | Some p, Some l => view p s = Done l s /\ N.of_nat (List.length l) < size_mod E /\ (S (List.length l) <= fuel)%nat
  | None, None => True
  | _, _ => False
  end -> len < size_mod E -> (8 <= fuel)%nat ->
  run_tool E sg vb lp sc fuel "byte_size_string_convert" [v_chars p; VU RSz len; v_number q; v_error e] s =
  (r <- byte_size_string_convert vb (option_map (fun z => Z.to_N (z mod 256)) lp) str len (is_some q) e ;;
   ret (VS R32 (fst r), [None; None; option_map (fun old => VU R64 (match snd r with Some n => n | None => old end)) q; None])) s.
Proof. exact run_text_to_size. Qed.
Print Assumptions C60_text_to_size.

Theorem C60_size_to_text : forall E sg vb lp sc fuel p target len size units e s, good_state s ->
  match p, target with Some p, Some l => view p s = Done l s | None, None => True | _, _ => False end ->
  len < size_mod E -> size < 2 ^ 64 -> (- 2 ^ 31 <= units < 2 ^ 31)%Z -> (65 <= fuel)%nat ->
  run_tool E sg vb lp sc fuel "byte_size_string_create" [v_chars p; VU RSz len; VU R64 size; VS R32 units; v_error e] s =
  (r <- byte_size_string_create (option_map (fun z => Z.to_N (z mod 256)) lp) target len size (word64 units) e ;;
   store p (snd r) ;;;
   ret (VS R32 (fst r), [None; None; None; None; None])) s.
Proof. exact run_size_to_text. Qed.
Print Assumptions C60_size_to_text.

Theorem C60_getopt : forall E sg vb lp sc fuel ps argv q options g s,
  good_state s -> strings_at s ps argv -> view q s = Done (options ++ [0]) s -> Forall (fun c => 0 < c < 128) options ->
  N.of_nat (List.length options) < size_mod E -> (Z.of_nat (List.length argv) < 2 ^ 31 - 2)%Z -> (Z.of_nat (optind g) < 2 ^ 31 - 2)%Z ->
  (forall i j, next_option g = Some (i, j) -> (i < List.length argv)%nat) ->
  run_tool E sg vb lp sc fuel "hmactools_getopt"
    (VS R32 (Z.of_nat (List.length argv)) :: VPtrs (map VChars ps) :: VChars q :: map VRef (v_globals sg ps g)) s =
  match hmactools_getopt sc argv options g with
  | Some (r, g') => Done (VS R32 r, None :: None :: None :: map Some (v_globals sg ps g')) s
  | None => Undef
  end.
Proof. exact run_getopt. Qed.
Print Assumptions C60_getopt.

(* ---- cases: the text alone is run, and each meets the hypotheses ---- *)

Definition C60_tool_env : env := mk_env false true (fun _ => true) (fun _ _ => 0) (fun _ _ => 0).
(* three bytes of a digest, room for nine characters, a size, the options d:v and the arguments t, -vdx, -d, y and - *)
Definition C60_tool_state : state := mk_state (map (fun l => mk_cell true Heap (OBytes l))
  [[0; 0x9a; 0xff]; repeat 255 9; chars "1.5GB" ++ [0]; chars "d:v" ++ [0];
   chars "t" ++ [0]; chars "-vdx" ++ [0]; chars "-d" ++ [0]; chars "y" ++ [0]; chars "-" ++ [0]]) 0 [] [].
Definition C60_argv : list (list N) := [chars "t"; chars "-vdx"; chars "-d"; chars "y"; chars "-"].
Definition C60_places : list ptr := [(4%nat, 0); (5%nat, 0); (6%nat, 0); (7%nat, 0); (8%nat, 0)].
Example C60_tool_good : good_state C60_tool_state /\ strings_at C60_tool_state C60_places C60_argv /\
  view (3%nat, 0) C60_tool_state = Done (chars "d:v" ++ [0]) C60_tool_state /\ Forall (fun c => 0 < c < 128) (chars "d:v").
Proof. exact tool_case. Qed.

Example C60_copy_example :
  run_tool C60_tool_env true false None false 3 "digest_hash_copy_to_string" [VBytes (0%nat, 0); VU RSz 3; VChars (1%nat, 0); VU RSz 7; VErr] C60_tool_state =
  Done (VS R32 1%Z, [None; None; None; None; None])
    (mk_state (map (fun l => mk_cell true Heap (OBytes l))
      ([0; 0x9a; 0xff] :: (chars "009aff" ++ [0; 255; 255]) :: skipn 2 [[]; []; chars "1.5GB" ++ [0]; chars "d:v" ++ [0];
        chars "t" ++ [0]; chars "-vdx" ++ [0]; chars "-d" ++ [0]; chars "y" ++ [0]; chars "-" ++ [0]])) 0 [] []).
Proof. reflexivity. Qed.

Example C60_text_to_size_example :
  run_tool C60_tool_env true true (Some 46%Z) false 8 "byte_size_string_convert" [VChars (2%nat, 0); VU RSz 5; VRef (VU R64 7); VErr] C60_tool_state =
  Done (VS R32 1%Z, [None; None; Some (VU R64 1500000000); None]) C60_tool_state.
Proof. reflexivity. Qed.

(* with units of 1024 the tenth is one too many: 1124 is 1.09 KiB (C32_rounds_down_1024_refuted) *)
Example C60_size_to_text_example :
  (run_tool C60_tool_env false false (Some 46%Z) false 65 "byte_size_string_create"
    [VChars (1%nat, 0); VU RSz 9; VU R64 1124; VS R32 1024; VErr] ;;; view (1%nat, 0)) C60_tool_state =
  match run_tool C60_tool_env false false (Some 46%Z) false 65 "byte_size_string_create"
    [VChars (1%nat, 0); VU RSz 9; VU R64 1124; VS R32 1024; VErr] C60_tool_state with
  | Done _ s => Done (chars "1.1 KiB" ++ [0; 255]) s
  | Undef => Undef
  end.
Proof. reflexivity. Qed.

(* -v out of -vdx, then -d with the value x, then -d with the value y, then the dash *)
Example C60_getopt_example :
  let call g := run_tool C60_tool_env true false None false 1 "hmactools_getopt"
    (VS R32 5 :: VPtrs (map VChars C60_places) :: VChars (3%nat, 0) :: map VRef g) C60_tool_state in
  call (v_globals true C60_places getopt_start) =
    Done (VS R32 118, None :: None :: None :: map Some [VS R32 1; VNull; VS R32 118; VChars (5%nat, 2)]) C60_tool_state /\
  call [VS R32 1; VNull; VS R32 118; VChars (5%nat, 2)] =
    Done (VS R32 100, None :: None :: None :: map Some [VS R32 2; VChars (5%nat, 3); VS R32 100; VNull]) C60_tool_state /\
  call [VS R32 2; VChars (5%nat, 3); VS R32 100; VNull] =
    Done (VS R32 100, None :: None :: None :: map Some [VS R32 4; VChars (7%nat, 0); VS R32 100; VNull]) C60_tool_state /\
  call [VS R32 4; VChars (7%nat, 0); VS R32 100; VNull] = Undef.
Proof. repeat split; reflexivity. Qed.

(* ---- without the model: what running the text computes ---- *)

Theorem C31_text_hexadecimal : forall E sg vb lp sc fuel dp n sp size e s, n <= ssize_max E -> 2 * n + 1 <= size <= ssize_max E ->
  good_state s -> accessible s dp n -> accessible s sp size -> fst dp <> fst sp -> (N.to_nat n <= fuel)%nat ->
  exists s', run_tool E sg vb lp sc fuel "digest_hash_copy_to_string" [VBytes dp; VU RSz n; VChars sp; VU RSz size; v_error e] s =
             Done (VS R32 1%Z, [None; None; None; None; None]) s' /\
  bytes_at s' sp (2 * n + 1) = hex (bytes_at s dp n) ++ [0] /\
  unchanged_but s s' sp (2 * n + 1) /\ errs s' = errs s /\ tries s' = tries s /\ List.length (mem s') = List.length (mem s).
Proof. exact text_hexadecimal. Qed.
Print Assumptions C31_text_hexadecimal.

Theorem C32_text_units_1000 : forall E sg vb lp sc fuel p target len size e s, good_state s -> view p s = Done target s ->
  size < 2 ^ 64 -> 9 <= len <= N.of_nat (List.length target) -> len < size_mod E -> (65 <= fuel)%nat ->
  exists f q t number s', scaled 1000 size f q /\ numeral q number /\ t < 10 /\ 10 * size / 1000 ^ f = 10 * q + (if f =? 0 then 0 else t) /\
  let text := size_text (Z.to_N (lp mod 256)) 1000 f q t number in
  run_tool E sg vb (Some lp) sc fuel "byte_size_string_create" [VChars p; VU RSz len; VU R64 size; VS R32 1000; v_error e] s =
  Done (VS R32 1%Z, [None; None; None; None; None]) s' /\
  view p s' = Done (text ++ [0] ++ skipn (S (List.length text)) target) s' /\ errs s' = errs s.
Proof. exact text_prints_size. Qed.
Print Assumptions C32_text_units_1000.

Theorem C33_text_value : forall E sg vb lp sc fuel p ds sp l f ut u tail rest old e s,
  let t := ds ++ sp ++ chars l ++ chars ut ++ tail in
  good_state s -> view p s = Done (t ++ 0 :: rest) s -> N.of_nat (List.length (t ++ 0 :: rest)) < size_mod E -> (List.length (t ++ 0%N :: rest) + 8 <= fuel)%nat ->
  point (Z.to_N (lp mod 256)) -> Forall numeric ds -> sp = [] \/ sp = [32] ->
  In (l, f) letters -> In (ut, u) units_texts \/ (ut = EmptyString /\ tail = [] /\ u = 1024) -> Forall (fun c => c <> 0) tail ->
  value_of ds * u ^ f < 2 ^ 64 ->
  run_tool E sg vb (Some lp) sc fuel "byte_size_string_convert" [VChars p; VU RSz (N.of_nat (List.length t)); VRef (VU R64 old); v_error e] s =
  Done (VS R32 1%Z, [None; None; Some (VU R64 (value_of ds * u ^ f)); None]) s.
Proof. exact text_reads_size. Qed.
Print Assumptions C33_text_value.

(* the letter k is refused by the text as it stands: the finding C33_kilo_refuted does not depend on the model *)
Theorem C33_text_kilo_refuted : forall E sg vb lp sc fuel p ds fr r sp k tail rest old e s,
  let t := ds ++ fr ++ sp ++ k :: tail in
  good_state s -> view p s = Done (t ++ 0 :: rest) s -> N.of_nat (List.length (t ++ 0 :: rest)) < size_mod E -> (List.length (t ++ 0%N :: rest) + 8 <= fuel)%nat ->
  point (Z.to_N (lp mod 256)) -> text_ok (Z.to_N (lp mod 256)) ds fr r sp -> k = 75 \/ k = 107 -> Forall (fun c => c <> 0) tail ->
  exists s', run_tool E sg vb (Some lp) sc fuel "byte_size_string_convert" [VChars p; VU RSz (N.of_nat (List.length t)); VRef (VU R64 old); v_error e] s =
  Done (VS R32 (-1)%Z, [None; None; Some (VU R64 old); None]) s' /\ only_error e s s'.
Proof. exact text_refuses_kilo. Qed.
Print Assumptions C33_text_kilo_refuted.

(* an argument that is a dash alone: the text reads outside a string, whichever function searches the options *)
Theorem C43_text_dash_refuted : forall E sg vb lp sc fuel ps argv q options g s,
  good_state s -> strings_at s ps argv -> view q s = Done (options ++ [0]) s -> options_ok options ->
  N.of_nat (List.length options) < size_mod E -> (Z.of_nat (List.length argv) < 2 ^ 31 - 2)%Z ->
  next_option g = None -> nth_error argv (optind g) = Some [45] ->
  run_tool E sg vb lp sc fuel "hmactools_getopt"
    (VS R32 (Z.of_nat (List.length argv)) :: VPtrs (map VChars ps) :: VChars q :: map VRef (v_globals sg ps g)) s = Undef.
Proof. exact text_dash. Qed.
Print Assumptions C43_text_dash_refuted.

(* cases for these: 7 GB in 9 characters with a comma, "12 M" and "64k" *)
Example C32_text_example :
  (run_tool C60_tool_env false false (Some 44%Z) false 65 "byte_size_string_create"
    [VChars (1%nat, 0); VU RSz 9; VU R64 7654321000; VS R32 1000; VErr] ;;; view (1%nat, 0)) C60_tool_state =
  match run_tool C60_tool_env false false (Some 44%Z) false 65 "byte_size_string_create"
    [VChars (1%nat, 0); VU RSz 9; VU R64 7654321000; VS R32 1000; VErr] C60_tool_state with
  | Done _ s => Done (chars "7,6 GB" ++ [0; 255; 255]) s
  | Undef => Undef
  end.
Proof. reflexivity. Qed.
Example C33_text_example : let at_once t := mk_state [mk_cell true Heap (OBytes (chars t ++ [0]))] 0 [] [] in
  let call t n := run_tool C60_tool_env true true (Some 46%Z) false 20 "byte_size_string_convert" [VChars (0%nat, 0); VU RSz n; VRef (VU R64 7); VErr] (at_once t) in
  call "12 M" 4 = Done (VS R32 1%Z, [None; None; Some (VU R64 (12 * 1024 ^ 2)); None]) (at_once "12 M") /\
  call "64k" 3 = Done (VS R32 (-1)%Z, [None; None; Some (VU R64 7); None])
    (mk_state (mem (at_once "64k")) 0 [E_RUNTIME_VALUE_OUT_OF_BOUNDS] []).
Proof. split; reflexivity. Qed.
