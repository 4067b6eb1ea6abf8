(* Properties C35 to C42: the sum handle (hmactools/sum_handle.c) and the program hmacsum.
   The words used are defined in SumVocab.v.  An [input] says what the system and libcfile do with the input file: the size
   they report, the bytes, and for each read whether it fails and at most how many bytes it gives.  [signal] is the moment
   an abort arrives, if any. *)
From Coq Require Import String Ascii Arith NArith ZArith List Bool Lia.
From Verif Require Import Words Spec Machine MachineFacts Context Vocab ToolVocab SumHandle SumVocab SumProgram SumTheorems.
Import ListNotations.
Open Scope N_scope.

(* the example that the others use: a new handle with a process buffer of two bytes, and a file of three bytes that is
   read one byte first *)
Definition sum_env : env := mk_env false true (fun _ => true) (fun _ _ => 0) (fun _ _ => 0).
Definition sum_start : state := mk_state [] 0 [] [].
Definition sum_mem (l : list N) : list cell :=
  [mk_cell true Heap (OBytes [0]); mk_cell true Heap (OBytes []); mk_cell true Heap (OBytes l)].
Definition sum_state : state := mk_state (sum_mem (repeat 0 33)) 3 [] [].
Definition sum_handle_2 : handle :=
  mk_handle 0 1 (fun a => match a with MD5 => mk_slot true None (Some 2%nat) | _ => mk_slot false None None end) 2 false.
Definition abc : input := mk_input true (Some 3) (chars "abc") (fun j => match j with O => Some 1 | _ => Some 5 end) true true.

Example sum_example : good_state sum_state /\ handle_ok sum_state sum_handle_2 /\ accounted sum_start sum_state sum_handle_2 /\ input_ok abc.
Proof.
  split; [|split; [|split]].
  - intros [|[|[|p]]] o H; cbn in H; try (injection H as <-); try (now repeat constructor); destruct p; discriminate.
  - split; [reflexivity|]. split; [reflexivity|]. intros a. split; [intros p; destruct a; discriminate|]. split.
    + intros q H. destruct a; try discriminate. injection H as <-. exists (repeat 0 33). now split.
    + destruct a; split; try discriminate; try reflexivity; contradiction.
  - intros [|[|[|p]]] _ (c & Hc & _); [now left|now right; left|right; right; exists MD5; now right|destruct p; discriminate].
  - split; [now repeat constructor|]. intros n [= <-]. reflexivity.
Qed.

(* ---- C35 *)
Theorem C35_returns : forall E W signal t0 h e s, input_ok W -> good_state s -> handle_ok s h ->
  exists r h' k s', sum_handle_process_input E W signal t0 (Some h) e s = Done (r, Some h', k) s' /\ (r = 1%Z \/ r = (-1)%Z) /\
  good_state s' /\ handle_ok s' h' /\ same_selection h h' /\ process_buffer_size h' = process_buffer_size h /\
  (forall q, (q < length (mem s))%nat -> ~ owned h q -> nth_error (mem s') q = nth_error (mem s) q) /\
  (forall s0, accounted s0 s h -> accounted s0 s' h').
Proof. exact process_returns. Qed.
Print Assumptions C35_returns.

Theorem C35_digests : forall E W signal t0 h e s h' k s', input_ok W -> good_state s -> handle_ok s h ->
  sum_handle_process_input E W signal t0 (Some h) e s = Done (1%Z, Some h', k) s' -> h_abort h' = false ->
  exists size, in_size W = Some size /\ size <= N.of_nat (length (in_data W)) /\
  has_digests s' h' (firstn (N.to_nat size) (in_data W)) /\ errs s' = errs s.
Proof. exact process_digests. Qed.
Print Assumptions C35_digests.

(* whatever the buffer sizes, the reads and the rest of the memory *)
Theorem C35_independent : forall E1 E2 W1 W2 signal1 signal2 t1 t2 h1 h2 e1 e2 s1 s2 h1' h2' k1 k2 s1' s2' a q1 q2, input_ok W1 -> input_ok W2 ->
  good_state s1 -> good_state s2 -> handle_ok s1 h1 -> handle_ok s2 h2 -> in_data W1 = in_data W2 -> in_size W1 = in_size W2 ->
  sum_handle_process_input E1 W1 signal1 t1 (Some h1) e1 s1 = Done (1%Z, Some h1', k1) s1' -> h_abort h1' = false ->
  sum_handle_process_input E2 W2 signal2 t2 (Some h2) e2 s2 = Done (1%Z, Some h2', k2) s2' -> h_abort h2' = false ->
  calculate (slots h1' a) = true -> calculate (slots h2' a) = true -> hash_string (slots h1' a) = Some q1 -> hash_string (slots h2' a) = Some q2 ->
  nth_error (mem s1') q1 = nth_error (mem s2') q2.
Proof. exact process_same. Qed.
Print Assumptions C35_independent.

(* it does succeed when nothing goes wrong *)
Theorem C35_succeeds : forall E W signal t0 h e s, input_ok W -> good_state s -> handle_ok s h ->
  (forall i, alloc_ok E i = true) -> 0 < process_buffer_size h <= ssize_max E -> no_contexts h ->
  (exists size, in_size W = Some size /\ size <= N.of_nat (length (in_data W))) -> (forall j, exists n, in_read W j = Some n /\ n <> 0) ->
  exists h' k s', sum_handle_process_input E W signal t0 (Some h) e s = Done (1%Z, Some h', k) s' /\
  (h_abort h = false -> signal = None -> h_abort h' = false).
Proof. exact process_complete. Qed.
Print Assumptions C35_succeeds.

Theorem C35_printed : forall s h m e, Forall is_byte m -> handle_ok s h -> has_digests s h m ->
  sum_handle_hash_values_fprint (Some h) true e s = Done (1%Z, digest_lines (fun a => calculate (slots h a)) m) s.
Proof. exact print_digests. Qed.
Print Assumptions C35_printed.

(* the program, for any options, any file and any signal: it ends, with exit code 0 only after printing the digests of the
   whole file *)
Theorem C35_program : forall E split verbose d W signal size types s0, good_state s0 -> input_ok W -> size_argument size -> point_or_none d ->
  exists code out s', hmacsum E split verbose d W signal size types s0 = Done (code, out) s' /\ good_state s' /\ unchanged s0 s' /\
  ((exists selected n k, (forall a, selected a = true <-> asked split types a) /\ in_size W = Some n /\ n <= N.of_nat (length (in_data W)) /\
      (k <= N.to_nat n)%nat /\ arrived signal (1 + k) = false /\ (forall j, (j < k)%nat -> exists n, in_read W j = Some n /\ n <> 0) /\
      let text := digest_lines selected (firstn (N.to_nat n) (in_data W)) in
      (code = 0%Z /\ out = text /\ arrived signal (2 + k) = false) \/
      (code = 1%Z /\ out = text /\ (in_close W = false \/ in_free W = false)) \/
      (code = 1%Z /\ out = text ++ aborted_text /\ arrived signal (2 + k) = true)) \/
   (code = 1%Z /\ (out = [] \/ out = aborted_text /\ signal <> None) /\ refusal E split d W signal size types s0 s')) /\
  (no_leak s0 s' \/ some_alloc_failed E s0 s' \/ exists str segs, types = Some str /\ split str = Some segs /\ In None segs).
Proof. exact program_result. Qed.
Print Assumptions C35_program.

Theorem C35_program_succeeds : forall E split verbose d W size types s0, good_state s0 -> input_ok W -> point_or_none d ->
  size_argument size -> usable_size d size ->
  (forall i, alloc_ok E i = true) -> in_open W = true -> in_close W = true -> in_free W = true ->
  (exists n, in_size W = Some n /\ n <= N.of_nat (length (in_data W))) -> (forall j, exists n, in_read W j = Some n /\ n <> 0) ->
  (forall str, types = Some str -> exists xs, split str = Some (map Some xs)) ->
  exists selected n s', (forall a, selected a = true <-> asked split types a) /\ in_size W = Some n /\
  hmacsum E split verbose d W None size types s0 = Done (0%Z, digest_lines selected (firstn (N.to_nat n) (in_data W))) s' /\ no_leak s0 s'.
Proof. exact program_completes. Qed.
Print Assumptions C35_program_succeeds.

(* the file abc in reads of one and two bytes; the strings of the handle, the reads and what hmacsum -p 2B -d sha1 prints *)
Definition strings (x : outcome (Z * option handle * nat)) : option (Z * nat * bool * option cell) :=
  match x with
  | Done (r, Some h, k) s => Some (r, k, h_abort h, nth_error (mem s) 2)
  | _ => None
  end.
Definition printed (x : outcome (Z * list N)) : option (Z * list N) := match x with Done a _ => Some a | _ => None end.
Definition no_comma (l : list N) : option (list (option (list N))) := Some [Some l].
Example C35_example :
  strings (sum_handle_process_input sum_env abc None 1 (Some sum_handle_2) true sum_state) =
    Some (1%Z, 2%nat, false, Some (mk_cell true Heap (OBytes (chars "900150983cd24fb0d6963f7d28e17f72" ++ [0])))).
Proof. vm_compute. reflexivity. Qed.
Example C35_size_example : usable_size (Some 46) (Some (chars "2B" ++ 0 :: [], 2)) /\ usable_size (Some 46) (Some (chars "1.5 MiB" ++ 0 :: [], 7)).
Proof.
  split; right.
  - exists 46, (chars "2"), [], 0, [], EmptyString, 0, "B"%string, 1000, [], []. split; [reflexivity|]. split.
    { split; [repeat constructor; discriminate|]. split; [now left|now left]. }
    split; [cbn; tauto|]. split; [left; now left|]. split; [constructor|]. now split.
  - exists 46, (chars "1"), (chars ".5"), 50, [32], "M"%string, 2, "iB"%string, 1024, [], []. split; [reflexivity|]. split.
    { split; [repeat constructor; discriminate|]. split; [|now right]. right. exists (chars "5"). split; [reflexivity|]. split; [repeat constructor; discriminate|reflexivity]. }
    split; [cbn; tauto|]. split; [left; right; now left|]. split; [constructor|]. now split.
Qed.
Example C35_program_example :
  printed (hmacsum sum_env no_comma false (Some 46) abc None (Some (chars "2B" ++ 0 :: [], 2)) (Some (chars "sha1")) sum_start) =
    Some (0%Z, chars "MD5 hash calculated over data:" ++ [9; 9] ++ chars "900150983cd24fb0d6963f7d28e17f72" ++ [10] ++
               chars "SHA1 hash calculated over data:" ++ [9; 9] ++ chars "a9993e364706816aba3e25717850c26c9cd0d89d" ++ [10]).
Proof. vm_compute. reflexivity. Qed.

(* ---- C36: a read that fails, a read that gives nothing, and a file that ends before its size *)
Theorem C36_not_success : forall E W signal t0 h e s r h' k s', input_ok W -> good_state s -> handle_ok s h ->
  sum_handle_process_input E W signal t0 (Some h) e s = Done (r, Some h', k) s' ->
  (exists j, (j < k)%nat /\ (in_read W j = None \/ in_read W j = Some 0)) \/
  (exists size, in_size W = Some size /\ N.of_nat (length (in_data W)) < size /\ h_abort h' = false) \/ in_size W = None -> r = (-1)%Z.
Proof. exact process_bad_read. Qed.
Print Assumptions C36_not_success.

Theorem C36_no_strings : forall E W signal t0 h e s h' k s', input_ok W -> good_state s -> handle_ok s h ->
  sum_handle_process_input E W signal t0 (Some h) e s = Done ((-1)%Z, Some h', k) s' ->
  same_strings s s' h /\ errors_added e s s'.
Proof. exact process_failure. Qed.
Print Assumptions C36_no_strings.

(* three bytes where four were announced, and a second read that fails *)
Example C36_example :
  strings (sum_handle_process_input sum_env (mk_input true (Some 4) (in_data abc) (in_read abc) true true) None 1 (Some sum_handle_2) true sum_state) =
    Some ((-1)%Z, 3%nat, false, Some (mk_cell true Heap (OBytes (repeat 0 33)))) /\
  strings (sum_handle_process_input sum_env (mk_input true (Some 3) (in_data abc) (fun j => match j with O => Some 2 | _ => None end) true true)
             None 1 (Some sum_handle_2) true sum_state) =
    Some ((-1)%Z, 2%nat, false, Some (mk_cell true Heap (OBytes (repeat 0 33)))).
Proof. split; vm_compute; reflexivity. Qed.

(* ---- C37: that it ends is C35_returns *)
Theorem C37_reads : forall E W signal t0 h e s r h' k s' size, input_ok W -> good_state s -> handle_ok s h ->
  sum_handle_process_input E W signal t0 (Some h) e s = Done (r, h', k) s' -> in_size W = Some size -> (k <= N.to_nat size)%nat.
Proof. exact process_reads. Qed.
Print Assumptions C37_reads.

(* one byte at a time, as many reads as bytes *)
Example C37_example :
  strings (sum_handle_process_input sum_env (mk_input true (Some 3) (in_data abc) (fun _ => Some 1) true true) None 1 (Some sum_handle_2) true sum_state) =
    Some (1%Z, 3%nat, false, Some (mk_cell true Heap (OBytes (chars "900150983cd24fb0d6963f7d28e17f72" ++ [0])))).
Proof. vm_compute. reflexivity. Qed.

(* ---- C38: processing may give the digests of a part of the file, but only if the handle says that it was aborted.  The
   program prints no such digests: C35_program has the digests of the whole file or none in its output. *)
Theorem C38_marked : forall E W signal t0 h e s h' k s', input_ok W -> good_state s -> handle_ok s h ->
  sum_handle_process_input E W signal t0 (Some h) e s = Done (1%Z, Some h', k) s' ->
  exists size n, in_size W = Some size /\ n <= size /\ n <= N.of_nat (length (in_data W)) /\
  has_digests s' h' (firstn (N.to_nat n) (in_data W)) /\ (n = size \/ h_abort h' = true).
Proof. exact process_partial. Qed.
Print Assumptions C38_marked.

(* the signal arrives before the look at the flag after the first read *)
Example C38_example :
  strings (sum_handle_process_input sum_env abc (Some 1%nat) 1 (Some sum_handle_2) true sum_state) =
    Some (1%Z, 1%nat, true, Some (mk_cell true Heap (OBytes (chars "0cc175b9c0f1b6a831c399e269772661" ++ [0])))) /\
  printed (hmacsum sum_env no_comma false (Some 46) abc (Some 1%nat) (Some (chars "2B" ++ 0 :: [], 2)) None sum_start) =
    Some (1%Z, chars "hmacsum: ABORTED" ++ [10]).
Proof. split; vm_compute; reflexivity. Qed.

(* ---- C39: a second input is refused always, because the contexts of the first are still there *)
Theorem C39_several_inputs_refuted : forall E E' W W' signal signal' t0 t0' h h' e e' k s s', input_ok W -> input_ok W' -> good_state s -> handle_ok s h ->
  (exists a, calculate (slots h a) = true) ->
  sum_handle_process_input E W signal t0 (Some h) e s = Done (1%Z, Some h', k) s' ->
  exists h'' k' s'', sum_handle_process_input E' W' signal' t0' (Some h') e' s' = Done ((-1)%Z, Some h'', k') s'' /\ same_strings s' s'' h'.
Proof. exact process_again. Qed.
Print Assumptions C39_several_inputs_refuted.

Definition abc_twice : outcome (Z * option handle * nat) :=
  match sum_handle_process_input sum_env abc None 1 (Some sum_handle_2) true sum_state with
  | Done (r, Some h, k) s => sum_handle_process_input sum_env abc None 1 (Some h) true s
  | x => x
  end.
Example C39_example : strings abc_twice =
  Some ((-1)%Z, 0%nat, false, Some (mk_cell true Heap (OBytes (chars "900150983cd24fb0d6963f7d28e17f72" ++ [0])))).
Proof. vm_compute. reflexivity. Qed.

(* ---- C40: the types named are added to those selected; order and repetition make no difference.
   Missing: that nothing else is selected (MD5 always is, and what was selected before stays), and that names that are not
   known are reported. *)
Theorem C40_selected_partial : forall E split h str xs e s, good_state s -> handle_ok s h -> (forall i, alloc_ok E i = true) ->
  split str = Some (map Some xs) ->
  exists h' s', sum_handle_set_digest_types E split (Some h) str e s = Done (0%Z, Some h') s' /\ good_state s' /\ handle_ok s' h' /\ unchanged s s' /\
  (forall s0, accounted s0 s h -> accounted s0 s' h') /\
  forall a, calculate (slots h' a) = true <-> calculate (slots h a) = true \/ exists x, In x xs /\ is_name a x.
Proof. exact types_selected. Qed.
Print Assumptions C40_selected_partial.

(* for every string and every pattern of allocation failures *)
Theorem C40_any : forall E split h str e s, good_state s -> handle_ok s h ->
  exists r h' s', sum_handle_set_digest_types E split (Some h) str e s = Done (r, Some h') s' /\ (r = 0%Z \/ r = (-1)%Z /\ errors_added e s s') /\
  good_state s' /\ handle_ok s' h' /\ unchanged s s' /\
  (forall a, calculate (slots h a) = true -> calculate (slots h' a) = true) /\
  ((forall segs, split str = Some segs -> ~ In None segs) -> forall s0, accounted s0 s h -> accounted s0 s' h').
Proof. exact types_any. Qed.
Print Assumptions C40_any.

(* a list of unknown names is accepted and changes nothing *)
Theorem C40_unknown_refuted : forall E split h str xs e s, good_state s -> handle_ok s h -> (forall i, alloc_ok E i = true) ->
  split str = Some (map Some xs) -> (forall a x, In x xs -> ~ is_name a x) ->
  exists h' s', sum_handle_set_digest_types E split (Some h) str e s = Done (0%Z, Some h') s' /\ errs s' = errs s /\
  forall a, calculate (slots h' a) = calculate (slots h a).
Proof. exact types_unknown. Qed.
Print Assumptions C40_unknown_refuted.

Definition selection (x : outcome (Z * option handle)) : option (Z * list bool * list err) :=
  match x with
  | Done (r, Some h) s => Some (r, map (fun a => calculate (slots h a)) [MD5; SHA1; SHA224; SHA256; SHA512], errs s)
  | _ => None
  end.
Example C40_example :
  selection (sum_handle_set_digest_types sum_env (fun _ => Some (map Some [chars "sha_512"; chars "SHA-1"; chars "sha_512"]))
               (Some sum_handle_2) (chars "sha_512,SHA-1,sha_512") true sum_state) = Some (0%Z, [true; true; false; false; true], []) /\
  selection (sum_handle_set_digest_types sum_env no_comma (Some sum_handle_2) (chars "sha384") true sum_state) =
    Some (0%Z, [true; false; false; false; false], []).
Proof. split; vm_compute; reflexivity. Qed.
Example C40_unknown_example : forall a, ~ is_name a (chars "sha384").
Proof. intros a (t & I & Q). destruct a; cbn in I; repeat (destruct I as [<-|I]; [discriminate|]); contradiction. Qed.

(* ---- C41: a number that fits is stored if it is not too large for a buffer, otherwise it is reported with 0.
   Missing: the same for numbers of 2^64 and more, which is false. *)
Theorem C41_stored_partial : forall E verbose d h ds sp l f ut u tail rest e s, point d -> Forall numeric ds -> sp = [] \/ sp = [32] ->
  In (l, f) letters -> In (ut, u) units_texts \/ (ut = EmptyString /\ tail = [] /\ u = 1024) -> Forall (fun c => c <> 0) tail ->
  value_of ds * u ^ f < 2 ^ 64 ->
  let t := ds ++ sp ++ chars l ++ chars ut ++ tail in let n := value_of ds * u ^ f in
  sum_handle_set_process_buffer_size E verbose (Some d) (Some h) (t ++ 0 :: rest) (N.of_nat (length t)) e s =
  if n <=? ssize_max E then Done (1%Z, Some (set_buffer_size n h)) s else Done (0%Z, Some h) s.
Proof. exact size_stored. Qed.
Print Assumptions C41_stored_partial.

(* the same with fractions, in the arithmetic of the parser (C33) *)
Theorem C41_parsed : forall E verbose d h ds fr r sp l f ut u tail rest e s, point d -> text_ok d ds fr r sp ->
  In (l, f) letters -> In (ut, u) units_texts \/ (ut = EmptyString /\ tail = [] /\ u = 1024) -> Forall (fun c => c <> 0) tail ->
  let t := ds ++ fr ++ sp ++ chars l ++ chars ut ++ tail in let n := parsed_value (value_of ds) r f u in
  sum_handle_set_process_buffer_size E verbose (Some d) (Some h) (t ++ 0 :: rest) (N.of_nat (length t)) e s =
  if n <=? ssize_max E then Done (1%Z, Some (set_buffer_size n h)) s else Done (0%Z, Some h) s.
Proof. exact set_size_parsed. Qed.
Print Assumptions C41_parsed.

Theorem C41_any : forall E verbose d h t rest e s, point_or_none d -> Forall (fun c => c <> 0) t ->
  exists r n s', sum_handle_set_process_buffer_size E verbose d (Some h) (t ++ 0 :: rest) (N.of_nat (length t)) e s = Done (r, Some (set_buffer_size n h)) s' /\
  ((r = 1%Z /\ n <= ssize_max E /\ s' = s) \/ (r = 0%Z /\ n = process_buffer_size h /\ s' = s) \/
   (r = (-1)%Z /\ n = process_buffer_size h /\ mem s' = mem s /\ errors_added e s s')).
Proof. exact size_any. Qed.
Print Assumptions C41_any.

(* 2^64 + 1 is stored as 1; 16 EiB is stored as 0, and a size of 0 makes every processing fail *)
Theorem C41_wraps_refuted : forall verbose h e s,
  sum_handle_set_process_buffer_size sum_env verbose (Some 46) (Some h) (chars "18446744073709551617" ++ [0]) 20 e s =
    Done (1%Z, Some (set_buffer_size 1 h)) s /\
  sum_handle_set_process_buffer_size sum_env verbose (Some 46) (Some h) (chars "16E" ++ [0]) 3 e s =
    Done (1%Z, Some (set_buffer_size 0 h)) s.
Proof. exact size_wraps. Qed.
Print Assumptions C41_wraps_refuted.
Theorem C41_zero_refuted : forall E W signal t0 h e s, good_state s -> handle_ok s h -> process_buffer_size h = 0 ->
  sum_handle_process_input E W signal t0 (Some h) e s = Done ((-1)%Z, Some h, 0%nat) (add_err e E_ARGUMENT_VALUE_OUT_OF_BOUNDS s).
Proof. exact size_zero. Qed.
Print Assumptions C41_zero_refuted.

Example C41_example : forall h e s,
  sum_handle_set_process_buffer_size sum_env false (Some 46) (Some h) (chars "3MiB" ++ [0]) 4 e s = Done (1%Z, Some (set_buffer_size 3145728 h)) s /\
  sum_handle_set_process_buffer_size sum_env false (Some 46) (Some h) (chars "9 EB" ++ [0]) 4 e s = Done (1%Z, Some (set_buffer_size 9000000000000000000 h)) s /\
  sum_handle_set_process_buffer_size sum_env false (Some 46) (Some h) (chars "10 EB" ++ [0]) 5 e s = Done (0%Z, Some h) s /\
  sum_handle_set_process_buffer_size sum_env false (Some 46) (Some h) (chars "1.5 MiB" ++ [0]) 7 e s = Done (1%Z, Some (set_buffer_size 1560576 h)) s.
Proof. repeat split; reflexivity. Qed.

(* ---- C42 *)
Theorem C42_free : forall W h e s, good_state s -> handle_ok s h ->
  exists s', sum_handle_free W (Some (Some h)) e s = Done ((if in_free W then 1 else -1)%Z, None) s' /\ good_state s' /\
  (if in_free W then errs s' = errs s else errors_added e s s') /\
  (forall q, owned h q -> ~ live_at s' q) /\ (forall q, ~ owned h q -> nth_error (mem s') q = nth_error (mem s) q) /\
  (forall s0, accounted s0 s h -> no_leak s0 s').
Proof. exact free_everything. Qed.
Print Assumptions C42_free.

(* Missing: that nothing is left when the third allocation fails *)
Theorem C42_initialize_partial : forall E e s, good_state s ->
  exists r h s', sum_handle_initialize E (Some None) e s = Done (r, h) s' /\ unchanged s s' /\ good_state s' /\
  ((r = 1%Z /\ errs s' = errs s /\ exists h', h = Some h' /\ handle_ok s' h' /\ accounted s s' h' /\ no_contexts h' /\
    (forall q, owned h' q -> (length (mem s) <= q)%nat) /\
    (forall a, calculate (slots h' a) = true <-> a = MD5) /\ process_buffer_size h' = 32768 /\ h_abort h' = false) \/
   (r = (-1)%Z /\ h = None /\ errors_added e s s' /\ some_alloc_failed E s s' /\
    (alloc_ok E (tries s) = false \/ alloc_ok E (S (tries s)) = false -> no_leak s s'))).
Proof. exact initialize_result. Qed.
Print Assumptions C42_initialize_partial.

(* the input handle is not freed then *)
Theorem C42_initialize_refuted : forall E e s, good_state s ->
  alloc_ok E (tries s) = true -> alloc_ok E (S (tries s)) = true -> alloc_ok E (S (S (tries s))) = false ->
  exists s', sum_handle_initialize E (Some None) e s = Done ((-1)%Z, None) s' /\ ~ no_leak s s'.
Proof. exact initialize_leaks. Qed.
Print Assumptions C42_initialize_refuted.

Theorem C42_null : forall E W split verbose d str len e s, exists s',
  (sum_handle_initialize E None e s = Done ((-1)%Z, None) s' /\ sum_handle_free W None e s = Done ((-1)%Z, None) s' /\
   sum_handle_signal_abort None e s = Done ((-1)%Z, None) s' /\ sum_handle_open_input W None e s = Done (-1)%Z s' /\
   sum_handle_close W None e s = Done (-1)%Z s' /\ sum_handle_set_digest_types E split None str e s = Done ((-1)%Z, None) s' /\
   sum_handle_set_process_buffer_size E verbose d None str len e s = Done ((-1)%Z, None) s' /\
   (forall stream, sum_handle_hash_values_fprint None stream e s = Done ((-1)%Z, []) s') /\
   (forall h, sum_handle_hash_values_fprint (Some h) false e s = Done ((-1)%Z, []) s')) /\ only_error e s s'.
Proof. exact nulls. Qed.
Print Assumptions C42_null.

Theorem C42_process_null : forall E W signal t0 e s,
  exists s', sum_handle_process_input E W signal t0 None e s = Done ((-1)%Z, None, 0%nat) s' /\ only_error e s s'.
Proof. exact process_null. Qed.
Print Assumptions C42_process_null.

Theorem C42_initialize_used : forall E h e s,
  exists s', sum_handle_initialize E (Some (Some h)) e s = Done ((-1)%Z, Some h) s' /\ only_error e s s'.
Proof. exact initialize_used. Qed.
Print Assumptions C42_initialize_used.

(* the new handle of these examples, and what is left when the third allocation fails *)
Example C42_example :
  (exists h, sum_handle_initialize sum_env (Some None) true sum_start = Done (1%Z, Some h) sum_state) /\
  sum_handle_free abc (Some (Some sum_handle_2)) true sum_state =
    Done (1%Z, None) (mk_state [mk_cell false Heap (OBytes [0]); mk_cell false Heap (OBytes []); mk_cell false Heap (OBytes (repeat 0 33))] 3 [] []).
Proof. split; [eexists; vm_compute; reflexivity|vm_compute; reflexivity]. Qed.
Example C42_leak_example :
  sum_handle_initialize (mk_env false true (fun i => negb (Nat.eqb i 2)) (fun _ _ => 0) (fun _ _ => 0)) (Some None) true sum_start =
    Done ((-1)%Z, None) (mk_state [mk_cell false Heap (OBytes [0]); mk_cell true Heap (OBytes [])] 3 [E_MEMORY_INSUFFICIENT] []).
Proof. vm_compute. reflexivity. Qed.
