(* Property C60 for hmactools/sum_handle.c: the model does what the text of the file does.
   On the left the body of the function, as TextSum.v repeats it, is executed by the rules of CText.v with the contracts of
   SumCalls.v; on the right SumHandle.v and SumEntry.v.  [sg]: char is signed.  A handle is passed as the address of its cell
   followed by the addresses of its members (SumCalls.v, v_members); after the file the number of reads [k] and the offset
   [pos].  The second component of a result: what is left in the variables whose addresses were passed. *)
From Coq Require Import Arith NArith ZArith List Bool String.
From Verif Require Import Words Spec Machine Vocab ToolVocab SumVocab ToolStrings SumHandle SumEntry CText TextAll ToolCalls SumCalls TextSumRun.
Import ListNotations.
Open Scope string_scope.
Open Scope list_scope.
Open Scope N_scope.

Theorem C60_sum_initialize : forall E O sg fuel hp junk k pos e s,
  (x <- run_sum E O sg fuel "sum_handle_initialize" (v_handle_place hp :: v_error e ::
          match hp with None => v_members None k pos | Some None => v_members (Some junk) k pos | Some (Some h) => v_members (Some h) k pos end) ;;
   ret (fst x, seen (snd x))) s =
  (x <- sum_handle_initialize E hp e ;;
   ret (VS R32 (fst x),
        match hp with
        | None => repeat None 22
        | Some None => match snd x with Some h => Some (v_handle (Some h)) :: None :: left_members (Some h) 0 0 | None => Some VNull :: None :: repeat (Some VNull) 20 end
        | Some (Some h) => Some (v_handle (snd x)) :: None :: left_members (snd x) k pos
        end)) s.
Proof. exact run_initialize. Qed.
Print Assumptions C60_sum_initialize.

Theorem C60_sum_free : forall E O sg fuel hp e k pos s,
  (x <- run_sum E O sg fuel "sum_handle_free" (v_handle_place hp :: v_error e :: v_members (match hp with Some h => h | None => None end) k pos) ;;
   ret (fst x, seen_freed (snd x))) s =
  (x <- sum_handle_free (o_input O) hp e ;;
   ret (VS R32 (fst x), freed_outs hp k pos)) s.
Proof. exact run_free. Qed.
Print Assumptions C60_sum_free.

Theorem C60_sum_signal_abort : forall E O sg fuel h e k pos s,
  run_sum E O sg fuel "sum_handle_signal_abort" (v_handle h :: v_error e :: v_members h k pos) s =
  (x <- sum_handle_signal_abort h e ;; ret (VS R32 (fst x), None :: None :: left_members (snd x) k pos)) s.
Proof. exact run_signal_abort. Qed.
Print Assumptions C60_sum_signal_abort.

Theorem C60_sum_open_input : forall E O sg fuel h filename e k pos s,
  run_sum E O sg fuel "sum_handle_open_input" (v_handle h :: VChars filename :: v_error e :: v_members h k pos) s =
  (r <- sum_handle_open_input (o_input O) h e ;; ret (VS R32 r, None :: None :: None :: left_members h k pos)) s.
Proof. exact run_open_input. Qed.
Print Assumptions C60_sum_open_input.

Theorem C60_sum_close : forall E O sg fuel h e k pos s,
  run_sum E O sg fuel "sum_handle_close" (v_handle h :: v_error e :: v_members h k pos) s =
  (r <- sum_handle_close (o_input O) h e ;; ret (VS R32 r, None :: None :: left_members h k pos)) s.
Proof. exact run_close. Qed.
Print Assumptions C60_sum_close.

Theorem C60_sum_prepare : forall E O sg fuel h e k pos s,
  run_sum E O sg fuel "sum_handle_initialize_integrity_hash" (v_handle h :: v_error e :: v_members h k pos) s =
  (x <- initialize_integrity_hash E h e ;; ret (VS R32 (fst x), None :: None :: left_members (snd x) k pos)) s.
Proof. exact run_prepare. Qed.
Print Assumptions C60_sum_prepare.

Theorem C60_sum_feed : forall E O sg fuel h b n e k pos s, n < size_mod E ->
  run_sum E O sg fuel "sum_handle_update_integrity_hash" (v_handle h :: v_bytes b :: VU RSz n :: v_error e :: v_members h k pos) s =
  (r <- update_integrity_hash E h b n e ;; ret (VS R32 r, None :: None :: None :: None :: left_members h k pos)) s.
Proof. exact run_feed. Qed.
Print Assumptions C60_sum_feed.

Theorem C60_sum_read_buffer : forall E O sg fuel h bp n e k pos s, n < size_mod E ->
  run_sum E O sg fuel "sum_handle_read_buffer" (v_handle h :: v_bytes bp :: VU RSz n :: v_error e :: v_members h k pos) s =
  (r <- sum_handle_read_buffer E (o_input O) k pos h bp n e ;;
   ret (VS RSz r, None :: None :: None :: None ::
     match h with
     | Some x => if is_read E bp n then left_members (Some (after_read O x k)) (S k) (pos + Z.to_N (Z.max r 0)) else left_members h k pos
     | None => left_members None k pos
     end)) s.
Proof. exact run_read_buffer. Qed.
Print Assumptions C60_sum_read_buffer.

Theorem C60_sum_set_digest_types : forall E O sg fuel h p str t e k pos s,
  view p s = Done str s -> until_zero str = Some t -> N.of_nat (List.length t) + 1 < size_mod E ->
  (forall segments, o_split O t = Some segments -> (Z.of_nat (List.length segments) < 2 ^ 31)%Z /\ (List.length segments <= fuel)%nat) ->
  run_sum E O sg fuel "sum_handle_set_digest_types" (v_handle h :: VChars p :: v_error e :: v_members h k pos) s =
  (x <- sum_handle_set_digest_types E (o_split O) h t e ;;
   ret (VS R32 (fst x), None :: None :: None :: left_members (snd x) k pos)) s.
Proof. exact run_set_digest_types. Qed.
Print Assumptions C60_sum_set_digest_types.

Theorem C60_sum_set_process_buffer_size : forall E O sg fuel h p str t e k pos s,
  view p s = Done str s -> until_zero str = Some t -> N.of_nat (List.length t) < size_mod E ->
  run_sum E O sg fuel "sum_handle_set_process_buffer_size" (v_handle h :: VChars p :: v_error e :: v_members h k pos) s =
  (x <- sum_handle_set_process_buffer_size E (o_verbose O) (o_point O) h str (N.of_nat (List.length t)) e ;;
   ret (VS R32 (fst x), None :: None :: None :: left_members (snd x) k pos)) s.
Proof. exact run_set_process_buffer_size. Qed.
Print Assumptions C60_sum_set_process_buffer_size.

Theorem C60_sum_print : forall E O sg fuel h out e k pos s,
  run_sum E O sg fuel "sum_handle_hash_values_fprint" (v_handle h :: v_stream out :: v_error e :: v_members h k pos) s =
  (x <- sum_handle_hash_values_fprint h (is_some out) e ;;
   ret (VS R32 (fst x), None :: option_map (fun t => VArr R8 (t ++ snd x) true) out :: None :: left_members h k pos)) s.
Proof. exact run_fprint. Qed.
Print Assumptions C60_sum_print.

Theorem C60_sum_end : forall E O sg fuel h e k pos s,
  run_sum E O sg fuel "sum_handle_finalize_integrity_hash" (v_handle h :: v_error e :: v_members h k pos) s =
  (r <- finalize_integrity_hash E h e ;; ret (VS R32 r, None :: None :: left_members h k pos)) s.
Proof. exact run_end. Qed.
Print Assumptions C60_sum_end.

(* the calls of the other functions are executed too; [fuel] limits the turns of the loop *)
Theorem C60_sum_process_input : forall E O sg fuel h e s,
  (forall n, in_size (o_input O) = Some n -> n < 2 ^ 64 /\ (N.to_nat n <= fuel)%nat) ->
  (x <- run_sum E O sg fuel "sum_handle_process_input" (v_handle h :: v_error e :: v_members h 0 0) ;; ret (fst x, but_offset (snd x))) s =
  (x <- sum_handle_process_input E (o_input O) (o_signal O) (o_looks O) h e ;;
   ret (VS R32 (fst (fst x)), but_offset (None :: None :: left_members (snd (fst x)) (snd x) 0))) s.
Proof. exact run_process_input. Qed.
Print Assumptions C60_sum_process_input.

(* C35, C36, C38 without the model: with any file and any signal the text ends; it has written the digests of the file, or of
   the part before it was aborted, or it has left the strings as they were *)
Theorem C35_text : forall E O sg fuel h e s, input_ok (o_input O) -> good_state s -> handle_ok s h ->
  (forall n, in_size (o_input O) = Some n -> (N.to_nat n <= fuel)%nat) ->
  exists r h' k outs s',
  run_sum E O sg fuel "sum_handle_process_input" (v_handle (Some h) :: v_error e :: v_members (Some h) 0 0) s = Done (VS R32 r, outs) s' /\
  but_offset outs = but_offset (None :: None :: left_members (Some h') k 0) /\
  (r = 1%Z \/ r = (-1)%Z) /\ good_state s' /\ handle_ok s' h' /\ same_selection h h' /\
  (r = 1%Z -> exists size n, in_size (o_input O) = Some size /\ n <= size /\ n <= N.of_nat (List.length (in_data (o_input O))) /\
     has_digests s' h' (firstn (N.to_nat n) (in_data (o_input O))) /\ (n = size \/ h_abort h' = true)) /\
  (r = (-1)%Z -> same_strings s s' h /\ errors_added e s s').
Proof. exact run_digests. Qed.
Print Assumptions C35_text.

(* ---- cases: the text alone is run, and each meets the hypotheses ---- *)

Definition C60_sum_env : env := mk_env false true (fun _ => true) (fun _ _ => 7) (fun _ _ => 0).
(* a file abc that is read two bytes at a time; the signal arrives before look number 2 *)
Definition C60_sum_outside : outside :=
  mk_outside (mk_input true (Some 3) (chars "abc") (fun _ => Some 2) true true) (Some 2%nat) 1
    (fun _ => Some [Some (chars "sha1"); Some (chars "x"); Some (chars "MD5")]) false (Some 46).
(* the structure, the file, the MD5 string, what a user typed, the buffer *)
Definition C60_sum_state : state := mk_state (map (fun l => mk_cell true Heap (OBytes l))
  [[0]; []; chars "900150983cd24fb0d6963f7d28e17f72" ++ [0]; chars "sha1,x,MD5" ++ [0]; chars "2MB" ++ [0]; repeat 255 4]) 6 [] [].
Definition C60_sum_handle : handle :=
  mk_handle 0 1 (fun a => match a with MD5 => mk_slot true None (Some 2%nat) | _ => mk_slot false None None end) 2 false.
Definition C60_sum_run (f : string) (args : list val) (k : nat) (pos : N) : M (val * list (option val)) :=
  run_sum C60_sum_env C60_sum_outside true 3 f (args ++ v_members (Some C60_sum_handle) k pos).
(* the result, what is behind cell q afterwards and the number of allocations *)
Definition C60_sum_look (q : nat) (x : outcome (val * list (option val))) : option (val * option obj * nat) :=
  match x with Done (r, _) s => Some (r, get_obj s q, tries s) | Undef => None end.
Definition C60_sum_left (x : outcome (val * list (option val))) : option (list (option val)) :=
  match x with Done (_, l) _ => Some l | Undef => None end.

Example C60_sum_hypotheses :
  view (3%nat, 0) C60_sum_state = Done (chars "sha1,x,MD5" ++ [0]) C60_sum_state /\ until_zero (chars "sha1,x,MD5" ++ [0]) = Some (chars "sha1,x,MD5") /\
  view (4%nat, 0) C60_sum_state = Done (chars "2MB" ++ [0]) C60_sum_state /\ until_zero (chars "2MB" ++ [0]) = Some (chars "2MB") /\
  (forall segments, o_split C60_sum_outside (chars "sha1,x,MD5") = Some segments -> (Z.of_nat (List.length segments) < 2 ^ 31)%Z /\ (List.length segments <= 3)%nat).
Proof. repeat split; try reflexivity; injection H as <-; [reflexivity|repeat constructor]. Qed.

(* an allocation that fails half-way leaves NULL *)
Example C60_sum_initialize_example :
  let E n := mk_env false true (fun t => Nat.ltb t n) (fun _ _ => 7) (fun _ _ => 0) in
  let go n := run_sum (E n) C60_sum_outside true 0 "sum_handle_initialize" (VRef VNull :: VErr :: v_members (Some C60_sum_handle) 5 2) (mk_state [] 0 [] []) in
  C60_sum_left (go 3%nat) = Some (Some (VBytes (0%nat, 0)) :: None ::
    map Some [VBytes (1%nat, 0); VU R8 1; VNull; VChars (2%nat, 0); VU R8 0; VNull; VNull; VU R8 0; VNull; VNull; VU R8 0; VNull; VNull;
              VU R8 0; VNull; VNull; VU RSz 32768; VS R32 0; VU R64 0; VU R64 0]) /\
  match go 2%nat with Done (r, Some p :: _) s => Some (r, p, errs s, map live (mem s)) | _ => None end =
    Some (VS R32 (-1), VNull, [E_MEMORY_INSUFFICIENT], [false; true]).
Proof. split; vm_compute; reflexivity. Qed.

Example C60_sum_small_example :
  C60_sum_look 2 (C60_sum_run "sum_handle_free" [VRef (VBytes (0%nat, 0)); VErr] 1 2 C60_sum_state) = Some (VS R32 1, None, 6%nat) /\
  option_map (skipn 18) (C60_sum_left (C60_sum_run "sum_handle_signal_abort" [VBytes (0%nat, 0); VErr] 1 2 C60_sum_state)) =
    Some [Some (VU RSz 2); Some (VS R32 1); Some (VU R64 1); Some (VU R64 2)] /\
  C60_sum_look 2 (C60_sum_run "sum_handle_open_input" [VBytes (0%nat, 0); VChars (4%nat, 0); VErr] 0 0 C60_sum_state) =
    Some (VS R32 1, get_obj C60_sum_state 2, 6%nat) /\
  C60_sum_look 2 (C60_sum_run "sum_handle_close" [VBytes (0%nat, 0); VErr] 0 0 C60_sum_state) = Some (VS R32 0, get_obj C60_sum_state 2, 6%nat).
Proof. repeat split; vm_compute; reflexivity. Qed.

(* the second read gives the last byte; during it the signal arrives *)
Example C60_sum_read_buffer_example :
  let x := C60_sum_run "sum_handle_read_buffer" [VBytes (0%nat, 0); VBytes (5%nat, 0); VU RSz 3; VErr] 1 2 C60_sum_state in
  C60_sum_look 5 x = Some (VS RSz 1, Some (OBytes (chars "c" ++ [255; 255; 255])), 6%nat) /\
  option_map (skipn 20) (C60_sum_left x) = Some [Some (VU RSz 2); Some (VS R32 1); Some (VU R64 2); Some (VU R64 3)].
Proof. split; vm_compute; reflexivity. Qed.

(* the MD5 context is made and fed; the other digests are not selected *)
Example C60_sum_digest_example :
  option_map (firstn 5) (C60_sum_left (C60_sum_run "sum_handle_initialize_integrity_hash" [VBytes (0%nat, 0); VErr] 0 0 C60_sum_state)) =
    Some [None; None; Some (VBytes (1%nat, 0)); Some (VU R8 1); Some (VCtx MD5 6)] /\
  C60_sum_look 2 (C60_sum_run "sum_handle_update_integrity_hash" [VBytes (0%nat, 0); VBytes (5%nat, 0); VU RSz 3; VErr] 0 0 C60_sum_state) =
    Some (VS R32 (-1), get_obj C60_sum_state 2, 6%nat).
Proof. split; vm_compute; reflexivity. Qed.

(* SHA1 is added with a new string; MD5 was selected; the unknown name is passed over *)
Example C60_sum_settings_example :
  let x := C60_sum_run "sum_handle_set_digest_types" [VBytes (0%nat, 0); VChars (3%nat, 0); VErr] 0 0 C60_sum_state in
  C60_sum_look 7 x = Some (VS R32 0, Some (OBytes (repeat 7 41)), 8%nat) /\
  option_map (firstn 10) (C60_sum_left x) =
    Some [None; None; None; Some (VBytes (1%nat, 0)); Some (VU R8 1); Some VNull; Some (VChars (2%nat, 0)); Some (VU R8 1); Some VNull; Some (VChars (7%nat, 0))] /\
  option_map (skipn 19) (C60_sum_left (C60_sum_run "sum_handle_set_process_buffer_size" [VBytes (0%nat, 0); VChars (4%nat, 0); VErr] 0 0 C60_sum_state)) =
    Some [Some (VU RSz 2000000); Some (VS R32 0); Some (VU R64 0); Some (VU R64 0)].
Proof. repeat split; vm_compute; reflexivity. Qed.

Example C60_sum_print_example :
  option_map (fun l => nth_error l 1) (C60_sum_left (C60_sum_run "sum_handle_hash_values_fprint" [VBytes (0%nat, 0); v_stream (Some (chars "> ")); VErr] 0 0 C60_sum_state)) =
  Some (Some (Some (VArr R8 (chars "> MD5 hash calculated over data:" ++ [9; 9] ++ chars "900150983cd24fb0d6963f7d28e17f72" ++ [10]) true))).
Proof. vm_compute. reflexivity. Qed.

(* without a context the digest cannot be ended; the five arrays, cells 6 to 10, are dead afterwards *)
Example C60_sum_end_example :
  match C60_sum_run "sum_handle_finalize_integrity_hash" [VBytes (0%nat, 0); VErr] 0 0 C60_sum_state with
  | Done (r, _) s => Some (r, errs s, map live (skipn 5 (mem s)))
  | Undef => None
  end = Some (VS R32 (-1), [E_ARGUMENT_INVALID_VALUE; E_RUNTIME_FINALIZE_FAILED], [true; false; false; false; false; false]).
Proof. vm_compute. reflexivity. Qed.

(* two reads, during the second the signal arrives; the string is that of abc.  With a file said to have 4 bytes the third read
   gives nothing and the string stays. *)
Definition C60_sum_blank : state := mk_state (map (fun l => mk_cell true Heap (OBytes l)) [[0]; []; repeat 0 33]) 3 [] [].
Definition C60_sum_longer : outside :=
  mk_outside (mk_input true (Some 4) (chars "abc") (fun _ => Some 2) true true) None 1 (fun _ => None) false (Some 46).
Example C60_sum_process_input_example :
  let x := C60_sum_run "sum_handle_process_input" [VBytes (0%nat, 0); VErr] 0 0 C60_sum_blank in
  C60_sum_look 2 x = Some (VS R32 1, Some (OBytes (chars "900150983cd24fb0d6963f7d28e17f72" ++ [0])), 5%nat) /\
  option_map (skipn 18) (C60_sum_left x) = Some [Some (VU RSz 2); Some (VS R32 1); Some (VU R64 2); Some (VU R64 3)] /\
  C60_sum_look 2 (run_sum C60_sum_env C60_sum_longer true 4 "sum_handle_process_input"
    (VBytes (0%nat, 0) :: VErr :: v_members (Some C60_sum_handle) 0 0) C60_sum_blank) = Some (VS R32 (-1), Some (OBytes (repeat 0 33)), 5%nat).
Proof. repeat split; vm_compute; reflexivity. Qed.
Example C35_text_example :
  (forall n, in_size (o_input C60_sum_outside) = Some n -> n < 2 ^ 64 /\ (N.to_nat n <= 3)%nat) /\
  input_ok (o_input C60_sum_outside) /\ good_state C60_sum_blank /\ handle_ok C60_sum_blank C60_sum_handle.
Proof.
  split; [intros n H; injection H as <-; split; [reflexivity|repeat constructor]|]. split; [split; [now repeat constructor|intros n H; injection H as <-; reflexivity]|]. split.
  - intros [|[|[|p]]] o H; cbn in H; try (injection H as <-); try (now repeat constructor); destruct p; discriminate.
  - split; [reflexivity|]. split; [reflexivity|]. intros a. split; [intros p; destruct a; discriminate|]. split.
    + intros q H. destruct a; try discriminate. injection H as <-. exists (repeat 0 33). now split.
    + destruct a; split; try discriminate; try reflexivity; contradiction.
Qed.
