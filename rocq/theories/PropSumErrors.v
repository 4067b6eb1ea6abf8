(* Property C58: which errors the functions of the sum handle (hmactools/sum_handle.c) and hmacsum report.
   The words used are defined in ErrorVocab.v, SumVocab.v and SumErrorVocab.v: [first_reason l o] says that o is what l has for the first
   of its reasons that holds; [reported_as ok e o r s s'] that the call returned ok and left the error object alone when there is none,
   and otherwise returned -1 and added just those entries if there is an error object.  That the calls do return is said by C35 to C42. *)
From Coq Require Import String Arith NArith ZArith List Bool.
From Verif Require Import Words Spec Machine Vocab ToolVocab ErrorVocab ToolStrings SumHandle SumVocab SumErrorVocab SumErrors SumTheorems SumEntry SumEntryFacts.
Import ListNotations.
Open Scope N_scope.

(* ---- C58 *)
Theorem C58_initialize : forall E v e s r v' s', sum_handle_initialize E v e s = Done (r, v') s' ->
  exists o, first_reason (handle_reasons E v (tries s)) o /\ reported_as 1 e o r s s'.
Proof. exact handle_reports. Qed.
Print Assumptions C58_initialize.

Theorem C58_free : forall W v e s r v' s', sum_handle_free W v e s = Done (r, v') s' ->
  exists o, first_reason [ (v = None, [E_ARGUMENT_INVALID_VALUE]); (v <> Some None /\ in_free W = false, [E_RUNTIME_FINALIZE_FAILED]) ] o /\
  reported_as 1 e o r s s'.
Proof. exact handle_free_reports. Qed.
Print Assumptions C58_free.

Theorem C58_signal_abort : forall h e s r h' s', sum_handle_signal_abort h e s = Done (r, h') s' ->
  (h = None -> h' = None) /\ (forall x, h = Some x -> exists y, h' = Some y /\ h_abort y = true /\ same_selection x y /\ process_buffer_size y = process_buffer_size x) /\
  exists o, first_reason [no_handle h] o /\ reported_as 1 e o r s s'.
Proof. exact abort_reports. Qed.
Print Assumptions C58_signal_abort.

Theorem C58_open : forall W h e s r s', sum_handle_open_input W h e s = Done r s' ->
  exists o, first_reason [no_handle h; (in_open W = false, [E_IO_OPEN_FAILED])] o /\ reported_as 1 e o r s s'.
Proof. exact open_reports. Qed.
Print Assumptions C58_open.

Theorem C58_close : forall W h e s r s', sum_handle_close W h e s = Done r s' ->
  exists o, first_reason [no_handle h; (in_close W = false, [E_IO_CLOSE_FAILED])] o /\ reported_as 0 e o r s s'.
Proof. exact close_reports. Qed.
Print Assumptions C58_close.

(* the return value is the number of bytes: as many as the system gives, asked for and left in the file *)
Theorem C58_read : forall E W k pos h b n e s r s', sum_handle_read_buffer E W k pos h b n e s = Done r s' ->
  exists o, first_reason (read_reasons E W k h b n) o /\
  reported_as (Z.of_N (N.min (match in_read W k with Some most => N.min most n | None => 0 end) (N.of_nat (length (in_data W)) - pos))) e o r s s'.
Proof. exact read_reports. Qed.
Print Assumptions C58_read.

(* also the number of allocations: the process buffer and a context for each digest *)
Theorem C58_process : forall E W signal t0 h e s r h' k s', input_ok W -> good_state s -> handle_ok s h ->
  sum_handle_process_input E W signal t0 (Some h) e s = Done (r, h', k) s' ->
  exists o, first_reason (process_reasons E W h k (tries s)) o /\ reported_as 1 e o r s s' /\
  (tries s' <= tries s + 1 + length (selected h))%nat /\ (r = 1%Z -> tries s' = (tries s + 1 + length (selected h))%nat).
Proof. exact process_reports. Qed.
Print Assumptions C58_process.

Theorem C58_types : forall E split h str e s r h' s', sum_handle_set_digest_types E split h str e s = Done (r, h') s' ->
  exists o, match h with
            | None => o = Some [E_ARGUMENT_INVALID_VALUE]
            | Some h => exists l, newly_named h (split str) l /\ first_reason (types_reasons E (split str) l (tries s)) o
            end /\ reported_as 0 e o r s s'.
Proof. exact types_reports. Qed.
Print Assumptions C58_types.

(* v is the size that the text says (C33); one that is too large gives 0 and no error *)
Theorem C58_buffer_size : forall E verbose d h str len e s r h' s' z v s1,
  sum_handle_set_process_buffer_size E verbose d h str len e s = Done (r, h') s' -> byte_size_string_convert verbose d (Some str) len true e s = Done (z, v) s1 ->
  exists o, first_reason (no_handle h :: followed_by E_RUNTIME_GET_FAILED [ (d = None, E_RUNTIME_GET_FAILED); (v = None, E_RUNTIME_VALUE_OUT_OF_BOUNDS) ]) o /\
  reported_as (match v with Some n => if ssize_max E <? n then 0%Z else 1%Z | None => 1%Z end) e o r s s'.
Proof. exact size_setting_reports. Qed.
Print Assumptions C58_buffer_size.

Theorem C58_print : forall h stream e s r out s', sum_handle_hash_values_fprint h stream e s = Done (r, out) s' ->
  exists o, first_reason [no_handle h; (stream = false, [E_ARGUMENT_INVALID_VALUE])] o /\ reported_as 1 e o r s s'.
Proof. exact print_reports. Qed.
Print Assumptions C58_print.

(* the program never fails without a message: it says that it was aborted, or there is an error to print *)
Theorem C58_program : forall E split verbose d W signal size types s0 code out s', good_state s0 -> input_ok W -> size_argument size -> point_or_none d ->
  hmacsum E split verbose d W signal size types s0 = Done (code, out) s' ->
  (code = 0%Z -> errs s' = errs s0) /\ (code <> 0%Z -> (exists t, out = t ++ aborted_text) \/ errors_added true s0 s').
Proof. exact program_reports. Qed.
Print Assumptions C58_program.

Theorem C58_prepare_digests : forall E h e s r h' s', initialize_integrity_hash E h e s = Done (r, h') s' ->
  exists o, first_reason (prepare_reasons E h (tries s)) o /\ reported_as 1 e o r s s' /\
  (r = 1%Z -> forall x, h = Some x -> tries s' = (tries s + length (selected x))%nat).
Proof. exact initialize_entry_reports. Qed.
Print Assumptions C58_prepare_digests.

Theorem C58_feed_digests : forall E h b n e s, good_state s -> slots_there s h -> arg s b n ->
  exists r s' o, update_integrity_hash E h b n e s = Done r s' /\ first_reason (feed_reasons E h b n) o /\ reported_as 1 e o r s s'.
Proof. exact update_entry_reports. Qed.
Print Assumptions C58_feed_digests.

Theorem C58_end_digests : forall E h e s, good_state s -> slots_there s h ->
  exists r s' o, finalize_integrity_hash E h e s = Done r s' /\ first_reason (end_reasons h) o /\ reported_as 1 e o r s s'.
Proof. exact finalize_entry_reports. Qed.
Print Assumptions C58_end_digests.

(* a new handle for MD5 and SHA1, a file of three bytes; allocation number j fails *)
Definition fails (j : nat) : env := mk_env false true (fun i => negb (Nat.eqb i j)) (fun _ _ => 0) (fun _ _ => 0).
Definition pair_state : state :=
  mk_state [mk_cell true Heap (OBytes [0]); mk_cell true Heap (OBytes []); mk_cell true Heap (OBytes (repeat 0 33)); mk_cell true Heap (OBytes (repeat 0 41))] 4 [] [].
Definition pair_handle : handle :=
  mk_handle 0 1 (fun a => match a with MD5 => mk_slot true None (Some 2%nat) | SHA1 => mk_slot true None (Some 3%nat) | _ => mk_slot false None None end) 2 false.
Definition three (reads : nat -> option N) : input := mk_input true (Some 3) (chars "abc") reads true true.
Definition seen {A : Type} (x : outcome A) : option (A * nat * list err) := match x with Done a s => Some (a, tries s, errs s) | Undef => None end.
Definition short (x : outcome (Z * option handle * nat)) : option (Z * nat * nat * list err) :=
  match x with Done (r, _, k) s => Some (r, k, tries s, errs s) | Undef => None end.

Example C58_hypotheses : good_state pair_state /\ handle_ok pair_state pair_handle /\ input_ok (three (fun _ => Some 2)) /\ selected pair_handle = [MD5; SHA1].
Proof.
  split; [|split; [|split]].
  - intros [|[|[|[|p]]]] o H; cbn in H; try (injection H as <-); try (now repeat constructor); destruct p; discriminate.
  - split; [reflexivity|]. split; [reflexivity|]. intros a. split; [intros p; destruct a; discriminate|]. split.
    + intros q H. destruct a; try discriminate; injection H as <-; eexists; split; reflexivity.
    + destruct a; split; try discriminate; try reflexivity; contradiction.
  - split; [now repeat constructor|]. intros n [= <-]. reflexivity.
  - reflexivity.
Qed.
(* the buffer, the second context, a read that fails, a read that gives nothing, and all well *)
Example C58_example :
  short (sum_handle_process_input (fails 4) (three (fun _ => Some 2)) None 1 (Some pair_handle) true pair_state) = Some ((-1)%Z, 0%nat, 5%nat, [E_MEMORY_INSUFFICIENT]) /\
  short (sum_handle_process_input (fails 6) (three (fun _ => Some 2)) None 1 (Some pair_handle) true pair_state) =
    Some ((-1)%Z, 0%nat, 7%nat, [E_MEMORY_INSUFFICIENT; E_RUNTIME_INITIALIZE_FAILED; E_RUNTIME_INITIALIZE_FAILED]) /\
  short (sum_handle_process_input (fails 0) (three (fun j => match j with O => Some 2 | _ => None end)) None 1 (Some pair_handle) true pair_state) =
    Some ((-1)%Z, 2%nat, 7%nat, [E_IO_READ_FAILED; E_IO_READ_FAILED]) /\
  short (sum_handle_process_input (fails 0) (three (fun j => match j with O => Some 2 | _ => Some 0 end)) None 1 (Some pair_handle) true pair_state) =
    Some ((-1)%Z, 2%nat, 7%nat, [E_IO_READ_FAILED]) /\
  short (sum_handle_process_input (fails 0) (three (fun _ => Some 2)) None 1 (Some pair_handle) true pair_state) = Some (1%Z, 2%nat, 7%nat, []) /\
  position (three (fun _ => Some 2)) 2 3 2 = 3 /\ position (three (fun j => match j with O => Some 2 | _ => Some 0 end)) 2 3 2 = 2.
Proof. repeat split; vm_compute; reflexivity. Qed.
Definition comma (l : list N) : option (list (option (list N))) := Some [Some (chars "sha1"); Some (chars "md5"); Some (chars "sha256")].
Example C58_types_example :
  newly_named pair_handle (comma []) [SHA256] /\
  option_map (fun x => (fst (fst (fst x)), snd (fst x), snd x)) (seen (sum_handle_set_digest_types (fails 5) comma (Some pair_handle) [] true pair_state)) =
    Some ((-1)%Z, 6%nat, [E_MEMORY_INSUFFICIENT]).
Proof.
  split; [|vm_compute; reflexivity]. split; [exists (fun a => match a with SHA256 => true | _ => false end); reflexivity|].
  intros a. split.
  - intros [<-|[]]. split; [reflexivity|]. eexists _, (chars "sha256"). split; [reflexivity|]. split; [right; right; now left|].
    exists "sha256"%string. split; [now left|reflexivity].
  - intros (C & segs & x & Q & I & t & It & X). injection Q as <-.
    destruct I as [I|[I|[I|[]]]]; injection I as <-; destruct a; try discriminate; cbn in It; intuition subst; try discriminate X; now left.
Qed.
(* hmacsum on a file that cannot be opened, and on one that is shorter than announced *)
Example C58_program_example :
  let run W := match hmacsum (fails 100) comma false (Some 46) W None None None (mk_state [] 0 [] []) with
               | Done (code, out) s => Some (code, out, errs s) | Undef => None end in
  run (mk_input false (Some 3) (chars "abc") (fun _ => Some 3) true true) = Some (1%Z, [], [E_IO_OPEN_FAILED]) /\
  run (mk_input true (Some 4) (chars "abc") (fun _ => Some 3) true true) = Some (1%Z, [], [E_IO_READ_FAILED]).
Proof. vm_compute. split; reflexivity. Qed.
(* a handle for MD5 and SHA1 with contexts (cells 4 and 5), without the SHA1 string, without the SHA1 context, and without contexts *)
Definition fed_state : state :=
  mk_state (mem pair_state ++ [mk_cell true Heap (OCtx MD5 (mk_ctx 0 (repeat 0 4) 0 (repeat 0 128))); mk_cell true Heap (OCtx SHA1 (mk_ctx 0 (repeat 0 5) 0 (repeat 0 128)))]) 6 [] [].
Definition fed (md5 sha1 string : option nat) : handle :=
  mk_handle 0 1 (fun a => match a with MD5 => mk_slot true md5 (Some 2%nat) | SHA1 => mk_slot true sha1 string | _ => mk_slot false None None end) 2 false.
Example C58_digests_hypotheses : good_state fed_state /\ arg fed_state (Some (2%nat, 0)) 3 /\
  slots_there fed_state (Some (fed (Some 4%nat) (Some 5%nat) (Some 3%nat))) /\ slots_there fed_state (Some (fed (Some 4%nat) None None)).
Proof.
  assert (T : forall x y, slots_there fed_state (Some (fed (Some 4%nat) (if x : bool then Some 5%nat else None) (if y : bool then Some 3%nat else None)))).
  { intros x y h a [= <-]. destruct a, x, y; (split; [first [exact I|eexists; reflexivity]|first [exact I|eexists; split; [reflexivity|discriminate]]]). }
  split; [|split; [|split; [exact (T true true)|exact (T false false)]]].
  - intros [|[|[|[|[|[|p]]]]]] o H; cbn in H; try (injection H as <-); try (now repeat constructor); destruct p; discriminate.
  - eexists. split; [reflexivity|discriminate].
Qed.
Example C58_digests_example :
  let answer x := match x with Done r s => Some (r, errs s) | Undef => None end in
  answer (update_integrity_hash (fails 0) (Some (fed (Some 4%nat) (Some 5%nat) (Some 3%nat))) (Some (2%nat, 0)) 3 true fed_state) = Some (1%Z, []) /\
  answer (update_integrity_hash (fails 0) (Some (fed (Some 4%nat) None (Some 3%nat))) (Some (2%nat, 0)) 3 true fed_state) =
    Some ((-1)%Z, [E_ARGUMENT_INVALID_VALUE; E_RUNTIME_SET_FAILED]) /\
  answer (update_integrity_hash (fails 0) (Some (fed None None None)) (Some (2%nat, 0)) 0 true fed_state) = Some ((-1)%Z, [E_ARGUMENT_VALUE_OUT_OF_BOUNDS]) /\
  answer (finalize_integrity_hash (fails 0) (Some (fed (Some 4%nat) None (Some 3%nat))) true fed_state) =
    Some ((-1)%Z, [E_ARGUMENT_INVALID_VALUE; E_RUNTIME_FINALIZE_FAILED]) /\
  answer (finalize_integrity_hash (fails 0) (Some (fed (Some 4%nat) None None)) true fed_state) = Some ((-1)%Z, [E_RUNTIME_VALUE_MISSING]) /\
  (match initialize_integrity_hash (fails 7) (Some (fed None None None)) true fed_state with Done x s => Some (fst x, tries s, errs s) | Undef => None end) =
    Some ((-1)%Z, 8%nat, [E_MEMORY_INSUFFICIENT; E_RUNTIME_INITIALIZE_FAILED]).
Proof. repeat split; vm_compute; reflexivity. Qed.
