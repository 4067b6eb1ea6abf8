(* The functions of TextSum.v as run_sum runs them. *)
From Coq Require Import Arith NArith ZArith List Lia Bool String.
From Verif Require Import Words Spec Machine Context Hash ToolStrings SumHandle SumEntry CText TextAll TextTools ToolCalls TextSum SumCalls.
From Verif Require Import Vocab ToolVocab SumVocab SumTheorems TextFacts TextHash TextHmac TextDigest TextSumSteps TextSumSmall TextSumHash TextSumInit TextSumTypes TextSumEnd TextSumProcess.
Import ListNotations.
Open Scope string_scope.
Open Scope list_scope.
Open Scope N_scope.

Lemma run_initialize : forall E O sg fuel hp junk k pos e s,
  (x <- run_sum E O sg fuel "sum_handle_initialize" (v_handle_place hp :: v_error e ::
          match hp with None => v_members None k pos | Some None => v_members (Some junk) k pos | Some (Some h) => v_members (Some h) k pos end) ;;
   ret (fst x, seen (snd x))) s =
  (x <- sum_handle_initialize E hp e ;;
   ret (VS R32 (fst x),
        match hp with
        | None => repeat None 22
        | Some None => match snd x with Some h => Some (v_handle (Some h)) :: None :: left_members (Some h) 0 0 | None => Some VNull :: None :: repeat (Some VNull) 20 end
        | Some (Some h) => Some (v_handle (snd x)) :: None :: left_members (snd x) k pos
        end)) s.
Proof. intros. apply text_initialize. Qed.

Lemma run_free : forall E O sg fuel hp e k pos s,
  (x <- run_sum E O sg fuel "sum_handle_free" (v_handle_place hp :: v_error e :: v_members (match hp with Some h => h | None => None end) k pos) ;;
   ret (fst x, seen_freed (snd x))) s =
  (x <- sum_handle_free (o_input O) hp e ;;
   ret (VS R32 (fst x), freed_outs hp k pos)) s.
Proof. intros. apply text_free. Qed.

Lemma run_signal_abort : forall E O sg fuel h e k pos s,
  run_sum E O sg fuel "sum_handle_signal_abort" (v_handle h :: v_error e :: v_members h k pos) s =
  (x <- sum_handle_signal_abort h e ;; ret (VS R32 (fst x), None :: None :: left_members (snd x) k pos)) s.
Proof. intros. apply text_signal_abort. Qed.

Lemma run_open_input : forall E O sg fuel h filename e k pos s,
  run_sum E O sg fuel "sum_handle_open_input" (v_handle h :: VChars filename :: v_error e :: v_members h k pos) s =
  (r <- sum_handle_open_input (o_input O) h e ;; ret (VS R32 r, None :: None :: None :: left_members h k pos)) s.
Proof. intros. apply text_open_input. Qed.

Lemma run_close : forall E O sg fuel h e k pos s,
  run_sum E O sg fuel "sum_handle_close" (v_handle h :: v_error e :: v_members h k pos) s =
  (r <- sum_handle_close (o_input O) h e ;; ret (VS R32 r, None :: None :: left_members h k pos)) s.
Proof. intros. apply text_close. Qed.

Lemma run_prepare : forall E O sg fuel h e k pos s,
  run_sum E O sg fuel "sum_handle_initialize_integrity_hash" (v_handle h :: v_error e :: v_members h k pos) s =
  (x <- initialize_integrity_hash E h e ;; ret (VS R32 (fst x), None :: None :: left_members (snd x) k pos)) s.
Proof. intros. apply text_initialize_integrity_hash. Qed.

Lemma run_feed : forall E O sg fuel h b n e k pos s, n < size_mod E ->
  run_sum E O sg fuel "sum_handle_update_integrity_hash" (v_handle h :: v_bytes b :: VU RSz n :: v_error e :: v_members h k pos) s =
  (r <- update_integrity_hash E h b n e ;; ret (VS R32 r, None :: None :: None :: None :: left_members h k pos)) s.
Proof. intros. now apply text_update_integrity_hash. Qed.

Lemma run_read_buffer : forall E O sg fuel h bp n e k pos s, n < size_mod E ->
  run_sum E O sg fuel "sum_handle_read_buffer" (v_handle h :: v_bytes bp :: VU RSz n :: v_error e :: v_members h k pos) s =
  (r <- sum_handle_read_buffer E (o_input O) k pos h bp n e ;;
   ret (VS RSz r, None :: None :: None :: None ::
     match h with
     | Some x => if is_read E bp n then left_members (Some (after_read O x k)) (S k) (pos + Z.to_N (Z.max r 0)) else left_members h k pos
     | None => left_members None k pos
     end)) s.
Proof. intros. now apply text_read_buffer. Qed.

Lemma run_set_digest_types : forall E O sg fuel h p str t e k pos s,
  view p s = Done str s -> until_zero str = Some t -> N.of_nat (List.length t) + 1 < size_mod E ->
  (forall segments, o_split O t = Some segments -> (Z.of_nat (List.length segments) < 2 ^ 31)%Z /\ (List.length segments <= fuel)%nat) ->
  run_sum E O sg fuel "sum_handle_set_digest_types" (v_handle h :: VChars p :: v_error e :: v_members h k pos) s =
  (x <- sum_handle_set_digest_types E (o_split O) h t e ;;
   ret (VS R32 (fst x), None :: None :: None :: left_members (snd x) k pos)) s.
Proof. intros. now apply text_set_digest_types with (str := str). Qed.

Lemma run_set_process_buffer_size : forall E O sg fuel h p str t e k pos s,
  view p s = Done str s -> until_zero str = Some t -> N.of_nat (List.length t) < size_mod E ->
  run_sum E O sg fuel "sum_handle_set_process_buffer_size" (v_handle h :: VChars p :: v_error e :: v_members h k pos) s =
  (x <- sum_handle_set_process_buffer_size E (o_verbose O) (o_point O) h str (N.of_nat (List.length t)) e ;;
   ret (VS R32 (fst x), None :: None :: None :: left_members (snd x) k pos)) s.
Proof. intros. now apply text_set_process_buffer_size. Qed.

Lemma run_fprint : forall E O sg fuel h out e k pos s,
  run_sum E O sg fuel "sum_handle_hash_values_fprint" (v_handle h :: v_stream out :: v_error e :: v_members h k pos) s =
  (x <- sum_handle_hash_values_fprint h (is_some out) e ;;
   ret (VS R32 (fst x), None :: option_map (fun t => VArr R8 (t ++ snd x) true) out :: None :: left_members h k pos)) s.
Proof. intros. apply text_fprint. Qed.

Lemma run_end : forall E O sg fuel h e k pos s,
  run_sum E O sg fuel "sum_handle_finalize_integrity_hash" (v_handle h :: v_error e :: v_members h k pos) s =
  (r <- finalize_integrity_hash E h e ;; ret (VS R32 r, None :: None :: left_members h k pos)) s.
Proof. intros. apply text_finalize_integrity_hash. Qed.

Lemma run_process_input : forall E O sg fuel h e s,
  (forall n, in_size (o_input O) = Some n -> n < 2 ^ 64 /\ (N.to_nat n <= fuel)%nat) ->
  (x <- run_sum E O sg fuel "sum_handle_process_input" (v_handle h :: v_error e :: v_members h 0 0) ;; ret (fst x, but_offset (snd x))) s =
  (x <- sum_handle_process_input E (o_input O) (o_signal O) (o_looks O) h e ;;
   ret (VS R32 (fst (fst x)), but_offset (None :: None :: left_members (snd (fst x)) (snd x) 0))) s.
Proof. intros. now apply text_process_input. Qed.

(* what the text of sum_handle_process_input computes *)
Lemma run_digests : forall E O sg fuel h e s, input_ok (o_input O) -> good_state s -> handle_ok s h ->
  (forall n, in_size (o_input O) = Some n -> (N.to_nat n <= fuel)%nat) ->
  exists r h' k outs s',
  run_sum E O sg fuel "sum_handle_process_input" (v_handle (Some h) :: v_error e :: v_members (Some h) 0 0) s = Done (VS R32 r, outs) s' /\
  but_offset outs = but_offset (None :: None :: left_members (Some h') k 0) /\
  (r = 1%Z \/ r = (-1)%Z) /\ good_state s' /\ handle_ok s' h' /\ same_selection h h' /\
  (r = 1%Z -> exists size n, in_size (o_input O) = Some size /\ n <= size /\ n <= N.of_nat (List.length (in_data (o_input O))) /\
     has_digests s' h' (firstn (N.to_nat n) (in_data (o_input O))) /\ (n = size \/ h_abort h' = true)) /\
  (r = (-1)%Z -> same_strings s s' h /\ errors_added e s s').
Proof.
  intros E O sg fuel h e s HI HG HH HF.
  destruct (process_returns E (o_input O) (o_signal O) (o_looks O) h e s HI HG HH) as (r & h' & k & s' & H1 & H2 & H3 & H4 & H5 & _).
  assert (Q := run_process_input E O sg fuel (Some h) e s).
  unfold bind in Q. rewrite H1 in Q. unfold ret in Q. cbn [fst snd] in Q.
  destruct (run_sum E O sg fuel "sum_handle_process_input" (v_handle (Some h) :: v_error e :: v_members (Some h) 0 0) s) as [[v outs] s2|].
  2:{ discriminate Q. intros n Hn. split; [|now apply HF]. apply HI, Hn. }
  specialize (Q ltac:(intros n Hn; split; [apply HI, Hn|now apply HF])). injection Q as Q1 Q2 Q3. cbn [fst snd] in *. subst v s2.
  exists r, h', k, outs, s'. split; [reflexivity|]. split; [exact Q2|]. repeat (split; [assumption|]). split.
  - intros ->. exact (process_partial _ _ _ _ _ _ _ _ _ _ HI HG HH H1).
  - intros ->. exact (process_failure _ _ _ _ _ _ _ _ _ _ HI HG HH H1).
Qed.
